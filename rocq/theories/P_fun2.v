(** Proofs about mpsci.fun: wright_bessel, debye, hermite_e, roots_legendre, spherical_besseli. *)
From Coq Require Import Reals ZArith List Lra Lia Psatz.
From Coquelicot Require Import Coquelicot.
From Verif Require Import Values VTac Spec RLib LimLib DistLib DistLS IntLib SubLib MomLib PLib SFun SFun4 GammaLib GammaLib2.
From Verif Require P_marcumq P_power_mle.
From Verif Require Import SpecFun2 SpecInv M_sfun M_marcumq M_power_mle M_fun2.
Import ListNotations.
Local Open Scope R_scope.
Set Bullet Behavior "Strict Subproofs".

(** ** Wright's function *)
Lemma xle a b : a <= b -> exp a <= exp b.
Proof. intros [H| ->]; [apply Rlt_le, exp_increasing; auto|lra]. Qed.
Lemma Gamma_low x : 0 < x -> exists c, 0 < c /\ forall y, x <= y -> c <= Gamma y.
Proof.
  intros X. exists (exp (-2) * Rmin 1 (Rpower 2 (x - 1))). split.
  { apply Rmult_lt_0_compat; [apply exp_pos|]. apply Rmin_glb_lt; [lra|apply exp_pos]. }
  intros y Y. assert (Y0 : 0 < y) by lra. pose proof (Gamma_if y Y0) as I.
  assert (I1 : inside 0 p_infty 1) by (apply inside_pos; lra). assert (I2 : inside 0 p_infty 2) by (apply inside_pos; lra).
  pose proof (if_range I 1 I1) as R1. pose proof (if_range I 2 I2) as R2.
  destruct (MVT_gen (lower_gamma y) 1 2 (gamma_kernel y)) as [t [T E]].
  - intros t T. rewrite Rmin_left, Rmax_right in T by lra. apply (if_der _ _ _ _ _ I). apply inside_pos; lra.
  - intros t T. rewrite Rmin_left, Rmax_right in T by lra. apply continuity_pt_filterlim. apply (ex_derive_continuous (V := R_NormedModule)). eexists. apply (if_der _ _ _ _ _ I). apply inside_pos; lra.
  - rewrite Rmin_left, Rmax_right in T by lra.
    enough (exp (-2) * Rmin 1 (Rpower 2 (x - 1)) <= gamma_kernel y t) by lra.
    unfold gamma_kernel. rewrite (Rmult_comm (Rpower _ _)). apply Rmult_le_compat.
    + apply Rlt_le, exp_pos.
    + apply Rlt_le, Rmin_glb_lt; [lra|apply exp_pos].
    + destruct (Req_dec t 2) as [->|]; [apply Req_le; f_equal; lra|]. apply Rlt_le, exp_increasing. lra.
    + unfold Rpower. assert (0 <= ln t) by (destruct (Req_dec t 1) as [->|]; [rewrite ln_1; lra|]; rewrite <- ln_1; apply Rlt_le, ln_increasing; lra).
      assert (ln t <= ln 2) by (destruct (Req_dec t 2) as [->|]; [lra|]; apply Rlt_le, ln_increasing; lra).
      destruct (Rle_lt_dec 1 y).
      * apply Rle_trans with 1; [apply Rmin_l|]. pose proof (xle 0 ((y - 1) * ln t)) as E1. rewrite exp_0 in E1. apply E1, Rmult_le_pos; lra.
      * eapply Rle_trans; [apply Rmin_r|]. apply xle. nra.
Qed.
Lemma wright_ex z rho beta : 0 <= rho -> 0 < beta -> ex_series (wright_term z rho beta).
Proof.
  intros RH B. destruct (Gamma_low beta B) as [c [C L]].
  apply (ex_series_le (V := R_CompleteNormedModule) _ (fun k => / c * (/ INR (fact k) * Rabs z ^ k))).
  - intros k. unfold wright_term. change (Rabs (z ^ k / (INR (fact k) * Gamma (INR k * rho + beta))) <= / c * (/ INR (fact k) * Rabs z ^ k)).
    assert (F : 0 < INR (fact k)) by apply INR_fact_lt_0. pose proof (pos_INR k) as K.
    assert (G : c <= Gamma (INR k * rho + beta)) by (apply L; nra).
    unfold Rdiv. rewrite Rabs_mult, <- RPow_abs. rewrite Rabs_inv. rewrite (Rabs_right (_ * _)) by (apply Rle_ge, Rmult_le_pos; lra).
    replace (/ (INR (fact k) * Gamma (INR k * rho + beta))) with (/ INR (fact k) * / Gamma (INR k * rho + beta)) by (field; lra).
    assert (IG : / Gamma (INR k * rho + beta) <= / c) by (apply Rinv_le_contravar; lra).
    assert (FP : 0 <= / INR (fact k) * Rabs z ^ k) by (apply Rmult_le_pos; [apply Rlt_le, Rinv_0_lt_compat; lra|apply pow_le, Rabs_pos]).
    apply Rle_trans with ((/ INR (fact k) * Rabs z ^ k) * / Gamma (INR k * rho + beta)); [apply Req_le; ring|]. rewrite (Rmult_comm (/ c)). apply Rmult_le_compat_l; auto.
  - apply (ex_series_scal_l (/ c) (fun k => / INR (fact k) * Rabs z ^ k)).
    exists (exp (Rabs z)). pose proof (is_exp_Reals (Rabs z)) as H. apply is_pseries_R in H. eapply is_series_ext; [|exact H]. intros; simpl. match goal with |- ?u = ?v => change (@eq R u v) end. ring.
Qed.
Lemma vg x : 0 < x -> vgamma (Fin x) = Fin (Gamma x).
Proof. intros X. unfold vgamma. rewrite Rltb_true by auto. reflexivity. Qed.
Lemma vpown_fin x n : vpown (Fin x) n = Fin (x ^ n).
Proof. induction n as [|n IH]; [reflexivity|]. destruct n; [simpl; f_equal; ring|]. change (vmul (Fin x) (vpown (Fin x) (S n)) = Fin (x ^ S (S n))). rewrite IH. reflexivity. Qed.
Lemma series_head (a : R) : is_series (fun k => match k with O => a | _ => 0 end) a.
Proof.
  apply (filterlim_ext (fun _ => a)); [|apply filterlim_const].
  intros n; induction n as [|n IH]; [rewrite sum_O; auto|]. rewrite sum_Sn, <- IH. change (a = a + 0). ring.
Qed.
Lemma wright_ok z rho beta : 0 <= rho -> 0 < beta -> (rho = 1 -> 0 <= z) ->
  exists v, wright_bessel (Fin z) (Fin rho) (Fin beta) = Fin v /\ is_series (wright_term z rho beta) v.
Proof.
  intros HR HB HZ. exists (Series (wright_term z rho beta)). split; [|apply Series_correct, wright_ex; auto].
  assert (GB : 0 < Gamma beta) by (apply Gamma_pos; auto).
  unfold wright_bessel. rewrite vg by auto. cbv zeta.
  destruct (Req_dec z 0) as [->|Z].
  { veval. f_equal. symmetry. apply is_series_unique. apply (is_series_ext (fun k => match k with O => 1 / Gamma beta | _ => 0 end)).
    - intros k. match goal with |- ?u = ?v => change (@eq R u v) end. destruct k as [|k]; unfold wright_term; [simpl; rewrite Rmult_0_l, Rplus_0_l; field; lra|]. rewrite pow_i by lia. unfold Rdiv. ring.
    - apply series_head. }
  destruct (Req_dec rho 0) as [->|RN].
  { veval. f_equal. symmetry. apply is_series_unique. replace (exp z / Gamma beta) with (/ Gamma beta * exp z) by (field; lra).
    apply (is_series_ext (fun k => / Gamma beta * (/ INR (fact k) * z ^ k))).
    - intros k. match goal with |- ?u = ?v => change (@eq R u v) end. unfold wright_term. rewrite Rmult_0_r, Rplus_0_l. pose proof (INR_fact_neq_0 k). simpl. field. lra.
    - apply (is_series_scal_l (/ Gamma beta) (fun k => / INR (fact k) * z ^ k)). pose proof (is_exp_Reals z) as H. apply is_pseries_R in H. eapply is_series_ext; [|exact H]. intros; simpl. match goal with |- ?u = ?v => change (@eq R u v) end. ring. }
  destruct (Req_dec rho 1) as [->|R1].
  { specialize (HZ eq_refl). assert (SZ : 0 < sqrt z) by (apply sqrt_lt_R0; lra). veval. unfold vbesseli. rewrite (Rltb_true (-1)) by lra. rewrite Rltb_true by lra. cbn [vmul]. f_equal.
    unfold besseli. rewrite <- Rmult_assoc. replace (2 * sqrt z / 2) with (sqrt z) by field. rewrite <- Rpower_plus. replace (1 - beta + (beta - 1)) with 0 by ring. rewrite Rpower_O by auto. rewrite Rmult_1_l.
    apply Series_ext. intros k. unfold wright_term. replace ((2 * sqrt z) ^ 2 / 4) with z by (replace ((2 * sqrt z) ^ 2) with (4 * (sqrt z * sqrt z)) by ring; rewrite sqrt_sqrt by lra; field).
    replace (beta - 1 + 1 + INR k) with (INR k * 1 + beta) by ring. reflexivity. }
  veval. unfold vnsum. f_equal. apply Series_ext. intros k. unfold wright_bessel_term. cbn [vmul vadd]. pose proof (pos_INR k).
  assert (0 < INR k * rho + beta) by nra. rewrite vg by auto. rewrite vpown_fin. pose proof (INR_fact_lt_0 k). pose proof (Gamma_pos (INR k * rho + beta) ltac:(auto)).
  assert (0 < Gamma (INR k * rho + beta) * INR (fact k)) by nra. unfold wright_term. rewrite (Rmult_comm (INR (fact k))). cbn [vmul]. veval. reflexivity.
Qed.
Lemma wright_bad z rho beta : rho <= -1 -> wright_bessel z (Fin rho) beta = Exc ValueError.
Proof. intros. unfold wright_bessel. veval. reflexivity. Qed.

(** ** The Debye function *)
Lemma expm1_gt t : 0 < t -> t < exp t - 1. Proof. intros. pose proof (exp_ineq1 t ltac:(lra)). lra. Qed.
Definition hd (t : R) := t / (exp t - 1).
Lemma hd_pos t : 0 < t -> 0 < hd t < 1.
Proof.
  intros T. pose proof (expm1_gt t T). unfold hd. split; [apply Rdiv_lt_0_compat; lra|].
  apply Rmult_lt_reg_r with (exp t - 1); [lra|]. unfold Rdiv. rewrite Rmult_assoc, Rinv_l by lra. lra.
Qed.
Lemma hd_dec x y : 0 < x -> x < y -> hd y < hd x.
Proof.
  intros X Y. cut (- hd x < - hd y); [lra|].
  apply (incr_function (fun t => - hd t) 0 p_infty (fun t => (t * exp t - (exp t - 1)) / (exp t - 1) ^ 2)); simpl; auto; try lra.
  - intros t T _. pose proof (expm1_gt t T). unfold hd. auto_derive; [lra|]. field. lra.
  - intros t T _. pose proof (expm1_gt t T). apply Rdiv_lt_0_compat; [|change (0 < (exp t - 1) ^ 2); apply pow_lt; lra].
    pose proof (exp_ineq1 (- t) ltac:(lra)) as E. rewrite exp_Ropp in E. pose proof (exp_pos t).
    assert ((1 - t) * exp t < 1); [|nra]. replace 1 with (/ exp t * exp t) at 2 by (field; lra). apply Rmult_lt_compat_r; lra.
Qed.
Section D.
Variable m : nat.
Notation n := (S m).
Definition gd (t : R) := t ^ n / (exp t - 1).
Lemma gd_eq t : gd t = t ^ m * hd t. Proof. unfold gd, hd. simpl. unfold Rdiv. ring. Qed.
Lemma pow_der t : is_derive (fun t => t ^ n / INR n) t (t ^ m).
Proof. pose proof (lt_0_INR n ltac:(lia)). evar_last; [apply (is_derive_ext (fun t => / INR n * t ^ n)); [intros u; apply Rmult_comm|]; apply (is_derive_scal (fun t => t ^ n)); apply is_derive_pow; apply is_derive_id|]. match goal with |- ?u = ?v => change (@eq R u v) end. unfold one; simpl Nat.pred. change (/ INR n * (INR n * 1 * t ^ m) = t ^ m). field. lra. Qed.
Lemma gd_cont t : 0 < t -> continuous gd t.
Proof. intros T. pose proof (expm1_gt t T). apply (ex_derive_continuous (V := R_NormedModule)). unfold gd. auto_derive. lra. Qed.
Lemma pow_lim0 : filterlim (fun t => t ^ n / INR n) (at_right 0) (locally 0).
Proof.
  apply (filterlim_filter_le_1 (F := locally 0) (G := at_right 0)); [apply filter_le_within|].
  replace (locally 0) with (locally (0 ^ n / INR n)) at 2 by (rewrite pow_i by lia; f_equal; unfold Rdiv; ring).
  apply (ex_derive_continuous (V := R_NormedModule) (fun t => t ^ n / INR n)). eexists. apply pow_der.
Qed.
Definition V (x : R) := improper gd 0 (Finite x).
Lemma V_if x : 0 < x -> integral_fn 0 (Finite x) gd V (V x).
Proof.
  intros X. assert (IN : forall y, inside 0 (Finite x) y -> 0 < y < x) by (intros y [A B]; simpl in A, B; lra).
  destruct (mk_integral_fn 0 (Finite x) gd (x / 2) (fun t => t ^ n / INR n) (fun t => t ^ m) (fun t => t ^ n / INR n) (fun t => t ^ m) 0 (x ^ n / INR n)) as [F [v I]].
  - split; simpl; lra.
  - intros y Y. apply gd_cont. apply IN in Y. lra.
  - intros y Y. apply IN in Y. rewrite gd_eq. apply Rmult_lt_0_compat; [apply pow_lt; lra|apply hd_pos; lra].
  - intros y Y _. apply IN in Y. split; [apply pow_der|]. rewrite gd_eq. pose proof (hd_pos y ltac:(lra)). pose proof (pow_lt y m ltac:(lra)). nra.
  - intros y Y _. apply IN in Y. split; [apply pow_der|]. rewrite gd_eq. pose proof (hd_pos y ltac:(lra)). pose proof (pow_lt y m ltac:(lra)). nra.
  - intros y Y _. apply IN in Y. apply Rdiv_le_0_compat; [apply pow_le; lra|apply lt_0_INR; lia].
  - intros y Y _. apply IN in Y. apply Rmult_le_compat_r; [apply Rlt_le, Rinv_0_lt_compat, lt_0_INR; lia|]. apply pow_incr; lra.
  - exact (if_canon _ _ _ _ _ I).
Qed.
Lemma V_der x : 0 < x -> is_derive V x (gd x).
Proof. intros X. apply (if_der _ _ _ _ _ (V_if (x + 1) ltac:(lra))). split; simpl; lra. Qed.
Lemma V_lo : filterlim V (at_right 0) (locally 0).
Proof. exact (if_lo _ _ _ _ _ (V_if 1 ltac:(lra))). Qed.
Lemma cont_left (f : R -> R) x : continuous f x -> filterlim f (at_left x) (locally (f x)).
Proof. intros C. apply (filterlim_filter_le_1 (F := locally x) (G := at_left x)); [apply filter_le_within|exact C]. Qed.
Lemma cmp (c d x : R) : 0 < x -> (forall y, 0 < y < x -> 0 < c * y ^ m + d * gd y) -> 0 < c * (x ^ n / INR n) + d * V x.
Proof.
  intros X P. assert (IN : forall y, inside 0 (Finite x) y -> 0 < y < x) by (intros y [A B]; simpl in A, B; lra).
  apply (if_vpos (lo := 0) (hi := Finite x) (g := fun y => c * y ^ m + d * gd y) (F := fun y => c * (y ^ n / INR n) + d * V y)).
  split.
  - simpl; lra.
  - intros y Y. apply IN in Y. apply (continuous_plus (fun y => c * y ^ m) (fun y => d * gd y)).
    + apply (ex_derive_continuous (V := R_NormedModule)). auto_derive. auto.
    + apply (continuous_scal_r d gd). apply gd_cont. lra.
  - intros y Y. apply P, IN, Y.
  - intros y Y. apply IN in Y. apply (is_derive_plus (fun y => c * (y ^ n / INR n)) (fun y => d * V y)).
    + apply (is_derive_scal (fun y => y ^ n / INR n)). apply pow_der.
    + apply (is_derive_scal V). apply V_der. lra.
  - change (near_lo 0) with (at_right 0). replace (locally 0) with (locally (plus (scal c 0) (scal d 0))) by (f_equal; unfold plus, scal; simpl; unfold mult; simpl; ring).
    apply (filterlim_comp_2 (F := at_right 0) (G := locally (scal c 0)) (H := locally (scal d 0)) (fun y => c * (y ^ n / INR n)) (fun y => d * V y)); [| |apply (filterlim_plus (V := R_NormedModule))].
    + eapply filterlim_comp; [apply pow_lim0|apply (filterlim_scal_r c 0)].
    + eapply filterlim_comp; [apply V_lo|apply (filterlim_scal_r d 0)].
  - apply (cont_left (fun y => c * (y ^ n / INR n) + d * V y)). apply (ex_derive_continuous (V := R_NormedModule)). eexists. apply (is_derive_plus (fun y => c * (y ^ n / INR n)) (fun y => d * V y)).
    + apply (is_derive_scal (fun y => y ^ n / INR n)). apply pow_der.
    + apply (is_derive_scal V). apply V_der. lra.
Qed.
Lemma V_bounds x : 0 < x -> hd x < INR n * V x / x ^ n < 1.
Proof.
  intros X. pose proof (lt_0_INR n ltac:(lia)) as N. pose proof (pow_lt x n X) as P.
  pose proof (cmp 1 (-1) x X) as U. pose proof (cmp (- hd x) 1 x X) as L.
  assert (U' : 0 < 1 * (x ^ n / INR n) + -1 * V x).
  { apply U. intros y Y. rewrite gd_eq. pose proof (hd_pos y ltac:(lra)). pose proof (pow_lt y m ltac:(lra)). nra. }
  assert (L' : 0 < - hd x * (x ^ n / INR n) + 1 * V x).
  { apply L. intros y Y. rewrite gd_eq. pose proof (hd_dec y x ltac:(lra) ltac:(lra)). pose proof (pow_lt y m ltac:(lra)). nra. }
  clear U L. assert (E : x ^ n = INR n * (x ^ n / INR n)) by (field; lra). set (q := x ^ n / INR n) in *.
  split; apply Rmult_lt_reg_r with (x ^ n); auto; unfold Rdiv; rewrite ?(Rmult_assoc (INR n * V x)), ?Rinv_l by lra; rewrite E; nra.
Qed.
Lemma D_dec x y : 0 < x -> x < y -> INR n * V y / y ^ n < INR n * V x / x ^ n.
Proof.
  intros X Y. cut (- (INR n * V x / x ^ n) < - (INR n * V y / y ^ n)); [lra|].
  pose proof (lt_0_INR n ltac:(lia)) as N.
  apply (incr_function (fun t => - (INR n * V t / t ^ n)) 0 p_infty (fun t => INR n * (INR n * V t / t ^ n - hd t) / t)); simpl Rbar_lt; auto; try lra.
  - intros t T _. pose proof (V_der t T) as D. pose proof (pow_lt t n T). evar_last.
    + apply (is_derive_opp (V := R_NormedModule)). apply is_derive_div; [apply (is_derive_scal V); exact D|apply is_derive_pow; apply is_derive_id|lra].
    + match goal with |- ?u = ?v => change (@eq R u v) end. unfold gd, hd, opp, minus, plus, opp, scal, mult, one; simpl. pose proof (expm1_gt t T). pose proof (pow_lt t m T). rewrite <- S_INR. cbn [pred]. field. lra.
  - intros t T _. pose proof (V_bounds t T). apply Rdiv_lt_0_compat; [|auto]. apply Rmult_lt_0_compat; lra.
Qed.
End D.
Lemma debye_val x (n : Z) : (1 <= n)%Z -> 0 < x ->
  debye (Fin x) n = Fin (IZR n * V (Nat.pred (Z.to_nat n)) x / x ^ Z.to_nat n).
Proof.
  intros N X. unfold debye. replace (Z.ltb n 1) with false by (symmetry; apply Z.ltb_ge; auto).
  destruct (Z.to_nat n) as [|m] eqn:E; [lia|]. cbn [Nat.pred].
  assert (Q : vquad (debye_integrand n) (Fin 0) (Fin x) = Fin (V m x)).
  { unfold vquad, rbar_of. vif. f_equal. apply improper_eq; [simpl; lra|].
    apply (if_integral (F := V m)). apply (P_marcumq.if_ext _ _ (gd m)); [|apply V_if; auto].
    intros y [Y _]. simpl in Y. unfold debye_integrand. rewrite E. pose proof (expm1_gt y Y). rewrite vpown_Fin. veval. reflexivity. }
  rewrite Q, vpown_Fin. pose proof (pow_lt x (S m) X). cbn [vmul]. set (q := x ^ S m) in *. veval. reflexivity.
Qed.

Lemma debye_ok x (n : Z) : (1 <= n)%Z -> 0 < x ->
  exists I, integrates_to (fun t => t ^ Z.to_nat n / (exp t - 1)) 0 x I /\
    debye (Fin x) n = Fin (IZR n / x ^ Z.to_nat n * I) /\
    x / (exp x - 1) < IZR n / x ^ Z.to_nat n * I < 1.
Proof.
  intros N X. exists (V (Nat.pred (Z.to_nat n)) x). rewrite debye_val by auto.
  replace (IZR n) with (INR (Z.to_nat n)) by (rewrite INR_IZR_INZ, Z2Nat.id by lia; auto).
  destruct (Z.to_nat n) as [|m] eqn:E; [lia|]. cbn [Nat.pred]. pose proof (pow_lt x (S m) X).
  replace (INR (S m) / x ^ S m * V m x) with (INR (S m) * V m x / x ^ S m) by (unfold Rdiv; ring).
  split; [exact (if_integral (V_if m x X))|]. split; [reflexivity|]. apply V_bounds; auto.
Qed.
Lemma debye_dec x y (n : Z) : (1 <= n)%Z -> 0 <= x -> x < y ->
  exists a b, debye (Fin x) n = Fin a /\ debye (Fin y) n = Fin b /\ b < a.
Proof.
  intros N [X| <-] Y.
  - rewrite !debye_val by lra || auto. do 2 eexists. split; [reflexivity|]. split; [reflexivity|].
    replace (IZR n) with (INR (Z.to_nat n)) by (rewrite INR_IZR_INZ, Z2Nat.id by lia; auto).
    destruct (Z.to_nat n) as [|m] eqn:E; [lia|]. apply D_dec; auto.
  - destruct (debye_ok y n N Y) as [I [_ [E B]]]. exists 1, (IZR n / y ^ Z.to_nat n * I). split; [|split; [exact E|lra]].
    unfold debye. replace (Z.ltb n 1) with false by (symmetry; apply Z.ltb_ge; auto). vif. reflexivity.
Qed.
Lemma debye_0 (n : Z) : (1 <= n)%Z -> debye (Fin 0) n = Fin 1 /\
  forall eps, 0 < eps -> exists delta, 0 < delta /\ forall x, 0 < x < delta -> exists d, debye (Fin x) n = Fin d /\ Rabs (d - 1) < eps.
Proof.
  intros N. split.
  { unfold debye. replace (Z.ltb n 1) with false by (symmetry; apply Z.ltb_ge; auto). vif. reflexivity. }
  intros eps E. exists (Rmin eps (1/2)). split; [apply Rmin_glb_lt; lra|]. intros x [X XD].
  assert (x < eps) by (eapply Rlt_le_trans; [exact XD|apply Rmin_l]). assert (x < 1/2) by (eapply Rlt_le_trans; [exact XD|apply Rmin_r]).
  destruct (debye_ok x n N X) as [I [_ [V1 B]]]. eexists. split; [exact V1|]. set (d := IZR n / x ^ Z.to_nat n * I) in *.
  assert (1 - x <= x / (exp x - 1)).
  { pose proof (expm1_gt x X). apply Rmult_le_reg_r with (exp x - 1); [lra|]. unfold Rdiv. rewrite Rmult_assoc, Rinv_l by lra.
    pose proof (exp_ineq1 (- x) ltac:(lra)) as Q. rewrite exp_Ropp in Q. pose proof (exp_pos x).
    assert ((1 - x) * exp x < 1); [|nra]. replace 1 with (/ exp x * exp x) at 2 by (field; lra). apply Rmult_lt_compat_r; lra. }
  apply Rabs_def1; lra.
Qed.
Lemma debye_inf (n : Z) : (1 <= n)%Z -> debye PInf n = Fin 0.
Proof.
  intros N. unfold debye. replace (Z.ltb n 1) with false by (symmetry; apply Z.ltb_ge; auto).
  assert (P : vpown PInf (Z.to_nat n) = PInf).
  { destruct (Z.to_nat n) as [|m] eqn:E; [lia|]. clear E. induction m as [|m IH]; [reflexivity|]. change (vmul PInf (vpown PInf (S m)) = PInf). rewrite IH. reflexivity. }
  rewrite P. reflexivity.
Qed.
Lemma debye_bad x (n : Z) : (n < 1)%Z -> debye x n = Exc ValueError.
Proof. intros N. unfold debye. replace (Z.ltb n 1) with true by (symmetry; apply Z.ltb_lt; auto). reflexivity. Qed.

(** ** Hermite *)
Lemma he_scaled s x n : s * s = 2 -> (/ s) ^ n * hermite n (x / s) = He n x /\ (/ s) ^ S n * hermite (S n) (x / s) = He (S n) x.
Proof.
  intros S2. assert (S0 : s <> 0) by nra. induction n as [|n [IH1 IH2]].
  - split; simpl; [ring|]. replace (/ s * 1 * (2 * (x / s))) with (x * (2 / (s * s))) by (field; auto). rewrite S2. field.
  - split; auto. change (hermite (S (S n)) (x / s)) with (2 * (x / s) * hermite (S n) (x / s) - 2 * INR (S n) * hermite n (x / s)).
    change (He (S (S n)) x) with (x * He (S n) x - INR (S n) * He n x). rewrite <- IH1, <- IH2.
    set (A := hermite (S n) (x / s)). set (B := hermite n (x / s)). set (N := INR (S n)). cbn [pow].
    set (p := (/ s) ^ n). replace (/ s * (/ s * p) * (2 * (x / s) * A - 2 * N * B)) with (2 / (s * s) * (x * (/ s * p * A) - N * (p * B))) by (field; auto). rewrite S2. field. auto.
Qed.
Lemma hermite_ok n x : hermite_e n (Fin x) = Fin (He n x).
Proof.
  assert (S2 : 0 < sqrt 2) by (apply sqrt_lt_R0; lra). unfold hermite_e. veval. unfold vhermite. veval. f_equal.
  destruct (he_scaled (sqrt 2) x n (sqrt_sqrt 2 ltac:(lra))) as [<- _]. f_equal.
  rewrite <- Rpower_pow by (apply Rinv_0_lt_compat; auto). unfold Rpower. f_equal. rewrite ln_Rinv by auto.
  rewrite <- Rpower_sqrt by lra. unfold Rpower. rewrite ln_exp. field.
Qed.

(** ** Gauss-Legendre *)
Lemma quad_poly c d : is_RInt (poly c d) (-1) 1 (sum_f_R0 (fun i => c i * ((1 - (-1) ^ S i) / INR (S i))) d).
Proof.
  set (F := fun x => sum_f_R0 (fun i => c i * (x ^ S i / INR (S i))) d).
  assert (DF : forall x, is_derive F x (poly c d x)).
  { intros x. unfold F, poly. induction d as [|d IH].
    - simpl. auto_derive; [auto|]. simpl. field.
    - simpl sum_f_R0. apply (is_derive_plus (fun x => sum_f_R0 (fun i => c i * (x ^ S i / INR (S i))) d) (fun x => c (S d) * (x ^ S (S d) / INR (S (S d))))); [exact IH|].
      apply (is_derive_scal (fun x => x ^ S (S d) / INR (S (S d)))). apply (pow_der (S d)). }
  replace (sum_f_R0 _ d) with (minus (F 1) (F (-1))).
  - apply (is_RInt_derive F (poly c d)); intros x _; [apply DF|].
    unfold poly. clear. induction d as [|d IH]; [simpl; apply continuous_const|]. simpl sum_f_R0.
    apply (continuous_plus (fun x => sum_f_R0 (fun i => c i * x ^ i) d) (fun x => c (S d) * x ^ S d)); [exact IH|].
    apply (ex_derive_continuous (V := R_NormedModule)). auto_derive. auto.
  - unfold F, minus, plus, opp. simpl. clear. induction d as [|d IH]; [simpl; field|]. simpl sum_f_R0 in *. rewrite <- IH.
    rewrite pow1. match goal with |- ?u = ?v => change (@eq R u v) end. set (k := INR (S (S d))). assert (k <> 0) by (apply not_0_INR; lia). simpl pow. rewrite ?pow1. change (match d with 0%nat => _ | S _ => _ end + 1) with k. field. auto.
Qed.
Lemma legendre_small fr n : (1 <= n <= 3)%nat ->
  exists xs ws, roots_legendre fr n = Ok (map Fin xs, map Fin ws) /\ length xs = n /\ length ws = n /\
    (forall x, In x xs -> legendre n x = 0) /\
    forall c, is_RInt (poly c (2 * n - 1)) (-1) 1 (rule xs ws (poly c (2 * n - 1))).
Proof.
  intros N. assert (C : n = 1%nat \/ n = 2%nat \/ n = 3%nat) by lia. destruct C as [->|[->| ->]].
  - exists [0], [2]. split; [reflexivity|]. split; [auto|]. split; [auto|]. split; [intros x [<-|[]]; simpl; field|].
    intros c. evar_last; [apply quad_poly|]. match goal with |- ?u = ?v => change (@eq R u v) end. unfold poly. simpl. field.
  - assert (S3 : 0 < sqrt 3) by (apply sqrt_lt_R0; lra). assert (Q : sqrt 3 * sqrt 3 = 3) by (apply sqrt_sqrt; lra). set (s := sqrt 3) in *.
    assert (X : 1 / s * (1 / s) = 1 / 3) by (replace (1 / s * (1 / s)) with (1 / (s * s)) by (field; lra); rewrite Q; auto).
    exists [- (1 / s); 1 / s], [1; 1]. split; [unfold roots_legendre; veval; fold s; veval; reflexivity|]. set (x := 1 / s) in *. split; [auto|]. split; [auto|].
    split; [intros y [<-|[<-|[]]]; simpl; nra|].
    intros c. evar_last; [apply quad_poly|]. match goal with |- ?u = ?v => change (@eq R u v) end. unfold poly. simpl.
    replace (x * (x * (x * 1))) with (x * x * x) by ring. replace (x * (x * 1)) with (x * x) by ring. replace (- x * (- x * 1)) with (x * x) by ring. replace (- x * (- x * (- x * 1))) with (- (x * x * x)) by ring. rewrite X. field.
  - assert (S3 : 0 < sqrt (6 / 10)) by (apply sqrt_lt_R0; lra). assert (X : sqrt (6 / 10) * sqrt (6 / 10) = 3 / 5) by (rewrite sqrt_sqrt by lra; field).
    exists [- sqrt (6 / 10); 0; sqrt (6 / 10)], [5 / 9; 8 / 9; 5 / 9]. split; [unfold roots_legendre; veval; reflexivity|]. set (x := sqrt (6 / 10)) in *. split; [auto|]. split; [auto|].
    split; [intros y [<-|[<-|[<-|[]]]]; simpl; nra|].
    intros c. evar_last; [apply quad_poly|]. match goal with |- ?u = ?v => change (@eq R u v) end. unfold poly. simpl.
    replace (x * (x * (x * (x * (x * 1))))) with (x * x * (x * x) * x) by ring. replace (x * (x * (x * (x * 1)))) with (x * x * (x * x)) by ring. replace (x * (x * (x * 1))) with (x * x * x) by ring. replace (x * (x * 1)) with (x * x) by ring.
    replace (- x * (- x * (- x * (- x * (- x * 1))))) with (- (x * x * (x * x) * x)) by ring. replace (- x * (- x * (- x * (- x * 1)))) with (x * x * (x * x)) by ring. replace (- x * (- x * (- x * 1))) with (- (x * x * x)) by ring. replace (- x * (- x * 1)) with (x * x) by ring.
    rewrite X. field.
Qed.
Lemma leg_SS k x : legendre (S (S k)) x = ((2 * INR (S k) + 1) * x * legendre (S k) x - INR (S k) * legendre k x) / INR (S (S k)).
Proof. reflexivity. Qed.
Lemma leg_par n : (forall x, legendre n (- x) = (-1) ^ n * legendre n x) /\ (forall x, legendre (S n) (- x) = (-1) ^ S n * legendre (S n) x).
Proof.
  induction n as [|n [A B]]; [split; intros; simpl; ring|]. split; [exact B|]. intros x. rewrite !leg_SS, A, B.
  pose proof (not_0_INR (S (S n)) ltac:(lia)). set (k := INR (S (S n))) in *. cbn [pow]. field. auto.
Qed.
Lemma leg_der n x : ex_derive (legendre n) x /\ ex_derive (legendre (S n)) x.
Proof.
  induction n as [|n [A B]].
  - split; [apply ex_derive_const|]. apply (ex_derive_ext (fun x => x)); [reflexivity|apply ex_derive_id].
  - split; [exact B|]. apply (ex_derive_ext (fun x => ((2 * INR (S n) + 1) * x * legendre (S n) x - INR (S n) * legendre n x) * / INR (S (S n)))); [reflexivity|].
    apply ex_derive_mult; [|apply ex_derive_const]. apply (ex_derive_minus (V := R_NormedModule) (fun x => (2 * INR (S n) + 1) * x * legendre (S n) x) (fun x => INR (S n) * legendre n x)).
    + apply ex_derive_mult; [auto_derive; auto|exact B].
    + apply (ex_derive_scal (legendre n)). exact A.
Qed.
Lemma leg_dpar n x : Derive (legendre n) (- x) ^ 2 = Derive (legendre n) x ^ 2.
Proof.
  assert (E : Derive (legendre n) x = (-1) ^ n * (- Derive (legendre n) (- x))).
  { apply is_derive_unique. apply (is_derive_ext (fun t => (-1) ^ n * legendre n (- t))).
    - intros t. rewrite (proj1 (leg_par n) t). rewrite <- Rmult_assoc, <- Rpow_mult_distr. replace (-1 * -1) with 1 by ring. rewrite pow1. apply Rmult_1_l.
    - apply (is_derive_scal (fun t => legendre n (- t))).
      assert (NG : is_derive (fun t : R => - t) x (-1)) by (auto_derive; [auto|ring]).
      assert (DL : is_derive (legendre n) (- x) (Derive (legendre n) (- x))) by exact (Derive_correct _ _ (proj1 (leg_der n (- x)))).
      replace (- Derive (legendre n) (- x)) with (-1 * Derive (legendre n) (- x)) by ring.
      exact (is_derive_comp (legendre n) (fun t => - t) x _ _ DL NG). }
  rewrite E. replace (((-1) ^ n * - Derive (legendre n) (- x)) ^ 2) with (((-1) ^ n * (-1) ^ n) * Derive (legendre n) (- x) ^ 2) by ring.
  rewrite <- Rpow_mult_distr. replace (-1 * -1) with 1 by ring. rewrite pow1. ring.
Qed.
Lemma leg_odd0 n : Nat.odd n = true -> legendre n 0 = 0.
Proof.
  intros O. pose proof (proj1 (leg_par n) 0) as E. rewrite Ropp_0 in E. apply Nat.odd_spec in O. destruct O as [k ->].
  replace (2 * k + 1)%nat with (S (2 * k)) in * by lia. rewrite pow_1_odd in E. lra.
Qed.
(** the weight of a node *)
Definition W n x := 2 / ((1 - x ^ 2) * Derive (legendre n) x ^ 2).
Lemma fin_map (f : val -> val) (l : list val) (xs : list R) : (forall v r, f v = Fin r -> exists s, v = Fin s) -> map f l = map Fin xs -> exists rs, l = map Fin rs.
Proof.
  intros H. revert xs. induction l as [|v l IH]; intros xs E; [exists []; auto|]. destruct xs as [|x xs]; [discriminate|].
  injection E as E1 E2. destruct (H _ _ E1) as [s ->]. destruct (IH xs E2) as [rs ->]. exists (s :: rs). auto.
Qed.
Lemma app_map (a b : list val) (xs : list R) : a ++ b = map Fin xs -> exists xa xb, a = map Fin xa /\ b = map Fin xb /\ xs = xa ++ xb.
Proof.
  revert xs. induction a as [|v a IH]; intros xs E; [exists [], xs; auto|]. destruct xs as [|x xs]; [discriminate|].
  injection E as E1 E2. destruct (IH xs E2) as [xa [xb [-> [-> ->]]]]. exists (x :: xa), xb. subst v. auto.
Qed.
Lemma map_Fin_inj xs ys : map Fin xs = map Fin ys -> xs = ys.
Proof. revert ys. induction xs as [|x xs IH]; intros [|y ys] E; try discriminate; auto. injection E as -> E. f_equal; auto. Qed.
Lemma vdiff_leg n r : vdiff (vlegendre n) (Fin r) = Fin (Derive (legendre n) r).
Proof. reflexivity. Qed.
Lemma two_div d w : vdiv (Fin 2) (Fin d) = Fin w -> w = 2 / d.
Proof. unfold vdiv. destruct (Reqb d 0); intros E; try discriminate. injection E as <-. reflexivity. Qed.
Lemma cons_inj (a b : val) l m : a :: l = b :: m -> a = b /\ l = m.
Proof. intros E. inversion E. auto. Qed.
Lemma weights_eq n rs ws : map (fun root => vdiv 2 (vmul (vsub 1 (vpown root 2)) (vpown (vdiff (vlegendre n) root) 2))) (map Fin rs) = map Fin ws -> ws = map (W n) rs.
Proof.
  revert ws. induction rs as [|r rs IH]; intros [|w ws] E; try discriminate; auto. cbn [map] in E. apply cons_inj in E. destruct E as [E1 E2]. cbn [map]. f_equal; [|apply IH; auto].
  rewrite vdiff_leg, !vpown_Fin in E1. cbn [vsub vneg vadd vmul] in E1. apply two_div in E1. rewrite E1. unfold W. f_equal.
Qed.
Lemma legendre_big fr n xs ws : checked_solver1 fr -> (4 <= n)%nat -> roots_legendre fr n = Ok (map Fin xs, map Fin ws) ->
  length xs = n /\ (forall x, In x xs -> legendre n x = 0) /\ map Ropp xs = rev xs /\
  ws = map (fun x => 2 / ((1 - x ^ 2) * Derive (legendre n) x ^ 2)) xs.
Proof.
  intros CS N E. change (fun x => 2 / ((1 - x ^ 2) * Derive (legendre n) x ^ 2)) with (W n).
  set (vr := map (fr (vlegendre n)) (map (root_approx n) (seq 1 (Nat.div n 2)))).
  assert (LV : length vr = Nat.div n 2) by (unfold vr; rewrite !map_length, seq_length; auto).
  set (vw := map (fun root => vdiv 2 (vmul (vsub 1 (vpown root 2)) (vpown (vdiff (vlegendre n) root) 2))) vr).
  set (rw := if Nat.odd n then ([Fin 0], [vdiv 2 (vpown (vdiff (vlegendre n) (Fin 0)) 2)]) else ([], [])).
  assert (E' : Ok (map vneg vr ++ fst rw ++ rev vr, vw ++ snd rw ++ rev vw) = Ok (map Fin xs, map Fin ws)).
  { rewrite <- E. destruct n as [|[|[|[|n]]]]; try lia. unfold roots_legendre. fold vr vw rw. destruct rw. reflexivity. }
  injection E' as EX EW. clear E.
  destruct (app_map _ _ _ EX) as [xa [xb [A1 [A2 ->]]]]. clear EX. destruct (app_map _ _ _ A2) as [x0 [xc [B1 [B2 ->]]]]. clear A2.
  destruct (app_map _ _ _ EW) as [wa [wb [C1 [C2 ->]]]]. clear EW. destruct (app_map _ _ _ C2) as [w0 [wc [D1 [D2 ->]]]]. clear C2.
  destruct (fin_map vneg vr xa) as [rs RS]; [intros [r| | | |e] q Q; simpl in Q; try discriminate; eauto|auto|].
  assert (ROOT : forall r, In r rs -> legendre n r = 0).
  { intros r I. apply (in_map Fin) in I. rewrite <- RS in I. unfold vr in I. apply in_map_iff in I. destruct I as [g [G _]]. apply CS in G. injection G as G. exact G. }
  rewrite RS in A1, B2. assert (XA : xa = map Ropp rs) by (apply map_Fin_inj; rewrite <- A1, !map_map; reflexivity).
  assert (XC : xc = rev rs) by (apply map_Fin_inj; rewrite <- B2, map_rev; reflexivity).
  assert (WA : wa = map (W n) rs) by (apply (weights_eq n rs wa); rewrite <- C1; unfold vw; rewrite RS; reflexivity).
  assert (WC : wc = rev (map (W n) rs)) by (apply map_Fin_inj; rewrite <- D2, C1, WA, map_rev; reflexivity).
  assert (LR : length rs = Nat.div n 2) by (rewrite <- LV, RS, map_length; auto).
  assert (PAR : forall x, W n (- x) = W n x) by (intros x; unfold W; rewrite leg_dpar; f_equal; f_equal; ring).
  assert (NR : forall r, legendre n r = 0 -> legendre n (- r) = 0) by (intros r Z; rewrite (proj1 (leg_par n)), Z; ring).
  assert (O : (x0 = [] /\ w0 = [] /\ Nat.odd n = false) \/ (x0 = [0] /\ w0 = [W n 0] /\ Nat.odd n = true)).
  { unfold rw in B1, D1. destruct (Nat.odd n) eqn:O.
    - right. cbn [fst snd] in B1, D1. rewrite vdiff_leg, vpown_Fin in D1. destruct w0 as [|w [|? ?]]; try discriminate. split; [apply map_Fin_inj; auto|]. split; auto.
      apply cons_inj in D1. destruct D1 as [D1 _]. apply two_div in D1. rewrite D1. unfold W. do 2 f_equal. ring.
    - left. split; [apply map_Fin_inj; auto|]. split; auto. apply map_Fin_inj; auto. }
  pose proof (Nat.div_mod n 2 ltac:(lia)) as DM. rewrite <- Nat.bit0_mod, Nat.bit0_odd in DM.
  subst xa xc wa wc. destruct O as [[-> [-> O]]|[-> [-> O]]]; rewrite O in DM; simpl Nat.b2n in DM.
  - split; [rewrite !app_length, rev_length, map_length; simpl; lia|]. split; [|split].
    + intros x I. rewrite !in_app_iff, <- in_rev, in_map_iff in I. destruct I as [[y [<- I]]|[[]|I]]; auto.
    + rewrite !rev_app_distr, !map_app, rev_involutive, !map_map, !app_nil_r, map_rev. f_equal.
      rewrite <- (map_id rs) at 2. apply map_ext. intros; ring.
    + rewrite !map_app, !map_map, map_rev. f_equal. apply map_ext; auto.
  - split; [rewrite !app_length, rev_length, map_length; simpl; lia|]. split; [|split].
    + intros x I. rewrite !in_app_iff, <- in_rev, in_map_iff in I. destruct I as [[y [<- I]]|[[<-|[]]|I]]; auto. apply leg_odd0; auto.
    + rewrite !rev_app_distr, !map_app, rev_involutive, !map_map, map_rev. cbn [map rev app]. rewrite <- app_assoc. cbn [app]. rewrite Ropp_0. f_equal.
      rewrite <- (map_id rs) at 2. apply map_ext. intros; ring.
    + rewrite !map_app, !map_map, map_rev. cbn [map]. f_equal. apply map_ext; auto.
Qed.
(** a case with four distinct nodes *)
Definition two_roots (r1 r2 : R) (g : val -> val) (x0 : val) : val :=
  match x0 with Fin x => if Rlt_dec (1 / 2) x then P_power_mle.one_root r1 g x0 else P_power_mle.one_root r2 g x0 | _ => NaN end.
Lemma two_roots_ok r1 r2 : checked_solver1 (two_roots r1 r2).
Proof. intros g [x| | | |e] q; try discriminate. unfold two_roots. destruct (Rlt_dec (1 / 2) x); apply P_power_mle.one_root_ok. Qed.
Lemma leg4 x : legendre 4 x = (35 * x ^ 4 - 30 * x ^ 2 + 3) / 8. Proof. simpl. field. Qed.
Lemma leg4_d x : Derive (legendre 4) x = (35 * x ^ 3 - 15 * x) / 2.
Proof. apply is_derive_unique. apply (is_derive_ext (fun x => (35 * x ^ 4 - 30 * x ^ 2 + 3) / 8)); [intros; symmetry; apply leg4|]. auto_derive; [auto|]. field. Qed.
Lemma leg4_case : exists fr r1 r2 ws, checked_solver1 fr /\ 0 < r2 < r1 /\ roots_legendre fr 4 = Ok (map Fin [- r1; - r2; r2; r1], map Fin ws).
Proof.
  assert (Q0 : 0 < sqrt 30) by (apply sqrt_lt_R0; lra). assert (Q : sqrt 30 * sqrt 30 = 30) by (apply sqrt_sqrt; lra).
  assert (QB : 5 < sqrt 30 < 6) by nra. set (q := sqrt 30) in *.
  set (r1 := sqrt ((15 + 2 * q) / 35)). set (r2 := sqrt ((15 - 2 * q) / 35)).
  assert (R1 : r1 * r1 = (15 + 2 * q) / 35) by (apply sqrt_sqrt; lra). assert (R2 : r2 * r2 = (15 - 2 * q) / 35) by (apply sqrt_sqrt; lra).
  assert (P1 : 0 < r1) by (apply sqrt_lt_R0; lra). assert (P2 : 0 < r2) by (apply sqrt_lt_R0; lra).
  exists (two_roots r1 r2), r1, r2. eexists [_; _; _; _]. split; [apply two_roots_ok|]. split; [split; nra|].
  assert (Z1 : legendre 4 r1 = 0) by (rewrite leg4; replace (r1 ^ 4) with (r1 * r1 * (r1 * r1)) by ring; replace (r1 ^ 2) with (r1 * r1) by ring; rewrite R1; nra).
  assert (Z2 : legendre 4 r2 = 0) by (rewrite leg4; replace (r2 ^ 4) with (r2 * r2 * (r2 * r2)) by ring; replace (r2 ^ 2) with (r2 * r2) by ring; rewrite R2; nra).
  assert (D1 : Derive (legendre 4) r1 ^ 2 = 30 * (r1 * r1)) by (rewrite leg4_d; replace (((35 * r1 ^ 3 - 15 * r1) / 2) ^ 2) with (r1 * r1 * (35 * (r1 * r1) - 15) ^ 2 / 4) by field; rewrite R1; nra).
  assert (D2 : Derive (legendre 4) r2 ^ 2 = 30 * (r2 * r2)) by (rewrite leg4_d; replace (((35 * r2 ^ 3 - 15 * r2) / 2) ^ 2) with (r2 * r2 * (35 * (r2 * r2) - 15) ^ 2 / 4) by field; rewrite R2; nra).
  assert (O1 : exists x, root_approx 4 1 = Fin x /\ 1 / 2 < x).
  { unfold root_approx. rewrite !vpown_Fin. simpl INR. veval. eexists. split; [reflexivity|].
    replace (PI * (4 * 1 - 1) / (4 * (1 + 1 + 1 + 1) + 2)) with (PI / 6) by field. rewrite cos_PI6. assert (S3 : 0 < sqrt 3) by (apply sqrt_lt_R0; lra). pose proof (sqrt_sqrt 3 ltac:(lra)). assert (3 / 2 < sqrt 3) by nra.
    replace (1 + 1 / (8 * (1 + 1 + 1 + 1) ^ 2) * (-1 + 1 / (1 + 1 + 1 + 1))) with (509 / 512) by field. nra. }
  assert (O2 : exists x, root_approx 4 2 = Fin x /\ x < 1 / 2).
  { unfold root_approx. rewrite !vpown_Fin. simpl INR. veval. eexists. split; [reflexivity|].
    replace (PI * (4 * (1 + 1) - 1) / (4 * (1 + 1 + 1 + 1) + 2)) with (7 * PI / 18) by field. pose proof PI_RGT_0.
    assert (C : cos (7 * PI / 18) < cos (PI / 3)) by (apply cos_decreasing_1; lra). rewrite cos_PI3 in C.
    assert (0 < cos (7 * PI / 18)) by (apply cos_gt_0; lra). replace (1 + 1 / (8 * (1 + 1 + 1 + 1) ^ 2) * (-1 + 1 / (1 + 1 + 1 + 1))) with (509 / 512) by field. nra. }
  destruct O1 as [x1 [E1 L1]]. destruct O2 as [x2 [E2 L2]].
  unfold roots_legendre. change (Nat.div 4 2) with 2%nat. cbn [seq map]. rewrite E1, E2. unfold two_roots, P_power_mle.one_root. cbn [vlegendre].
  rewrite Z1, Z2. destruct (Rlt_dec (1 / 2) x1); [|lra]. destruct (Rlt_dec (1 / 2) x2); [lra|]. destruct (Req_EM_T 0 0); [|lra].
  rewrite !vdiff_leg, !vpown_Fin, D1, D2. change (Nat.odd 4) with false. cbn [app rev vneg vsub vadd vmul].
  replace (r1 ^ 2) with (r1 * r1) by ring. replace (r2 ^ 2) with (r2 * r2) by ring. rewrite R1, R2. unfold vdiv.
  rewrite !Reqb_false by nra. reflexivity.
Qed.

(** ** modified spherical Bessel functions *)
Definition cb (nu q : R) (k : nat) := q ^ k / (INR (fact k) * Gamma (nu + 1 + INR k)).
Lemma cb_ex nu q : -1 < nu -> ex_series (cb nu q).
Proof. intros N. eapply ex_series_ext; [|apply (wright_ex q 1 (nu + 1)); lra]. intros k. unfold wright_term, cb. do 3 f_equal. ring. Qed.
Lemma besseli_rec nu z : 0 < nu -> 0 < z -> besseli (nu - 1) z - besseli (nu + 1) z = 2 * nu / z * besseli nu z.
Proof.
  intros N Z. unfold besseli. set (q := z ^ 2 / 4). fold (cb (nu - 1) q) (cb (nu + 1) q) (cb nu q).
  assert (P1 : Rpower (z / 2) nu = Rpower (z / 2) (nu - 1) * (z / 2)).
  { rewrite <- (Rpower_1 (z / 2)) at 3 by lra. rewrite <- Rpower_plus. f_equal. ring. }
  assert (P2 : Rpower (z / 2) (nu + 1) = Rpower (z / 2) (nu - 1) * q).
  { replace q with (z / 2 * (z / 2)) by (unfold q; field). rewrite <- (Rpower_1 (z / 2)) at 3 4 by lra. rewrite <- !Rpower_plus. f_equal. ring. }
  assert (S : Series (cb (nu - 1) q) - q * Series (cb (nu + 1) q) = nu * Series (cb nu q)).
  { rewrite (Series_incr_1 (cb (nu - 1) q)) by (apply cb_ex; lra). rewrite (Series_incr_1 (cb nu q)) by (apply cb_ex; lra).
    rewrite <- Series_scal_l. rewrite Rmult_plus_distr_l, <- (Series_scal_l nu). unfold Rminus. rewrite Rplus_assoc. change (nu + - (1)) with (nu - 1). f_equal.
    - unfold cb. simpl. replace (nu - 1 + 1 + 0) with nu by ring. replace (nu + 1 + 0) with (nu + 1) by ring. rewrite Gamma_succ by auto. pose proof (Gamma_pos nu N). field. lra.
    - match goal with |- ?a + - ?b = ?c => change (a - b = c) end.
      rewrite <- Series_minus; [| apply (ex_series_incr_1 (cb (nu - 1) q)), cb_ex; lra|apply (ex_series_scal_l q (cb (nu + 1) q)), cb_ex; lra].
      apply Series_ext. intros k. unfold cb. pose proof (pos_INR k). pose proof (INR_fact_lt_0 k).
      replace (nu - 1 + 1 + INR (S k)) with (nu + 1 + INR k) by (rewrite S_INR; ring). replace (nu + 1 + 1 + INR k) with (nu + 1 + INR k + 1) by ring.
      replace (nu + 1 + INR (S k)) with (nu + 1 + INR k + 1) by (rewrite S_INR; ring). rewrite Gamma_succ by lra. pose proof (Gamma_pos (nu + 1 + INR k) ltac:(lra)).
      rewrite fact_simpl, mult_INR, S_INR. simpl pow. field. lra. }
  rewrite P1, P2. replace (Rpower (z / 2) (nu - 1) * Series (cb (nu - 1) q) - Rpower (z / 2) (nu - 1) * q * Series (cb (nu + 1) q)) with (Rpower (z / 2) (nu - 1) * (Series (cb (nu - 1) q) - q * Series (cb (nu + 1) q))) by ring.
  rewrite S. field. lra.
Qed.
Lemma sph_val n z : -3 / 2 < n -> 0 < z -> spherical_besseli (Fin n) (Fin z) = Fin (besseli (n + 1 / 2) z * sqrt (PI / (2 * z))).
Proof.
  intros N Z. pose proof PI_RGT_0. assert (0 < PI / (2 * z)) by (apply Rdiv_lt_0_compat; lra). unfold spherical_besseli, vbesseli. cbn [vadd]. rewrite (Rltb_true (-1)) by lra. rewrite Rltb_true by lra. veval. reflexivity.
Qed.
Lemma sph_rec n z : -1 / 2 < n -> 0 < z -> exists a b c,
  spherical_besseli (Fin (n - 1)) (Fin z) = Fin a /\ spherical_besseli (Fin n) (Fin z) = Fin b /\ spherical_besseli (Fin (n + 1)) (Fin z) = Fin c /\
  a - c = (2 * n + 1) / z * b.
Proof.
  intros N Z. do 3 eexists. rewrite !sph_val by lra. do 3 (split; [reflexivity|]). rewrite <- Rmult_minus_distr_r.
  replace (n - 1 + 1 / 2) with (n + 1 / 2 - 1) by ring. replace (n + 1 + 1 / 2) with (n + 1 / 2 + 1) by ring. rewrite besseli_rec by lra. field. lra.
Qed.
Lemma gam_half k : INR (fact k) * Gamma (1 / 2 + INR k) = INR (fact (2 * k)) * sqrt PI / 4 ^ k /\
  INR (fact k) * Gamma (3 / 2 + INR k) = INR (fact (2 * k + 1)) * sqrt PI / (2 * 4 ^ k).
Proof.
  assert (A : INR (fact k) * Gamma (1 / 2 + INR k) = INR (fact (2 * k)) * sqrt PI / 4 ^ k).
  { induction k as [|k IH].
    - simpl. rewrite Rplus_0_r. replace (1 / 2) with (/ 2) by field. rewrite Gamma_half. field.
    - pose proof (pos_INR k). replace (1 / 2 + INR (S k)) with (1 / 2 + INR k + 1) by (rewrite S_INR; ring). rewrite Gamma_succ by lra.
      rewrite fact_simpl, mult_INR. replace (2 * S k)%nat with (S (S (2 * k))) by lia. rewrite !fact_simpl, !mult_INR.
      replace (INR (S k) * INR (fact k) * ((1 / 2 + INR k) * Gamma (1 / 2 + INR k))) with (INR (S k) * (1 / 2 + INR k) * (INR (fact k) * Gamma (1 / 2 + INR k))) by ring.
      rewrite IH, !S_INR, mult_INR. simpl. assert (4 ^ k <> 0) by (apply pow_nonzero; lra). field. auto. }
  split; [exact A|]. pose proof (pos_INR k). replace (3 / 2 + INR k) with (1 / 2 + INR k + 1) by field. rewrite Gamma_succ by lra.
  replace (INR (fact k) * ((1 / 2 + INR k) * Gamma (1 / 2 + INR k))) with ((1 / 2 + INR k) * (INR (fact k) * Gamma (1 / 2 + INR k))) by ring. rewrite A.
  replace (2 * k + 1)%nat with (S (2 * k)) by lia. rewrite fact_simpl, mult_INR, S_INR, mult_INR. simpl (INR 2). assert (4 ^ k <> 0) by (apply pow_nonzero; lra). field. auto.
Qed.
Definition fi (n : nat) := / INR (fact n).
Lemma even_term z k : (z ^ 2) ^ k * fi (2 * k) = sqrt PI * cb (-1 / 2) (z ^ 2 / 4) k.
Proof.
  unfold cb, fi. replace (-1 / 2 + 1 + INR k) with (1 / 2 + INR k) by field. rewrite (proj1 (gam_half k)). unfold Rdiv at 2. rewrite Rpow_mult_distr, pow_inv.
  pose proof (INR_fact_neq_0 (2 * k)). assert (4 ^ k <> 0) by (apply pow_nonzero; lra). pose proof (sqrt_lt_R0 PI PI_RGT_0). field. repeat split; auto; lra.
Qed.
Lemma odd_term z k : (z ^ 2) ^ k * fi (2 * k + 1) = sqrt PI / 2 * cb (1 / 2) (z ^ 2 / 4) k.
Proof.
  unfold cb, fi. replace (1 / 2 + 1 + INR k) with (3 / 2 + INR k) by field. rewrite (proj2 (gam_half k)). unfold Rdiv at 3. rewrite Rpow_mult_distr, pow_inv.
  pose proof (INR_fact_neq_0 (2 * k + 1)). assert (4 ^ k <> 0) by (apply pow_nonzero; lra). pose proof (sqrt_lt_R0 PI PI_RGT_0). field. repeat split; auto; lra.
Qed.
Lemma even_is z : is_pseries (fun n => fi (2 * n)) (z ^ 2) (sqrt PI * Series (cb (-1 / 2) (z ^ 2 / 4))).
Proof.
  apply is_pseries_R. apply (is_series_ext (fun k => sqrt PI * cb (-1 / 2) (z ^ 2 / 4) k)); [intros k; rewrite <- even_term; apply Rmult_comm|].
  apply (is_series_scal_l (sqrt PI) (cb (-1 / 2) (z ^ 2 / 4))). apply Series_correct, cb_ex. lra.
Qed.
Lemma odd_is z : is_pseries (fun n => fi (2 * n + 1)) (z ^ 2) (sqrt PI / 2 * Series (cb (1 / 2) (z ^ 2 / 4))).
Proof.
  apply is_pseries_R. apply (is_series_ext (fun k => sqrt PI / 2 * cb (1 / 2) (z ^ 2 / 4) k)); [intros k; rewrite <- odd_term; apply Rmult_comm|].
  apply (is_series_scal_l (sqrt PI / 2) (cb (1 / 2) (z ^ 2 / 4))). apply Series_correct, cb_ex. lra.
Qed.
Lemma exp_split z : exp z = sqrt PI * Series (cb (-1 / 2) (z ^ 2 / 4)) + z * (sqrt PI / 2 * Series (cb (1 / 2) (z ^ 2 / 4))).
Proof.
  rewrite exp_Reals. apply is_pseries_unique. apply (is_pseries_odd_even fi); [apply even_is|apply odd_is].
Qed.
Lemma sph_base z : 0 < z -> spherical_besseli (Fin 0) (Fin z) = Fin (sinh z / z) /\ spherical_besseli (Fin (-1)) (Fin z) = Fin (cosh z / z).
Proof.
  intros Z. rewrite !sph_val by lra. pose proof (exp_split z) as E1. pose proof (exp_split (- z)) as E2.
  replace ((- z) ^ 2) with (z ^ 2) in E2 by ring. unfold besseli. replace (0 + 1 / 2) with (1 / 2) by field. replace (-1 + 1 / 2) with (-1 / 2) by field.
  fold (cb (1 / 2) (z ^ 2 / 4)) (cb (-1 / 2) (z ^ 2 / 4)). set (A := Series (cb (-1 / 2) (z ^ 2 / 4))) in *. set (B := Series (cb (1 / 2) (z ^ 2 / 4))) in *.
  assert (SP : 0 < sqrt PI) by (apply sqrt_lt_R0, PI_RGT_0). assert (SZ : 0 < sqrt (z / 2)) by (apply sqrt_lt_R0; lra).
  assert (ZZ : sqrt (z / 2) * sqrt (z / 2) = z / 2) by (apply sqrt_sqrt; lra).
  assert (R : sqrt (PI / (2 * z)) = sqrt PI / (2 * sqrt (z / 2))).
  { pose proof PI_RGT_0. rewrite sqrt_div by lra. f_equal. replace (2 * z) with (2 * 2 * (z / 2)) by field. rewrite sqrt_mult by lra. rewrite sqrt_square by lra. reflexivity. }
  assert (P1 : Rpower (z / 2) (1 / 2) = sqrt (z / 2)) by (rewrite <- Rpower_sqrt by lra; f_equal; field).
  assert (P2 : Rpower (z / 2) (-1 / 2) = / sqrt (z / 2)) by (rewrite <- Rpower_sqrt, <- Rpower_Ropp by lra; f_equal; field).
  rewrite R, P1, P2. unfold sinh, cosh. rewrite E1, E2. set (s := sqrt (z / 2)) in *. replace z with (2 * (s * s)) by lra. split; f_equal; field; lra.
Qed.
