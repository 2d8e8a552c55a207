(** Proofs about M_argus. *)
From Coq Require Import Reals Lra Lia List.
From Coquelicot Require Import Coquelicot.
From Verif Require Import Values VTac Spec RLib LimLib LLib DistLib DistLS IntLib SubLib MomLib LSMom LSMom2 PLib M_common SpecStat SpecEst SpecLS SpecRoot SpecBracket SpecInv
  SFun GammaLib GammaLib2 GammaLib3 GammaLib4 M_sfun P_sfun M_bracket M_numinv InvLib.
From Verif Require Import M_argus.
Import ListNotations.
Local Open Scope R_scope.
Set Bullet Behavior "Strict Subproofs".

Definition psir (x : R) := ncdf x - x * nkernel x - 1 / 2.
Lemma psir_der x : is_derive psir x (x ^ 2 * nkernel x).
Proof.
  unfold psir. evar_last.
  - apply (is_derive_minus (fun x => ncdf x - x * nkernel x) (fun _ => 1 / 2)); [|apply is_derive_const].
    apply (is_derive_minus ncdf (fun x => x * nkernel x)); [apply ncdf_der|].
    apply (is_derive_mult (fun x => x) nkernel); [apply is_derive_id|apply nkernel_der|intros; apply Rmult_comm].
  - unfold minus, plus, opp, mult, one, zero; simpl. unfold mult; simpl. ring.
Qed.
Lemma ncdf_0 : ncdf 0 = 1 / 2.
Proof. pose proof (ncdf_opp 0) as H. rewrite Ropp_0 in H. lra. Qed.
Lemma psir_0 : psir 0 = 0. Proof. unfold psir. rewrite ncdf_0. ring. Qed.
Lemma psir_pos x : 0 < x -> 0 < psir x.
Proof.
  intros X. destruct (MVT_cor2 psir (fun x => x ^ 2 * nkernel x) 0 x X) as (u & E & U).
  - intros u _. apply is_derive_Reals. apply psir_der.
  - rewrite psir_0 in E. pose proof (nkernel_pos u). assert (0 < u ^ 2) by (apply pow_lt; lra). rewrite Rminus_0_r in E. rewrite E. apply Rmult_lt_0_compat; nra.
Qed.
Lemma psi_fin x : psi (Fin x) = Fin (psir x).
Proof. unfold psi. rewrite vncdf_Fin, vnpdf_Fin by lra. veval. unfold psir. replace ((x - 0) / 1) with x by field. f_equal. field. Qed.

Section Base.
Variable c : R.
Hypothesis HC : 0 <= c.
(** H is the survival function as a function of t = 1 - z^2. *)
Definition H (t : R) := if Reqb c 0 then t * sqrt t else psir (c * sqrt t) / psir c.
Definition K := if Reqb c 0 then 3 / 2 else c ^ 3 / (2 * sqrt (2 * PI) * psir c).
Definition h (t : R) := K * sqrt t * exp (- (c ^ 2 / 2 * t)).
Lemma K_pos : 0 < K.
Proof.
  unfold K. destruct (Reqb_spec c 0) as [[E ->]|[E ->]]; [lra|]. assert (0 < c) by lra. pose proof (psir_pos c ltac:(auto)). pose proof sqrt2PI_pos. apply Rdiv_pos; [apply pow_lt; auto|].
  apply Rmult_lt_0_compat; [lra|auto].
Qed.
Lemma h_pos t : 0 < t -> 0 < h t.
Proof. intros T. unfold h. pose proof K_pos. pose proof (sqrt_lt_R0 t T). apply Rmult_lt_0_compat; [nra|apply exp_pos]. Qed.
Lemma H_der t : 0 < t -> is_derive H t (h t).
Proof.
  intros T. pose proof (sqrt_lt_R0 t T) as ST. unfold H, h, K. destruct (Reqb_spec c 0) as [[E ->]|[E ->]].
  - rewrite E. auto_derive; auto. replace (- (0 ^ 2 / 2 * t)) with 0 by field. rewrite exp_0. replace (t * (1 * / (2 * sqrt t))) with (sqrt t / 2). { field. }
    rewrite <- (sqrt_sqrt t) at 2 by lra. field. lra.
  - assert (0 < c) by lra. pose proof (psir_pos c ltac:(auto)) as PP. pose proof sqrt2PI_pos as SP. evar_last.
    + apply (is_derive_ext (fun t => / psir c * psir (c * sqrt t))); [intros u; unfold Rdiv; apply Rmult_comm|]. apply is_derive_scal. apply (is_derive_comp psir (fun t => c * sqrt t)); [apply psir_der|].
      auto_derive; [auto|reflexivity].
    + match goal with |- context[@scal ?K0 ?V0 ?a ?b] => change (@scal K0 V0 a b) with (a * b) end. match goal with |- ?l = ?r => change (@eq R l r) end.
      unfold nkernel. assert (QQ : (sqrt t) ^ 2 = t) by (apply pow2_sqrt; lra). rewrite Rpow_mult_distr, QQ. replace (- (c ^ 2 * t) / 2) with (- (c ^ 2 / 2 * t)) by field.
      set (ex := exp _). replace (c ^ 2 * t) with (c ^ 2 * sqrt t ^ 2) by (rewrite QQ; auto). field. lra.
Qed.
Lemma H_0 : H 0 = 0.
Proof. unfold H. rewrite sqrt_0. destruct (Reqb c 0); [ring|]. rewrite Rmult_0_r, psir_0. unfold Rdiv. ring. Qed.
Lemma H_1 : H 1 = 1.
Proof. unfold H. rewrite sqrt_1. destruct (Reqb_spec c 0) as [[E ->]|[E ->]]; [ring|]. rewrite Rmult_1_r. assert (0 < c) by lra. pose proof (psir_pos c ltac:(auto)). field. lra. Qed.
Lemma H_cont t : 0 <= t -> continuous H t.
Proof.
  intros T. unfold H. destruct (Reqb c 0).
  - apply (continuous_mult (fun t => t) sqrt); [apply continuous_id|apply continuous_sqrt].
  - apply (continuous_mult (fun t => psir (c * sqrt t)) (fun _ => / psir c)); [|apply continuous_const].
    apply (continuous_comp (fun t => c * sqrt t) psir); [apply (continuous_mult (fun _ => c) sqrt); [apply continuous_const|apply continuous_sqrt]|].
    apply ex_derive_cont. eexists. apply psir_der.
Qed.
Definition F (z : R) := 1 - H (1 - z ^ 2).
Definition f (z : R) := 2 * z * h (1 - z ^ 2).
Definition Q (p : R) := inverse_fn (Finite 0) (Finite 1) F (p * 1).
Lemma t01 z : 0 < z < 1 -> 0 < 1 - z ^ 2 < 1. Proof. intros Z. assert (0 < z ^ 2) by (apply pow_lt; lra). assert (z ^ 2 < 1) by nra. lra. Qed.
Lemma f_pos z : 0 < z < 1 -> 0 < f z.
Proof. intros Z. unfold f. pose proof (h_pos _ (proj1 (t01 z Z))). apply Rmult_lt_0_compat; lra. Qed.
Lemma F_der z : 0 < z < 1 -> is_derive F z (f z).
Proof.
  intros Z. unfold F, f. evar_last.
  - apply (is_derive_minus (fun _ => 1) (fun z => H (1 - z ^ 2))); [apply is_derive_const|]. apply (is_derive_comp H (fun z => 1 - z ^ 2)); [apply H_der; apply t01; auto|].
    auto_derive; [auto|reflexivity].
  - unfold minus, plus, opp, scal, zero; simpl. unfold mult; simpl. ring.
Qed.
Lemma h_cont t : continuous h t.
Proof.
  unfold h. apply (continuous_mult (fun t => K * sqrt t) (fun t => exp (- (c ^ 2 / 2 * t)))).
  - apply (continuous_mult (fun _ => K) sqrt); [apply continuous_const|apply continuous_sqrt].
  - apply ex_derive_cont. auto_derive. auto.
Qed.
Lemma f_cont z : continuous f z.
Proof.
  unfold f. apply (continuous_mult (fun z => 2 * z) (fun z => h (1 - z ^ 2))); [apply ex_derive_cont; auto_derive; auto|].
  apply (continuous_comp (fun z => 1 - z ^ 2) h); [apply ex_derive_cont; auto_derive; auto|apply h_cont].
Qed.
Lemma F_cont z : 0 <= z <= 1 -> continuous F z.
Proof.
  intros Z. unfold F. apply (continuous_minus (fun _ => 1) (fun z => H (1 - z ^ 2))); [apply continuous_const|].
  apply (continuous_comp (fun z => 1 - z ^ 2) H); [apply ex_derive_cont; auto_derive; auto|apply H_cont]. assert (z ^ 2 <= 1) by nra. lra.
Qed.
Lemma F_0 : F 0 = 0. Proof. unfold F. replace (1 - 0 ^ 2) with 1 by ring. rewrite H_1. ring. Qed.
Lemma F_1 : F 1 = 1. Proof. unfold F. replace (1 - 1 ^ 2) with 0 by ring. rewrite H_0. ring. Qed.
Lemma IF_ok : integral_fn (Finite 0) (Finite 1) f F 1.
Proof.
  constructor.
  - simpl. lra.
  - intros x _. apply f_cont.
  - intros x [H1 H2]. apply f_pos. auto.
  - intros x [H1 H2]. apply F_der. auto.
  - replace (locally 0) with (locally (F 0)) by (rewrite F_0; auto). apply flim_right. apply F_cont. lra.
  - replace (locally 1) with (locally (F 1)) by (rewrite F_1; auto). apply flim_left. apply F_cont. lra.
Qed.
Lemma ST : std (Finite 0) (Finite 1) F f Q.
Proof.
  pose proof (std_of_if _ _ _ _ _ IF_ok) as S0. fold Q in S0.
  replace F with (fun x => F x / 1) by (apply FunctionalExtensionality.functional_extensionality; intros; field).
  replace f with (fun x => f x / 1) by (apply FunctionalExtensionality.functional_extensionality; intros; field). exact S0.
Qed.
(** Moments. *)
Definition J (y : R) := RInt (fun t => exp (y * cos t) * sin t ^ 2) 0 PI.
Lemma J_int y : integrates_to (fun t => exp (y * cos t) * sin t ^ 2) 0 PI (J y).
Proof.
  pose proof PI_RGT_0. set (g := fun t => exp (y * cos t) * sin t ^ 2). assert (GC : forall t, continuous g t) by (intros t; apply ex_derive_cont; unfold g; auto_derive; auto).
  assert (D : forall t, is_derive (RInt g 0) t (g t)).
  { intros t. apply (is_derive_RInt g (RInt g 0) 0); [|apply GC]. exists (mkposreal 1 Rlt_0_1). intros u _. apply (RInt_correct g 0 u). apply (ex_RInt_continuous g). intros; apply GC. }
  replace (J y) with (RInt g 0 PI - RInt g 0 0) by (rewrite (RInt_point 0 g : RInt g 0 0 = 0); change (J y) with (RInt g 0 PI); ring).
  apply (mk_integral _ (RInt g 0)); [simpl; auto|..].
  - intros t _. apply D.
  - intros t _. apply GC.
  - apply flim_right. apply ex_derive_cont. eexists. apply D.
  - apply flim_left. apply ex_derive_cont. eexists. apply D.
Qed.
Lemma acos_sub : subst 0 1 0 PI (fun z => 2 * acos z) (fun z => - (2 / sqrt (1 - z ^ 2))) (fun t => cos (t / 2)).
Proof.
  pose proof PI_RGT_0. constructor.
  - simpl. auto.
  - intros z [Z1 Z2]; simpl in Z1, Z2. destruct (acos_bound_lt z ltac:(lra)) as [A1 A2]. assert (acos z < PI / 2) by (apply Rnot_le_lt; intros L; pose proof (cos_le_0 (acos z) L ltac:(lra)) as N; rewrite cos_acos in N; lra). split; simpl; lra.
  - intros z [Z1 Z2]; simpl in Z1, Z2. evar_last.
    + apply (is_derive_scal acos z 2). apply is_derive_Reals. apply (derive_pt_eq_1 acos z _ (derivable_pt_acos z (conj (Rlt_trans _ _ _ (IZR_lt (-1) 0 eq_refl) Z1) Z2))). apply derive_pt_acos.
    + match goal with |- ?l = ?r => change (@eq R l r) end. unfold Rsqr. replace (z ^ 2) with (z * z) by ring. unfold Rdiv. field. apply Rgt_not_eq, sqrt_lt_R0. nra.
  - intros z [Z1 Z2]; simpl in Z1, Z2. apply ex_derive_cont. assert (0 < 1 - z ^ 2) by (apply t01; lra). pose proof (sqrt_lt_R0 _ H1). auto_derive. simpl in *. unfold Rminus in *. repeat split; try lra. 
  - intros t [T1 T2]. simpl in *. split; [split; simpl|].
    + apply cos_gt_0; lra.
    + rewrite <- cos_0. apply cos_decreasing_1; lra.
    + rewrite acos_cos by lra. field.
Qed.
Lemma acos_dec z : inside 0 1 z -> - (2 / sqrt (1 - z ^ 2)) < 0.
Proof. intros [Z1 Z2]; simpl in Z1, Z2. assert (0 < 1 - z ^ 2) by (apply t01; lra). pose proof (sqrt_lt_R0 _ H0). assert (0 < 2 / sqrt (1 - z ^ 2)) by (apply Rdiv_pos; lra). lra. Qed.
Lemma m1 : integrates_to (fun z => z * f z) 0 1 (K / 4 * exp (- (c ^ 2 / 4)) * J (c ^ 2 / 4)).
Proof.
  set (y := c ^ 2 / 4).
  apply (integrates_ext 0 1 Rlt_0_1 (fun z => K / 4 * exp (- y) * ((fun t => exp (y * cos t) * sin t ^ 2) (2 * acos z) * - - (2 / sqrt (1 - z ^ 2))))).
  - intros z [Z1 Z2]. simpl in Z1, Z2. cbv beta. assert (T := t01 z ltac:(lra)). pose proof (sqrt_lt_R0 _ (proj1 T)). rewrite cos_2a_cos, sin_2a, cos_acos, sin_acos by lra.
    unfold f, h. unfold Rsqr. replace (z * z) with (z ^ 2) by ring. replace (- (c ^ 2 / 2 * (1 - z ^ 2))) with (- y + y * (2 * z * z - 1)) by (unfold y; field). rewrite exp_plus. 
    set (q := sqrt (1 - z ^ 2)) in *. set (e1 := exp (y * _)). set (e2 := exp (- y)). clearbody q e1 e2. assert (q <> 0) by lra. generalize K. intros k. field. auto.
  - apply integrates_scal. apply (sub_integral_dec acos_sub acos_dec (fun t => exp (y * cos t) * sin t ^ 2) (J y)); [|apply J_int].
    intros t _. apply ex_derive_cont. auto_derive. auto.
Qed.
End Base.
Section Base2.
Variable c : R.
Hypothesis HC : 0 <= c.
Definition G (t : R) := if Reqb c 0 then 3 / 5 * (t ^ 2 * sqrt t) else 3 / c ^ 2 * H c t - 2 / c ^ 2 * K c * (t * sqrt t * exp (- (c ^ 2 / 2 * t))).
Lemma G_der t : 0 < t -> is_derive G t (t * h c t).
Proof.
  intros T. pose proof (sqrt_lt_R0 t T) as ST. assert (QQ : sqrt t * sqrt t = t) by (apply sqrt_sqrt; lra). unfold G. destruct (Reqb_spec c 0) as [[E E']|[E E']]; rewrite E'.
  - unfold h, K. rewrite E'. rewrite E. auto_derive; auto. replace (- (0 ^ 2 / 2 * t)) with 0 by field. rewrite exp_0. set (q := sqrt t) in *. rewrite <- QQ. field. lra.
  - assert (D := H_der c HC t T). evar_last.
    + apply (is_derive_minus (fun t => 3 / c ^ 2 * H c t) (fun t => 2 / c ^ 2 * K c * (t * sqrt t * exp (- (c ^ 2 / 2 * t))))).
      * apply is_derive_scal. exact D.
      * apply is_derive_scal. auto_derive; [auto|reflexivity].
    + unfold h. match goal with |- ?l = ?r => change (@eq R l r) end. unfold minus, plus, opp; simpl. set (q := sqrt t) in *. set (ex := exp _). rewrite <- QQ. set (k := K c). clearbody k ex. field. lra.
Qed.
Lemma G_cont t : 0 <= t -> continuous G t.
Proof.
  intros T. unfold G. destruct (Reqb_spec c 0) as [[E ->]|[E ->]].
  - apply (continuous_mult (fun _ => 3 / 5) (fun t => t ^ 2 * sqrt t)); [apply continuous_const|]. apply (continuous_mult (fun t => t ^ 2) sqrt); [apply ex_derive_cont; auto_derive; auto|apply continuous_sqrt].
  - apply (continuous_minus (fun t => 3 / c ^ 2 * H c t) (fun t => 2 / c ^ 2 * K c * (t * sqrt t * exp (- (c ^ 2 / 2 * t))))).
    + apply (continuous_mult (fun _ => 3 / c ^ 2) (H c)); [apply continuous_const|apply H_cont; auto].
    + apply (continuous_mult (fun _ => 2 / c ^ 2 * K c) (fun t => t * sqrt t * exp (- (c ^ 2 / 2 * t)))); [apply continuous_const|].
      apply (continuous_mult (fun t => t * sqrt t) (fun t => exp (- (c ^ 2 / 2 * t)))); [|apply ex_derive_cont; auto_derive; auto].
      apply (continuous_mult (fun t => t) sqrt); [apply continuous_id|apply continuous_sqrt].
Qed.
Lemma G_0 : G 0 = 0.
Proof. unfold G. rewrite H_0. destruct (Reqb c 0); ring. Qed.
Definition M (n : nat) : R := match n with 0%nat => 1 | 1%nat => K c / 4 * exp (- (c ^ 2 / 4)) * J (c ^ 2 / 4) | _ => 1 - G 1 end.
Lemma m2 : integrates_to (fun z => z ^ 2 * f c z) 0 1 (1 - G 1).
Proof.
  set (A := fun z => F c z + G (1 - z ^ 2)).
  assert (AC : forall z, 0 <= z <= 1 -> continuous A z).
  { intros z Z. apply (continuous_plus (F c) (fun z => G (1 - z ^ 2))); [apply F_cont; auto|].
    apply (continuous_comp (fun z => 1 - z ^ 2) G); [apply ex_derive_cont; auto_derive; auto|apply G_cont]. assert (z ^ 2 <= 1) by nra. lra. }
  replace (1 - G 1) with (A 1 - A 0).
  - apply (mk_integral _ A); [simpl; lra|..].
    + intros z [Z1 Z2]; simpl in Z1, Z2. assert (T := t01 z (conj Z1 Z2)). unfold A. evar_last.
      * apply (is_derive_plus (F c) (fun z => G (1 - z ^ 2))); [apply F_der; auto|]. apply (is_derive_comp G (fun z => 1 - z ^ 2)); [apply G_der; apply T|]. auto_derive; [auto|reflexivity].
      * unfold f, plus, scal; simpl. unfold mult; simpl. ring.
    + intros z _. apply (continuous_mult (fun z => z ^ 2) (f c)); [apply ex_derive_cont; auto_derive; auto|apply f_cont].
    + apply flim_right. apply AC. lra.
    + apply flim_left. apply AC. lra.
  - unfold A. rewrite F_1, F_0 by auto. replace (1 - 1 ^ 2) with 0 by ring. replace (1 - 0 ^ 2) with 1 by ring. rewrite G_0. ring.
Qed.
Lemma moms n : (n <= 2)%nat -> integrates_to (fun z => z ^ n * f c z) 0 1 (M n).
Proof.
  intros N. destruct n as [|[|[|n]]]; [| | |lia]; unfold M.
  - apply (integrates_ext 0 1 Rlt_0_1 (f c)); [intros; ring|]. apply (if_integral (IF_ok c HC)).
  - apply (integrates_ext 0 1 Rlt_0_1 (fun z => z * f c z)); [intros; ring|]. apply m1; auto.
  - apply m2.
Qed.
Lemma ln_f z : 0 < z < 1 -> ln (f c z) = ln 2 + ln (K c) + ln z + ln (1 - z ^ 2) / 2 - c ^ 2 / 2 * (1 - z ^ 2).
Proof.
  intros Z. assert (T := t01 z Z). pose proof (K_pos c HC). pose proof (sqrt_lt_R0 _ (proj1 T)) as SQ. unfold f, h. pose proof (exp_pos (- (c ^ 2 / 2 * (1 - z ^ 2)))).
  rewrite !ln_mult by (try lra; repeat apply Rmult_lt_0_compat; lra). rewrite ln_exp, ln_sqrt by lra. ring.
Qed.
(** The density is largest where its logarithmic derivative vanishes. *)
Lemma f_le z m : 0 < z < 1 -> 0 < m < 1 -> 1 - 2 * m ^ 2 + c ^ 2 * m ^ 2 * (1 - m ^ 2) = 0 -> f c z <= f c m.
Proof.
  intros Z Hm E. pose proof (f_pos c HC z Z). pose proof (f_pos c HC m Hm). rewrite <- (exp_ln (f c z)), <- (exp_ln (f c m)) by auto. apply exp_le_compat. rewrite !ln_f by auto.
  assert (TZ := t01 z Z). assert (TM := t01 m Hm). 
  assert (L : forall u v, 0 < u -> 0 < v -> ln u - ln v <= (u - v) / v).
  { intros u v U V. rewrite <- ln_div by auto. assert (P : 0 < u / v) by (apply Rdiv_pos; auto). pose proof (exp_ineq1_le (ln (u / v))) as X. rewrite exp_ln in X by auto. replace ((u - v) / v) with (u / v - 1) by (field; lra). lra. }
  set (w := z ^ 2) in *. set (q := m ^ 2) in *. assert (LZ : ln z = ln w / 2) by (unfold w; replace (z ^ 2) with (z * z) by ring; rewrite ln_mult by lra; field).
  assert (LM : ln m = ln q / 2) by (unfold q; replace (m ^ 2) with (m * m) by ring; rewrite ln_mult by lra; field).
  rewrite LZ, LM. pose proof (L w q ltac:(lra) ltac:(lra)) as L1. pose proof (L (1 - w) (1 - q) ltac:(lra) ltac:(lra)) as L2.
  assert (S : (w - q) / q + (1 - w - (1 - q)) / (1 - q) = - c ^ 2 * (w - q)).
  { apply (Rmult_eq_reg_r (q * (1 - q))); [|nra]. replace (((w - q) / q + (1 - w - (1 - q)) / (1 - q)) * (q * (1 - q))) with ((w - q) * (1 - 2 * q)) by (field; lra).
    replace (1 - 2 * q) with (- (c ^ 2 * q * (1 - q))) by lra. ring. }
  nra.
Qed.
Definition md := if Reqb c 0 then / sqrt 2 else sqrt (c ^ 2 - 2 + sqrt ((c ^ 2) ^ 2 + 4)) / (sqrt 2 * c).
Lemma md_ok : 0 < md < 1 /\ 1 - 2 * md ^ 2 + c ^ 2 * md ^ 2 * (1 - md ^ 2) = 0.
Proof.
  pose proof sqrt2_pos as S2. assert (S22 : sqrt 2 ^ 2 = 2) by (apply pow2_sqrt; lra). assert (P2 : forall m, 0 < m -> m ^ 2 < 1 -> 0 < m < 1) by (intros m A B; split; [auto|nra]).
  unfold md. destruct (Reqb_spec c 0) as [[E ->]|[E ->]].
  - assert (I2 : (/ sqrt 2) ^ 2 = / 2) by (rewrite pow_inv, S22; auto). rewrite I2, E. split; [|field]. apply P2; [apply Rinv_0_lt_compat; auto|]. rewrite I2. lra.
  - assert (C0 : 0 < c) by lra. assert (CC : 0 < c ^ 2) by (apply pow_lt; auto). set (b := c ^ 2) in *. set (r := sqrt (b ^ 2 + 4)). assert (RR : r ^ 2 = b ^ 2 + 4) by (apply pow2_sqrt; nra).
    assert (R0 : 0 <= r) by apply sqrt_pos. assert (L1 : 0 < b - 2 + r) by nra. assert (L2 : r < b + 2) by nra.
    assert (MM : (sqrt (b - 2 + r) / (sqrt 2 * c)) ^ 2 = (b - 2 + r) / (2 * b)). { unfold Rdiv. rewrite Rpow_mult_distr, pow_inv, Rpow_mult_distr, S22, pow2_sqrt by lra. reflexivity. }
    rewrite MM. split.
    + apply P2; [apply Rdiv_pos; [apply sqrt_lt_R0; auto|nra]|]. rewrite MM. apply (Rdiv_lt_1 (b - 2 + r)); lra.
    + apply (Rmult_eq_reg_r (4 * b)); [|lra]. replace ((1 - 2 * ((b - 2 + r) / (2 * b)) + b * ((b - 2 + r) / (2 * b)) * (1 - (b - 2 + r) / (2 * b))) * (4 * b)) with (4 + b ^ 2 - r ^ 2) by (field; lra). lra.
Qed.
Lemma J_0 : J 0 = PI / 2.
Proof.
  unfold J. apply is_RInt_unique. replace (PI / 2) with (minus ((PI - sin PI * cos PI) / 2) ((0 - sin 0 * cos 0) / 2)) by (rewrite sin_PI, sin_0; unfold minus, plus, opp; simpl; field).
  apply (is_RInt_derive (fun t => (t - sin t * cos t) / 2)).
  - intros t _. auto_derive; auto. rewrite Rmult_0_l, exp_0. pose proof (sin2_cos2 t) as Z. unfold Rsqr in Z. nra.
  - intros t _. apply ex_derive_cont. auto_derive. auto.
Qed.
End Base2.
Ltac start := unfold pdf, logpdf, cdf, sf, support, mode, var, mean, validate_params.
Section P.
Variables c s : R.
Hypothesis HC : 0 <= c.
Hypothesis HS : 0 < s.
Lemma ez x : (x - 0) / s = x / s. Proof. f_equal. ring. Qed.
Lemma z01 x : 0 < x < s -> 0 < x / s < 1.
Proof. intros X. split; [apply Rdiv_pos; lra|]. apply (Rdiv_lt_1 x); lra. Qed.
Lemma z01' x : 0 < x / s < 1 -> 0 < x < s.
Proof. intros [A B]. replace x with (x / s * s) by (field; lra). nra. Qed.
Lemma t_eq z : (1 - z) * (1 + z) = 1 - z ^ 2. Proof. ring. Qed.
Lemma t_eq' z : (1 + z) * (1 - z) = 1 - z ^ 2. Proof. ring. Qed.
Lemma rp t : 0 < t -> Rpower t (3 / 2) = t * sqrt t.
Proof. intros T. replace (3 / 2) with (1 + / 2) by field. rewrite Rpower_plus, Rpower_1, Rpower_sqrt by auto. reflexivity. Qed.
Lemma cdf_at (x : R) : 0 <= x <= s -> cdf x c s = Fin (F c (x / s)) /\ sf x c s = Fin (1 - F c (x / s)).
Proof.
  intros X. assert (Z : 0 <= x / s <= 1). { split; [apply Rmult_le_pos; [lra|left; apply Rinv_0_lt_compat; auto]|]. apply (Rle_div_l x); lra. }
  set (z := x / s) in *. assert (T0 : 0 <= 1 - z ^ 2) by nra. unfold F, H. start. veval. fold z.
  destruct (Reqb_spec c 0) as [[E E']|[E E']]; rewrite E'.
  - veval. fold z. rewrite t_eq'. unfold vpowm1. destruct T0 as [T0|T0].
    + rewrite vpow_Fin, rp by auto. veval. split; f_equal; ring.
    + rewrite <- T0, vpow_0_pos by lra. veval. split; f_equal; ring.
  - assert (0 < c) by lra. pose proof (psir_pos c ltac:(auto)) as PP. veval. fold z. rewrite t_eq. rewrite !psi_fin. veval. split; f_equal; field; lra.
Qed.
Lemma pdf_fin (x : R) : 0 < x < s -> pdf x c s = Fin (f c (x / s) / s) /\ logpdf x c s = Fin (ln (f c (x / s) / s)).
Proof.
  intros X. assert (Z := z01 x X). assert (FP := f_pos c HC _ Z). assert (T := t01 _ Z).
  assert (L : logpdf x c s = Fin (ln (f c (x / s) / s))).
  { rewrite (ln_div _ s), ln_f by auto. unfold K. set (z := x / s) in *. start. unfold vlog1p. change vpi with (Fin PI). pose proof PI_RGT_0.
    assert (LT : ln (1 - z ^ 2) = ln (1 - z) + ln (1 + z)) by (rewrite <- ln_mult by lra; f_equal; ring).
    destruct (Reqb_spec c 0) as [[E E']|[E E']]; rewrite E'.
    - veval. fold z. veval. f_equal. rewrite E, LT, ln_div by lra.
      field.
    - assert (0 < c) by lra. pose proof (psir_pos c ltac:(auto)) as PP. pose proof sqrt2PI_pos. assert (0 < c ^ 3) by (apply pow_lt; auto). veval. rewrite psi_fin. veval. fold z. assert (0 < 1 + - z ^ 2) by lra. veval. f_equal.
      rewrite ln_div, !ln_mult, ln_pow, ln_sqrt by (try lra; repeat apply Rmult_lt_0_compat; lra). simpl INR. rewrite ln_mult by lra. replace (1 + - z ^ 2) with (1 - z ^ 2) by ring. field. }
  split; [|exact L]. unfold pdf, validate_params. rewrite L. veval. rewrite exp_ln by (apply Rdiv_pos; auto). reflexivity.
Qed.
Lemma pdf_end (x : R) : x = 0 \/ x = s -> pdf x c s = Fin 0 /\ logpdf x c s = NInf.
Proof.
  intros X. assert (L : logpdf x c s = NInf).
  { pose proof PI_RGT_0. start. unfold vlog1p. change vpi with (Fin PI). assert (Z : vdiv (Fin x) (Fin s) = Fin 0 \/ vdiv (Fin x) (Fin s) = Fin 1) by (destruct X as [-> | ->]; [left|right]; rewrite vdiv_Fin by lra; f_equal; field; lra).
    destruct (Reqb_spec c 0) as [[E E']|[E E']].
    - destruct X as [X|X]; destruct Z as [Z|Z]; rewrite !Z; veval; reflexivity.
    - assert (0 < c) by lra. pose proof (psir_pos c ltac:(auto)) as PP. destruct Z as [Z|Z]; destruct X as [X|X]; rewrite !Z, psi_fin; veval; reflexivity. }
  split; [|exact L]. unfold pdf, validate_params. rewrite L. destruct X as [-> | ->]; veval; reflexivity.
Qed.
Lemma pdf_out (x : R) : x < 0 \/ s < x -> pdf x c s = Fin 0 /\ logpdf x c s = NInf.
Proof. intros X. start. destruct X; veval; auto. Qed.
Lemma CERT : cert (fun x => pdf x c s) (fun x => logpdf x c s) (fun x => cdf x c s) (fun x => sf x c s)
  (fun p => ideal_cdf (Q c) p 0 s) (fun p => ideal_sf (Q c) p 0 s) 0 s (fun x => F c ((x - 0) / s)) (fun x => f c ((x - 0) / s) / s) (fun p => 0 + s * Q c p).
Proof.
  apply (ls_cert 0 1 (F c) (f c) (Q c) (ST c HC) 0 s HS); auto.
  - simpl. f_equal. ring.
  - simpl. f_equal. ring.
  - constructor.
    + intros x [H1 H2]. simpl in H1, H2. rewrite ez. apply cdf_at. lra.
    + intros x H1. simpl in H1. destruct H1 as [H1|H1].
      * start. veval. auto.
      * rewrite H1. destruct (cdf_at 0 ltac:(lra)) as [-> ->]. replace (0 / s) with 0 by (field; lra). rewrite F_0 by auto. split; f_equal. ring.
    + intros x H1. simpl in H1. destruct H1 as [H1|H1].
      * start. veval. auto.
      * rewrite <- H1. destruct (cdf_at s ltac:(lra)) as [-> ->]. replace (s / s) with 1 by (field; lra). rewrite F_1 by auto. split; f_equal. ring.
    + start. veval. auto.
    + start. veval. auto.
  - intros x H1. rewrite ez in *. apply pdf_fin. apply z01'. destruct H1 as [H1 H2]. simpl in *. auto.
  - intros x [H1|H1]; simpl in H1; apply pdf_out; auto.
Qed.
Lemma log_all (x : R) : log_of (fun x => pdf x c s) (fun x => logpdf x c s) x.
Proof.
  revert x. apply (cert_log_ends CERT); intros x E; injection E as E; right; left; apply pdf_end; auto.
Qed.
Lemma mode_ok : is_mode (fun x => pdf x c s) (mode c s).
Proof.
  destruct (md_ok c HC) as [M1 M2]. set (m := md c) in *. assert (X : 0 < s * m < s) by nra. assert (EM : s * m / s = m) by (field; lra). assert (FP := f_pos c HC m M1).
  exists (s * m), (f c m / s). split; [|split; [rewrite <- EM at 2; apply pdf_fin; auto|]].
  - pose proof sqrt2_pos. unfold m, md. start. destruct (Reqb_spec c 0) as [[E E']|[E E']]; rewrite E'.
    + veval. reflexivity.
    + assert (C0 : 0 < c) by lra. assert (CC : 0 < c ^ 2) by (apply pow_lt; auto). set (b := c ^ 2) in *. assert (RR : sqrt (b ^ 2 + 4) ^ 2 = b ^ 2 + 4) by (apply pow2_sqrt; nra). pose proof (sqrt_pos (b ^ 2 + 4)). assert (0 <= b ^ 2 + 4) by nra. assert (0 < b - 2 + sqrt (b ^ 2 + 4)) by nra.
      veval. fold b. veval. f_equal. field. lra.
  - intros x. destruct (Rle_lt_dec x 0) as [[L|L]|L]; [| |destruct (Rlt_le_dec x s) as [U|[U|U]]].
    + exists 0. split; [apply pdf_out; auto|]. left. apply Rdiv_pos; auto.
    + exists 0. split; [apply pdf_end; auto|]. left. apply Rdiv_pos; auto.
    + eexists. split; [apply pdf_fin; auto|]. apply Rmult_le_compat_r; [left; apply Rinv_0_lt_compat; auto|]. apply f_le; auto. apply z01; auto.
    + exists 0. split; [apply pdf_out; auto|]. left. apply Rdiv_pos; auto.
    + exists 0. split; [apply pdf_end; auto|]. left. apply Rdiv_pos; auto.
Qed.
(** C43 *)
Lemma elo : Finite 0 = ls 0 s 0. Proof. simpl. f_equal. ring. Qed.
Lemma ehi : Finite s = ls 0 s 1. Proof. simpl. f_equal. ring. Qed.
Lemma pdf_in x : inside 0 s x -> pdf (Fin x) c s = Fin (f c ((x - 0) / s) / s).
Proof. intros [H1 H2]. simpl in H1, H2. rewrite ez. apply pdf_fin; auto. Qed.
Notation LSM lem := (lem 0 1 (F c) (f c) (Q c) (ST c HC) 0 s (fun x => pdf x c s) (Finite 0) (Finite s) HS elo ehi pdf_in (M c) 2%nat (moms c HC)).
Lemma mean_fin : mean c s = Fin (0 + s * M c 1).
Proof.
  pose proof PI_RGT_0 as PI0. unfold M, K. start. change vpi with (Fin PI). destruct (Reqb_spec c 0) as [[E E']|[E E']]; rewrite E'.
  - veval. f_equal. rewrite E. replace (0 ^ 2 / 4) with 0 by field. rewrite J_0, Ropp_0, exp_0. field.
  - assert (C0 : 0 < c) by lra. pose proof (psir_pos c C0) as PP. assert (0 < PI / 8) by lra. pose proof sqrt2PI_pos as SP. assert (S8 : sqrt (PI / 8) = PI / (2 * sqrt (2 * PI))).
    { apply sqrt_lem_1; [lra| |]. { left. apply Rdiv_pos; lra. } replace (PI / (2 * sqrt (2 * PI)) * (PI / (2 * sqrt (2 * PI)))) with (PI * PI / (4 * (sqrt (2 * PI) * sqrt (2 * PI)))) by (field; lra). rewrite sqrt_sqrt by lra. field. lra. }
    rewrite psi_fin. veval. unfold vbesseli1. veval. f_equal. rewrite S8. change (RInt _ 0 PI) with (J (c ^ 2 / 4)). set (j := J _). set (e := exp _). clearbody j e. field. lra.
Qed.
Lemma mean_ok : mean_is (fun x => pdf x c s) 0 s (mean c s).
Proof. apply (LSM lsm_mean); auto. apply mean_fin. Qed.
Lemma var_ok : var_is (fun x => pdf x c s) 0 s (mean c s) (var c s).
Proof.
  apply (LSM lsm_var); auto; [apply mean_fin|]. pose proof PI_RGT_0 as PI0. unfold var, validate_params. rewrite mean_fin. change vpi with (Fin PI). unfold mvar. destruct (Reqb_spec c 0) as [[E E']|[E E']].
  - veval. f_equal. unfold M, G, K. rewrite E', E. replace (0 ^ 2 / 4) with 0 by field. rewrite J_0, Ropp_0, exp_0, sqrt_1. field.
  - assert (C0 : 0 < c) by lra. assert (0 < c ^ 2) by (apply pow_lt; auto). pose proof (psir_pos c C0) as PP. pose proof sqrt2PI_pos as SP. rewrite psi_fin, vnpdf_Fin by lra. veval. f_equal.
    replace (M c 2) with (1 - 3 / c ^ 2 + c * nkernel c / psir c); [replace ((c - 0) / 1) with c by field; field; lra|].
    unfold M, G. rewrite E', H_1 by auto. unfold K. rewrite E', sqrt_1. unfold nkernel. replace (- (c ^ 2 / 2 * 1)) with (- c ^ 2 / 2) by field. set (e := exp _). clearbody e. field. lra.
Qed.
(** C35, C36 *)
Lemma core' : core (fun x => cdf x c s) (fun x => sf x c s) 0 s (fun x => F c ((x - 0) / s)). Proof. apply (ce_core _ _ _ _ _ _ _ _ _ _ _ CERT). Qed.
Lemma e0 : cdf 0 c s = Fin 0 /\ sf 0 c s = Fin 1. Proof. apply (co_below _ _ _ _ _ core' 0). simpl. lra. Qed.
Lemma e1 : cdf s c s = Fin 1 /\ sf s c s = Fin 0. Proof. apply (co_above _ _ _ _ _ core' s). simpl. lra. Qed.
Lemma win x : inside 0 s x -> within (Fin 0) (Fin s) x. Proof. intros [H1 H2]. simpl in *. split; simpl; lra. Qed.
Lemma invcdf_ok : solves (fun x => cdf x c s) (fun findroot fuel p => invcdf findroot fuel p c s) 0 s.
Proof.
  apply (solves_ext _ _ (fun fr fuel p => match find_bracket fuel (fun x => cdf x c s) p (Fin 0) (Fin s) None with Err e => Exc e | Ok x => fr (fun t => Values.vsub (cdf t c s) p) x end)).
  - intros fr fuel p P. unfold invcdf, validate_params, validate_p. veval. reflexivity.
  - apply (cert_call_cdf CERT None (Fin 0) (Fin s)); [apply e0|apply e1|apply win].
Qed.
Lemma invsf_ok : solves (fun x => sf x c s) (fun findroot fuel p => invsf findroot fuel p c s) 0 s.
Proof.
  apply (solves_ext _ _ (fun fr fuel p => match find_bracket fuel (fun x => sf x c s) p (Fin 0) (Fin s) None with Err e => Exc e | Ok x => fr (fun t => Values.vsub (sf t c s) p) x end)).
  - intros fr fuel p P. unfold invsf, validate_params, validate_p. veval. reflexivity.
  - apply (cert_call_sf CERT None (Fin 0) (Fin s)); [apply e0|apply e1|apply win].
Qed.
(** C37 *)
Lemma at_pt findroot func (a p : R) : bracket_solver findroot -> func (Fin a) = Fin p -> findroot (fun x => Values.vsub (func x) (Fin p)) (Fin a, Fin a) = Fin a.
Proof.
  intros BS E. destruct (BS (fun x => Values.vsub (func x) (Fin p)) (fun _ => 0) a a) as (r & R1 & R2 & _).
  - lra.
  - intros x X. replace x with a by lra. rewrite E. cbn. f_equal. ring.
  - intros x _. apply continuity_pt_const. intros u v. reflexivity.
  - lra.
  - rewrite R1. f_equal. lra.
Qed.
Lemma ends findroot fuel : bracket_solver findroot -> rejects_bad_p (fun p => invcdf findroot fuel p c s) /\ rejects_bad_p (fun p => invsf findroot fuel p c s) /\
  at_ends (fun p => invcdf findroot fuel p c s) (Fin 0) (Fin s) /\ at_ends (fun p => invsf findroot fuel p c s) (Fin s) (Fin 0).
Proof.
  intros BS. destruct e0 as [C0 S0]. destruct e1 as [C1 S1]. split; [|split; [|split]].
  - unfold invcdf, validate_params, validate_p. split; [intros p [H'|H']|split]; veval; reflexivity.
  - unfold invsf, validate_params, validate_p. split; [intros p [H'|H']|split]; veval; reflexivity.
  - unfold at_ends, invcdf, validate_params, validate_p, find_bracket. rewrite C0, C1. cbn [bindv]. split; veval; apply (at_pt findroot (fun x => cdf x c s)); auto.
  - unfold at_ends, invsf, validate_params, validate_p, find_bracket. rewrite S0, S1. cbn [bindv]. split; veval; apply (at_pt findroot (fun x => sf x c s)); auto.
Qed.
End P.
Lemma bad {A} `{CanRaise A} chi scale (k : A) : isnum chi -> isnum scale -> negative chi \/ nonpositive scale -> validate_params chi scale k = raise ValueError.
Proof.
  intros N1 N2 B. unfold validate_params. destruct B as [[B1 B2]|B].
  - inversion B1; subst; vif; try reflexivity. destruct (Rlt_le_dec x 0); vif; try reflexivity. exfalso. apply B2. f_equal. lra.
  - assert (E : cle scale (Fin 0) = CB true) by (inversion B; subst; ccond). rewrite E. cbn [cif]. destruct N1 as [v []|]; try (vif; reflexivity). destruct (Rlt_le_dec r 0); vif; reflexivity.
Qed.
Lemma bad_params findroot fuel chi scale : isnum chi -> isnum scale -> negative chi \/ nonpositive scale ->
  support chi scale = Err ValueError /\
  always_ValueError [fun x => pdf x chi scale; fun x => logpdf x chi scale; fun x => cdf x chi scale; fun x => sf x chi scale; fun p => invcdf findroot fuel p chi scale;
    fun p => invsf findroot fuel p chi scale; fun _ => mean chi scale; fun _ => var chi scale; fun _ => mode chi scale].
Proof. intros N1 N2 B. split; [apply (bad (A := res _)); auto|]. all_ve; intros x _; apply bad; auto. Qed.
(** C44 *)
Lemma scale_ok c s : 0 <= c -> 0 < s -> forall k x : R, 0 < k -> cdf (Fin (k * x)) c (Fin (k * s)) = cdf x c s /\ sf (Fin (k * x)) c (Fin (k * s)) = sf x c s /\
  exists d, pdf x c s = Fin d /\ pdf (Fin (k * x)) c (Fin (k * s)) = Fin (d / k).
Proof.
  intros HC HS k x HK. assert (KS : 0 < k * s) by nra. pose proof (core' c s HC HS) as C1. pose proof (core' c (k * s) HC KS) as C2.
  destruct (Rle_lt_dec x 0) as [L|L]; [|destruct (Rlt_le_dec x s) as [U|U]].
  - destruct (co_below _ _ _ _ _ C1 x L) as [-> ->]. destruct (co_below _ _ _ _ _ C2 (k * x) ltac:(simpl; nra)) as [-> ->]. split; [auto|split; [auto|]]. exists 0.
    replace (0 / k) with 0 by (field; lra). split; (destruct L as [L|L]; [apply pdf_out; auto; left; nra|apply pdf_end; auto; left; nra]).
  - destruct (cdf_at c s HC HS x ltac:(lra)) as [-> ->]. destruct (cdf_at c (k * s) HC KS (k * x) ltac:(nra)) as [-> ->]. replace (k * x / (k * s)) with (x / s) by (field; lra). split; [auto|split; [auto|]].
    exists (f c (x / s) / s). split; [apply pdf_fin; auto|]. rewrite (proj1 (pdf_fin c (k * s) HC KS (k * x) ltac:(nra))). f_equal. replace (k * x / (k * s)) with (x / s) by (field; lra). field. lra.
  - destruct (co_above _ _ _ _ _ C1 x U) as [-> ->]. destruct (co_above _ _ _ _ _ C2 (k * x) ltac:(simpl; nra)) as [-> ->]. split; [auto|split; [auto|]]. exists 0.
    replace (0 / k) with 0 by (field; lra). split; (destruct U as [U|U]; [apply pdf_out; auto; right; nra|apply pdf_end; auto; right; nra]).
Qed.
