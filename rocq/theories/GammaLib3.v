(** Derivatives of the gamma function; inverses of primitives. *)
From Coq Require Import Reals Lra Lia List Bool ZArith.
From Coquelicot Require Import Coquelicot.
From Verif Require Import Values VTac Spec RLib DistLib LimLib IntLib MomLib SFun GammaLib.
Local Open Scope R_scope.
Set Bullet Behavior "Strict Subproofs".

Lemma if_dom lo hi (g G FG : R -> R) v : integral_fn lo hi G FG v -> (forall x, inside lo hi x -> continuous g x) ->
  (forall x, inside lo hi x -> 0 < g x <= G x) -> exists F w, integral_fn lo hi g F w.
Proof.
  intros I C H. pose proof (if_lt _ _ _ _ _ I) as LT. destruct (inside_ex lo hi LT) as [c Hc].
  apply (mk_integral_fn lo hi g c FG G FG G 0 v); auto.
  - intros; apply H; auto.
  - intros x Hx _. split; [apply (if_der _ _ _ _ _ I); auto|apply H; auto].
  - intros x Hx _. split; [apply (if_der _ _ _ _ _ I); auto|apply H; auto].
  - intros x Hx _. left. apply (if_range I x Hx).
  - intros x Hx _. left. apply (if_range I x Hx).
Qed.
Lemma if_scal lo hi (g F : R -> R) v c : 0 < c -> integral_fn lo hi g F v -> integral_fn lo hi (fun x => c * g x) (fun x => c * F x) (c * v).
Proof.
  intros C I. destruct I. pose proof (near_lo_filter lo). pose proof (near_hi_filter hi). constructor; auto.
  - intros x Hx. apply (continuous_scal_r c g x). auto.
  - intros x Hx. apply Rmult_lt_0_compat; auto.
  - intros x Hx. apply (is_derive_scal F). auto.
  - eapply flim_val; [apply (flim_scal _ F _ c if_lo)|ring].
  - apply (flim_scal _ F _ c if_hi).
Qed.
Lemma if_plus lo hi (g F g' F' : R -> R) v v' : integral_fn lo hi g F v -> integral_fn lo hi g' F' v' ->
  integral_fn lo hi (fun x => g x + g' x) (fun x => F x + F' x) (v + v').
Proof.
  intros I J. destruct I, J. pose proof (near_lo_filter lo). pose proof (near_hi_filter hi). constructor; auto.
  - intros x Hx. apply (continuous_plus g g'); auto.
  - intros x Hx. pose proof (if_pos x Hx). pose proof (if_pos0 x Hx). lra.
  - intros x Hx. apply (is_derive_plus F F'); auto.
  - eapply flim_val; [apply (flim_plus _ F F' _ _ if_lo if_lo0)|ring].
  - apply (flim_plus _ F F' _ _ if_hi if_hi0).
Qed.
Lemma abs_ex lo hi (g G FG : R -> R) v : integral_fn lo hi G FG v -> (forall x, inside lo hi x -> continuous g x) ->
  (forall x, inside lo hi x -> Rabs (g x) < G x) -> exists w, integrates_to g lo hi w.
Proof.
  intros I C H. pose proof (if_lt _ _ _ _ _ I) as LT.
  destruct (if_dom lo hi (fun x => G x + g x) (fun x => 2 * G x) (fun x => 2 * FG x) (2 * v)) as [F [w J]].
  - apply if_scal; auto. lra.
  - intros x Hx. apply (continuous_plus G g); auto. apply (if_cont _ _ _ _ _ I); auto.
  - intros x Hx. pose proof (H x Hx) as A. apply Rabs_def2 in A. lra.
  - exists (w + -1 * v). refine (integrates_ext lo hi LT _ _ _ _ (integrates_plus lo hi _ _ _ _ (if_integral J) (integrates_scal lo hi (-1) _ _ (if_integral I)))).
    intros x Hx. simpl. ring.
Qed.

Definition lgk (n : nat) (a t : R) := ln t ^ n * gamma_kernel a t.
Definition Lg (n : nat) (a : R) := improper (lgk n a) 0 p_infty.
Lemma Lg_0 a : 0 < a -> Lg 0 a = Gamma a.
Proof.
  intros Ha. unfold Lg. apply (improper_eq _ 0 p_infty); [exact I|].
  refine (integrates_ext 0 p_infty I _ _ _ _ (Gamma_int a Ha)). intros x _. unfold lgk. simpl. ring.
Qed.
Lemma ln_pow_bound n e t : 0 < e -> 0 < t -> Rabs (ln t) ^ n < (INR n ^ n / e ^ n + 1) * (Rpower t e + Rpower t (- e)).
Proof.
  intros He Ht. assert (A : exp (e * Rabs (ln t)) <= Rpower t e + Rpower t (- e)).
  { unfold Rpower. pose proof (exp_pos (e * ln t)). pose proof (exp_pos (- e * ln t)).
    destruct (Rle_lt_dec 0 (ln t)) as [L|L].
    - rewrite Rabs_pos_eq by auto. lra.
    - rewrite Rabs_left by auto. replace (e * - ln t) with (- e * ln t) by ring. lra. }
  assert (B : 1 <= exp (e * Rabs (ln t))) by (apply exp_ge_1; pose proof (Rabs_pos (ln t)); nra).
  assert (C : Rabs (ln t) ^ n <= (INR n ^ n / e ^ n + 0) * exp (e * Rabs (ln t)) \/ n = 0%nat).
  { destruct (pow_exp_le n (e * Rabs (ln t))) as [Q|Q]; [pose proof (Rabs_pos (ln t)); nra| |auto]. left.
    rewrite Rpow_mult_distr in Q. assert (0 < e ^ n) by (apply pow_lt; auto).
    apply Rmult_le_reg_l with (e ^ n); auto. replace (e ^ n * ((INR n ^ n / e ^ n + 0) * exp (e * Rabs (ln t)))) with (INR n ^ n * exp (e * Rabs (ln t))) by (field; lra). auto. }
  assert (D : 0 <= INR n ^ n / e ^ n) by (apply Rdiv_nonneg; [apply pow_le, pos_INR|apply pow_lt; auto]).
  destruct C as [C|C].
  - nra.
  - subst n. simpl in *. assert (1 / 1 = 1) by field. nra.
Qed.
Lemma dom_fn n a e : 0 < e < a -> exists F v, integral_fn 0 p_infty (fun t => (INR n ^ n / e ^ n + 1) * (gamma_kernel (a + e) t + gamma_kernel (a + - e) t)) F v.
Proof.
  intros H. eexists. eexists. apply if_scal.
  - assert (D : 0 <= INR n ^ n / e ^ n) by (apply Rdiv_nonneg; [apply pow_le, pos_INR|apply pow_lt; lra]). lra.
  - apply if_plus; apply Gamma_if; lra.
Qed.
Lemma lgk_dom n a e t : 0 < e < a -> 0 < t -> Rabs (ln t) ^ n * gamma_kernel a t < (INR n ^ n / e ^ n + 1) * (gamma_kernel (a + e) t + gamma_kernel (a + - e) t).
Proof.
  intros H Ht. rewrite !gk_shift. pose proof (ln_pow_bound n e t ltac:(lra) Ht). pose proof (gk_pos a t).
  replace ((INR n ^ n / e ^ n + 1) * (Rpower t e * gamma_kernel a t + Rpower t (- e) * gamma_kernel a t)) with
   ((INR n ^ n / e ^ n + 1) * (Rpower t e + Rpower t (- e)) * gamma_kernel a t) by ring.
  apply Rmult_lt_compat_r; auto.
Qed.
Lemma ln_cont t : 0 < t -> continuous ln t.
Proof. intros. apply ex_derive_cont. auto_derive. auto. Qed.
Lemma pow_cont (f : R -> R) n x : continuous f x -> continuous (fun x => f x ^ n) x.
Proof.
  intros H. induction n; simpl; [apply continuous_const|]. apply (continuous_mult f (fun x => f x ^ n)); auto.
Qed.
Lemma lgk_cont n a t : 0 < t -> continuous (lgk n a) t.
Proof. intros H. apply (continuous_mult (fun t => ln t ^ n) (gamma_kernel a)); [apply pow_cont, ln_cont; auto|apply gk_cont; auto]. Qed.
Lemma Lg_int n a : 0 < a -> integrates_to (lgk n a) 0 p_infty (Lg n a).
Proof.
  intros Ha. destruct (dom_fn n a (a / 2) ltac:(lra)) as [F [v J]].
  destruct (abs_ex 0 p_infty (lgk n a) _ _ _ J) as [w W].
  - intros x H%inpos. apply lgk_cont; auto.
  - intros x H%inpos. unfold lgk. rewrite Rabs_mult, <- RPow_abs, (Rabs_pos_eq (gamma_kernel a x)) by (left; apply gk_pos). apply lgk_dom; auto. lra.
  - unfold Lg. rewrite (improper_eq _ 0 p_infty w I W). auto.
Qed.
Lemma abs_int n a : 0 < a -> exists w, integrates_to (fun t => Rabs (ln t) ^ n * gamma_kernel a t) 0 p_infty w.
Proof.
  intros Ha. destruct (dom_fn n a (a / 2) ltac:(lra)) as [F [v J]].
  apply (abs_ex 0 p_infty _ _ _ _ J).
  - intros x H%inpos. apply (continuous_mult (fun t => Rabs (ln t) ^ n) (gamma_kernel a)); [|apply gk_cont; auto].
    apply (pow_cont (fun t => Rabs (ln t))). apply (continuous_comp ln Rabs); [apply ln_cont; auto|]. apply continuous_Rabs.
  - intros x H%inpos. rewrite Rabs_mult, <- RPow_abs, Rabs_Rabsolu, (Rabs_pos_eq (gamma_kernel a x)) by (left; apply gk_pos). apply lgk_dom; auto. lra.
Qed.
Lemma exp_quad y : Rabs (exp y - 1 - y) <= y ^ 2 * (1 + exp y).
Proof.
  pose proof (exp_ineq y) as A. pose proof (exp_ineq (- y)) as B. pose proof (exp_pos y) as P. rewrite exp_Ropp in B.
  rewrite Rabs_pos_eq by lra.
  (* e^y (1 - y) <= 1 *)
  assert (C : exp y * (1 - y) <= 1).
  { apply (Rmult_le_compat_l (exp y)) in B; [|lra]. rewrite Rinv_r in B by lra. lra. }
  destruct (Rle_lt_dec 0 y) as [L|L].
  - assert (exp y - 1 <= y * exp y) by lra. nra.
  - assert (exp y - 1 <= y * exp y) by lra. assert (exp y <= 1) by (apply exp_le_1; lra). nra.
Qed.
Lemma der_quad (f : R -> R) a l M d : 0 < d -> (forall h, Rabs h <= d -> Rabs (f (a + h) - f a - h * l) <= M * h ^ 2) -> is_derive f a l.
Proof.
  intros Hd H. apply is_derive_Reals. intros e He.
  assert (HM : 0 <= M).
  { pose proof (H d ltac:(rewrite Rabs_pos_eq; lra)) as K. pose proof (Rabs_pos (f (a + d) - f a - d * l)). assert (0 < d ^ 2) by (apply pow_lt; auto). nra. }
  assert (E : 0 < Rmin d (e / (M + 1))) by (apply Rmin_glb_lt; [auto|apply Rdiv_pos; lra]).
  exists (mkposreal _ E). intros h Nh Hh. simpl in Hh.
  pose proof (Rmin_l d (e / (M + 1))). pose proof (Rmin_r d (e / (M + 1))).
  pose proof (H h ltac:(lra)) as K.
  replace ((f (a + h) - f a) / h - l) with ((f (a + h) - f a - h * l) / h) by (field; auto).
  assert (AH : 0 < Rabs h) by (apply Rabs_pos_lt; auto).
  unfold Rdiv. rewrite Rabs_mult, Rabs_inv. apply Rmult_lt_reg_r with (Rabs h); auto.
  rewrite Rmult_assoc, Rinv_l, Rmult_1_r by lra. replace (h ^ 2) with (Rabs h * Rabs h) in K by (rewrite <- Rabs_mult, Rabs_pos_eq by nra; ring).
  assert (Rabs h * (M + 1) < e).
  { apply Rlt_le_trans with (e / (M + 1) * (M + 1)); [apply Rmult_lt_compat_r; lra|right; field; lra]. }
  nra.
Qed.
Theorem Lg_der n a : 0 < a -> is_derive (Lg n) a (Lg (S n) a).
Proof.
  intros Ha. set (d := a / 2).
  destruct (abs_int (n + 2) a Ha) as [w0 W0]. destruct (abs_int (n + 2) (a + d) ltac:(unfold d; lra)) as [w1 W1].
  destruct (abs_int (n + 2) (a + - d) ltac:(unfold d; lra)) as [w2 W2].
  apply (der_quad _ _ _ (w0 + (w1 + w2)) d); [unfold d; lra|].
  intros h Hh. assert (H2 : - d <= h <= d) by (apply Rabs_le_between; auto).
  assert (Z := integrates_plus 0 p_infty _ _ _ _ (Lg_int n (a + h) ltac:(unfold d in H2; lra)) (integrates_plus 0 p_infty _ _ _ _
     (integrates_scal 0 p_infty (-1) _ _ (Lg_int n a Ha)) (integrates_scal 0 p_infty (- h) _ _ (Lg_int (S n) a Ha)))).
  assert (Y := integrates_scal 0 p_infty (h ^ 2) _ _ (integrates_plus 0 p_infty _ _ _ _ W0 (integrates_plus 0 p_infty _ _ _ _ W1 W2))).
  replace (Lg n (a + h) - Lg n a - h * Lg (S n) a) with (Lg n (a + h) + (-1 * Lg n a + - h * Lg (S n) a)) by ring.
  assert (B : forall t, 0 < t -> Rabs (lgk n (a + h) t + (-1 * lgk n a t + - h * lgk (S n) a t)) <=
     h ^ 2 * (Rabs (ln t) ^ (n + 2) * gamma_kernel a t + (Rabs (ln t) ^ (n + 2) * gamma_kernel (a + d) t + Rabs (ln t) ^ (n + 2) * gamma_kernel (a + - d) t))).
  { intros t Ht. unfold lgk. rewrite !gk_shift.
    replace (ln t ^ n * (Rpower t h * gamma_kernel a t) + (-1 * (ln t ^ n * gamma_kernel a t) + - h * (ln t ^ S n * gamma_kernel a t)))
      with (ln t ^ n * gamma_kernel a t * (exp (h * ln t) - 1 - h * ln t)) by (unfold Rpower; simpl; ring).
    rewrite !Rabs_mult, <- RPow_abs, (Rabs_pos_eq (gamma_kernel a t)) by (left; apply gk_pos).
    pose proof (exp_quad (h * ln t)) as Q. pose proof (gk_pos a t) as G. pose proof (pow_le (Rabs (ln t)) n (Rabs_pos _)) as P.
    assert (T : exp (h * ln t) <= Rpower t d + Rpower t (- d)).
    { unfold Rpower. pose proof (exp_pos (d * ln t)). pose proof (exp_pos (- d * ln t)).
      destruct (Rle_lt_dec 0 (ln t)) as [L|L].
      - pose proof (exp_le_compat (h * ln t) (d * ln t) ltac:(nra)). lra.
      - pose proof (exp_le_compat (h * ln t) (- d * ln t) ltac:(nra)). lra. }
    apply Rle_trans with (Rabs (ln t) ^ n * gamma_kernel a t * ((h * ln t) ^ 2 * (1 + (Rpower t d + Rpower t (- d))))).
    { apply Rmult_le_compat_l; [nra|]. apply Rle_trans with (1 := Q). apply Rmult_le_compat_l; [apply pow2_ge_0|lra]. }
    right. rewrite pow_add. rewrite Rpow_mult_distr, <- (pow2_abs (ln t)). ring. }
  rewrite (Rmult_comm (w0 + (w1 + w2))). apply Rabs_le_between. split.
  - assert (Y' := integrates_scal 0 p_infty (-1) _ _ Y). replace (- (h ^ 2 * (w0 + (w1 + w2)))) with (-1 * (h ^ 2 * (w0 + (w1 + w2)))) by ring.
    refine (integrates_le 0 p_infty _ _ _ _ I _ Y' Z). intros t T%inpos. pose proof (B t T) as K. apply Rabs_le_between in K. simpl. simpl in K. lra.
  - refine (integrates_le 0 p_infty _ _ _ _ I _ Z Y). intros t T%inpos. pose proof (B t T) as K. apply Rabs_le_between in K. simpl. simpl in K. lra.
Qed.
Theorem Gamma_der a : 0 < a -> is_derive Gamma a (Lg 1 a).
Proof.
  intros Ha. apply (is_derive_ext_loc (Lg 0)); [|apply Lg_der; auto].
  exists (mkposreal a Ha). intros y Hy. apply Lg_0. unfold ball in Hy; simpl in Hy; unfold AbsRing_ball, abs, minus, plus, opp in Hy; simpl in Hy.
  apply Rabs_def2 in Hy. lra.
Qed.
Lemma loggamma_der a : 0 < a -> is_derive loggamma a (Lg 1 a / Gamma a).
Proof.
  intros Ha. unfold loggamma. pose proof (Gamma_pos a Ha). evar_last.
  - apply (is_derive_comp ln Gamma); [apply is_derive_ln; auto|apply Gamma_der; auto].
  - unfold scal; simpl; unfold mult; simpl. field. lra.
Qed.
Lemma digamma_eq a : 0 < a -> digamma a = Lg 1 a / Gamma a.
Proof. intros. apply is_derive_unique. apply loggamma_der; auto. Qed.
Lemma loggamma_digamma a : 0 < a -> is_derive loggamma a (digamma a).
Proof. intros. rewrite digamma_eq by auto. apply loggamma_der; auto. Qed.
Lemma digamma_ex a : 0 < a -> ex_derive digamma a.
Proof.
  intros Ha. pose proof (Gamma_pos a Ha).
  apply (ex_derive_ext_loc (fun a => Lg 1 a / Gamma a)).
  - exists (mkposreal a Ha). intros y Hy. unfold ball in Hy; simpl in Hy; unfold AbsRing_ball, abs, minus, plus, opp in Hy; simpl in Hy.
    apply Rabs_def2 in Hy. symmetry. apply digamma_eq. lra.
  - apply ex_derive_div; [exists (Lg 2 a); apply Lg_der; auto|exists (Lg 1 a); apply Gamma_der; auto|lra].
Qed.
Lemma digamma_succ a : 0 < a -> digamma (a + 1) = digamma a + / a.
Proof.
  intros Ha. apply is_derive_unique.
  assert (A : is_derive (fun x => loggamma ((x - 1) + 1)) (a + 1) (digamma a + / a)).
  { apply (is_derive_ext_loc (fun x => loggamma (x - 1) + ln (x - 1))).
    - exists (mkposreal a Ha). intros y Hy. unfold ball in Hy; simpl in Hy; unfold AbsRing_ball, abs, minus, plus, opp in Hy; simpl in Hy.
      apply Rabs_def2 in Hy. unfold loggamma. rewrite Gamma_succ by lra. rewrite ln_mult by (try apply Gamma_pos; lra). simpl. apply Rplus_comm.
    - apply (is_derive_plus (fun x => loggamma (x - 1)) (fun x => ln (x - 1))).
      + replace (digamma a) with (1 * digamma a) by ring.
        apply (is_derive_comp loggamma (fun x => x - 1) (a + 1) (digamma a) 1).
        * replace (a + 1 - 1) with a by ring. apply loggamma_digamma; auto.
        * auto_derive; auto.
      + auto_derive; [lra|]. field. lra. }
  refine (is_derive_ext _ _ _ _ _ A). intros t. f_equal. change (t - 1 + 1 = t). ring.
Qed.

(** Inverses of primitives. *)
Lemma inverse_fn_ok lo hi (g F : R -> R) v p : integral_fn lo hi g F v -> 0 < p < v ->
  inside lo hi (inverse_fn lo hi F p) /\ F (inverse_fn lo hi F p) = p.
Proof.
  intros I Hp. destruct (if_onto I p Hp) as [x [Hx E]].
  assert (U : Lub_Rbar (fun y => inside lo hi y /\ F y <= p) = x).
  { apply is_lub_Rbar_unique. split.
    - intros y [Hy L]. simpl. destruct (Rle_lt_dec y x) as [A|A]; auto. pose proof (if_incr I x y Hx Hy A). lra.
    - intros b B. apply B. split; auto. lra. }
  unfold inverse_fn. rewrite U. simpl. auto.
Qed.
