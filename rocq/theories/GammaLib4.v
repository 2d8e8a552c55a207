(** The trigamma function is positive, and larger than 1/a; digamma is increasing and below ln. *)
From Coq Require Import Reals Lra Lia.
From Coquelicot Require Import Coquelicot.
From Verif Require Import Values VTac Spec RLib LimLib DistLib IntLib MomLib SFun GammaLib GammaLib2 GammaLib3.
Local Open Scope R_scope.
Set Bullet Behavior "Strict Subproofs".

Lemma digamma_der a : 0 < a -> is_derive digamma a ((Lg 2 a * Gamma a - Lg 1 a * Lg 1 a) / Gamma a ^ 2).
Proof.
  intros Ha. pose proof (Gamma_pos a Ha).
  apply (is_derive_ext_loc (fun a => Lg 1 a / Gamma a)).
  - exists (mkposreal a Ha). intros y Hy. unfold ball in Hy; simpl in Hy; unfold AbsRing_ball, abs, minus, plus, opp in Hy; simpl in Hy.
    apply Rabs_def2 in Hy. symmetry. apply digamma_eq. lra.
  - apply is_derive_div; [apply Lg_der; auto|apply Gamma_der; auto|lra].
Qed.
Lemma trigamma_eq a : 0 < a -> trigamma a = (Lg 2 a * Gamma a - Lg 1 a * Lg 1 a) / Gamma a ^ 2.
Proof. intros. apply is_derive_unique. apply digamma_der; auto. Qed.
Lemma digamma_trigamma a : 0 < a -> is_derive digamma a (trigamma a).
Proof. intros. rewrite trigamma_eq by auto. apply digamma_der; auto. Qed.
Lemma trigamma_nonneg a : 0 < a -> 0 <= trigamma a.
Proof.
  intros Ha. pose proof (Gamma_pos a Ha) as G. rewrite trigamma_eq by auto.
  set (m := Lg 1 a / Gamma a).
  assert (K : 0 <= Lg 2 a + ((-2 * m) * Lg 1 a + m ^ 2 * Lg 0 a)).
  { apply (integrates_nonneg 0 p_infty (fun t => lgk 2 a t + ((-2 * m) * lgk 1 a t + m ^ 2 * lgk 0 a t))); [exact I|..].
    - intros t [T _]. unfold lgk. replace (ln t ^ 2 * gamma_kernel a t + (-2 * m * (ln t ^ 1 * gamma_kernel a t) + m ^ 2 * (ln t ^ 0 * gamma_kernel a t))) with ((ln t - m) ^ 2 * gamma_kernel a t) by ring.
      apply Rmult_le_pos; [apply pow2_ge_0|left; apply gk_pos].
    - apply integrates_plus; [apply Lg_int; auto|apply integrates_plus; apply integrates_scal; apply Lg_int; auto]. }
  rewrite Lg_0 in K by auto. replace (Lg 2 a + (-2 * m * Lg 1 a + m ^ 2 * Gamma a)) with ((Lg 2 a * Gamma a - Lg 1 a * Lg 1 a) / Gamma a ^ 2 * Gamma a) in K by (unfold m; field; lra).
  apply Rmult_le_reg_r with (Gamma a); auto. lra.
Qed.
Lemma trigamma_succ a : 0 < a -> trigamma (a + 1) = trigamma a - / a ^ 2.
Proof.
  intros Ha. apply is_derive_unique.
  assert (A : is_derive (fun x => digamma ((x - 1) + 1)) (a + 1) (trigamma a - / a ^ 2)).
  { apply (is_derive_ext_loc (fun x => digamma (x - 1) + / (x - 1))).
    - exists (mkposreal a Ha). intros y Hy. unfold ball in Hy; simpl in Hy; unfold AbsRing_ball, abs, minus, plus, opp in Hy; simpl in Hy.
      apply Rabs_def2 in Hy. symmetry. apply digamma_succ. lra.
    - apply (is_derive_plus (fun x => digamma (x - 1)) (fun x => / (x - 1))).
      + replace (trigamma a) with (1 * trigamma a) by ring.
        apply (is_derive_comp digamma (fun x => x - 1) (a + 1) (trigamma a) 1).
        * replace (a + 1 - 1) with a by ring. apply digamma_trigamma; auto.
        * auto_derive; auto.
      + auto_derive; [lra|]. unfold opp; simpl. field. lra. }
  refine (is_derive_ext _ _ _ _ _ A). intros t. f_equal. change (t - 1 + 1 = t). ring.
Qed.
Lemma trigamma_low n a : 0 < a -> / a - / (a + INR n) <= trigamma a - trigamma (a + INR n).
Proof.
  intros Ha. induction n as [|n IH].
  - simpl. rewrite Rplus_0_r. lra.
  - rewrite S_INR. replace (a + (INR n + 1)) with (a + INR n + 1) by ring. pose proof (pos_INR n).
    rewrite trigamma_succ by lra. set (b := a + INR n) in *. assert (B : 0 < b) by (unfold b; lra).
    assert (/ b - / (b + 1) <= / b ^ 2); [|lra].
    replace (/ b - / (b + 1)) with (/ (b * (b + 1))) by (field; lra). apply Rinv_le_contravar; nra.
Qed.
Lemma trigamma_ge a : 0 < a -> / a <= trigamma a.
Proof.
  intros Ha. apply Rnot_lt_le. intros L. set (e := / a - trigamma a) in *. assert (E : 0 < e) by (unfold e; lra).
  destruct (nfloor_ex (/ e)) as [n [_ N]]; [left; apply Rinv_0_lt_compat; auto|].
  pose proof (trigamma_low (S n) a Ha) as T. pose proof (pos_INR n). rewrite S_INR in T. pose proof (trigamma_nonneg (a + (INR n + 1)) ltac:(lra)).
  assert (/ (a + (INR n + 1)) < e); [|unfold e in *; lra].
  rewrite <- (Rinv_inv e). apply Rinv_lt_contravar; [|lra]. apply Rmult_lt_0_compat; [apply Rinv_0_lt_compat; auto|lra].
Qed.
Lemma trigamma_gt a : 0 < a -> / a < trigamma a.
Proof.
  intros Ha. pose proof (trigamma_ge (a + 1) ltac:(lra)) as T. rewrite trigamma_succ in T by auto.
  assert (/ a - / (a + 1) < / a ^ 2); [|lra].
  replace (/ a - / (a + 1)) with (/ (a * (a + 1))) by (field; lra). apply Rinv_lt_contravar; [|nra]. assert (0 < a ^ 2) by (apply pow_lt; auto). assert (0 < a * (a + 1)) by nra. nra.
Qed.
Lemma trigamma_pos a : 0 < a -> 0 < trigamma a.
Proof. intros Ha. pose proof (trigamma_gt a Ha). assert (0 < / a) by (apply Rinv_0_lt_compat; auto). lra. Qed.
Lemma digamma_incr a b : 0 < a -> a < b -> digamma a < digamma b.
Proof.
  intros Ha L. destruct (MVT_gen digamma a b trigamma) as [c [[C1 C2] E]].
  - intros x [X _]. rewrite Rmin_left in X by lra. apply digamma_trigamma. lra.
  - intros x [X _]. rewrite Rmin_left in X by lra. apply continuity_pt_filterlim. apply (ex_derive_continuous (V := R_NormedModule)). exists (trigamma x). apply digamma_trigamma. lra.
  - rewrite Rmin_left in C1 by lra. pose proof (trigamma_pos c ltac:(lra)). nra.
Qed.
Lemma digamma_inj a b : 0 < a -> 0 < b -> digamma a = digamma b -> a = b.
Proof. intros A B E. destruct (Rtotal_order a b) as [L|[L|L]]; auto; apply digamma_incr in L; lra. Qed.
(** ln - digamma is strictly decreasing. *)
Lemma lndig_decr a b : 0 < a -> a < b -> ln b - digamma b < ln a - digamma a.
Proof.
  intros Ha L. destruct (MVT_gen (fun x => digamma x - ln x) a b (fun x => trigamma x - / x)) as [c [[C1 C2] E]].
  - intros x [X _]. rewrite Rmin_left in X by lra. apply (is_derive_minus digamma ln); [apply digamma_trigamma; lra|apply is_derive_ln; lra].
  - intros x [X _]. rewrite Rmin_left in X by lra. apply continuity_pt_filterlim. apply (ex_derive_continuous (V := R_NormedModule) (fun x => digamma x - ln x)). exists (trigamma x - / x).
    apply (is_derive_minus digamma ln); [apply digamma_trigamma; lra|apply is_derive_ln; lra].
  - rewrite Rmin_left in C1 by lra. pose proof (trigamma_gt c ltac:(lra)). nra.
Qed.
(** Tangent lines: loggamma is convex and k ln k - k - loggamma k is concave ... *)
Lemma tangent_ineq (f f' : R -> R) x y : (forall t, 0 < t -> is_derive f t (f' t)) -> (forall s t, 0 < s -> s < t -> f' s <= f' t) -> 0 < x -> 0 < y -> f x + f' x * (y - x) <= f y.
Proof.
  intros D M X Y. destruct (MVT_gen f x y f') as [c [[C1 C2] E]].
  - intros t [T _]. apply D. revert T. unfold Rmin. destruct (Rle_dec x y); lra.
  - intros t [T _]. apply continuity_pt_filterlim. apply (ex_derive_continuous (V := R_NormedModule)). exists (f' t). apply D. revert T. unfold Rmin. destruct (Rle_dec x y); lra.
  - assert (CP : 0 < c) by (revert C1; unfold Rmin; destruct (Rle_dec x y); lra).
    assert (f' x * (y - x) <= f' c * (y - x)); [|lra].
    destruct (Rtotal_order x c) as [L|[->|L]]; [|lra|].
    + assert (c <= y) by (revert C2 L C1; unfold Rmin, Rmax; destruct (Rle_dec x y); lra). pose proof (M x c X L). nra.
    + assert (y <= c) by (revert C2 L C1; unfold Rmin, Rmax; destruct (Rle_dec x y); lra). pose proof (M c x CP L). nra.
Qed.
Lemma loggamma_tangent x y : 0 < x -> 0 < y -> loggamma x + digamma x * (y - x) <= loggamma y.
Proof. apply tangent_ineq; [apply loggamma_digamma|]. intros s t A B. left. apply digamma_incr; auto. Qed.
Lemma gdual_tangent x y : 0 < x -> 0 < y ->
  loggamma x - x * ln x + x + (digamma x - ln x) * (y - x) <= loggamma y - y * ln y + y.
Proof.
  apply (tangent_ineq (fun t => loggamma t - t * ln t + t) (fun t => digamma t - ln t)).
  - intros t T. evar_last; [apply (is_derive_plus (fun t => loggamma t - t * ln t) (fun t => t)); [apply (is_derive_minus loggamma (fun t => t * ln t)); [apply loggamma_digamma; auto|]|apply is_derive_id]|].
    + auto_derive; auto.
    + unfold plus, minus, opp, one; simpl. unfold plus, opp; simpl. field. lra.
  - intros s t A B. pose proof (lndig_decr s t A B). lra.
Qed.
