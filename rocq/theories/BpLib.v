(** The standard beta prime law: Z / (1 - Z) for a beta variable Z. *)
From Coq Require Import Reals Lra Lia List.
From Coquelicot Require Import Coquelicot.
From Verif Require Import Values Spec RLib LimLib DistLib DistLS IntLib SubLib MomLib NoInt SFun GammaLib GammaLib2 GammaLib3 IncLib BetaLib.
Local Open Scope R_scope.
Set Bullet Behavior "Strict Subproofs".

Definition phi (z : R) := z / (1 + z).
Definition dphi (z : R) := / (1 + z) ^ 2.
Definition psi (t : R) := t / (1 - t).
Lemma lt01' : Rbar_lt 0 1. Proof. simpl; lra. Qed.
Lemma lt0i : Rbar_lt 0 p_infty. Proof. exact Logic.I. Qed.
Lemma phi_in z : 0 < z -> 0 < phi z < 1.
Proof. intros Z. unfold phi. split; [apply Rdiv_pos; lra|]. apply (Rmult_lt_reg_r (1 + z)); [lra|]. unfold Rdiv. rewrite Rmult_assoc, Rinv_l by lra. lra. Qed.
Lemma phi_1 z : 0 < 1 + z -> 1 - phi z = / (1 + z). Proof. intros. unfold phi. field. lra. Qed.
Lemma psi_pos t : 0 < t < 1 -> 0 < psi t. Proof. intros. unfold psi. apply Rdiv_pos; lra. Qed.
Lemma phi_psi t : 0 < t < 1 -> phi (psi t) = t. Proof. intros. unfold phi, psi. field. split; [lra|]. replace (1 - t + t) with 1 by ring. lra. Qed.
Lemma psi_phi z : 0 < z -> psi (phi z) = z. Proof. intros. unfold phi, psi. field. split; lra. Qed.
Lemma SB : SubLib.subst 0 p_infty 0 1 phi dphi psi.
Proof.
  constructor.
  - apply lt01'.
  - intros x [X _]. simpl in X. pose proof (phi_in x X). split; simpl; lra.
  - intros x [X _]. simpl in X. unfold phi, dphi. auto_derive; [lra|]. field. lra.
  - intros x [X _]. simpl in X. apply ex_derive_cont. unfold dphi. auto_derive. nra.
  - intros t [T0 T1]. simpl in T0, T1. split; [split; simpl; auto; apply psi_pos; lra|apply phi_psi; lra].
Qed.
Lemma dphi_pos x : inside 0 p_infty x -> 0 < dphi x.
Proof. intros [X _]. simpl in X. unfold dphi. apply Rinv_0_lt_compat, pow_lt. lra. Qed.
Lemma dphi_eq z : 0 < 1 + z -> dphi z = (1 - phi z) ^ 2. Proof. intros. rewrite phi_1 by auto. unfold dphi. field. lra. Qed.

Section P.
Variables a b : R.
Hypothesis HA : 0 < a.
Hypothesis HB : 0 < b.
Definition pF (z : R) := bF a b (phi z).
Definition pf (z : R) := bf a b (phi z) * dphi z.
Definition pQ (p : R) := psi (bQ a b p).
Lemma pST : std 0 p_infty pF pf pQ.
Proof. apply (sub_std SB dphi_pos). apply bST; auto. Qed.
Lemma pf_pos z : 0 < z -> 0 < pf z.
Proof. intros Z. apply Rmult_lt_0_compat; [apply bf_pos; auto|apply dphi_pos; split; simpl; auto]. Qed.
Lemma ln_pf z : 0 < z -> ln (pf z) = (a - 1) * ln z - (a + b) * ln (1 + z) - ln (Beta a b).
Proof.
  intros Z. pose proof (phi_in z Z) as P. unfold pf. rewrite ln_mult by (try apply bf_pos; try apply dphi_pos; auto; split; simpl; auto). rewrite ln_bf by auto.
  rewrite phi_1 by lra. unfold dphi, phi. rewrite ln_div, !ln_Rinv by (try apply pow_lt; lra). simpl pow. rewrite !ln_mult by lra. rewrite ln_1. ring.
Qed.
Lemma pf_exp z : 0 < z -> pf z = exp ((a - 1) * ln z - (a + b) * ln (1 + z) - ln (Beta a b)).
Proof. intros Z. rewrite <- ln_pf by auto. rewrite exp_ln; auto. apply pf_pos; auto. Qed.
(** Integrals against the law are integrals against the beta law. *)
Lemma p_int (g : R -> R) v : (forall t, 0 < t < 1 -> continuous g t) -> integrates_to (fun t => g t * bf a b t) 0 1 v -> integrates_to (fun z => g (phi z) * pf z) 0 p_infty v.
Proof.
  intros C I. apply (integrates_ext 0 p_infty lt0i (fun z => g (phi z) * bf a b (phi z) * dphi z)); [intros; unfold pf; ring|].
  apply (sub_integral SB dphi_pos (fun t => g t * bf a b t)); auto. intros y [Y0 Y1]. simpl in Y0, Y1. apply (continuous_mult g (bf a b)); [apply C; lra|apply bf_cont; auto].
Qed.
Definition pM (n : nat) := bM a b (INR n) (- INR n).
Lemma psi_pow n t : 0 < t < 1 -> psi t ^ n = Rpower t (INR n) * Rpower (1 - t) (- INR n).
Proof. intros T. rewrite Rpower_Ropp, !Rpower_pow by lra. unfold psi, Rdiv. rewrite Rpow_mult_distr, pow_inv. reflexivity. Qed.
Lemma p_momentn n : INR n < b -> integrates_to (fun z => z ^ n * pf z) 0 p_infty (pM n).
Proof.
  intros N. pose proof (pos_INR n). apply (integrates_ext 0 p_infty lt0i (fun z => (fun t => psi t ^ n) (phi z) * pf z)); [intros z [Z _]; simpl in Z; rewrite psi_phi; auto|].
  apply (p_int (fun t => psi t ^ n)).
  - intros t T. apply (continuous_comp psi (fun y => y ^ n)); apply ex_derive_cont; unfold psi; auto_derive; auto; lra.
  - apply (integrates_ext 0 1 lt01' (fun z => Rpower z (INR n) * Rpower (1 - z) (- INR n) * bf a b z)); [intros t [T0 T1]; simpl in *; rewrite psi_pow; auto|].
    apply b_moment; auto; lra.
Qed.
Lemma pM_0 : pM 0 = 1. Proof. unfold pM. simpl INR. rewrite Ropp_0. apply bM_0; auto. Qed.
Lemma pM_S n : INR n + 1 < b -> pM (S n) = (a + INR n) / (b - INR n - 1) * pM n.
Proof.
  intros N. pose proof (pos_INR n). unfold pM. rewrite S_INR.
  replace (- (INR n + 1)) with (- INR n - 1) by ring. rewrite bM_pred by lra. rewrite bM_succ by lra. field. split; lra.
Qed.
Lemma pM1 : 1 < b -> pM 1 = a / (b - 1).
Proof. intros. rewrite pM_S by (simpl; lra). rewrite pM_0. simpl INR. field. lra. Qed.
Lemma pM2 : 2 < b -> pM 2 = a * (a + 1) / ((b - 1) * (b - 2)).
Proof. intros. rewrite pM_S by (simpl; lra). rewrite pM1 by lra. simpl INR. field. lra. Qed.
Lemma pM3 : 3 < b -> pM 3 = a * (a + 1) * (a + 2) / ((b - 1) * (b - 2) * (b - 3)).
Proof. intros. rewrite pM_S by (simpl; lra). rewrite pM2 by lra. simpl INR. field. lra. Qed.
Lemma pM4 : 4 < b -> pM 4 = a * (a + 1) * (a + 2) * (a + 3) / ((b - 1) * (b - 2) * (b - 3) * (b - 4)).
Proof. intros. rewrite pM_S by (simpl; lra). rewrite pM3 by lra. simpl INR. field. lra. Qed.
Lemma p_entropy : integrates_to (fun z => - (pf z * ln (pf z))) 0 p_infty
  (ln (Beta a b) - (a - 1) * digamma a - (b + 1) * digamma b + (a + b) * digamma (a + b)).
Proof.
  apply (integrates_ext 0 p_infty lt0i (fun z => (fun t => - ln (bf a b t) - 2 * ln (1 - t)) (phi z) * pf z)).
  - intros z [Z _]. simpl in Z. pose proof (phi_in z Z). unfold pf at 3. rewrite ln_mult by (try apply bf_pos; try apply dphi_pos; auto; split; simpl; auto).
    rewrite dphi_eq by lra. simpl pow. rewrite !ln_mult by lra. rewrite ln_1. ring.
  - apply (p_int (fun t => - ln (bf a b t) - 2 * ln (1 - t))).
    + intros t T. apply (continuous_minus (fun t => - ln (bf a b t)) (fun t => 2 * ln (1 - t))).
      * apply (continuous_opp (fun t => ln (bf a b t))). apply (continuous_comp (bf a b) ln); [apply bf_cont; auto|apply ex_derive_cont; auto_derive; apply bf_pos; auto].
      * apply ex_derive_cont. auto_derive. lra.
    + apply (integrates_ext 0 1 lt01' (fun t => - (bf a b t * ln (bf a b t)) + (-2) * (ln (1 - t) * bf a b t))); [intros; ring|].
      replace (ln (Beta a b) - (a - 1) * digamma a - (b + 1) * digamma b + (a + b) * digamma (a + b)) with
        (ln (Beta a b) - (a - 1) * digamma a - (b - 1) * digamma b + (a + b - 2) * digamma (a + b) + (-2) * (digamma b - digamma (a + b))) by ring.
      apply (integrates_plus 0 1 (fun t => - (bf a b t * ln (bf a b t)))); [apply b_entropy; auto|]. apply integrates_scal. apply b_ln1; auto.
Qed.
(** The n-th moment is infinite unless n < b. *)
Lemma pf_cont z : 0 < z -> continuous pf z.
Proof. intros Z. apply (st_cont _ _ _ _ _ pST). split; simpl; auto. Qed.
Lemma pf_tail z : 1 <= z -> / (Beta a b * Rpower 2 (a + b)) * Rpower z (- 1 - b) <= pf z.
Proof.
  intros Z. pose proof (Beta_pos a b HA HB) as BP. pose proof (exp_pos ((a + b) * ln 2)) as P2.
  rewrite pf_exp by lra. replace (/ (Beta a b * Rpower 2 (a + b))) with (exp (- ln (Beta a b) - (a + b) * ln 2)).
  - unfold Rpower. rewrite <- exp_plus. apply exp_le_compat.
    assert (L : ln (1 + z) <= ln 2 + ln z) by (rewrite <- ln_mult by lra; apply ln_le; lra).
    assert ((a + b) * ln (1 + z) <= (a + b) * (ln 2 + ln z)) by (apply Rmult_le_compat_l; lra). lra.
  - unfold Rminus. rewrite exp_plus, !exp_Ropp, exp_ln by auto. unfold Rpower. field. lra.
Qed.
Lemma no_moment n (g : R -> R) c k : b <= INR n -> 0 < k -> 1 <= c -> (forall z, 0 < z -> continuous g z) -> (forall z, c <= z -> k * z ^ n <= g z) ->
  forall v, ~ integrates_to (fun z => g z * pf z) 0 p_infty v.
Proof.
  intros N K C1 GC GE. set (K0 := k * / (Beta a b * Rpower 2 (a + b))).
  assert (KP : 0 < K0) by (apply Rmult_lt_0_compat; auto; apply Rinv_0_lt_compat, Rmult_lt_0_compat; [apply Beta_pos; auto|apply exp_pos]).
  apply (no_integral 0 p_infty _ c (fun z => K0 * ln z) (fun z => K0 / z)).
  - split; simpl; auto. lra.
  - intros z [Z _]. simpl in Z. apply (continuous_mult g pf); [apply GC; auto|apply pf_cont; auto].
  - intros z [Z _] CZ. simpl in Z. split; [auto_derive; [lra|]; field; lra|].
    apply Rle_trans with (k * z ^ n * (/ (Beta a b * Rpower 2 (a + b)) * Rpower z (- 1 - b))).
    + unfold K0. replace (k * z ^ n * (/ (Beta a b * Rpower 2 (a + b)) * Rpower z (-1 - b))) with (k * / (Beta a b * Rpower 2 (a + b)) * (z ^ n * Rpower z (-1 - b))) by ring.
      apply Rmult_le_compat_l; [left; exact KP|]. rewrite <- Rpower_pow by auto. rewrite <- Rpower_plus. apply Rle_trans with (Rpower z (-1)).
      * assert (E : Rpower z (-1) = / z) by (replace (-1) with (- (1)) by ring; rewrite Rpower_Ropp, Rpower_1; auto). rewrite E. right. reflexivity.
      * unfold Rpower. apply exp_le_compat. assert (0 <= ln z) by (rewrite <- ln_1; apply ln_le; lra). apply Rmult_le_compat_r; auto. lra.
    + apply Rmult_le_compat; [apply Rmult_le_pos; [lra|apply pow_le; lra]| |apply GE; auto|apply pf_tail; lra].
      apply Rmult_le_pos; [left; apply Rinv_0_lt_compat, Rmult_lt_0_compat; [apply Beta_pos; auto|apply exp_pos]|left; apply exp_pos].
  - intros M. simpl. exists (exp (M / K0)). intros z Z. assert (L : M / K0 < ln z) by (rewrite <- (ln_exp (M / K0)); apply ln_increasing; auto; apply exp_pos).
    apply (Rmult_lt_compat_l K0) in L; auto. replace (K0 * (M / K0)) with M in L by (field; lra). auto.
Qed.
End P.
