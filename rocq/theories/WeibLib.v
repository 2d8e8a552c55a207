(** Moments of the standard Weibull density k z^(k-1) exp(-z^k). *)
From Coq Require Import Reals Lra Lia List.
From Coquelicot Require Import Coquelicot.
From Verif Require Import SFun RLib DistLib DistLS LimLib IntLib SubLib MomLib LSMom LLib GammaLib GammaLib3 GamLib EulerLib TrigLib Spec SpecEuler.
Local Open Scope R_scope.
Set Bullet Behavior "Strict Subproofs".
(** Reflection of an integral. *)
Lemma refl_sub lo hi : Rbar_lt lo hi -> subst (Rbar_opp hi) (Rbar_opp lo) lo hi Ropp (fun _ => Ropp 1) Ropp.
Proof.
  intros L. constructor; auto.
  - intros x [A B]. split; [destruct lo|destruct hi]; simpl in *; try contradiction; auto; lra.
  - intros x _. evar_last; [apply (is_derive_opp (fun x : R => x)); apply is_derive_id|reflexivity].
  - intros x _. apply continuous_const.
  - intros y [A B]. split; [|ring]. split; [destruct hi|destruct lo]; simpl in *; try contradiction; auto; lra.
Qed.
Lemma integrates_refl lo hi g v : Rbar_lt lo hi -> (forall y, inside lo hi y -> continuous g y) -> integrates_to g lo hi v ->
  integrates_to (fun x => g (- x)) (Rbar_opp hi) (Rbar_opp lo) v.
Proof.
  intros L C I. pose proof (refl_sub lo hi L) as SB. apply (integrates_ext _ _ (sb_lt' SB) (fun x => g (- x) * - Ropp 1)); [intros; ring|].
  apply (sub_integral_dec SB); auto. intros; lra.
Qed.
Section W.
Variable k : R.
Hypothesis K : 0 < k.
Definition wf (z : R) := k * Rpower z (k - 1) * exp (- Rpower z k).
Lemma wSB : subst 0 p_infty 0 p_infty (fun z => Rpower z k) (fun z => k * Rpower z (k - 1)) (fun t => Rpower t (1 / k)).
Proof.
  constructor; [exact I|..].
  - intros z _. split; [apply Rpower_pos|exact I].
  - intros z [H _]. simpl in H. apply is_derive_Rpower; auto.
  - intros z [H _]. simpl in H. apply ex_derive_cont. unfold Rpower. auto_derive. auto.
  - intros t [H _]. simpl in H. split; [split; [apply Rpower_pos|exact I]|]. apply Rpower_inv; auto; lra.
Qed.
Lemma wINC z : inside 0 p_infty z -> 0 < k * Rpower z (k - 1).
Proof. intros _. apply Rmult_lt_0_compat; auto. apply Rpower_pos. Qed.
Lemma w_cont z : 0 < z -> continuous wf z.
Proof. intros H. apply ex_derive_cont. unfold wf, Rpower. auto_derive. auto. Qed.
Lemma w_pow r : -1 < r -> integrates_to (fun z => Rpower (Rpower z k) r * wf z) 0 p_infty (Gamma (1 + r)).
Proof.
  intros P. apply (integrates_ext 0 p_infty I (fun z => gamma_kernel (1 + r) (Rpower z k) * (k * Rpower z (k - 1)))).
  - intros z _. unfold gamma_kernel, wf. replace (1 + r - 1) with r by ring. ring.
  - apply (sub_integral wSB wINC (gamma_kernel (1 + r))); [intros y [H _]; apply gk_cont; auto|]. apply Gamma_int. lra.
Qed.
Definition wM (n : nat) := Gamma (1 + INR n / k).
Lemma w_mom n : integrates_to (fun z => z ^ n * wf z) 0 p_infty (wM n).
Proof.
  unfold wM. assert (P : 0 <= INR n / k) by (apply Rdiv_nonneg; auto; apply pos_INR).
  apply (integrates_ext 0 p_infty I (fun z => Rpower (Rpower z k) (INR n / k) * wf z)); [|apply w_pow; lra].
  intros z [H _]. simpl in H. f_equal. rewrite Rpower_mult. replace (k * (INR n / k)) with (INR n) by (field; lra). apply Rpower_pow; auto.
Qed.
Lemma gf1' t : gf 1 t = exp (- t).
Proof. unfold gf, gamma_kernel. rewrite Gamma_1. replace (1 - 1) with 0 by ring. destruct (Rlt_le_dec 0 t) as [H|H]; [rewrite Rpower_O by auto; field|]. unfold Rpower. rewrite Rmult_0_l, exp_0. field. Qed.
Lemma w_ln : integrates_to (fun z => ln z * wf z) 0 p_infty (digamma 1 / k).
Proof.
  apply (integrates_ext 0 p_infty I (fun z => / k * ((ln (Rpower z k) * gf 1 (Rpower z k)) * (k * Rpower z (k - 1))))).
  - intros z _. rewrite gf1', ln_Rpower. unfold wf. field. lra.
  - unfold Rdiv. rewrite Rmult_comm. apply integrates_scal. apply (sub_integral wSB wINC (fun t => ln t * gf 1 t)); [|apply g_ln; lra]. intros y [H _]. simpl in H.
    apply (continuous_ext (fun t => ln t * exp (- t))); [intros; rewrite gf1'; auto|]. apply ex_derive_cont. auto_derive. auto.
Qed.
Lemma Gamma_2 : Gamma 2 = 1.
Proof. replace 2 with (INR 1 + 1) by (simpl; ring). rewrite Gamma_fact. reflexivity. Qed.
Lemma w_ent : integrates_to (fun z => - (wf z * ln (wf z))) 0 p_infty (- ln k - (k - 1) * (digamma 1 / k) + 1).
Proof.
  apply (integrates_ext 0 p_infty I (fun z => - ln k * (z ^ 0 * wf z) + - (k - 1) * (ln z * wf z) + Rpower (Rpower z k) 1 * wf z)).
  - intros z [H _]. simpl in H. assert (E : ln (wf z) = ln k + (k - 1) * ln z - Rpower z k).
    { unfold wf. pose proof (Rpower_pos z (k - 1)). rewrite ln_mult, ln_mult, ln_exp, ln_Rpower; auto using exp_pos, Rmult_lt_0_compat. }
    rewrite E, Rpower_1 by apply Rpower_pos. ring.
  - replace (- ln k - (k - 1) * (digamma 1 / k) + 1) with (- ln k * wM 0 + - (k - 1) * (digamma 1 / k) + Gamma (1 + 1)).
    + apply integrates_plus; [|apply w_pow; lra]. apply integrates_plus; [apply integrates_scal, w_mom|apply integrates_scal, w_ln].
    + unfold wM. simpl. unfold Rdiv. rewrite Rmult_0_l, Rplus_0_r, Gamma_1. replace (1 + 1) with 2 by ring. rewrite Gamma_2. ring.
Qed.
End W.
(** The standard Gumbel density. *)
Definition uf (z : R) := exp (- (z + exp (- z))).
Lemma uSB : subst m_infty p_infty 0 p_infty (fun z => exp (- z)) (fun z => - exp (- z)) (fun t => - ln t).
Proof.
  constructor; [exact I|..].
  - intros z _. split; [apply exp_pos|exact I].
  - intros z _. auto_derive; auto. ring.
  - intros z _. apply ex_derive_cont. auto_derive. auto.
  - intros t [H _]. simpl in H. split; [split; exact I|]. rewrite Ropp_involutive, exp_ln; auto.
Qed.
Lemma u_int (g : R -> R) v : (forall t, 0 < t -> continuous g t) -> integrates_to (fun t => g t * exp (- t)) 0 p_infty v -> integrates_to (fun z => g (exp (- z)) * uf z) m_infty p_infty v.
Proof.
  intros C G. apply (integrates_ext m_infty p_infty I (fun z => (g (exp (- z)) * exp (- exp (- z))) * - - exp (- z))).
  - intros z _. unfold uf. rewrite Ropp_plus_distr, exp_plus. ring.
  - apply (sub_integral_dec uSB) with (g := fun t => g t * exp (- t)); auto.
    + intros z _. pose proof (exp_pos (- z)). lra.
    + intros t [H _]. apply (continuous_mult g (fun t => exp (- t))); [apply C; auto|apply ex_derive_cont; auto_derive; auto].
Qed.
Lemma u_1 : integrates_to (fun z => z * uf z) m_infty p_infty (- digamma 1).
Proof.
  apply (integrates_ext m_infty p_infty I (fun z => - ln (exp (- z)) * uf z)); [intros; rewrite ln_exp, Ropp_involutive; auto|].
  apply (u_int (fun t => - ln t)); [intros t H; apply ex_derive_cont; auto_derive; auto|].
  apply (integrates_ext 0 p_infty I (fun t => -1 * (ln t * gf 1 t))); [intros t _; rewrite gf1'; ring|]. replace (- digamma 1) with (-1 * digamma 1) by ring. apply integrates_scal, g_ln. lra.
Qed.
Lemma u_2 : integrates_to (fun z => z ^ 2 * uf z) m_infty p_infty (PI ^ 2 / 6 + digamma 1 ^ 2).
Proof.
  apply (integrates_ext m_infty p_infty I (fun z => ln (exp (- z)) ^ 2 * uf z)); [intros; rewrite ln_exp; ring|].
  apply (u_int (fun t => ln t ^ 2)); [intros t H; apply ex_derive_cont; auto_derive; auto|]. rewrite <- Lg2_1.
  apply (integrates_ext 0 p_infty I (lgk 2 1)); [|apply Lg_int; lra]. intros t [H _]. simpl in H. unfold lgk, gamma_kernel. replace (1 - 1) with 0 by ring. rewrite Rpower_O by auto. ring.
Qed.
