(** The law of sqrt(Z/c) with Z standard gamma: chi, Maxwell and Nakagami distributions. *)
From Coq Require Import Reals Lra Lia List.
From Coquelicot Require Import Coquelicot.
From Verif Require Import Values VTac Spec RLib LimLib DistLib DistLS IntLib SubLib MomLib SFun GammaLib GammaLib2 GammaLib3 M_sfun P_sfun GamLib.
Local Open Scope R_scope.
Set Bullet Behavior "Strict Subproofs".

Section Q.
Variables a c : R.
Hypothesis HA : 0 < a.
Hypothesis HC : 0 < c.
Definition qF (z : R) := gF a (c * z ^ 2).
Definition qf (z : R) := gf a (c * z ^ 2) * (2 * c * z).
Definition qQ (p : R) := sqrt (gQ a p / c).
Lemma sq_pos z : 0 < z -> 0 < c * z ^ 2. Proof. intros. apply Rmult_lt_0_compat; auto. apply pow_lt; auto. Qed.
Lemma qSB : subst 0 p_infty 0 p_infty (fun z => c * z ^ 2) (fun z => 2 * c * z) (fun y => sqrt (y / c)).
Proof.
  constructor.
  - exact I.
  - intros x [X _]. simpl in X. split; [apply sq_pos; auto|exact I].
  - intros x _. auto_derive; auto. ring.
  - intros x _. apply ex_derive_cont. auto_derive; auto.
  - intros y [Y _]. simpl in Y. assert (0 < y / c) by (apply Rdiv_pos; auto). split; [split; [apply sqrt_lt_R0; auto|exact I]|].
    rewrite pow2_sqrt by lra. field. lra.
Qed.
Lemma qINC x : inside 0 p_infty x -> 0 < 2 * c * x. Proof. intros [X _]. simpl in X. nra. Qed.
Lemma qST : std 0 p_infty qF qf qQ.
Proof. exact (sub_std qSB qINC (gF a) (gf a) (gQ a) (gST a HA)). Qed.
Lemma qf_pos z : 0 < z -> 0 < qf z. Proof. intros. apply Rmult_lt_0_compat; [apply gf_pos; auto|nra]. Qed.
Lemma qf_ln z : 0 < z -> qf z = exp (ln 2 + a * ln c - loggamma a + (2 * a - 1) * ln z - c * z ^ 2).
Proof.
  intros Z. unfold qf. rewrite (gf_ln a HA) by (apply sq_pos; auto).
  replace (2 * c * z) with (exp (ln 2 + ln c + ln z)) by (rewrite !exp_plus, !exp_ln by lra; ring). rewrite <- exp_plus. f_equal.
  rewrite ln_mult by (auto; apply pow_lt; auto). rewrite ln_pow by auto. simpl INR. ring.
Qed.
Lemma ln_qf z : 0 < z -> ln (qf z) = ln 2 + a * ln c - loggamma a + (2 * a - 1) * ln z - c * z ^ 2.
Proof. intros. rewrite qf_ln, ln_exp; auto. Qed.
Lemma gf_cont z : 0 < z -> continuous (gf a) z.
Proof. intros Z. destruct (gST a HA) as [_ C _]. apply C. split; simpl; auto. Qed.
Lemma sub_g (g : R -> R) v : (forall y, 0 < y -> continuous g y) -> integrates_to (fun y => g y * gf a y) 0 p_infty v ->
  integrates_to (fun z => g (c * z ^ 2) * qf z) 0 p_infty v.
Proof.
  intros C H. apply (integrates_ext 0 p_infty I (fun z => (fun y => g y * gf a y) (c * z ^ 2) * (2 * c * z))).
  - intros z _. unfold qf. ring.
  - apply (sub_integral qSB qINC (fun y => g y * gf a y) v); [|exact H]. intros y [Y _]. simpl in Y. apply (continuous_mult g (gf a)); auto. apply gf_cont; auto.
Qed.
Definition qM (n : nat) := Rpower c (- (INR n / 2)) * gM a (INR n / 2).
Lemma q_moment n : integrates_to (fun z => z ^ n * qf z) 0 p_infty (qM n).
Proof.
  pose proof (pos_INR n). apply (integrates_ext 0 p_infty I (fun z => Rpower c (- (INR n / 2)) * (Rpower (c * z ^ 2) (INR n / 2) * qf z))).
  - intros z [Z _]. simpl in Z. rewrite <- Rmult_assoc. f_equal. assert (0 < z ^ 2) by (apply pow_lt; auto). unfold Rpower. rewrite <- exp_plus.
    rewrite ln_mult by auto. rewrite ln_pow by auto. simpl (INR 2). rewrite <- Rpower_pow by auto. unfold Rpower. f_equal. field.
  - apply integrates_scal. apply (sub_g (fun y => Rpower y (INR n / 2))).
    + intros y Y. apply ex_derive_cont. exists (INR n / 2 * Rpower y (INR n / 2 - 1)). apply is_derive_Reals. apply derivable_pt_lim_power. auto.
    + apply g_moment; auto. lra.
Qed.
Lemma qM_even n : qM (2 * n) = gM a (INR n) / c ^ n.
Proof. unfold qM. rewrite mult_INR. simpl (INR 2). replace ((1 + 1) * INR n / 2) with (INR n) by field. rewrite Rpower_Ropp, Rpower_pow by auto. unfold Rdiv. ring. Qed.
Lemma qM2 : qM 2 = a / c.
Proof. change 2%nat with (2 * 1)%nat. rewrite qM_even. simpl INR. rewrite gM1 by auto. f_equal. ring. Qed.
Lemma qM1 : qM 1 = Gamma (a + 1 / 2) / Gamma a / sqrt c.
Proof. unfold qM, gM. simpl INR. rewrite Rpower_Ropp. replace (1 / 2) with (/ 2) by field. rewrite Rpower_sqrt by auto. unfold Rdiv. ring. Qed.
Lemma q_lnz : integrates_to (fun z => ln z * qf z) 0 p_infty ((digamma a - ln c) / 2).
Proof.
  replace ((digamma a - ln c) / 2) with (1 / 2 * digamma a + - (ln c / 2) * 1) by field.
  apply (integrates_ext 0 p_infty I (fun z => 1 / 2 * (ln (c * z ^ 2) * qf z) + - (ln c / 2) * qf z)).
  - intros z [Z _]. simpl in Z. rewrite ln_mult by (auto; apply pow_lt; auto). rewrite ln_pow by auto. simpl INR. field.
  - apply integrates_plus; apply integrates_scal.
    + apply (sub_g ln); [|apply g_ln; auto]. intros y Y. apply ex_derive_cont. exists (/ y). apply is_derive_ln. auto.
    + apply (std_mass 0 p_infty I _ _ _ qST).
Qed.
Lemma q_entropy : integrates_to (fun z => - (qf z * ln (qf z))) 0 p_infty
  ((1 / 2 - a) * digamma a - ln c / 2 + a + loggamma a - ln 2).
Proof.
  replace ((1 / 2 - a) * digamma a - ln c / 2 + a + loggamma a - ln 2)
    with (- (ln 2 + a * ln c - loggamma a) * 1 + ((1 - 2 * a) * ((digamma a - ln c) / 2) + c * (a / c))) by (field; lra).
  apply (integrates_ext 0 p_infty I (fun z => - (ln 2 + a * ln c - loggamma a) * qf z + ((1 - 2 * a) * (ln z * qf z) + c * (z ^ 2 * qf z)))).
  - intros z [Z _]. simpl in Z. rewrite ln_qf by auto. ring.
  - apply integrates_plus; [|apply integrates_plus]; apply integrates_scal.
    + apply (std_mass 0 p_infty I _ _ _ qST).
    + apply q_lnz.
    + rewrite <- qM2. apply q_moment.
Qed.
(** The density rises up to sqrt((a - 1/2)/c) and falls after. *)
Lemma qf_le x y : 0 < x -> 0 < y -> (y - x) * (a - 1 / 2 - c * y ^ 2) >= 0 -> qf x <= qf y.
Proof.
  intros X Y H. assert (HA' : 0 < a + 1 / 2) by lra.
  pose proof (gf_le (a + 1 / 2) HA' (c * x ^ 2) (c * y ^ 2) (sq_pos x X) (sq_pos y Y)) as L.
  assert (L' : gf (a + 1 / 2) (c * x ^ 2) <= gf (a + 1 / 2) (c * y ^ 2)).
  { apply L. replace ((c * y ^ 2 - c * x ^ 2) * (a + 1 / 2 - 1 - c * y ^ 2)) with (c * (x + y) * ((y - x) * (a - 1 / 2 - c * y ^ 2))) by field. apply Rle_ge. apply Rmult_le_pos; [|lra]. nra. }
  assert (E : forall z, 0 < z -> qf z = exp (ln 2 + ln c / 2 + loggamma (a + 1 / 2) - loggamma a) * gf (a + 1 / 2) (c * z ^ 2)).
  { intros z Z. rewrite qf_ln, gf_ln by (auto; apply sq_pos; auto). rewrite <- exp_plus. f_equal. rewrite ln_mult by (auto; apply pow_lt; auto). rewrite ln_pow by auto. simpl INR. field. }
  rewrite !E by auto. apply Rmult_le_compat_l; auto. left. apply exp_pos.
Qed.
End Q.
