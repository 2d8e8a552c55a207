(** Proofs about M_vonmises. *)
From Coq Require Import Reals Lra Lia List.
From Coquelicot Require Import Coquelicot.
From Verif Require Import Values VTac Spec RLib LimLib LLib DistLib IntLib MomLib PLib M_common SpecStat SpecEst.
From Verif Require Import M_argus M_vonmises.
From Verif Require SymLib.
Import ListNotations.
Local Open Scope R_scope.
Set Bullet Behavior "Strict Subproofs".

Section G.
Variable g : R -> R.
Hypothesis CT : forall x, continuous g x.
Notation P := (prim g 0).
Lemma P_der x : is_derive P x (g x).
Proof. apply (prim_der m_infty p_infty g 0); auto using SymLib.in_line. Qed.
Lemma P_cont x : continuous P x.
Proof. apply ex_derive_cont. eexists. apply P_der. Qed.
Lemma P_0 : P 0 = 0. Proof. apply prim_c. Qed.
Lemma const_diff (H : R -> R) : (forall x, is_derive H x 0) -> forall x, H x = H 0.
Proof. intros D x. destruct (Req_dec x 0) as [->|]; auto. destruct (MVT_gen H 0 x (fun _ => 0)) as (c & _ & E); [intros; apply D|intros; apply continuity_pt_filterlim, ex_derive_cont; eexists; apply D|lra]. Qed.
Lemma P_even : (forall x, g (- x) = g x) -> forall x, P (- x) = - P x.
Proof.
  intros E x. pose proof P_der as PD. pose proof P_0 as Z. set (p := P) in *. clearbody p.
  assert (K := const_diff (fun x => p (- x) + p x)). cbv beta in K. rewrite Ropp_0, Z in K. assert (p (- x) + p x = 0 + 0); [|lra]. apply K. intros y.
  assert (D1 := PD y). assert (D2 := PD (- y)). auto_derive; [repeat split; eexists; eauto|]. replace (Derive (fun x0 => p x0) y) with (g y) by (symmetry; apply is_derive_unique; auto). replace (Derive (fun x0 => p x0) (- y)) with (g (- y)) by (symmetry; apply is_derive_unique; auto). rewrite E. ring.
Qed.
Lemma P_odd : (forall x, g (- x) = - g x) -> forall x, P (- x) = P x.
Proof.
  intros E x. pose proof P_der as PD. pose proof P_0 as Z. set (p := P) in *. clearbody p.
  assert (K := const_diff (fun x => p (- x) - p x)). cbv beta in K. rewrite Ropp_0, Z in K. assert (p (- x) - p x = 0 - 0); [|lra]. apply K. intros y.
  assert (D1 := PD y). assert (D2 := PD (- y)). auto_derive; [repeat split; eexists; eauto|]. replace (Derive (fun x0 => p x0) y) with (g y) by (symmetry; apply is_derive_unique; auto). replace (Derive (fun x0 => p x0) (- y)) with (g (- y)) by (symmetry; apply is_derive_unique; auto). rewrite E. ring.
Qed.
Lemma shift_int mu : integrates_to (fun x => g (x - mu)) (- PI + mu) (PI + mu) (P PI - P (- PI)).
Proof.
  pose proof PI_RGT_0. apply (mk_integral _ (fun x => P (x - mu))).
  - simpl. lra.
  - intros x _. pose proof (P_der (x - mu)) as D. pose proof P_der as PD. set (p := P) in *. clearbody p. unfold Rminus in *. auto_derive; [eexists; eauto|]. replace (Derive (fun x0 => p x0) (x + - mu)) with (g (x + - mu)) by (symmetry; apply is_derive_unique; auto). ring.
  - intros x _. apply (continuous_comp (fun x => x - mu) g); [apply ex_derive_cont; auto_derive; auto|apply CT].
  - simpl. replace (P (- PI)) with (P (- PI + mu - mu)) by (f_equal; ring). apply (flim_right (fun x => P (x - mu))). apply (continuous_comp (fun x => x - mu) P); [apply ex_derive_cont; auto_derive; auto|apply P_cont].
  - simpl. replace (P PI) with (P (PI + mu - mu)) by (f_equal; ring). apply (flim_left (fun x => P (x - mu))). apply (continuous_comp (fun x => x - mu) P); [apply ex_derive_cont; auto_derive; auto|apply P_cont].
Qed.
Lemma even_int mu : (forall x, g (- x) = g x) -> integrates_to (fun x => g (x - mu)) (- PI + mu) (PI + mu) (2 * P PI).
Proof. intros E. pose proof (shift_int mu) as K. rewrite P_even in K by auto. replace (2 * P PI) with (P PI - - P PI) by ring. exact K. Qed.
Lemma odd_int mu : (forall x, g (- x) = - g x) -> integrates_to (fun x => g (x - mu)) (- PI + mu) (PI + mu) 0.
Proof. intros E. pose proof (shift_int mu) as K. rewrite P_odd in K by auto. rewrite Rminus_eq_0 in K. exact K. Qed.
End G.

Definition g0 (k t : R) := exp (k * cos t).
Definition J0 k := RInt (g0 k) 0 PI.
Definition J1 k := RInt (fun t => g0 k t * cos t) 0 PI.
Lemma g0_cont k x : continuous (g0 k) x. Proof. apply ex_derive_cont. unfold g0. auto_derive. auto. Qed.
Lemma g1_cont k x : continuous (fun t => g0 k t * cos t) x. Proof. apply ex_derive_cont. unfold g0. auto_derive. auto. Qed.
Lemma g2_cont k x : continuous (fun t => g0 k t * sin t) x. Proof. apply ex_derive_cont. unfold g0. auto_derive. auto. Qed.
Lemma g3_cont k x : continuous (fun t => g0 k t * sin t ^ 2) x. Proof. apply ex_derive_cont. unfold g0. auto_derive. auto. Qed.
Lemma J0_pos k : 0 < J0 k.
Proof. apply RInt_gt_0; [apply PI_RGT_0|intros; apply exp_pos|intros; apply g0_cont]. Qed.
Lemma J1_eq k : J1 k = k * RInt (fun t => g0 k t * sin t ^ 2) 0 PI.
Proof.
  assert (EX : forall g, (forall x, continuous g x) -> ex_RInt g 0 PI) by (intros g C; apply (ex_RInt_continuous (V := R_CompleteNormedModule)); intros; apply C).
  assert (I : is_RInt (fun t => g0 k t * cos t - k * (g0 k t * sin t ^ 2)) 0 PI (g0 k PI * sin PI - g0 k 0 * sin 0)).
  { apply (is_RInt_derive (fun t => g0 k t * sin t)).
    - intros x _. unfold g0. auto_derive; auto. simpl. ring.
    - intros x _. apply (continuous_minus (fun t => g0 k t * cos t) (fun t => k * (g0 k t * sin t ^ 2))); [apply g1_cont|]. apply (continuous_mult (fun _ => k)); [apply continuous_const|apply g3_cont]. }
  rewrite sin_PI, sin_0, !Rmult_0_r, Rminus_0_r in I. apply (is_RInt_unique (V := R_CompleteNormedModule)) in I.
  assert (J : is_RInt (fun t => g0 k t * cos t - k * (g0 k t * sin t ^ 2)) 0 PI (J1 k - k * RInt (fun t => g0 k t * sin t ^ 2) 0 PI)).
  { apply (is_RInt_minus (fun t => g0 k t * cos t) (fun t => k * (g0 k t * sin t ^ 2))); [|apply (is_RInt_scal (fun t => g0 k t * sin t ^ 2))]; apply (RInt_correct (V := R_CompleteNormedModule)); apply EX; intros; [apply g1_cont|apply g3_cont]. }
  apply (is_RInt_unique (V := R_CompleteNormedModule)) in J. rewrite I in J. change (@zero R_AbelianGroup) with 0 in *. lra.
Qed.
Lemma i0_eq k : vbesseli0 (Fin k) = Fin (J0 k / PI).
Proof. unfold vbesseli0. f_equal. unfold J0, g0. pose proof PI_RGT_0. field. lra. Qed.
Lemma i1_eq k : vbesseli1 (Fin k) = Fin (J1 k / PI).
Proof. unfold vbesseli1. f_equal. rewrite J1_eq. unfold g0. pose proof PI_RGT_0. field. lra. Qed.
Lemma J1_sign k : 0 < k -> 0 < J1 k.
Proof.
  intros K. rewrite J1_eq. apply Rmult_lt_0_compat; auto. pose proof PI_RGT_0. apply RInt_gt_0; auto; [|intros; apply g3_cont].
  intros x X. apply Rmult_lt_0_compat; [apply exp_pos|]. apply pow_lt. apply sin_gt_0; lra.
Qed.
Lemma J1_neg k : k < 0 -> J1 k < 0.
Proof.
  intros K. rewrite J1_eq. pose proof PI_RGT_0. assert (0 < RInt (fun t => g0 k t * sin t ^ 2) 0 PI); [|nra]. apply RInt_gt_0; auto; [|intros; apply g3_cont].
  intros x X. apply Rmult_lt_0_compat; [apply exp_pos|]. apply pow_lt. apply sin_gt_0; lra.
Qed.

Section P.
Variables kappa mu : R.
Lemma pdf_val (x : R) : pdf x kappa mu = Fin (g0 kappa (x - mu) / (2 * J0 kappa)).
Proof.
  unfold pdf. rewrite i0_eq. pose proof PI_RGT_0. pose proof (J0_pos kappa). change vpi with (Fin PI). assert (0 < J0 kappa / PI) by (apply Rdiv_pos; auto). assert (0 < 2 * PI * (J0 kappa / PI)) by nra. veval. f_equal. unfold g0. field. lra.
Qed.
Lemma supp : support kappa mu = Ok (Fin (- PI + mu), Fin (PI + mu)) /\
  (forall x : R, exists d, 0 < d /\ pdf x kappa mu = Fin d /\ pdf (Fin (x + 2 * PI)) kappa mu = Fin d /\ pdf (Fin (2 * mu - x)) kappa mu = Fin d).
Proof.
  split; [reflexivity|]. intros x. exists (g0 kappa (x - mu) / (2 * J0 kappa)). pose proof (J0_pos kappa). split; [apply Rdiv_pos; [apply exp_pos|lra]|].
  rewrite !pdf_val. unfold g0. replace (x + 2 * PI - mu) with (x - mu + 2 * PI) by ring. replace (2 * mu - x - mu) with (- (x - mu)) by ring. rewrite cos_neg.
  replace (cos (x - mu + 2 * PI)) with (cos (x - mu)) by (rewrite cos_plus, cos_2PI, sin_2PI; ring). auto.
Qed.
Lemma mass : total_mass_one (fun x => pdf x kappa mu) (- PI + mu) (PI + mu).
Proof.
  pose proof PI_RGT_0. assert (LT : Rbar_lt (- PI + mu) (PI + mu)) by (simpl; lra). pose proof (J0_pos kappa). unfold total_mass_one.
  apply (integrates_ext _ _ LT (fun x => / (2 * J0 kappa) * g0 kappa (x - mu))); [intros; rewrite pdf_val; simpl; unfold Rdiv; ring|].
  replace 1 with (/ (2 * J0 kappa) * (2 * J0 kappa)) by (field; lra). apply integrates_scal. apply even_int; [apply g0_cont|]. intros; unfold g0; rewrite cos_neg; auto.
Qed.
Lemma log_ok (x : R) : log_of (fun x => pdf x kappa mu) (fun x => logpdf x kappa mu) x.
Proof.
  left. exists (g0 kappa (x - mu) / (2 * J0 kappa)). pose proof (J0_pos kappa). pose proof PI_RGT_0. split; [apply Rdiv_pos; [apply exp_pos|lra]|]. split; [apply pdf_val|].
  unfold logpdf. rewrite i0_eq. change vpi with (Fin PI). assert (0 < J0 kappa / PI) by (apply Rdiv_pos; auto). assert (0 < 2 * PI) by lra. veval. f_equal. rewrite (ln_div (g0 kappa (x - mu))), ln_div by (try apply exp_pos; lra). rewrite (ln_mult 2 PI), (ln_mult 2 (J0 kappa)) by lra. unfold g0. rewrite ln_exp. ring.
Qed.
Lemma mode_ok : 0 <= kappa -> forall x : R, exists d m, pdf x kappa mu = Fin d /\ pdf mu kappa mu = Fin m /\ d <= m.
Proof.
  intros K x. eexists. eexists. rewrite !pdf_val. split; [reflexivity|]. split; [reflexivity|]. pose proof (J0_pos kappa). apply Rmult_le_compat_r; [left; apply Rinv_0_lt_compat; lra|]. unfold g0. rewrite Rminus_eq_0, cos_0. apply exp_le_compat. pose proof (COS_bound (x - mu)). nra.
Qed.
Let LT : Rbar_lt (- PI + mu) (PI + mu). Proof. pose proof PI_RGT_0. simpl; lra. Qed.
Lemma cos_int : integrates_to (fun x => cos (x - mu) * toR (pdf (Fin x) kappa mu)) (- PI + mu) (PI + mu) (J1 kappa / J0 kappa).
Proof.
  pose proof (J0_pos kappa). apply (integrates_ext _ _ LT (fun x => / (2 * J0 kappa) * (g0 kappa (x - mu) * cos (x - mu)))); [intros; rewrite pdf_val; simpl; unfold Rdiv; ring|].
  replace (J1 kappa / J0 kappa) with (/ (2 * J0 kappa) * (2 * J1 kappa)) by (field; lra). apply integrates_scal. apply (even_int (fun t => g0 kappa t * cos t)); [apply g1_cont|]. intros; unfold g0; rewrite cos_neg; auto.
Qed.
Lemma sin_int : integrates_to (fun x => sin (x - mu) * toR (pdf (Fin x) kappa mu)) (- PI + mu) (PI + mu) 0.
Proof.
  pose proof (J0_pos kappa). apply (integrates_ext _ _ LT (fun x => / (2 * J0 kappa) * (g0 kappa (x - mu) * sin (x - mu)))); [intros; rewrite pdf_val; simpl; unfold Rdiv; ring|].
  replace 0 with (/ (2 * J0 kappa) * 0) by ring. apply integrates_scal. apply (odd_int (fun t => g0 kappa t * sin t)); [apply g2_cont|]. intros; unfold g0; rewrite cos_neg, sin_neg; ring.
Qed.
Lemma circvar_val : circvar kappa mu = Fin (1 - J1 kappa / J0 kappa).
Proof. unfold circvar. rewrite i0_eq, i1_eq. pose proof PI_RGT_0. pose proof (J0_pos kappa). assert (0 < J0 kappa / PI) by (apply Rdiv_pos; auto). veval. f_equal. f_equal. field. lra. Qed.
(** the resultant of the unit vectors (cos x, sin x) is R times (cos mu, sin mu) *)
Lemma resultant : integrates_to (fun x => cos x * toR (pdf (Fin x) kappa mu)) (- PI + mu) (PI + mu) (J1 kappa / J0 kappa * cos mu) /\
  integrates_to (fun x => sin x * toR (pdf (Fin x) kappa mu)) (- PI + mu) (PI + mu) (J1 kappa / J0 kappa * sin mu).
Proof.
  split.
  - apply (integrates_ext _ _ LT (fun x => cos mu * (cos (x - mu) * toR (pdf (Fin x) kappa mu)) + - sin mu * (sin (x - mu) * toR (pdf (Fin x) kappa mu)))).
    + intros x _. replace (cos x) with (cos (x - mu + mu)) by (f_equal; ring). rewrite cos_plus. ring.
    + replace (J1 kappa / J0 kappa * cos mu) with (cos mu * (J1 kappa / J0 kappa) + - sin mu * 0) by ring. apply integrates_plus; apply integrates_scal; [apply cos_int|apply sin_int].
  - apply (integrates_ext _ _ LT (fun x => sin mu * (cos (x - mu) * toR (pdf (Fin x) kappa mu)) + cos mu * (sin (x - mu) * toR (pdf (Fin x) kappa mu)))).
    + intros x _. replace (sin x) with (sin (x - mu + mu)) by (f_equal; ring). rewrite sin_plus. ring.
    + replace (J1 kappa / J0 kappa * sin mu) with (sin mu * (J1 kappa / J0 kappa) + cos mu * 0) by ring. apply integrates_plus; apply integrates_scal; [apply cos_int|apply sin_int].
Qed.
Lemma circ_ok : 0 < kappa -> exists R0, 0 < R0 /\ circmean kappa mu = Fin mu /\ circvar kappa mu = Fin (1 - R0) /\
  integrates_to (fun x => cos x * toR (pdf (Fin x) kappa mu)) (- PI + mu) (PI + mu) (R0 * cos mu) /\
  integrates_to (fun x => sin x * toR (pdf (Fin x) kappa mu)) (- PI + mu) (PI + mu) (R0 * sin mu).
Proof. intros K. exists (J1 kappa / J0 kappa). split; [apply Rdiv_pos; [apply J1_sign; auto|apply J0_pos]|]. split; [reflexivity|]. split; [apply circvar_val|apply resultant]. Qed.
Lemma circ_bad : kappa < 0 -> exists R0, 0 < R0 /\ circmean kappa mu = Fin mu /\ circvar kappa mu = Fin (1 + R0) /\
  integrates_to (fun x => cos x * toR (pdf (Fin x) kappa mu)) (- PI + mu) (PI + mu) (R0 * cos (mu + PI)) /\
  integrates_to (fun x => sin x * toR (pdf (Fin x) kappa mu)) (- PI + mu) (PI + mu) (R0 * sin (mu + PI)).
Proof.
  intros K. exists (- (J1 kappa / J0 kappa)). pose proof (J0_pos kappa) as J. pose proof (J1_neg kappa K) as J'. split; [replace (- (J1 kappa / J0 kappa)) with (- J1 kappa / J0 kappa) by (field; lra); apply Rdiv_pos; lra|]. split; [reflexivity|].
  split; [rewrite circvar_val; f_equal; ring|]. rewrite neg_cos, neg_sin. replace (- (J1 kappa / J0 kappa) * - cos mu) with (J1 kappa / J0 kappa * cos mu) by ring. replace (- (J1 kappa / J0 kappa) * - sin mu) with (J1 kappa / J0 kappa * sin mu) by ring. apply resultant.
Qed.
Lemma ent_ok : entropy_is (fun x => pdf x kappa mu) (- PI + mu) (PI + mu) (entropy kappa mu).
Proof.
  pose proof (J0_pos kappa) as J. pose proof PI_RGT_0 as PP. exists (- kappa * (J1 kappa / J0 kappa) + ln (2 * J0 kappa)). split.
  - unfold entropy. rewrite i0_eq, i1_eq. change vpi with (Fin PI). assert (0 < J0 kappa / PI) by (apply Rdiv_pos; auto). assert (0 < 2 * PI * (J0 kappa / PI)) by nra. veval. f_equal. replace (2 * PI * (J0 kappa / PI)) with (2 * J0 kappa) by (field; lra). f_equal. f_equal. field. lra.
  - apply (integrates_ext _ _ LT (fun x => - kappa * (cos (x - mu) * toR (pdf (Fin x) kappa mu)) + ln (2 * J0 kappa) * toR (pdf (Fin x) kappa mu))).
    + intros x _. rewrite pdf_val. simpl toR. rewrite (ln_div (g0 kappa (x - mu))) by (try apply exp_pos; lra). unfold g0. rewrite ln_exp. ring.
    + replace (- kappa * (J1 kappa / J0 kappa) + ln (2 * J0 kappa)) with (- kappa * (J1 kappa / J0 kappa) + ln (2 * J0 kappa) * 1) by ring. apply integrates_plus; apply integrates_scal; [apply cos_int|apply mass].
Qed.
End P.
