(** Proofs about M_cauchy. *)
From Coq Require Import Reals Lra List.
From Coquelicot Require Import Coquelicot.
From Verif Require Import Values VTac Spec SpecNoMom RLib LimLib DistLib DistLS MomLib NoInt LnSin PLib M_common M_sfun2.
From Verif Require Import M_cauchy.
Import ListNotations.
Local Open Scope R_scope.
Set Bullet Behavior "Strict Subproofs".

Definition F (z : R) := 1 / 2 + atan z / PI.
Definition f (z : R) := 1 / (PI * (1 + z ^ 2)).
Definition Q (p : R) := - (cos (PI * p) / sin (PI * p)).
Lemma den_pos z : 0 < 1 + z ^ 2. Proof. pose proof (pow2_ge_0 z). lra. Qed.
Lemma f_pos z : 0 < f z.
Proof. unfold f. apply Rdiv_pos; [lra|]. pose proof PI_RGT_0. pose proof (den_pos z). apply Rmult_lt_0_compat; auto. Qed.
Lemma sin_pi p : 0 < p < 1 -> 0 < sin (PI * p).
Proof. intros H. pose proof PI_RGT_0. apply sin_gt_0; nra. Qed.
Lemma atan_Q p : 0 < p < 1 -> atan (Q p) = PI * p - PI / 2.
Proof.
  intros H. pose proof PI_RGT_0. pose proof (sin_pi p H).
  assert (E : Q p = tan (PI * p - PI / 2)).
  { unfold Q, tan. replace (PI * p - PI / 2) with (- (PI / 2 - PI * p)) by ring. rewrite sin_neg, cos_neg, sin_shift, cos_shift. field. lra. }
  rewrite E. apply atan_tan. split; nra.
Qed.
Lemma ST : std m_infty p_infty F f Q.
Proof.
  pose proof PI_RGT_0. constructor.
  - constructor; simpl; auto.
    + intros z _. unfold F. pose proof (atan_bound z). assert (E : atan z / PI * PI = atan z) by (field; lra). split; nra.
    + intros z _. unfold F, f. evar_last.
      * apply (is_derive_plus (fun _ => 1 / 2) (fun z => atan z / PI)); [apply is_derive_const|].
        apply (is_derive_ext (fun z => / PI * atan z)); [intros; unfold Rdiv; apply Rmult_comm|].
        apply is_derive_scal. apply is_derive_Reals. apply derivable_pt_lim_atan.
      * pose proof (den_pos z). unfold plus, zero, scal; simpl; unfold mult; simpl. unfold Rsqr. simpl in *. field. split; lra.
    + intros z _. apply f_pos.
  - intros z _. unfold f. pose proof (den_pos z). apply ex_derive_cont. auto_derive. simpl in *. apply Rgt_not_eq. apply Rmult_lt_0_compat; auto.
  - intros p P. split; [split; simpl; auto|]. unfold F. rewrite atan_Q by auto. field. lra.
Qed.
Lemma f_max z : f z <= f 0.
Proof.
  unfold f. pose proof PI_RGT_0. pose proof (den_pos z). pose proof (pow2_ge_0 z). apply Rmult_le_compat_l; [lra|].
  apply Rinv_le_contravar; [simpl; lra|]. apply Rmult_le_compat_l; simpl in *; lra.
Qed.
Lemma atan_lim_p : filterlim (fun z => PI / 2 - atan z) (Rbar_locally p_infty) (at_right 0).
Proof.
  pose proof PI_RGT_0. intros P [e He]. set (t := Rmin (e / 2) (PI / 4)).
  assert (T : 0 < t) by (apply Rmin_glb_lt; pose proof (cond_pos e); lra).
  assert (T1 : t <= e / 2) by apply Rmin_l. assert (T2 : t <= PI / 4) by apply Rmin_r.
  exists (tan (PI / 2 - t)). intros x X. pose proof (atan_bound x) as [_ B].
  assert (L : PI / 2 - t < atan x) by (rewrite <- (atan_tan (PI / 2 - t)) by lra; apply atan_increasing; auto).
  apply He; [|lra]. unfold ball; simpl; unfold AbsRing_ball, abs, minus, plus, opp; simpl. pose proof (cond_pos e). apply Rabs_def1; lra.
Qed.
Lemma atan_lim_m : filterlim (fun z => PI / 2 - atan z) (Rbar_locally m_infty) (at_left PI).
Proof.
  pose proof PI_RGT_0. intros P [e He]. set (t := Rmin (e / 2) (PI / 4)).
  assert (T : 0 < t) by (apply Rmin_glb_lt; pose proof (cond_pos e); lra).
  assert (T1 : t <= e / 2) by apply Rmin_l. assert (T2 : t <= PI / 4) by apply Rmin_r.
  exists (tan (t - PI / 2)). intros x X. pose proof (atan_bound x) as [B _].
  assert (L : atan x < t - PI / 2) by (rewrite <- (atan_tan (t - PI / 2)) by lra; apply atan_increasing; auto).
  apply He; [|lra]. unfold ball; simpl; unfold AbsRing_ball, abs, minus, plus, opp; simpl. pose proof (cond_pos e). apply Rabs_def1; lra.
Qed.
Lemma cos_atan_ln z : ln (cos (atan z)) = - / 2 * ln (1 + z ^ 2).
Proof.
  pose proof (atan_bound z) as [A B]. pose proof (cos_gt_0 (atan z) ltac:(lra) B) as C. pose proof (den_pos z) as D.
  assert (E : (cos (atan z)) ^ 2 * (1 + z ^ 2) = 1).
  { pose proof (tan_atan z) as T. unfold tan in T. pose proof (sin2_cos2 (atan z)) as SC. unfold Rsqr in SC.
    assert (S : sin (atan z) = z * cos (atan z)) by (rewrite <- T at 2; field; lra). rewrite S in SC. lra. }
  assert (L : ln ((cos (atan z)) ^ 2 * (1 + z ^ 2)) = 0) by (rewrite E; apply ln_1).
  rewrite ln_mult in L by (auto; apply pow_lt; auto). simpl in L. rewrite Rmult_1_r, ln_mult in L by auto. simpl. lra.
Qed.
Lemma ln_den_int : integrates_to (fun z => ln (1 + z ^ 2) / (1 + z ^ 2)) m_infty p_infty (2 * PI * ln 2).
Proof.
  replace (2 * PI * ln 2) with (2 * (PI / 2 * ln 2) - 2 * (- (PI / 2 * ln 2))) by field.
  apply (mk_integral _ (fun z => 2 * LS (PI / 2 - atan z))); simpl near_lo; simpl near_hi; try exact I.
  - intros z _. pose proof (atan_bound z). evar_last.
    + apply is_derive_scal. apply (is_derive_comp LS (fun z => PI / 2 - atan z)); [apply LS_der; lra|].
      apply (is_derive_minus (fun _ => PI / 2) atan); [apply is_derive_const|]. apply is_derive_Reals. apply derivable_pt_lim_atan.
    + pose proof (den_pos z). unfold minus, plus, opp, zero, scal; simpl; unfold mult; simpl. unfold lsin. rewrite sin_shift.
      rewrite cos_atan_ln. unfold Rsqr. simpl in *. field. lra.
  - intros z _. pose proof (den_pos z) as D. apply ex_derive_cont. auto_derive. simpl in D. repeat split; lra.
  - apply flim_scal; try apply Rbar_locally_filter. apply (filterlim_comp _ _ _ (fun z => PI / 2 - atan z) LS _ _ _ atan_lim_m LS_limPI).
  - apply flim_scal; try apply Rbar_locally_filter. apply (filterlim_comp _ _ _ (fun z => PI / 2 - atan z) LS _ _ _ atan_lim_p LS_lim0).
Qed.
Lemma ent : integrates_to (fun z => - (f z * ln (f z))) m_infty p_infty (ln PI + 2 * ln 2).
Proof.
  pose proof PI_RGT_0. assert (LT : Rbar_lt m_infty p_infty) by exact I.
  apply (integrates_ext m_infty p_infty LT (fun z => ln PI * f z + / PI * (ln (1 + z ^ 2) / (1 + z ^ 2)))).
  - intros z _. pose proof (den_pos z). unfold f. rewrite (ln_div 1) by (try lra; apply Rmult_lt_0_compat; auto). rewrite ln_1, ln_mult by auto.
    simpl in *. field. split; lra.
  - replace (ln PI + 2 * ln 2) with (ln PI * 1 + / PI * (2 * PI * ln 2)) by (field; lra).
    apply (integrates_plus m_infty p_infty (fun z => ln PI * f z)); apply integrates_scal; [apply (std_mass m_infty p_infty LT F f Q ST)|apply ln_den_int].
Qed.
Ltac start := unfold pdf, logpdf, cdf, sf, invcdf, invsf, support, mean, mode, var, entropy, validate_loc_scale, validate_p; change vpi with (Fin PI).

Section P.
Variables l s : R.
Hypothesis S : 0 < s.
Lemma pdf_fin (x : R) : pdf x l s = Fin (f ((x - l) / s) / s) /\ logpdf x l s = Fin (ln (f ((x - l) / s) / s)).
Proof.
  pose proof PI_RGT_0. set (z := (x - l) / s). pose proof (den_pos z) as D. pose proof (f_pos z) as P.
  assert (D' : 0 < PI * s * (1 + z ^ 2)) by (apply Rmult_lt_0_compat; auto; apply Rmult_lt_0_compat; auto).
  split.
  - start. veval. fold z. f_equal. unfold f. field. simpl in *. repeat split; lra.
  - start. veval. fold z. f_equal. rewrite ln_div by auto. unfold f. rewrite ln_div by (try lra; apply Rmult_lt_0_compat; auto).
    rewrite ln_1, ln_mult by auto. ring.
Qed.
Lemma CERT : cert (fun x => pdf x l s) (fun x => logpdf x l s) (fun x => cdf x l s) (fun x => sf x l s)
  (fun p => invcdf p l s) (fun p => invsf p l s) m_infty p_infty (fun x => F ((x - l) / s))
  (fun x => f ((x - l) / s) / s) (fun p => l + s * Q p).
Proof.
  pose proof PI_RGT_0. apply (ls_cert m_infty p_infty F f Q ST l s S); auto.
  - constructor.
    + intros x _. start. unfold vatan2_1, F. veval. rewrite atan_opp. split; f_equal; field; lra.
    + intros x [].
    + intros x [].
    + start. unfold vatan2_1. veval. split; f_equal; field; lra.
    + start. unfold vatan2_1. veval. split; f_equal; field; lra.
  - intros x _. apply pdf_fin.
  - intros x [[]|[]].
  - intros p P. pose proof (sin_pi p P). pose proof (sin_pi (1 - p) ltac:(lra)). unfold Q. start. veval.
    assert (E1 : sin (PI * (1 - p)) = sin (PI * p)) by (replace (PI * (1 - p)) with (PI - PI * p) by ring; rewrite sin_PI_x; auto).
    assert (E2 : cos (PI * (1 - p)) = - cos (PI * p)) by (replace (PI * (1 - p)) with (- (PI * p) + PI) by ring; rewrite neg_cos, cos_neg; auto).
    rewrite E1, E2. unfold vcot. rewrite !Reqb_false by lra. veval. split; f_equal; field; lra.
Qed.
Lemma rejects : rejects_bad_p (fun p => invcdf p l s) /\ rejects_bad_p (fun p => invsf p l s).
Proof. split; (split; [intros p [H|H]|split]; start; veval; reflexivity). Qed.
Lemma ends0 : invcdf (Fin 0) l s = Exc ZeroDivisionError /\ invsf (Fin 0) l s = Exc ZeroDivisionError.
Proof. start. veval. rewrite Rmult_0_r. unfold vcot. rewrite sin_0, Reqb_true by auto. auto. Qed.
Lemma mode_ok : is_mode (fun x => pdf x l s) (mode l s).
Proof.
  assert (SI : 0 <= / s) by (left; apply Rinv_0_lt_compat; auto).
  exists l, (f 0 / s). split; [start; veval; auto|]. split; [rewrite (proj1 (pdf_fin l)); replace ((l - l) / s) with 0 by (field; lra); auto|].
  intros x. exists (f ((x - l) / s) / s). split; [apply pdf_fin|]. apply Rmult_le_compat_r; auto. apply f_max.
Qed.
Lemma PDF x : inside m_infty p_infty x -> pdf (Fin x) l s = Fin (f ((x - l) / s) / s).
Proof. intros _. apply pdf_fin. Qed.
Lemma ent_ok : entropy_is (fun x => pdf x l s) m_infty p_infty (entropy l s).
Proof.
  pose proof PI_RGT_0. apply (ls_entropy_is m_infty p_infty F f Q ST l s (fun x => pdf x l s) m_infty p_infty S eq_refl eq_refl PDF _ (ln PI + 2 * ln 2)).
  - apply ent.
  - assert (0 < 4 * PI * s) by (apply Rmult_lt_0_compat; lra). start. veval. f_equal.
    replace (4 * PI * s) with (2 * 2 * PI * s) by ring. rewrite !ln_mult by lra. ring.
Qed.
Lemma pdf_low t : Rabs l + s <= t -> s / (5 * PI * t ^ 2) <= toR (pdf (Fin t) l s).
Proof.
  intros T. pose proof PI_RGT_0. pose proof (Rabs_pos l). rewrite (proj1 (pdf_fin t)). simpl toR. unfold f.
  assert (TP : 0 < t) by lra. assert (A : - t <= l <= t) by (pose proof (Rle_abs l); pose proof (Rle_abs (- l)); rewrite Rabs_Ropp in *; lra).
  replace (1 / (PI * (1 + ((t - l) / s) ^ 2)) / s) with (s / (PI * (s ^ 2 + (t - l) ^ 2))).
  - apply Rmult_le_compat_l; [lra|]. assert (0 < s ^ 2 + (t - l) ^ 2) by (pose proof (pow_lt s 2 S); pose proof (pow2_ge_0 (t - l)); lra).
    apply Rinv_le_contravar; [apply Rmult_lt_0_compat; auto|]. replace (5 * PI * t ^ 2) with (PI * (5 * t ^ 2)) by ring.
    apply Rmult_le_compat_l; [lra|]. nra.
  - assert (0 < s ^ 2 + (t - l) ^ 2) by (pose proof (pow_lt s 2 S); pose proof (pow2_ge_0 (t - l)); lra). field. repeat split; lra.
Qed.
Lemma pdf_cont x : continuous (fun t => toR (pdf (Fin t) l s)) x.
Proof.
  apply (continuous_ext (fun t => f ((t - l) / s) / s)); [intros t; rewrite (proj1 (pdf_fin t)); auto|].
  apply (ce_cont _ _ _ _ _ _ _ _ _ _ _ CERT x). split; simpl; auto.
Qed.
Lemma no_mean_ok : mean l s = NaN /\ no_mean (fun x => pdf x l s) m_infty p_infty.
Proof.
  split; [start; veval; auto|]. pose proof PI_RGT_0. pose proof (Rabs_pos l). intros v.
  assert (KP : 0 < s / (5 * PI)) by (apply Rdiv_pos; lra).
  refine (no_integral m_infty p_infty _ (Rabs l + s) (fun t => s / (5 * PI) * ln t) (fun t => s / (5 * PI) * / t) _ _ _ _ v).
  - split; simpl; auto.
  - intros x _. apply (continuous_mult (fun t => t) (fun t => toR (pdf (Fin t) l s))); [apply continuous_id|apply pdf_cont].
  - intros x _ X. split; [auto_derive; [lra|field; lra]|]. pose proof (pdf_low x X) as L. apply (Rmult_le_compat_l x) in L; [|lra].
    eapply Rle_trans; [|exact L]. right. field. lra.
  - intros M. exists (exp (M / (s / (5 * PI)))). intros x X. pose proof (exp_pos (M / (s / (5 * PI)))).
    assert (L : M / (s / (5 * PI)) < ln x) by (rewrite <- (ln_exp (M / _)); apply ln_increasing; auto).
    apply (Rmult_lt_compat_l (s / (5 * PI))) in L; auto. replace (s / (5 * PI) * (M / (s / (5 * PI)))) with M in L by (field; lra). auto.
Qed.
Lemma no_var_ok : var l s = NaN /\ no_var (fun x => pdf x l s) m_infty p_infty.
Proof.
  split; [start; veval; auto|]. pose proof PI_RGT_0. pose proof (Rabs_pos l). intros m v. pose proof (Rabs_pos m).
  assert (KP : 0 < s / (20 * PI)) by (apply Rdiv_pos; lra).
  refine (no_integral m_infty p_infty _ (Rabs l + s + 2 * Rabs m) (fun t => s / (20 * PI) * t) (fun t => s / (20 * PI)) _ _ _ _ v).
  - split; simpl; auto.
  - intros x _. apply (continuous_mult (fun t => (t - m) ^ 2) (fun t => toR (pdf (Fin t) l s))); [|apply pdf_cont].
    apply ex_derive_cont. auto_derive. auto.
  - intros x _ X. split; [auto_derive; [auto|ring]|]. pose proof (pdf_low x ltac:(lra)) as L.
    pose proof (Rle_abs m). assert (XM : (x / 2) ^ 2 <= (x - m) ^ 2) by (apply pow_incr; lra).
    apply Rle_trans with ((x / 2) ^ 2 * (s / (5 * PI * x ^ 2))); [right; field; lra|].
    apply Rmult_le_compat; auto; [apply pow2_ge_0|]. left. apply Rdiv_pos; auto.
    apply Rmult_lt_0_compat; [lra|]. apply pow_lt; lra.
  - intros M. exists (M / (s / (20 * PI))). intros x X.
    apply (Rmult_lt_compat_l (s / (20 * PI))) in X; auto. replace (s / (20 * PI) * (M / (s / (20 * PI)))) with M in X by (field; lra). auto.
Qed.
End P.
Lemma loc_scale : loc_scale_law pdf cdf sf invcdf invsf m_infty p_infty.
Proof. apply (loc_scale_from_cert pdf logpdf cdf sf invcdf invsf m_infty p_infty F f Q). intros l s S. apply CERT; auto. Qed.
Lemma bad_params (l s : val) : nonpositive s ->
  support l s = Err ValueError /\
  always_ValueError [ fun x => pdf x l s; fun x => logpdf x l s; fun x => cdf x l s; fun x => sf x l s;
    fun p => invcdf p l s; fun p => invsf p l s; fun _ => mean l s; fun _ => mode l s; fun _ => var l s; fun _ => entropy l s ].
Proof.
  intros B. unfold support, pdf, logpdf, cdf, sf, invcdf, invsf, mean, mode, var, entropy.
  split; [|all_ve; intros x Hx]; try (apply vpp_pass; auto); rewrite vls_bad by auto; reflexivity.
Qed.
