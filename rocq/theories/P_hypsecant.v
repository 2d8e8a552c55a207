(** Proofs about M_hypsecant. *)
From Coq Require Import Reals Lra List.
From Coquelicot Require Import Coquelicot.
From Verif Require Import Values VTac Spec SpecStat SpecEst SpecInv RLib LimLib DistLib DistLS MomLib IntLib SubLib SFun GammaLib GammaLib2 BetaLib HypLib LnSin SymInt ConvMle LLib XLib PLib P_est P_basic2 M_common. From Verif Require M_basic P_logistic P_stats.
Import P_logistic(cosh_pos,vsech_Fin). Import P_stats(tanh_exp).
From Verif Require Import M_hypsecant.
Import ListNotations.
Local Open Scope R_scope.
Set Bullet Behavior "Strict Subproofs".

Definition F (z : R) := 2 / PI * atan (exp z).
Definition f (z : R) := 1 / (PI * cosh z).
Definition Q (p : R) := ln (tan (PI * p / 2)).
Lemma f_pos z : 0 < f z.
Proof. unfold f. apply Rdiv_pos; [lra|]. pose proof PI_RGT_0. pose proof (cosh_pos z). apply Rmult_lt_0_compat; auto. Qed.
Lemma atan_exp z : 0 < atan (exp z) < PI / 2.
Proof. pose proof (atan_bound (exp z)). split; [|lra]. rewrite <- atan_0. apply atan_increasing, exp_pos. Qed.
Lemma tan_pos p : 0 < p < 1 -> 0 < tan (PI * p / 2).
Proof. intros H. pose proof PI_RGT_0. apply tan_gt_0; nra. Qed.
Lemma at_der z : is_derive (fun z => atan (exp z)) z (/ (2 * cosh z)).
Proof.
  evar_last.
  - apply (is_derive_comp atan exp); [apply is_derive_Reals, derivable_pt_lim_atan|]. apply is_derive_exp.
  - unfold scal; simpl; unfold mult; simpl. unfold cosh, Rsqr. rewrite exp_Ropp. pose proof (exp_pos z). field. split; nra.
Qed.
Lemma ST : std m_infty p_infty F f Q.
Proof.
  pose proof PI_RGT_0. constructor.
  - constructor; simpl; auto.
    + intros z _. unfold F. pose proof (atan_exp z). assert (0 < 2 / PI) by (apply Rdiv_pos; lra). assert (E : 2 / PI * (PI / 2) = 1) by (field; lra). split; nra.
    + intros z _. unfold F, f. evar_last; [apply is_derive_scal, at_der|]. pose proof (cosh_pos z). field. split; lra.
    + intros z _. apply f_pos.
  - intros z _. unfold f, cosh. pose proof (cosh_pos z) as P. unfold cosh in P. apply ex_derive_cont. auto_derive. apply Rgt_not_eq. apply Rmult_lt_0_compat; auto.
  - intros p P. split; [split; simpl; auto|]. unfold F, Q. rewrite exp_ln by (apply tan_pos; auto). rewrite atan_tan by nra. field. lra.
Qed.
Lemma cosh_ge z : 1 <= cosh z.
Proof. unfold cosh. rewrite exp_Ropp. pose proof (exp_pos z). set (e := exp z) in *. assert (e * / e = 1) by (field; lra). pose proof (Rle_0_sqr (e - 1)). unfold Rsqr in *.
  apply (Rmult_le_reg_r e); auto. nra. Qed.
Lemma f_max z : f z <= f 0.
Proof.
  unfold f. pose proof PI_RGT_0. pose proof (cosh_ge z). rewrite cosh_0. apply Rmult_le_compat_l; [lra|].
  apply Rinv_le_contravar; nra.
Qed.
Lemma cosh_even z : cosh (- z) = cosh z. Proof. unfold cosh. rewrite Ropp_involutive. lra. Qed.
(** e^(2z) / (1 + e^(2z)) has the arcsine law. *)
Lemma HSB : subst m_infty p_infty 0 1 (fun z => P_logistic.F (2 * z)) (fun z => 2 * P_logistic.f (2 * z)) (fun y => P_logistic.Q y / 2).
Proof.
  pose proof P_logistic.LSB as [L1 L2 L3 L4 L5]. constructor.
  - simpl; lra.
  - intros x _. apply L2. split; simpl; auto.
  - intros x _. evar_last; [apply (is_derive_comp P_logistic.F (fun z => 2 * z) x (P_logistic.f (2 * x)) 2); [apply L3; split; simpl; auto|auto_derive; auto; ring]|].
    unfold scal; simpl; unfold mult; simpl. ring.
  - intros x _. apply ex_derive_cont. unfold P_logistic.f. pose proof (exp_pos (2 * x)). auto_derive. nra.
  - intros y Y. split; [split; simpl; auto|]. replace (2 * (P_logistic.Q y / 2)) with (P_logistic.Q y) by field. apply L5; auto.
Qed.
Lemma hb_val z : bf (1 / 2) (1 / 2) (P_logistic.F (2 * z)) * (2 * P_logistic.f (2 * z)) = f z.
Proof.
  pose proof PI_RGT_0 as PP. pose proof (exp_pos z) as W. set (w := exp z) in *.
  assert (E : exp (2 * z) = w * w) by (unfold w; rewrite <- exp_plus; f_equal; ring).
  assert (B : Beta (1 / 2) (1 / 2) = PI).
  { unfold Beta. replace (1 / 2 + 1 / 2) with 1 by field. replace (1 / 2) with (/ 2) by field. rewrite Gamma_half, Gamma_1, sqrt_sqrt by lra. field. }
  unfold bf, beta_kernel, f, cosh. rewrite exp_Ropp. fold w. rewrite B. unfold P_logistic.F, P_logistic.f. rewrite E.
  assert (0 < w * w) by (apply Rmult_lt_0_compat; auto).
  replace (1 - (1 - / (w * w + 1))) with (/ (w * w + 1)) by ring. replace (1 - / (w * w + 1)) with (w * w / (w * w + 1)) by (field; lra).
  rewrite <- Rpower_base_mult by (try apply Rinv_0_lt_compat; try apply Rdiv_pos; lra).
  assert (0 < w / (w * w + 1)) by (apply Rdiv_pos; lra).
  replace (w * w / (w * w + 1) * / (w * w + 1)) with (Rpower (w / (w * w + 1)) (INR 2)) by (rewrite Rpower_pow by auto; simpl; field; lra).
  rewrite Rpower_mult. replace (INR 2 * (1 / 2 - 1)) with (- (1)) by (simpl; field). rewrite Rpower_Ropp, Rpower_1 by auto. field. repeat split; nra.
Qed.
Lemma m2_ok : integrates_to (fun z => z ^ 2 * f z) m_infty p_infty (PI ^ 2 / 4).
Proof.
  assert (LT : Rbar_lt m_infty p_infty) by (simpl; auto).
  assert (INC : forall x, inside m_infty p_infty x -> 0 < 2 * P_logistic.f (2 * x)).
  { intros x _. unfold P_logistic.f. pose proof (exp_pos (2 * x)). apply Rmult_lt_0_compat; [lra|]. apply Rdiv_pos; [lra|nra]. }
  assert (C : forall y, inside 0 1 y -> continuous (fun u => (ln u - ln (1 - u)) ^ 2 * bf (1 / 2) (1 / 2) u) y).
  { intros y Y%in01. apply (continuous_mult (fun u => (ln u - ln (1 - u)) ^ 2) (bf (1 / 2) (1 / 2))); [apply ex_derive_cont; auto_derive; lra|apply bf_cont; auto using half_pos]. }
  pose proof (integrates_scal _ _ (/ 4) _ _ (sub_integral HSB INC _ _ C hlogit2)) as J.
  replace (PI ^ 2 / 4) with (/ 4 * PI ^ 2) by field. revert J. apply (integrates_ext _ _ LT). intros x _.
  rewrite Rmult_assoc, hb_val. replace (ln (P_logistic.F (2 * x)) - ln (1 - P_logistic.F (2 * x))) with (2 * x); [field|].
  unfold P_logistic.F. pose proof (exp_pos (2 * x)).
  replace (1 - (1 - / (exp (2 * x) + 1))) with (/ (exp (2 * x) + 1)) by ring. replace (1 - / (exp (2 * x) + 1)) with (exp (2 * x) * / (exp (2 * x) + 1)) by (field; lra).
  rewrite ln_mult, ln_exp by (auto; apply Rinv_0_lt_compat; lra). ring.
Qed.
Lemma m1_ok : integrates_to (fun z => z * f z) m_infty p_infty 0.
Proof.
  pose proof PI_RGT_0 as PP.
  apply (odd_integral _ (fun z => - (2 / PI) * ((z + 1) * exp (- z))) (fun z => 2 / PI * (z * exp (- z))) 0).
  - intros z. apply (continuous_mult (fun z : R => z) f); [apply continuous_id|]. apply (st_cont _ _ _ _ _ ST). split; simpl; auto.
  - intros z. unfold f. rewrite cosh_even. unfold Rdiv. ring.
  - intros z Z. pose proof (f_pos z). apply Rmult_le_pos; lra.
  - intros z Z. split; [auto_derive; auto; field; lra|]. unfold f. pose proof (cosh_pos z) as C.
    replace (2 / PI * (z * exp (- z))) with (z * (1 / (PI * (exp z / 2)))) by (rewrite exp_Ropp; pose proof (exp_pos z); field; lra).
    apply Rmult_le_compat_l; auto. apply Rmult_le_compat_l; [lra|]. pose proof (exp_pos z). apply Rinv_le_contravar; [apply Rmult_lt_0_compat; lra|].
    apply Rmult_le_compat_l; [lra|]. unfold cosh. pose proof (exp_pos (- z)). lra.
  - intros z Z. pose proof (exp_pos (- z)). assert (0 < 2 / PI) by (apply Rdiv_pos; lra). assert (0 <= (z + 1) * exp (- z)) by (apply Rmult_le_pos; lra). nra.
Qed.
Lemma th_lim_p : filterlim (fun z => 2 * atan (exp z)) (Rbar_locally p_infty) (at_left PI).
Proof.
  pose proof PI_RGT_0. intros P [e He]. set (t := Rmin (e / 2) (PI / 4)).
  assert (T : 0 < t) by (apply Rmin_glb_lt; pose proof (cond_pos e); lra).
  assert (T1 : t <= e / 2) by apply Rmin_l. assert (T2 : t <= PI / 4) by apply Rmin_r.
  pose proof (tan_gt_0 (PI / 2 - t) ltac:(lra) ltac:(lra)) as TP.
  exists (ln (tan (PI / 2 - t))). intros x X. pose proof (atan_exp x).
  assert (L : PI / 2 - t < atan (exp x)).
  { rewrite <- (atan_tan (PI / 2 - t)) by lra. apply atan_increasing. rewrite <- (exp_ln (tan _)) by auto. apply exp_increasing; auto. }
  apply He; [|lra]. unfold ball; simpl; unfold AbsRing_ball, abs, minus, plus, opp; simpl. apply Rabs_def1; lra.
Qed.
Lemma th_lim_m : filterlim (fun z => 2 * atan (exp z)) (Rbar_locally m_infty) (at_right 0).
Proof.
  pose proof PI_RGT_0. intros P [e He]. set (t := Rmin (e / 2) (PI / 4)).
  assert (T : 0 < t) by (apply Rmin_glb_lt; pose proof (cond_pos e); lra).
  assert (T1 : t <= e / 2) by apply Rmin_l. assert (T2 : t <= PI / 4) by apply Rmin_r.
  pose proof (tan_gt_0 t ltac:(lra) ltac:(lra)) as TP.
  exists (ln (tan t)). intros x X. pose proof (atan_exp x).
  assert (L : atan (exp x) < t).
  { rewrite <- (atan_tan t) by lra. apply atan_increasing. rewrite <- (exp_ln (tan _)) by auto. apply exp_increasing; auto. }
  apply He; [|lra]. unfold ball; simpl; unfold AbsRing_ball, abs, minus, plus, opp; simpl. apply Rabs_def1; lra.
Qed.
Lemma sin_th z : sin (2 * atan (exp z)) = / cosh z.
Proof.
  rewrite sin_2a. pose proof (atan_bound (exp z)) as [A B]. pose proof (cos_gt_0 (atan (exp z)) ltac:(lra) B) as C.
  pose proof (tan_atan (exp z)) as T. unfold tan in T. pose proof (sin2_cos2 (atan (exp z))) as SC. unfold Rsqr in SC.
  assert (S : sin (atan (exp z)) = exp z * cos (atan (exp z))) by (rewrite <- T at 2; field; lra). rewrite S in SC |- *.
  set (c := cos (atan (exp z))) in *. pose proof (exp_pos z). 
  assert (E : c * c = / (1 + exp z * exp z)) by (apply (Rmult_eq_reg_r (1 + exp z * exp z)); [rewrite Rinv_l by nra; lra|nra]).
  replace (2 * (exp z * c) * c) with (2 * exp z * (c * c)) by ring. rewrite E. unfold cosh. rewrite exp_Ropp. field. split; nra.
Qed.
Lemma lncosh_int : integrates_to (fun z => ln (cosh z) / cosh z) m_infty p_infty (PI * ln 2).
Proof.
  replace (PI * ln 2) with (- (- (PI / 2 * ln 2)) - (- (PI / 2 * ln 2))) by field.
  apply (mk_integral _ (fun z => - LS (2 * atan (exp z)))); simpl near_lo; simpl near_hi; try exact I.
  - intros z _. pose proof (atan_exp z). pose proof (cosh_pos z). evar_last.
    + apply (is_derive_opp (fun z => LS (2 * atan (exp z)))). apply (is_derive_comp LS (fun z => 2 * atan (exp z))); [apply LS_der; lra|].
      apply is_derive_scal, at_der.
    + unfold opp, scal; simpl; unfold mult; simpl. unfold lsin. rewrite sin_th, ln_Rinv by auto. field. lra.
  - intros z _. pose proof (cosh_pos z) as D. apply ex_derive_cont. unfold cosh in *. auto_derive. repeat split; lra.
  - apply flim_opp. apply (filterlim_comp _ _ _ (fun z => 2 * atan (exp z)) LS _ _ _ th_lim_m LS_lim0).
  - apply flim_opp. apply (filterlim_comp _ _ _ (fun z => 2 * atan (exp z)) LS _ _ _ th_lim_p LS_limPI).
Qed.
Lemma ent : integrates_to (fun z => - (f z * ln (f z))) m_infty p_infty (ln PI + ln 2).
Proof.
  pose proof PI_RGT_0. assert (LT : Rbar_lt m_infty p_infty) by exact I.
  apply (integrates_ext m_infty p_infty LT (fun z => ln PI * f z + / PI * (ln (cosh z) / cosh z))).
  - intros z _. pose proof (cosh_pos z). unfold f. rewrite (ln_div 1) by (try lra; apply Rmult_lt_0_compat; auto). rewrite ln_1, ln_mult by auto.
    field. split; lra.
  - replace (ln PI + ln 2) with (ln PI * 1 + / PI * (PI * ln 2)) by (field; lra).
    apply (integrates_plus m_infty p_infty (fun z => ln PI * f z)); apply integrates_scal; [apply (std_mass m_infty p_infty LT F f Q ST)|apply lncosh_int].
Qed.
Ltac start := unfold pdf, logpdf, pdf, cdf, sf, invcdf, invsf, support, mean, mode, var, entropy, validate_loc_scale, validate_p; change vpi with (Fin PI).
Ltac seval := repeat (progress (veval; rewrite ?vsech_Fin)).

Lemma vls_ok {A} `{CanRaise A} (l : val) (s : R) (k : A) : 0 < s -> validate_loc_scale l s k = k.
Proof. intros S. unfold validate_loc_scale. vif. reflexivity. Qed.

Section P.
Variables l s : R.
Hypothesis S : 0 < s.
Lemma pdf_fin (x : R) : pdf x l s = Fin (f ((x - l) / s) / s) /\ logpdf x l s = Fin (ln (f ((x - l) / s) / s)).
Proof.
  pose proof PI_RGT_0. assert (E : pdf x l s = Fin (f ((x - l) / s) / s)).
  { start. seval. f_equal. unfold f. pose proof (cosh_pos ((x - l) / s)). field. repeat split; lra. }
  split; auto. unfold logpdf. rewrite E. apply vlog_Fin. apply Rdiv_pos; auto. apply f_pos.
Qed.
Lemma CERT : cert (fun x => pdf x l s) (fun x => logpdf x l s) (fun x => cdf x l s) (fun x => sf x l s)
  (fun p => invcdf p l s) (fun p => invsf p l s) m_infty p_infty (fun x => F ((x - l) / s))
  (fun x => f ((x - l) / s) / s) (fun p => l + s * Q p).
Proof.
  pose proof PI_RGT_0. apply (ls_cert m_infty p_infty F f Q ST l s S); auto.
  - constructor.
    + intros x _. start. unfold F. veval. rewrite exp_Ropp, (atan_inv (exp _)) by apply exp_pos. split; f_equal; field; lra.
    + intros x [].
    + intros x [].
    + start. veval. simpl. rewrite atan_0. split; f_equal; field; lra.
    + start. veval. simpl. rewrite atan_0. split; f_equal; field; lra.
  - intros x _. apply pdf_fin.
  - intros x [[]|[]].
  - intros p P. pose proof (tan_pos p P). pose proof (tan_pos (1 - p) ltac:(lra)). unfold Q. start. veval.
    assert (E : tan (PI * (1 - p) / 2) = / tan (PI * p / 2)).
    { replace (PI * (1 - p) / 2) with (PI / 2 - PI * p / 2) by field. unfold tan. rewrite sin_shift, cos_shift.
      pose proof (sin_gt_0 (PI * p / 2) ltac:(nra) ltac:(nra)). pose proof (cos_gt_0 (PI * p / 2) ltac:(nra) ltac:(nra)). field. lra. }
    rewrite E, ln_Rinv by auto. split; f_equal; ring.
Qed.
Lemma rejects : rejects_bad_p (fun p => invcdf p l s) /\ rejects_bad_p (fun p => invsf p l s).
Proof. split; (split; [intros p [H|H]|split]; start; veval; reflexivity). Qed.
Lemma ends0 : rejects_bad_p (fun p => invcdf p l s) /\ rejects_bad_p (fun p => invsf p l s) /\
  invcdf (Fin 0) l s = NInf /\ invsf (Fin 0) l s = PInf.
Proof. split; [|split]; try apply rejects. start. veval. replace (PI * 0 / 2) with 0 by field. rewrite tan_0. veval. auto. Qed.
Lemma mode_ok : is_mode (fun x => pdf x l s) (mode l s).
Proof.
  assert (SI : 0 <= / s) by (left; apply Rinv_0_lt_compat; auto).
  exists l, (f 0 / s). split; [start; veval; auto|]. split; [rewrite (proj1 (pdf_fin l)); replace ((l - l) / s) with 0 by (field; lra); auto|].
  intros x. exists (f ((x - l) / s) / s). split; [apply pdf_fin|]. apply Rmult_le_compat_r; auto. apply f_max.
Qed.
Lemma PDF x : inside m_infty p_infty x -> pdf (Fin x) l s = Fin (f ((x - l) / s) / s).
Proof. intros _. apply pdf_fin. Qed.
Lemma mean_ok : mean_is (fun x => pdf x l s) m_infty p_infty (mean l s).
Proof.
  apply (ls_mean_is m_infty p_infty F f Q ST l s (fun x => pdf x l s) m_infty p_infty S eq_refl eq_refl PDF _ 0 m1_ok).
  start. veval. f_equal. ring.
Qed.
Lemma var_ok : var_is (fun x => pdf x l s) m_infty p_infty (mean l s) (var l s).
Proof.
  apply (ls_var_is m_infty p_infty F f Q ST l s (fun x => pdf x l s) m_infty p_infty S eq_refl eq_refl PDF _ _ 0 (PI ^ 2 / 4) m1_ok m2_ok);
    start; veval; f_equal; field.
Qed.
Lemma ent_ok : entropy_is (fun x => pdf x l s) m_infty p_infty (entropy l s).
Proof.
  pose proof PI_RGT_0. apply (ls_entropy_is m_infty p_infty F f Q ST l s (fun x => pdf x l s) m_infty p_infty S eq_refl eq_refl PDF _ (ln PI + ln 2)).
  - apply ent.
  - start. veval. f_equal. rewrite ln_mult by lra. ring.
Qed.
Lemma nll_ok xs : nll (map Fin xs) l s = vneg (loglik (fun x => logpdf x l s) xs).
Proof. unfold nll. rewrite vls_ok by auto. rewrite vxb_pass by (intros; simpl; auto). unfold loglik. rewrite map_map. reflexivity. Qed.
Lemma nll_val xs : nll (map Fin xs) l s = Fin (INR (length xs) * ln PI + obj (fun u => ln (cosh u)) xs l s).
Proof.
  pose proof PI_RGT_0. rewrite nll_ok. rewrite (loglik_fin _ (fun x => - (ln PI + ln s) - ln (cosh ((x - l) / s)))).
  - varith. f_equal. unfold obj. change (sum ?l) with (rsum l). rewrite (rsum_minus (fun _ => - (ln PI + ln s))), rsum_const. ring.
  - intros x _. rewrite (proj2 (pdf_fin x)). f_equal. unfold f. pose proof (cosh_pos ((x - l) / s)).
    rewrite ln_div by (auto; apply Rdiv_pos; try lra; apply Rmult_lt_0_compat; auto).
    rewrite (ln_div 1) by (try lra; apply Rmult_lt_0_compat; auto). rewrite ln_1, ln_mult by auto. ring.
Qed.
End P.
Lemma lncosh_tan : forall u u0, ln (cosh u0) + tanh u0 * (u - u0) <= ln (cosh u).
Proof.
  apply (tangent (fun u => ln (cosh u)) tanh).
  - intros u. pose proof (cosh_pos u). unfold tanh, cosh, sinh in *. auto_derive; [lra|]. field. lra.
  - intros u v UV. rewrite !tanh_exp. pose proof (exp_pos (2 * u)). pose proof (exp_le_compat (2 * u) (2 * v) ltac:(lra)).
    assert (/ (exp (2 * v) + 1) <= / (exp (2 * u) + 1)) by (apply Rinv_le_contravar; lra). lra.
Qed.
Lemma loc_eqn xs (l s : R) : 0 < s -> mle_loc_eqn (map Fin xs) s l = Fin (eqn_l tanh xs l s).
Proof. intros S. unfold mle_loc_eqn. rewrite map_map. apply vfsum_map. intros x _. veval. auto. Qed.
Lemma scale_eqn xs (l s : R) : 0 < s -> mle_scale_eqn (map Fin xs) l s = Fin (eqn_s tanh xs l s - INR (length xs)).
Proof.
  intros S. unfold mle_scale_eqn. rewrite map_map. rewrite (vfsum_map _ (fun x => (x - l) / s * tanh ((x - l) / s))).
  - unfold vlen. rewrite map_length. reflexivity.
  - intros x _. veval. f_equal. field. lra.
Qed.
Lemma vxb {A} `{CanRaise A} xs (k : A) : validate_x_bounds (map Fin xs) None None true true k = k.
Proof. apply vxb_pass. intros; simpl; auto. Qed.
Ltac bv H := repeat match type of H with context [bindv ?a _] => let E := fresh "E" in destruct a eqn:E; cbn [bindv] in H; try discriminate H end.
Lemma mle_loc fr fr2 l0 s0 xs (l s : R) : checked_solver1 fr -> 0 < s ->
  mle fr fr2 l0 s0 (map Fin xs) None (Some (Fin s)) = Ok (Fin l, Fin s) ->
  minimises (fun _ => True) (fun l => nll (map Fin xs) (Fin l) (Fin s)) l.
Proof.
  intros CS S. unfold mle. rewrite vxb. intros H.
  match type of H with bindv ?a ?k = _ => destruct a eqn:E0; cbn [bindv] in H; try discriminate H end;
  rewrite vls_ok in H by auto;
  (match type of H with bindv ?a ?k = _ => destruct a eqn:E1; cbn [bindv] in H; try discriminate H end; injection H as ->;
   apply CS in E1; rewrite loc_eqn in E1 by auto; injection E1 as E1;
   split; auto; eexists; split; [apply nll_val; auto|]; intros b _; eexists; split; [apply nll_val; auto|];
   apply Rplus_le_compat_l; apply (opt_loc _ tanh lncosh_tan); auto).
Qed.
Lemma mle_scale fr fr2 l0 s0 xs (l s : R) : checked_solver1 fr -> 0 < s ->
  mle fr fr2 l0 s0 (map Fin xs) (Some (Fin l)) None = Ok (Fin l, Fin s) ->
  minimises (fun s => 0 < s) (fun s => nll (map Fin xs) (Fin l) (Fin s)) s.
Proof.
  intros CS S. unfold mle. rewrite vxb. intros H.
  match type of H with bindv ?a ?k = _ => destruct a eqn:E0; cbn [bindv] in H; try discriminate H end;
  unfold validate_loc_scale, validate_positive in H;
  match type of H with cif ?c _ _ = _ => destruct c as [[|]|]; simpl cif in H; try discriminate H end;
  (match type of H with bindv ?a ?k = _ => destruct a eqn:E1; cbn [bindv] in H; try discriminate H end; injection H as ->;
   apply CS in E1; rewrite scale_eqn in E1 by auto; injection E1 as E1;
   split; auto; eexists; split; [apply nll_val; auto|]; intros b B; eexists; split; [apply nll_val; auto|];
   apply Rplus_le_compat_l; apply (opt_scale _ tanh lncosh_tan); auto; lra).
Qed.
Lemma mle_both fr fr2 l0 s0 xs (l s : R) : checked_solver2 fr2 -> 0 < s ->
  mle fr fr2 l0 s0 (map Fin xs) None None = Ok (Fin l, Fin s) ->
  minimises (fun p => 0 < snd p) (fun p => nll (map Fin xs) (Fin (fst p)) (Fin (snd p))) (l, s).
Proof.
  intros CS S. unfold mle. rewrite vxb. intros H.
  assert (E : exists x0, fr2 (fun loc scale => (mle_loc_eqn (map Fin xs) scale loc, mle_scale_eqn (map Fin xs) loc scale)) x0 = Ok (Fin l, Fin s)).
  { match type of H with bindv ?a ?k = _ => destruct a eqn:E0; cbn [bindv] in H; try discriminate H end;
    match type of H with bindv ?a ?k = _ => destruct a eqn:E1; cbn [bindv] in H; try discriminate H end; eauto. }
  destruct E as [x0 E]. apply CS in E. rewrite loc_eqn, scale_eqn in E by auto. injection E as E1 E2.
  split; auto. eexists. split; [apply nll_val; auto|]. intros [l1 s1] S1. simpl in S1. eexists. split; [apply nll_val; auto|].
  apply Rplus_le_compat_l. simpl fst; simpl snd. apply (opt_both _ tanh lncosh_tan); auto; lra.
Qed.
Lemma mle_given fr fr2 l0 s0 xs (l s : R) : 0 < s ->
  mle fr fr2 l0 s0 (map Fin xs) (Some (Fin l)) (Some (Fin s)) = Ok (Fin l, Fin s).
Proof. intros S. unfold mle. rewrite vxb. apply vls_ok; auto. Qed.
(** Non-vacuity. *)
Lemma root : exists u, 0 < u /\ u * tanh u = 1.
Proof.
  destruct (IVT_gen (fun u => u * tanh u) 0 2 1) as [u [U E]].
  - intros u. apply continuity_pt_filterlim. apply (ex_derive_continuous (V := R_NormedModule) (fun u => u * tanh u)). unfold tanh, sinh, cosh.
    pose proof (cosh_pos u) as P. unfold cosh in P. auto_derive. repeat split; auto; lra.
  - rewrite (tanh_exp 2), Rmult_0_l. assert (3 < exp (2 * 2)) by (pose proof (exp_ineq1 (2 * 2) ltac:(lra)); lra).
    assert (2 / (exp (2 * 2) + 1) <= 1 / 2) by (apply (Rmult_le_reg_r (exp (2 * 2) + 1)); [lra|]; unfold Rdiv at 1; rewrite Rmult_assoc, Rinv_l by lra; lra).
    rewrite Rmin_left, Rmax_right by lra. lra.
  - exists u. split; auto. destruct (Req_dec u 0) as [->|]; [lra|]. unfold Rmin in U. destruct (Rle_dec 0 2); lra.
Qed.
Lemma reqb_eq x y : Reqb x y = true -> x = y.
Proof. destruct (Reqb_spec x y) as [[H _]|[_ H]]; [auto|congruence]. Qed.
Definition try1 (r : R) : (val -> val) -> val -> val := fun g _ => match g (Fin r) with Fin z => if Reqb z 0 then Fin r else NaN | _ => NaN end.
Lemma try1_ok r : checked_solver1 (try1 r).
Proof.
  intros g x0 q. unfold try1. destruct (g (Fin r)) as [z| | | |] eqn:E; try discriminate. destruct (Reqb z 0) eqn:Z; [|discriminate].
  intros H. injection H as <-. rewrite E. apply reqb_eq in Z. rewrite Z. auto.
Qed.
Definition try2 (a b : R) : (val -> val -> val * val) -> val * val -> res (val * val) :=
  fun g _ => match g (Fin a) (Fin b) with (Fin y, Fin z) => if Reqb y 0 then if Reqb z 0 then Ok (Fin a, Fin b) else Err ValueError else Err ValueError | _ => Err ValueError end.
Lemma try2_ok a b : checked_solver2 (try2 a b).
Proof.
  intros g x0 q r. unfold try2. destruct (g (Fin a) (Fin b)) as [[y| | | |] [z| | | |]] eqn:E; try discriminate.
  destruct (Reqb y 0) eqn:Y; [|discriminate]. destruct (Reqb z 0) eqn:Z; [|discriminate].
  intros H. injection H as <- <-. rewrite E. apply reqb_eq in Y, Z. rewrite Y, Z. auto.
Qed.
Lemma tanh_odd u : tanh (- u) = - tanh u. Proof. unfold tanh, sinh, cosh. rewrite Ropp_involutive. pose proof (exp_pos u). pose proof (exp_pos (- u)). field. lra. Qed.
Lemma eq1 s : 0 < s -> eqn_l tanh [Ropp 1; 1] 0 s = 0.
Proof. intros S. unfold eqn_l. cbn. replace ((- (1) - 0) / s) with (- ((1 - 0) / s)) by (field; lra). rewrite tanh_odd. unfold rsum; simpl. lra. Qed.
Lemma eq2 u : 0 < u -> u * tanh u = 1 -> eqn_s tanh [Ropp 1; 1] 0 (/ u) - INR 2 = 0.
Proof.
  intros U E. unfold eqn_s. cbn [map]. replace ((- (1) - 0) / / u) with (- u) by (field; lra). replace ((1 - 0) / / u) with u by (field; lra).
  rewrite tanh_odd. unfold rsum; simpl. lra.
Qed.
Lemma case_loc : exists fr l, checked_solver1 fr /\ mle fr (fun _ _ => Err ValueError) None None (map Fin [Ropp 1; 1]) None (Some (Fin 2)) = Ok (Fin l, Fin 2).
Proof.
  exists (try1 0), 0. split; [apply try1_ok|]. unfold mle. rewrite vxb.
  assert (M : M_basic.mean (map Fin [Ropp 1; 1]) None = Fin 0) by (unfold M_basic.mean, vlen; cbn [map vfsum length]; assert (0 < INR 2) by (simpl; lra); veval; f_equal; field; lra).
  rewrite M. cbn [bindv]. rewrite vls_ok by lra. unfold try1. rewrite loc_eqn, eq1 by lra. rewrite Reqb_true by auto. reflexivity.
Qed.
Lemma case_scale : exists fr s, checked_solver1 fr /\ 0 < s /\ mle fr (fun _ _ => Err ValueError) None (Some (Fin 1)) (map Fin [Ropp 1; 1]) (Some (Fin 0)) None = Ok (Fin 0, Fin s).
Proof.
  destruct root as [u [U E]]. assert (UI : 0 < / u) by (apply Rinv_0_lt_compat; auto). exists (try1 (/ u)), (/ u). split; [apply try1_ok|]. split; auto. unfold mle. rewrite vxb.
  cbn [bindv]. rewrite vls_ok by lra. unfold try1. rewrite scale_eqn by auto. change (length [Ropp 1; 1]) with 2%nat. rewrite eq2 by auto. rewrite Reqb_true by auto. reflexivity.
Qed.
Lemma case_both : exists fr2 l s, checked_solver2 fr2 /\ 0 < s /\ mle (fun _ _ => NaN) fr2 (Some (Fin 0)) (Some (Fin 1)) (map Fin [Ropp 1; 1]) None None = Ok (Fin l, Fin s).
Proof.
  destruct root as [u [U E]]. assert (UI : 0 < / u) by (apply Rinv_0_lt_compat; auto). exists (try2 0 (/ u)), 0, (/ u). split; [apply try2_ok|]. split; auto. unfold mle. rewrite vxb.
  cbn [bindv]. unfold try2. rewrite loc_eqn, scale_eqn by auto. change (length [Ropp 1; 1]) with 2%nat. rewrite eq1, eq2 by auto. rewrite !Reqb_true by auto. reflexivity.
Qed.
Lemma loc_scale : loc_scale_law pdf cdf sf invcdf invsf m_infty p_infty.
Proof. apply (loc_scale_from_cert pdf logpdf cdf sf invcdf invsf m_infty p_infty F f Q). intros l s S. apply CERT; auto. Qed.
Lemma bad_params (l s : val) xs : nonpositive s ->
  support l s = Err ValueError /\
  always_ValueError [ fun x => pdf x l s; fun x => logpdf x l s; fun x => cdf x l s; fun x => sf x l s;
    fun p => invcdf p l s; fun p => invsf p l s; fun _ => mean l s; fun _ => mode l s; fun _ => var l s; fun _ => entropy l s; fun _ => nll xs l s ].
Proof.
  intros B. unfold support, logpdf, pdf, cdf, sf, invcdf, invsf, mean, mode, var, entropy, nll.
  split; [|all_ve; intros x Hx]; rewrite vls_bad by auto; reflexivity.
Qed.
