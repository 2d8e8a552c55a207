(** Gamma(1/2), the Gaussian integral and the error function. *)
From Coq Require Import Reals Lra Lia List Bool ZArith.
From Coquelicot Require Import Coquelicot.
From Verif Require Import Values VTac Spec RLib DistLib LimLib IntLib MomLib SFun GammaLib.
Local Open Scope R_scope.
Set Bullet Behavior "Strict Subproofs".

Lemma asin_der x : -1 < x < 1 -> is_derive asin x (1 / sqrt (1 - x ^ 2)).
Proof.
  intros H. apply is_derive_Reals. pose proof (derive_pt_asin x H) as E.
  apply derive_pt_eq_1 in E. replace (x ^ 2) with (Rsqr x) by (unfold Rsqr; ring). auto.
Qed.
Lemma arcsine_quantile : quantile 0 1 (fun t => (asin (2 * t - 1) + PI / 2) / PI) (fun p => (1 + sin (PI * p - PI / 2)) / 2).
Proof.
  intros p Hp. pose proof PI_RGT_0 as P. assert (B : - (PI / 2) < PI * p - PI / 2 < PI / 2) by nra.
  assert (S : -1 < sin (PI * p - PI / 2) < 1).
  { pose proof (sin_increasing_1 (- (PI / 2)) (PI * p - PI / 2) ltac:(lra) ltac:(lra) ltac:(lra) ltac:(lra) ltac:(lra)) as S1.
    pose proof (sin_increasing_1 (PI * p - PI / 2) (PI / 2) ltac:(lra) ltac:(lra) ltac:(lra) ltac:(lra) ltac:(lra)) as S2.
    rewrite sin_neg in S1. rewrite sin_PI2 in *. lra. }
  split.
  - apply inside_01. lra.
  - replace (2 * ((1 + sin (PI * p - PI / 2)) / 2) - 1) with (sin (PI * p - PI / 2)) by field.
    rewrite asin_sin by lra. field. lra.
Qed.
Lemma arcsine_smooth : smooth 0 1 (fun t => (asin (2 * t - 1) + PI / 2) / PI) (fun t => beta_kernel (/ 2) (/ 2) t / PI).
Proof.
  pose proof PI_RGT_0 as P. constructor.
  - exact lt01.
  - intros x H%in01. pose proof (asin_bound_lt (2 * x - 1) ltac:(lra)). split; [left; pos|].
    apply Rmult_le_reg_r with PI; auto. unfold Rdiv. rewrite Rmult_assoc, Rinv_l by lra. lra.
  - intros x H%in01.
    evar_last.
    + apply (is_derive_ext (fun t => / PI * (asin (2 * t - 1) + PI / 2))).
      { intros u. change (/ PI * (asin (2 * u - 1) + PI / 2) = (asin (2 * u - 1) + PI / 2) / PI). field. lra. }
      apply (is_derive_scal (fun t => asin (2 * t - 1) + PI / 2)).
      apply (is_derive_plus (fun t => asin (2 * t - 1)) (fun _ => PI / 2)).
      * apply (is_derive_comp asin (fun t => 2 * t - 1)); [apply asin_der; lra|auto_derive; auto].
      * apply is_derive_const.
    + unfold scal, plus, zero; simpl; unfold mult; simpl. unfold beta_kernel.
      replace (1 - (2 * x - 1) * ((2 * x - 1) * 1)) with (2 ^ 2 * (x * (1 - x))) by ring.
      rewrite sqrt_mult, sqrt_pow2 by nra.
      rewrite <- Rpower_base_mult by lra. replace (/ 2 - 1) with (- / 2) by field. rewrite Rpower_Ropp.
      rewrite Rpower_sqrt by nra. field. split; [|lra]. apply Rgt_not_eq, sqrt_lt_R0. nra.
  - intros x H. pose proof (bk_pos (/ 2) (/ 2) x). pos.
Qed.
Lemma Bint_half : Bint (/ 2) (/ 2) = PI.
Proof.
  pose proof PI_RGT_0 as P.
  assert (A : integrates_to (fun t => beta_kernel (/ 2) (/ 2) t / PI) 0 1 (1 - 0)).
  { apply (mk_integral _ (fun t => (asin (2 * t - 1) + PI / 2) / PI)).
    - exact lt01.
    - apply (sm_der _ _ _ _ arcsine_smooth).
    - intros x H%in01. apply (continuous_scal_l (beta_kernel (/ 2) (/ 2)) (/ PI) x).
      apply bk_cont; auto.
    - apply (lim_lo _ _ _ _ _ arcsine_smooth arcsine_quantile).
    - apply (lim_hi _ _ _ _ _ arcsine_smooth arcsine_quantile). }
  pose proof (integrates_scal 0 1 PI _ _ A) as B.
  apply (integrates_unique 0 1 lt01 (beta_kernel (/ 2) (/ 2))); [apply Bint_int; lra|].
  replace PI with (PI * (1 - 0)) at 1 by ring.
  refine (integrates_ext 0 1 lt01 _ _ _ _ B). intros x H. simpl. field. lra.
Qed.
Theorem Gamma_half : Gamma (/ 2) = sqrt PI.
Proof.
  pose proof Bint_half as B. rewrite Bint_Beta in B by lra. unfold Beta in B.
  replace (/ 2 + / 2) with 1 in B by field. rewrite Gamma_1 in B. pose proof (Gamma_pos (/ 2) ltac:(lra)).
  rewrite <- B. replace (Gamma (/ 2) * Gamma (/ 2) / 1) with (Rsqr (Gamma (/ 2))) by (unfold Rsqr; field).
  rewrite sqrt_Rsqr; lra.
Qed.

(** The Gaussian integral. *)
Definition gauss (t : R) := exp (- t ^ 2).
Definition gint (x : R) := RInt gauss 0 x.
Lemma gauss_cont t : continuous gauss t.
Proof. apply ex_derive_cont. unfold gauss. auto_derive. auto. Qed.
Lemma gint_der x : is_derive gint x (gauss x).
Proof.
  apply (is_derive_RInt gauss gint 0 x); [|apply gauss_cont]. apply filter_forall. intros y.
  apply (RInt_correct (V := R_CompleteNormedModule)). apply (ex_RInt_continuous (V := R_CompleteNormedModule)). intros; apply gauss_cont.
Qed.
Lemma gint_0 : gint 0 = 0.
Proof. apply (RInt_point (V := R_CompleteNormedModule)). Qed.
Lemma gint_odd x : gint (- x) = - gint x.
Proof.
  unfold gint. assert (A : is_RInt gauss (- 0) (- x) (RInt gauss 0 (- x))).
  { rewrite Ropp_0. apply (RInt_correct (V := R_CompleteNormedModule)). apply (ex_RInt_continuous (V := R_CompleteNormedModule)). intros; apply gauss_cont. }
  apply is_RInt_comp_opp in A.
  apply is_RInt_opp in A. rewrite (is_RInt_unique gauss 0 x (opp (RInt gauss 0 (- x)))).
  - symmetry. apply Ropp_involutive.
  - refine (is_RInt_ext _ _ _ _ _ _ A). intros y _. unfold opp; simpl. unfold gauss. rewrite Ropp_involutive. f_equal. ring.
Qed.
(** A function with zero derivative equals its limit. *)
Lemma const_lim lo hi (H : R -> R) c : Rbar_lt lo hi -> (forall x, inside lo hi x -> is_derive H x 0) -> filterlim H (near_lo lo) (locally c) ->
  forall x, inside lo hi x -> H x = c.
Proof.
  intros LT D L x Hx. pose proof (near_lo_proper lo hi LT) as PF.
  assert (C : forall y, inside lo hi y -> H y = H x).
  { intros y Hy. pose proof (deriv_nonneg_incr lo hi H (fun _ => 0) D (fun _ _ => Rle_refl 0)) as M1.
    assert (D2 : forall x, inside lo hi x -> is_derive (fun x => - H x) x 0).
    { intros z Hz. evar_last; [apply (is_derive_opp H); apply D; auto|]. unfold opp; simpl. ring. }
    pose proof (deriv_nonneg_incr lo hi (fun x => - H x) (fun _ => 0) D2 (fun _ _ => Rle_refl 0)) as M2.
    destruct (Rle_lt_dec x y) as [A|A].
    - pose proof (M1 x y Hx Hy A). pose proof (M2 x y Hx Hy A). lra.
    - pose proof (M1 y x Hy Hx ltac:(lra)). pose proof (M2 y x Hy Hx ltac:(lra)). lra. }
  apply (filterlim_locally_unique (F := near_lo lo) (fun _ => H x)); [apply flim_const; typeclasses eauto|].
  apply (flim_eq _ H); auto. generalize (near_lo_inside lo hi LT). apply filter_imp. intros y Hy. auto.
Qed.
Lemma gint_gamma x : 0 < x -> gint x = lower_gamma (/ 2) (x ^ 2) / 2.
Proof.
  intros Hx. pose proof (Gamma_if (/ 2) ltac:(lra)) as G.
  assert (E : gint x - lower_gamma (/ 2) (x ^ 2) / 2 = 0); [|lra].
  apply (const_lim 0 p_infty (fun x => gint x - lower_gamma (/ 2) (x ^ 2) / 2)); [exact I| | |apply inside_pos; auto].
  - intros y Y%inpos. evar_last.
    + apply (is_derive_minus gint (fun x => lower_gamma (/ 2) (x ^ 2) / 2)); [apply gint_der|].
      apply (is_derive_ext (fun x => / 2 * lower_gamma (/ 2) (x ^ 2))).
      { intros u. change (/ 2 * lower_gamma (/ 2) (u ^ 2) = lower_gamma (/ 2) (u ^ 2) / 2). field. }
      apply (is_derive_scal (fun x => lower_gamma (/ 2) (x ^ 2))).
      apply (is_derive_comp (lower_gamma (/ 2)) (fun x => x ^ 2)).
      * apply (if_der _ _ _ _ _ G). apply inside_pos. nra.
      * auto_derive; auto.
    + unfold minus, plus, opp, scal; simpl; unfold mult; simpl. unfold gamma_kernel, gauss.
      replace (/ 2 - 1) with (- / 2) by field. rewrite Rpower_Ropp, Rpower_sqrt by nra. rewrite Rmult_1_r, sqrt_square by lra.
      simpl. rewrite Rmult_1_r. field. lra.
  - simpl. eapply flim_val.
    + apply (flim_minus _ gint (fun x => lower_gamma (/ 2) (x ^ 2) / 2) 0 (0 / 2)).
      * rewrite <- gint_0 at 2. apply flim_right. apply ex_derive_cont. exists (gauss 0). apply gint_der.
      * apply (flim_mult _ (fun x => lower_gamma (/ 2) (x ^ 2)) (fun _ => / 2)); [|apply flim_const; typeclasses eauto].
        apply (filterlim_comp _ _ _ (fun x => x ^ 2) (lower_gamma (/ 2)) _ (at_right 0)); [|apply (if_lo _ _ _ _ _ G)].
        intros P [e He].
        assert (E : 0 < Rmin 1 e) by (apply Rmin_glb_lt; [lra|apply cond_pos]).
        exists (mkposreal _ E). intros y Hy H0. apply He; [|nra].
        unfold ball in *; simpl in *; unfold AbsRing_ball, abs, minus, plus, opp in *; simpl in *.
        apply Rabs_def2 in Hy. pose proof (Rmin_l 1 e). pose proof (Rmin_r 1 e). apply Rabs_def1; nra.
    + field.
Qed.
Lemma lim_sq : filterlim (fun x => x ^ 2) (Rbar_locally p_infty) (Rbar_locally p_infty).
Proof. intros P [M HM]. exists (Rmax 1 M). intros x Hx. apply HM. pose proof (Rmax_l 1 M). pose proof (Rmax_r 1 M). nra. Qed.
Theorem gint_lim : filterlim gint (Rbar_locally p_infty) (locally (sqrt PI / 2)).
Proof.
  pose proof (Gamma_if (/ 2) ltac:(lra)) as G.
  apply (flim_eq _ (fun x => lower_gamma (/ 2) (x ^ 2) / 2)).
  - exists 0. intros x Hx. symmetry. apply gint_gamma; auto.
  - apply (flim_mult _ (fun x => lower_gamma (/ 2) (x ^ 2)) (fun _ => / 2)); [|apply flim_const; typeclasses eauto].
    apply (filterlim_comp _ _ _ (fun x => x ^ 2) (lower_gamma (/ 2)) _ (Rbar_locally p_infty)); [apply lim_sq|].
    rewrite <- Gamma_half. apply (if_hi _ _ _ _ _ G).
Qed.
Lemma sqrtPI_pos : 0 < sqrt PI.
Proof. apply sqrt_lt_R0. apply PI_RGT_0. Qed.
Lemma erf_eq x : erf x = 2 / sqrt PI * gint x.
Proof. reflexivity. Qed.
Lemma erf_der x : is_derive erf x (2 / sqrt PI * exp (- x ^ 2)).
Proof. apply (is_derive_scal gint). apply gint_der. Qed.
Lemma erf_0 : erf 0 = 0.
Proof. rewrite erf_eq, gint_0. ring. Qed.
Lemma erf_odd x : erf (- x) = - erf x.
Proof. rewrite !erf_eq, gint_odd. ring. Qed.
Lemma erf_lim : filterlim erf (Rbar_locally p_infty) (locally 1).
Proof.
  apply (flim_val _ erf (2 / sqrt PI * (sqrt PI / 2))); [|field; pose proof sqrtPI_pos; lra].
  apply (flim_scal _ gint). apply gint_lim.
Qed.
Lemma erf_lim_m : filterlim erf (Rbar_locally m_infty) (locally (-1)).
Proof.
  apply lim_opp_minf. apply (flim_eq _ (fun x => - erf x)).
  - apply filter_forall. intros x. symmetry. apply erf_odd.
  - apply (flim_opp _ erf). apply erf_lim.
Qed.
(** The standard normal density and its primitive. *)
Definition nkernel (x : R) := exp (- x ^ 2 / 2) / sqrt (2 * PI).
Lemma sqrt2_pos : 0 < sqrt 2.
Proof. apply sqrt_lt_R0. lra. Qed.
Lemma ncdf_der x : is_derive ncdf x (nkernel x).
Proof.
  pose proof sqrt2_pos. pose proof sqrtPI_pos. pose proof PI_RGT_0. unfold ncdf. evar_last.
  - apply (is_derive_scal (fun x => 1 + erf (x / sqrt 2))).
    apply (is_derive_plus (fun _ => 1) (fun x => erf (x / sqrt 2))); [apply is_derive_const|].
    apply (is_derive_comp erf (fun x => x / sqrt 2)); [apply erf_der|auto_derive; [lra|reflexivity]].
  - unfold plus, zero, scal; simpl; unfold mult; simpl. unfold nkernel. rewrite sqrt_mult by lra.
    replace (- (x / sqrt 2 * (x / sqrt 2 * 1))) with (- x ^ 2 / 2).
    + field. lra.
    + rewrite <- (sqrt_sqrt 2) at 1 by lra. field. lra.
Qed.
Theorem ncdf_if : integral_fn m_infty p_infty nkernel ncdf 1.
Proof.
  pose proof sqrt2_pos. pose proof PI_RGT_0. assert (0 < sqrt (2 * PI)) by (apply sqrt_lt_R0; lra).
  constructor.
  - exact I.
  - intros x _. apply ex_derive_cont. unfold nkernel. auto_derive. lra.
  - intros x _. unfold nkernel. pos.
  - intros x _. apply ncdf_der.
  - simpl. eapply flim_val.
    + apply (flim_scal _ (fun x => 1 + erf (x / sqrt 2))). apply (flim_plus _ (fun _ => 1)); [apply flim_const; typeclasses eauto|].
      apply (filterlim_comp _ _ _ (fun x => x / sqrt 2) erf _ (Rbar_locally m_infty)); [|apply erf_lim_m].
      intros P [M HM]. exists (M * sqrt 2). intros x Hx. apply HM. apply (Rmult_lt_reg_r (sqrt 2)); auto.
      unfold Rdiv. rewrite Rmult_assoc, Rinv_l by lra. lra.
    + ring.
  - simpl. eapply flim_val.
    + apply (flim_scal _ (fun x => 1 + erf (x / sqrt 2))). apply (flim_plus _ (fun _ => 1)); [apply flim_const; typeclasses eauto|].
      apply (filterlim_comp _ _ _ (fun x => x / sqrt 2) erf _ (Rbar_locally p_infty)); [|apply erf_lim].
      intros P [M HM]. exists (M * sqrt 2). intros x Hx. apply HM. apply (Rmult_lt_reg_r (sqrt 2)); auto.
      unfold Rdiv. rewrite Rmult_assoc, Rinv_l by lra. lra.
    + field.
Qed.
Lemma ncdf_opp x : ncdf (- x) = 1 - ncdf x.
Proof.
  unfold ncdf. pose proof sqrt2_pos. replace (- x / sqrt 2) with (- (x / sqrt 2)) by (field; lra). rewrite erf_odd. field.
Qed.
