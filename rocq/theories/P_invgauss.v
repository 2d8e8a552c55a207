(** Proofs about M_invgauss. *)
From Coq Require Import Reals Lra Lia List ZArith Factorial.
From Coquelicot Require Import Coquelicot.
From Verif Require Import Values VTac Spec RLib LimLib DistLib DistLS IntLib SubLib MomLib LSMom PLib DiscLib M_common SpecStat SpecEst SpecNewton SpecLS
  SFun GammaLib GammaLib2 GammaLib3 M_sfun P_sfun M_newton P_newton.
From Verif Require Import M_invgauss.
Import ListNotations.
Local Open Scope R_scope.
Set Bullet Behavior "Strict Subproofs".

Lemma validate_bad {A} `{CanRaise A} m l s (c : A) : isnum m -> isnum s -> nonpositive m \/ nonpositive s -> validate_params m l s c = raise ValueError.
Proof.
  intros NA NS B. change (validate_params m l s c) with (validate_positive m (validate_positive s c)).
  destruct B as [B|B]; [apply vp_bad; auto|]. apply vp_pass; auto. apply vp_bad; auto.
Qed.
Lemma ncdf1_fin x : ncdf1 (Fin x) = Fin (ncdf x).
Proof. unfold ncdf1. rewrite vncdf_Fin by lra. f_equal. f_equal. field. Qed.
Lemma ncdf1_pinf : ncdf1 PInf = Fin 1. Proof. apply vncdf_PInf. lra. Qed.
Lemma ncdf1_ninf : ncdf1 NInf = Fin 0. Proof. apply vncdf_NInf. lra. Qed.
Lemma ncdf_pos x : 0 < ncdf x < 1. Proof. apply (if_range ncdf_if x (in_all _)). Qed.

Ltac start := unfold pdf, logpdf, cdf, sf, logcdf, logsf, support, mode, mean, var, validate_params, validate_p, vpi.
Ltac bysq z := generalize dependent (sqrt z); intros w ? ?; subst z; field; lra.
Section P.
Variables m l s : R.
Hypothesis HM : 0 < m.
Hypothesis HS : 0 < s.
Definition A (z : R) := (z / m - 1) / sqrt z.
Definition B (z : R) := - (z / m + 1) / sqrt z.
Definition F (z : R) := ncdf (A z) + exp (2 / m) * ncdf (B z).
Definition f (z : R) := exp (- ((z - m) / m) ^ 2 / (2 * z)) / sqrt (2 * PI * z ^ 3).
Definition K := exp (/ m) / sqrt (2 * PI).
Lemma K_pos : 0 < K. Proof. unfold K. pose proof sqrt2PI_pos. pose proof (exp_pos (/ m)). apply Rdiv_pos; auto. Qed.
Lemma sq z : 0 < z -> 0 < sqrt z /\ z = sqrt z * sqrt z. Proof. intros H. split; [apply sqrt_lt_R0; auto|rewrite sqrt_sqrt; lra]. Qed.
Lemma sqrt3 z : 0 < z -> sqrt (2 * PI * z ^ 3) = sqrt (2 * PI) * (z * sqrt z).
Proof.
  intros H. pose proof PI_RGT_0. replace (2 * PI * z ^ 3) with ((2 * PI) * (z ^ 2 * z)) by ring.
  assert (0 < z ^ 2) by (apply pow_lt; auto). rewrite sqrt_mult, (sqrt_mult (z ^ 2)), sqrt_pow2 by (try nra). auto.
Qed.
Lemma f_K z : 0 < z -> f z = K * (exp (- (/ (2 * m ^ 2) * z)) * exp (- / (2 * z)) / (z * sqrt z)).
Proof.
  intros H. destruct (sq z H) as [Z1 Z2]. pose proof sqrt2PI_pos. unfold f, K. rewrite sqrt3 by auto.
  replace (- ((z - m) / m) ^ 2 / (2 * z)) with (/ m + (- (/ (2 * m ^ 2) * z) + - / (2 * z))) by (field; lra).
  rewrite !exp_plus. field. lra.
Qed.
Lemma f_pos z : 0 < z -> 0 < f z.
Proof. intros H. destruct (sq z H). unfold f. rewrite sqrt3 by auto. pose proof sqrt2PI_pos. apply Rdiv_pos; [apply exp_pos|apply Rmult_lt_0_compat; auto; apply Rmult_lt_0_compat; auto]. Qed.
Lemma f_A z : 0 < z -> f z = nkernel (A z) / (z * sqrt z).
Proof.
  intros H. destruct (sq z H) as [Z1 Z2]. unfold f, nkernel, A. rewrite sqrt3 by auto. pose proof sqrt2PI_pos.
  replace (- ((z / m - 1) / sqrt z) ^ 2 / 2) with (- ((z - m) / m) ^ 2 / (2 * z)); [field; lra|].
  transitivity (- ((z / m - 1) ^ 2 / (sqrt z * sqrt z)) / 2); [rewrite <- Z2; field; lra|field; lra].
Qed.
Lemma nk_AB z : 0 < z -> exp (2 / m) * nkernel (B z) = nkernel (A z).
Proof.
  intros H. destruct (sq z H) as [Z1 Z2]. unfold nkernel. pose proof sqrt2PI_pos.
  cut (exp (2 / m) * exp (- B z ^ 2 / 2) = exp (- A z ^ 2 / 2)); [intros <-; field; lra|].
  rewrite <- exp_plus. f_equal. unfold A, B.
  transitivity (2 / m + - ((z / m + 1) ^ 2 / (sqrt z * sqrt z)) / 2); [field; lra|].
  transitivity (- ((z / m - 1) ^ 2 / (sqrt z * sqrt z)) / 2); [|field; lra]. rewrite <- Z2. field. lra.
Qed.
Lemma A_der z : 0 < z -> is_derive A z ((/ m + / z) / (2 * sqrt z)).
Proof.
  intros H. destruct (sq z H) as [Z1 Z2]. unfold A. auto_derive; [repeat split; lra|].
  bysq z.
Qed.
Lemma B_der z : 0 < z -> is_derive B z ((/ z - / m) / (2 * sqrt z)).
Proof.
  intros H. destruct (sq z H) as [Z1 Z2]. unfold B. auto_derive; [repeat split; lra|].
  bysq z.
Qed.
Lemma comb_der c z : 0 < z -> is_derive (fun z => ncdf (A z) + c * (exp (2 / m) * ncdf (B z))) z
  (nkernel (A z) * ((/ m + / z) / (2 * sqrt z) + c * ((/ z - / m) / (2 * sqrt z)))).
Proof.
  intros H. destruct (sq z H) as [Z1 Z2]. evar_last.
  - apply (is_derive_plus (fun z => ncdf (A z)) (fun z => c * (exp (2 / m) * ncdf (B z)))).
    + apply (is_derive_comp ncdf A); [apply ncdf_der|apply A_der; auto].
    + apply is_derive_scal. apply is_derive_scal. apply (is_derive_comp ncdf B); [apply ncdf_der|apply B_der; auto].
  - unfold plus, scal; simpl; unfold mult; simpl. rewrite <- (nk_AB z H). field. lra.
Qed.
Lemma F_der z : 0 < z -> is_derive F z (f z).
Proof.
  intros H. destruct (sq z H) as [Z1 Z2]. evar_last; [apply (is_derive_ext (fun z => ncdf (A z) + 1 * (exp (2 / m) * ncdf (B z)))); [intros; unfold F; simpl; ring|apply comb_der; auto]|].
  rewrite f_A by auto. field. lra.
Qed.
Lemma lim_sqrt_inf : filterlim sqrt pinf pinf.
Proof. intros P [M HM']. exists (Rmax M 0 ^ 2). intros x Hx. apply HM'. pose proof (Rmax_l M 0). pose proof (Rmax_r M 0).
  apply Rle_lt_trans with (Rmax M 0); auto. rewrite <- (sqrt_pow2 (Rmax M 0)) by auto. apply sqrt_lt_1_alt. split; auto. apply pow2_ge_0. Qed.
Lemma B_lo : filterlim B (at_right 0) (Rbar_locally m_infty).
Proof.
  intros P [M HM']. pose proof (Rabs_pos M) as AM. set (d := / (Rabs M + 1) ^ 2).
  assert (D1 : 0 < (Rabs M + 1) ^ 2) by (apply pow_lt; lra). assert (D : 0 < d) by (apply Rinv_0_lt_compat; auto).
  unfold filtermap. generalize (right_lt 0 d D). apply filter_imp. intros x [X1 X2]. apply HM'. destruct (sq x X1) as [Z1 Z2].
  assert (SX : sqrt x < / (Rabs M + 1)).
  { rewrite <- (sqrt_pow2 (/ (Rabs M + 1))) by (left; apply Rinv_0_lt_compat; lra). apply sqrt_lt_1_alt. split; [lra|]. rewrite pow_inv. auto. }
  assert (Rabs M + 1 < / sqrt x).
  { rewrite <- (Rinv_inv (Rabs M + 1)). apply Rinv_lt_contravar; auto. apply Rmult_lt_0_compat; auto. apply Rinv_0_lt_compat; lra. }
  assert (M1 : - M <= Rabs M) by (rewrite <- Rabs_Ropp; apply Rle_abs).
  unfold B. replace (- (x / m + 1) / sqrt x) with (- (sqrt x / m) - / sqrt x) by (clear - HM Z1 Z2; bysq x).
  assert (0 < sqrt x / m) by (apply Rdiv_pos; auto). lra.
Qed.
Lemma B_hi : filterlim B pinf (Rbar_locally m_infty).
Proof.
  intros P [M HM']. destruct (lim_sqrt_inf (fun y => m * Rabs M < y)) as [N HN]; [exists (m * Rabs M); auto|].
  exists (Rmax N 0). intros x Hx. pose proof (Rmax_l N 0). pose proof (Rmax_r N 0). apply HM'. destruct (sq x ltac:(lra)) as [Z1 Z2].
  specialize (HN x ltac:(lra)). unfold B. replace (- (x / m + 1) / sqrt x) with (- (sqrt x / m) - / sqrt x) by (clear - HM Z1 Z2; bysq x).
  assert (Rabs M < sqrt x / m). { apply (Rmult_lt_reg_l m); auto. replace (m * (sqrt x / m)) with (sqrt x) by (field; lra). auto. }
  assert (M1 : - M <= Rabs M) by (rewrite <- Rabs_Ropp; apply Rle_abs). assert (0 < / sqrt x) by (apply Rinv_0_lt_compat; auto). lra.
Qed.
Lemma A_lo : filterlim A (at_right 0) (Rbar_locally m_infty).
Proof.
  intros P [M HM']. pose proof (B_lo (fun y => y < M - 2 / m)) as H. unfold filtermap in *.
  assert (H1 : at_right 0 (fun x => B x < M - 2 / m)) by (apply H; exists (M - 2 / m); auto).
  pose proof (right_lt 0 1 Rlt_0_1) as H2. generalize (filter_and _ _ H1 H2). apply filter_imp. intros x [X1 [X2 X3]]. apply HM'.
  destruct (sq x X2) as [Z1 Z2]. assert (sqrt x < 1) by (rewrite <- sqrt_1; apply sqrt_lt_1_alt; lra).
  assert (E : A x = B x + 2 * sqrt x / m) by (unfold A, B; clear - HM Z1 Z2; bysq x).
  assert (2 * sqrt x / m < 2 / m); [|lra]. unfold Rdiv. apply Rmult_lt_compat_r; [apply Rinv_0_lt_compat; auto|lra].
Qed.
Lemma A_hi : filterlim A pinf pinf.
Proof.
  intros P [M HM']. destruct (lim_sqrt_inf (fun y => m * (Rabs M + 1) < y)) as [N HN]; [exists (m * (Rabs M + 1)); auto|].
  exists (Rmax N 1). intros x Hx. pose proof (Rmax_l N 1). pose proof (Rmax_r N 1). apply HM'. destruct (sq x ltac:(lra)) as [Z1 Z2].
  specialize (HN x ltac:(lra)). assert (1 < sqrt x) by (apply sqrt_gt_1; lra).
  unfold A. replace ((x / m - 1) / sqrt x) with (sqrt x / m - / sqrt x) by (clear - HM Z1 Z2; bysq x).
  assert (Rabs M + 1 < sqrt x / m). { apply (Rmult_lt_reg_l m); auto. replace (m * (sqrt x / m)) with (sqrt x) by (field; lra). auto. }
  assert (M1 : M <= Rabs M) by apply Rle_abs. assert (/ sqrt x < 1) by (rewrite <- Rinv_1; apply Rinv_lt_contravar; lra). lra.
Qed.
Lemma comb_lo c : filterlim (fun z => ncdf (A z) + c * (exp (2 / m) * ncdf (B z))) (at_right 0) (locally 0).
Proof.
  replace 0 with (0 + c * (exp (2 / m) * 0)) at 2 by ring.
  pose proof (near_lo_filter 0) as FL. simpl in FL.
  apply flim_plus; [exact FL|eapply filterlim_comp; [apply A_lo|apply (if_lo _ _ _ _ _ ncdf_if)]|].
  apply flim_scal; [exact FL|]. apply flim_scal; [exact FL|]. eapply filterlim_comp; [apply B_lo|apply (if_lo _ _ _ _ _ ncdf_if)].
Qed.
Lemma comb_hi c : filterlim (fun z => ncdf (A z) + c * (exp (2 / m) * ncdf (B z))) pinf (locally 1).
Proof.
  replace 1 with (1 + c * (exp (2 / m) * 0)) by ring.
  pose proof (near_hi_filter p_infty) as FL. simpl in FL.
  apply flim_plus; [exact FL|eapply filterlim_comp; [apply A_hi|apply (if_hi _ _ _ _ _ ncdf_if)]|].
  apply flim_scal; [exact FL|]. apply flim_scal; [exact FL|]. eapply filterlim_comp; [apply B_hi|apply (if_lo _ _ _ _ _ ncdf_if)].
Qed.
Lemma f_exd z : 0 < z -> ex_derive f z.
Proof.
  intros H. apply (ex_derive_ext_loc (fun z => K * (exp (- (/ (2 * m ^ 2) * z)) * exp (- / (2 * z)) / (z * sqrt z)))).
  - exists (mkposreal z H). intros y Hy. unfold ball in Hy; simpl in Hy; unfold AbsRing_ball, abs, minus, plus, opp in Hy; simpl in Hy.
    symmetry. apply f_K. apply Rabs_def2 in Hy. lra.
  - destruct (sq z H). auto_derive. repeat split; try lra. apply Rgt_not_eq. apply Rmult_lt_0_compat; auto.
Qed.
Lemma f_cont z : 0 < z -> continuous f z.
Proof. intros H. apply ex_derive_cont, f_exd; auto. Qed.
Lemma IFn : integral_fn 0 p_infty f F 1.
Proof.
  constructor.
  - exact I.
  - intros x [H _]. apply f_cont. auto.
  - intros x [H _]. apply f_pos. auto.
  - intros x [H _]. apply F_der. auto.
  - apply (filterlim_ext (fun z => ncdf (A z) + 1 * (exp (2 / m) * ncdf (B z)))); [intros; unfold F; ring|apply comb_lo].
  - apply (filterlim_ext (fun z => ncdf (A z) + 1 * (exp (2 / m) * ncdf (B z)))); [intros; unfold F; ring|apply comb_hi].
Qed.
Definition Q (p : R) := inverse_fn 0 p_infty F p.
Lemma ST : std 0 p_infty F f Q.
Proof.
  destruct (std_of_if _ _ _ _ _ IFn) as [S1 S2 S3]. constructor.
  - constructor; [exact I|..]; intros x Hx; pose proof (if_range IFn x Hx); destruct Hx as [Hx _]; simpl in Hx; [lra|apply F_der; auto|apply f_pos; auto].
  - intros x [H _]. apply f_cont. auto.
  - intros p Hp. destruct (S3 p Hp) as [A1 A2]. replace (p * 1) with p in A1, A2 by ring. split; [exact A1|]. unfold Q. lra.
Qed.
(** Unimodality. *)
Definition z0 := m * (sqrt (1 + (3 * m / 2) ^ 2) - 3 * m / 2).
Lemma z0_eq : z0 ^ 2 + 3 * m ^ 2 * z0 - m ^ 2 = 0.
Proof.
  unfold z0. set (h := 3 * m / 2). assert (E : sqrt (1 + h ^ 2) * sqrt (1 + h ^ 2) = 1 + h ^ 2) by (apply sqrt_sqrt; pose proof (pow2_ge_0 h); lra).
  set (w := sqrt (1 + h ^ 2)) in *. clearbody w. replace (3 * m ^ 2) with (2 * h * m) by (unfold h; field).
  transitivity (m ^ 2 * (w * w - h ^ 2 - 1)); [ring|]. rewrite E. ring.
Qed.
Lemma z0_pos : 0 < z0.
Proof.
  unfold z0. apply Rmult_lt_0_compat; auto. set (h := 3 * m / 2). assert (0 < h) by (unfold h; lra).
  assert (h < sqrt (1 + h ^ 2)); [|lra]. rewrite <- (sqrt_pow2 h) at 1 by lra. apply sqrt_lt_1_alt. pose proof (pow2_ge_0 h). lra.
Qed.
Lemma f_ln z : 0 < z -> f z = exp (ln K - z / (2 * m ^ 2) - / (2 * z) - 3 / 2 * ln z).
Proof.
  intros H. destruct (sq z H) as [Z1 Z2]. rewrite f_K by auto. rewrite !exp_minus, exp_ln by apply K_pos.
  replace (z * sqrt z) with (exp (3 / 2 * ln z)).
  - replace (/ (2 * m ^ 2) * z) with (z / (2 * m ^ 2)) by (unfold Rdiv; ring). rewrite !exp_Ropp. pose proof (exp_pos (z / (2 * m ^ 2))). pose proof (exp_pos (/ (2 * z))). pose proof (exp_pos (3 / 2 * ln z)). field. lra.
  - replace (3 / 2 * ln z) with (ln z + ln (sqrt z)) by (rewrite ln_sqrt by auto; field). rewrite exp_plus, !exp_ln by auto. auto.
Qed.
Lemma f_up x y : 0 < x -> x <= y -> y <= z0 -> f x <= f y.
Proof.
  intros X L Y. pose proof z0_eq. pose proof z0_pos. rewrite !f_ln by lra. apply exp_le_compat.
  assert (KK : ln (y / x) <= y / x - 1) by (apply ln_ineq, Rdiv_pos; lra). rewrite ln_div in KK by lra.
  assert (M2 : 0 < m ^ 2) by (apply pow_lt; auto).
  assert (E : 0 <= m ^ 2 - 3 * m ^ 2 * y - x * y) by nra.
  assert (0 <= - (3 / 2) * (y / x - 1) - (y - x) / (2 * m ^ 2) + (/ (2 * x) - / (2 * y))).
  { replace (- (3 / 2) * (y / x - 1) - (y - x) / (2 * m ^ 2) + (/ (2 * x) - / (2 * y))) with ((y - x) * / (2 * x * y * m ^ 2) * (m ^ 2 - 3 * m ^ 2 * y - x * y)) by (field; lra).
    apply Rmult_le_pos; auto. apply Rmult_le_pos; [lra|]. left. apply Rinv_0_lt_compat. apply Rmult_lt_0_compat; auto. nra. }
  replace ((y - x) / (2 * m ^ 2)) with (y / (2 * m ^ 2) - x / (2 * m ^ 2)) in * by (field; lra). lra.
Qed.
Lemma f_down x y : z0 <= x -> x <= y -> f y <= f x.
Proof.
  intros X L. pose proof z0_eq. pose proof z0_pos. rewrite !f_ln by lra. apply exp_le_compat.
  assert (KK : ln (x / y) <= x / y - 1) by (apply ln_ineq, Rdiv_pos; lra). rewrite ln_div in KK by lra.
  assert (M2 : 0 < m ^ 2) by (apply pow_lt; auto).
  assert (E : 0 <= 3 * m ^ 2 * x + x * y - m ^ 2) by nra.
  assert (0 <= 3 / 2 * (1 - x / y) + (y - x) / (2 * m ^ 2) - (/ (2 * x) - / (2 * y))).
  { replace (3 / 2 * (1 - x / y) + (y - x) / (2 * m ^ 2) - (/ (2 * x) - / (2 * y))) with ((y - x) * / (2 * x * y * m ^ 2) * (3 * m ^ 2 * x + x * y - m ^ 2)) by (field; lra).
    apply Rmult_le_pos; auto. apply Rmult_le_pos; [lra|]. left. apply Rinv_0_lt_compat. apply Rmult_lt_0_compat; auto. nra. }
  replace ((y - x) / (2 * m ^ 2)) with (y / (2 * m ^ 2) - x / (2 * m ^ 2)) in * by (field; lra). lra.
Qed.
Lemma z_pos x : l < x -> 0 < (x - l) / s. Proof. intros. apply Rdiv_pos; lra. Qed.
Lemma z_pos' x : 0 < (x - l) / s -> l < x.
Proof. intros H. assert (0 < (x - l) / s * s) by nra. unfold Rdiv in H0. rewrite Rmult_assoc, Rinv_l in H0 by lra. lra. Qed.
Lemma pdf_fin (x : R) : l < x -> pdf x m l s = Fin (f ((x - l) / s) / s) /\ logpdf x m l s = Fin (ln (f ((x - l) / s) / s)).
Proof.
  intros H. pose proof (z_pos x H) as Z. pose proof PI_RGT_0.
  assert (0 < ((x - l) / s) ^ 3) by (apply pow_lt; auto). assert (P1 : 0 < 2 * PI * ((x - l) / s) ^ 3) by (apply Rmult_lt_0_compat; lra).
  pose proof (sqrt_lt_R0 _ P1) as P2. split.
  - assert (0 < s * sqrt (2 * PI * ((x - l) / s) ^ 3)) by (apply Rmult_lt_0_compat; auto).
    start. veval. unfold f. generalize dependent ((x - l) / s). intros w W1 W2 W3 W4 W5. f_equal. field. lra.
  - rewrite ln_div by (auto; apply f_pos; auto). start. veval. f_equal. unfold f. generalize dependent ((x - l) / s). intros w W1 W2 W3 W4.
    rewrite ln_div, ln_exp by (auto using exp_pos). rewrite ln_sqrt by auto. rewrite (ln_mult (2 * PI)) by lra. rewrite (ln_pow w 3) by auto. simpl INR. field. lra.
Qed.
Lemma cdf_fin (x : R) : l < x -> cdf x m l s = Fin (F ((x - l) / s)) /\ sf x m l s = Fin (1 - F ((x - l) / s)).
Proof.
  intros H. pose proof (z_pos x H) as Z. destruct (sq _ Z) as [Z1 Z2]. start. veval. unfold F, A, B.
  generalize dependent ((x - l) / s). intros w W1 W2 W3. rewrite !ncdf1_fin. veval.
  replace (- (w / m - 1) / sqrt w) with (- ((w / m - 1) / sqrt w)) by (field; lra). rewrite ncdf_opp. split; auto. f_equal. ring.
Qed.
(** The code gives nan at +inf (inf/inf); the certificate is about the function with the right
    value there. *)
Definition cdf1 (x : val) := match x with PInf => Fin 1 | _ => cdf x m l s end.
Definition sf1 (x : val) := match x with PInf => Fin 0 | _ => sf x m l s end.
Lemma CERT : cert (fun x => pdf x m l s) (fun x => logpdf x m l s) cdf1 sf1
  (fun p => ideal_cdf Q p l s) (fun p => ideal_sf Q p l s) l p_infty (fun x => F ((x - l) / s)) (fun x => f ((x - l) / s) / s) (fun p => l + s * Q p).
Proof.
  apply (ls_cert 0 p_infty F f Q ST l s HS); auto.
  - simpl. f_equal. ring.
  - constructor; unfold cdf1, sf1.
    + intros x [H _]. simpl in H. apply cdf_fin; auto.
    + intros x H. simpl in H. start. veval. auto.
    + intros x [].
    + start. veval. auto.
    + auto.
  - intros x [H _]. simpl in H. apply pdf_fin. apply z_pos'; auto.
  - intros x [H|[]]. simpl in H. start. veval. auto.
Qed.
Lemma inf_nan : cdf PInf m l s = NaN /\ sf PInf m l s = NaN.
Proof.
  start. veval. assert (E : ncdf1 NaN = NaN).
  { unfold ncdf1, vncdf. assert (0 < 1 * sqrt 2) by (pose proof (sqrt_lt_R0 2 ltac:(lra)); lra). veval. unfold vdiv. rewrite ?Reqb_false by lra. reflexivity. }
  rewrite E. split; reflexivity.
Qed.
Lemma compl (x : R) : exists c, 0 <= c <= 1 /\ cdf x m l s = Fin c /\ sf x m l s = Fin (1 - c).
Proof. apply (cert_complementary CERT (Fin x)). constructor. Qed.
Lemma cdf_laws : (forall x y : R, x <= y -> exists c d, cdf x m l s = Fin c /\ cdf y m l s = Fin d /\ c <= d) /\
  (forall x : R, x <= l -> cdf x m l s = Fin 0) /\ cdf NInf m l s = Fin 0 /\
  filterlim (fun x : R => toR (cdf x m l s)) (Rbar_locally p_infty) (locally 1) /\
  support m l s = Ok (Fin l, PInf).
Proof.
  split; [|split; [|split; [|split]]].
  - intros x y H. apply (cert_nondecreasing CERT (Fin x) (Fin y)). constructor; auto.
  - intros x H. start. veval. auto.
  - start. veval. auto.
  - pose proof (lim_hi l p_infty _ _ _ (ce_smooth _ _ _ _ _ _ _ _ _ _ _ CERT) (ce_quant _ _ _ _ _ _ _ _ _ _ _ CERT)) as L.
    apply (filterlim_ext_loc (fun x => F ((x - l) / s))); [|exact L]. exists l. intros x H. rewrite (proj1 (cdf_fin x H)). reflexivity.
  - start. veval. auto.
Qed.
Lemma density : density_of (fun x => cdf x m l s) (fun x => pdf x m l s) l p_infty.
Proof. exact (cert_density CERT). Qed.
Lemma log_all (x : R) : log_of (fun x => pdf x m l s) (fun x => logpdf x m l s) x.
Proof.
  revert x. apply (cert_log_ends CERT); intros x E; [|discriminate]. injection E as E; subst x.
  right; left. start. veval. auto.
Qed.
Lemma log_cdf_sf (x : R) : log_of (fun x => cdf x m l s) (fun x => logcdf x m l s) x /\
  log_of (fun x => sf x m l s) (fun x => logsf x m l s) x.
Proof.
  destruct (Rle_lt_dec x l) as [H|H].
  - split; [right; left; start; veval; auto|left; exists 1; start; veval; rewrite ln_1; repeat split; auto; lra].
  - pose proof (z_pos x H) as Z. pose proof (F_open01 0 p_infty F f (st_smooth _ _ _ _ _ ST) ((x - l) / s) ltac:(split; simpl; auto)) as R.
    destruct (cdf_fin x H) as [E1 E2]. destruct (sq _ Z) as [Z1 Z2].
    split; left; eexists; (split; [|split; [first [apply E1|apply E2]|]]); try lra; start; veval; clear E1 E2; unfold F, A, B in *;
      generalize dependent ((x - l) / s); intros w W1 W2 W3 W4; rewrite !ncdf1_fin;
      replace (- (w / m - 1) / sqrt w) with (- ((w / m - 1) / sqrt w)) by (field; lra); rewrite ?ncdf_opp;
      pose proof (ncdf_pos ((w / m - 1) / sqrt w)) as N1; pose proof (ncdf_pos (- (w / m + 1) / sqrt w)) as N2;
      set (u := ncdf ((w / m - 1) / sqrt w)) in *; set (v := ncdf (- (w / m + 1) / sqrt w)) in *; clearbody u v; veval.
    + assert (X : exp (2 / m + ln v - ln u) = exp (2 / m) * v / u) by (rewrite exp_minus, exp_plus, !exp_ln by lra; auto).
      assert (0 < exp (2 / m) * v / u) by (pose proof (exp_pos (2 / m)); apply Rdiv_pos; nra). rewrite X, vlog_Fin by lra. veval. f_equal.
      rewrite <- ln_mult by lra. f_equal. field. lra.
    + assert (X : exp (2 / m + ln v - ln (1 - u)) = exp (2 / m) * v / (1 - u)) by (rewrite exp_minus, exp_plus, !exp_ln by lra; auto).
      assert (0 < exp (2 / m) * v) by (pose proof (exp_pos (2 / m)); nra).
      assert (exp (2 / m) * v / (1 - u) < 1) by (apply div_lt_1; lra).
      rewrite X, vlog_Fin by lra. veval. f_equal.
      rewrite <- ln_mult by lra. f_equal. field. lra.
Qed.
Lemma mode_fin : mode m l s = Fin (l + s * z0).
Proof.
  start. assert (P0 : 0 < 3 * m / 2) by lra. set (h := 3 * m / 2) in *. assert (P : 0 < h ^ 2) by (apply pow_lt; auto). assert (P2 : 0 < 1 / h ^ 2) by (apply Rdiv_pos; lra).
  veval. f_equal. unfold z0. fold h.
  assert (E : exp (ln (1 + 1 / h ^ 2) / 2) = sqrt (1 + h ^ 2) / h).
  { rewrite <- ln_sqrt by lra. rewrite exp_ln by (apply sqrt_lt_R0; lra). replace (1 + 1 / h ^ 2) with ((1 + h ^ 2) / h ^ 2) by (field; lra).
    rewrite sqrt_div by lra. rewrite sqrt_pow2 by lra. auto. }
  rewrite vlog_Fin by lra. veval. rewrite E. f_equal. field. lra.
Qed.
Lemma mode_ok : is_mode (fun x => pdf x m l s) (mode m l s).
Proof.
  pose proof z0_pos as MI. rewrite mode_fin. eexists _, _. split; [reflexivity|].
  split; [apply pdf_fin; nra|]. replace ((l + s * z0 - l) / s) with z0 by (field; lra).
  intros x. destruct (Rle_lt_dec x l) as [H|H].
  - exists 0. split; [start; veval; auto|]. left. apply Rdiv_pos; auto. apply f_pos; auto.
  - eexists. split; [apply pdf_fin; auto|]. apply Rmult_le_compat_r; [left; apply Rinv_0_lt_compat; auto|].
    pose proof (z_pos x H). destruct (Rle_dec ((x - l) / s) z0); [apply f_up|apply f_down]; lra.
Qed.
Lemma zmono x y : x <= y -> (x - l) / s <= (y - l) / s.
Proof. intros H. unfold Rdiv. apply Rmult_le_compat_r; [left; apply Rinv_0_lt_compat; auto|lra]. Qed.
Lemma zm : (l + s * z0 - l) / s = z0. Proof. field. lra. Qed.
Lemma newton_ok (p : R) (prec : Z) : 0 < p < 1 -> exists x, mode m l s = Fin x /\
  newton_monotone (fun x => cdf x m l s) (fun x => pdf x m l s) l x p prec (fun fuel => invcdf prec fuel p m l s) /\
  newton_monotone (fun x => cdf x m l s) (fun x => pdf x m l s) l x (1 - p) prec (fun fuel => invsf prec fuel p m l s).
Proof.
  intros Hp. exists (l + s * z0). split; [apply mode_fin|].
  pose proof z0_pos as MI. assert (IS : 0 < / s) by (apply Rinv_0_lt_compat; auto).
  assert (LM : l < l + s * z0) by nra.
  assert (UP : forall x y : R, l < x -> x <= y -> y <= l + s * z0 -> f ((x - l) / s) / s <= f ((y - l) / s) / s).
  { intros x y X L Y. apply Rmult_le_compat_r; [lra|]. apply f_up; [apply z_pos; auto|apply zmono; auto|rewrite <- zm; apply zmono; auto]. }
  assert (DOWN : forall x y : R, l + s * z0 <= x -> x <= y -> f ((y - l) / s) / s <= f ((x - l) / s) / s).
  { intros x y X L. apply Rmult_le_compat_r; [lra|]. apply f_down; [rewrite <- zm; apply zmono; auto|apply zmono; auto]. }
  split.
  - apply (newton_cert CERT _ LM UP DOWN p prec (fun x0 => vadd x0 (vdiv (vsub (Fin p) (cdf x0 m l s)) (pdf x0 m l s)))); auto.
    + unfold cdf1, sf1. intros x d Hx -> _ -> Hd. veval. reflexivity.
    + intros fuel. unfold invcdf. rewrite mode_fin. unfold validate_params, validate_p. veval. reflexivity.
  - apply (newton_cert CERT _ LM UP DOWN (1 - p) prec (fun x0 => vsub x0 (vdiv (vsub (Fin p) (sf x0 m l s)) (pdf x0 m l s)))); [lra|..].
    + unfold cdf1, sf1. intros x d Hx _ -> -> Hd. veval. f_equal. field. lra.
    + intros fuel. unfold invsf. rewrite mode_fin. unfold validate_params, validate_p. veval. reflexivity.
Qed.
Lemma median_ok prec fuel : median prec fuel m l s = invcdf prec fuel (1 / 2) m l s.
Proof. unfold median, validate_params. veval. reflexivity. Qed.
Lemma ends prec fuel : rejects_bad_p (fun p => invcdf prec fuel p m l s) /\ rejects_bad_p (fun p => invsf prec fuel p m l s) /\
  at_ends (fun p => invcdf prec fuel p m l s) (Fin l) PInf /\ at_ends (fun p => invsf prec fuel p m l s) PInf (Fin l).
Proof.
  unfold invcdf, invsf, validate_params, validate_p. split; [|split; [|split]].
  - split; [intros p [H'|H']|split]; veval; reflexivity.
  - split; [intros p [H'|H']|split]; veval; reflexivity.
  - unfold at_ends. veval. auto.
  - unfold at_ends. veval. auto.
Qed.
(** Moments. *)
Lemma mom1 : integrates_to (fun z => z ^ 1 * f z) 0 p_infty m.
Proof.
  replace m with (m * 1 - m * 0) by ring.
  apply (mk_integral _ (fun z => m * (ncdf (A z) + (-1) * (exp (2 / m) * ncdf (B z))))); [exact I|..].
  - intros z [H _]. simpl in H. destruct (sq z H). evar_last; [apply is_derive_scal, comb_der; auto|]. rewrite f_A by auto. simpl. field. lra.
  - intros z [H _]. simpl in H. apply (continuous_mult (fun z => z ^ 1) f); [apply ex_derive_cont; auto_derive; auto|apply f_cont; auto].
  - apply flim_scal; [apply (near_lo_filter 0)|apply comb_lo].
  - apply flim_scal; [apply (near_hi_filter p_infty)|apply comb_hi].
Qed.
Lemma zf_hi k : filterlim (fun z => z ^ k * f z) pinf (locally 0).
Proof.
  pose proof K_pos as KP. assert (M2 : 0 < / (2 * m ^ 2)) by (apply Rinv_0_lt_compat; assert (0 < m ^ 2) by (apply pow_lt; auto); lra).
  set (c := / (2 * m ^ 2)) in *.
  apply (flim_squeeze0 _ _ (fun z => K * / c ^ k * ((c * z) ^ k * exp (- (c * z))))).
  - exists 1. intros z H. destruct (sq z ltac:(lra)) as [Z1 Z2]. pose proof (f_pos z ltac:(lra)). assert (0 < z ^ k) by (apply pow_lt; lra).
    rewrite Rabs_pos_eq by nra. rewrite f_K by lra. fold c. rewrite Rpow_mult_distr. assert (0 < c ^ k) by (apply pow_lt; auto).
    replace (K * / c ^ k * (c ^ k * z ^ k * exp (- (c * z)))) with (z ^ k * (K * exp (- (c * z)))) by (field; lra).
    apply Rmult_le_compat_l; [lra|]. apply Rmult_le_compat_l; [lra|]. pose proof (exp_pos (- (c * z))).
    assert (exp (- / (2 * z)) <= 1) by (apply exp_le_1; assert (0 < / (2 * z)) by (apply Rinv_0_lt_compat; lra); lra).
    assert (1 < sqrt z) by (apply sqrt_gt_1; lra). assert (1 <= z * sqrt z) by nra. pose proof (exp_pos (- / (2 * z))).
    apply (Rmult_le_reg_r (z * sqrt z)); [lra|]. unfold Rdiv. rewrite Rmult_assoc, Rinv_l, Rmult_1_r by lra. nra.
  - replace 0 with (K * / c ^ k * 0) by ring. apply flim_scal; [apply Rbar_locally_filter|].
    apply (filterlim_comp _ _ _ (fun z => c * z) (fun y => y ^ k * exp (- y)) _ pinf); [apply pinf_scal; auto|apply lim_pow_exp].
Qed.
Lemma zf_lo k : (2 <= k)%nat -> filterlim (fun z => z ^ k * f z) (at_right 0) (locally 0).
Proof.
  intros Hk. pose proof K_pos as KP. pose proof (near_lo_filter 0) as FL. simpl in FL.
  apply (flim_squeeze0 _ _ (fun z => K * sqrt z)).
  - generalize (right_lt 0 1 Rlt_0_1). apply filter_imp. intros z [H0 H1]. destruct (sq z H0) as [Z1 Z2]. pose proof (f_pos z H0). assert (0 < z ^ k) by (apply pow_lt; lra).
    rewrite Rabs_pos_eq by nra. rewrite f_K by lra. set (c := / (2 * m ^ 2)) in *.
    assert (C0 : 0 < c) by (apply Rinv_0_lt_compat; assert (0 < m ^ 2) by (apply pow_lt; auto); lra).
    assert (E1 : exp (- (c * z)) <= 1) by (apply exp_le_1; nra).
    assert (E2 : exp (- / (2 * z)) <= 1) by (apply exp_le_1; assert (0 < / (2 * z)) by (apply Rinv_0_lt_compat; lra); lra).
    assert (ZK : z ^ k <= z ^ 2).
    { replace k with (2 + (k - 2))%nat by lia. rewrite pow_add. assert (0 < z ^ 2) by (apply pow_lt; auto).
      assert (z ^ (k - 2) <= 1) by (rewrite <- (pow1 (k - 2)); apply pow_incr; lra). nra. }
    pose proof (exp_pos (- (c * z))). pose proof (exp_pos (- / (2 * z))). set (e1 := exp (- (c * z))) in *. set (e2 := exp (- / (2 * z))) in *. clearbody e1 e2.
    assert (IP : 0 < / (z * sqrt z)) by (apply Rinv_0_lt_compat; nra).
    apply Rle_trans with (z ^ 2 * (K * (1 / (z * sqrt z)))).
    + assert (e1 * e2 <= 1) by nra. assert (0 < e1 * e2) by nra.
      apply Rmult_le_compat; try lra; [unfold Rdiv; apply Rmult_le_pos; [lra|apply Rmult_le_pos; lra]|].
      apply Rmult_le_compat_l; [lra|]. apply Rmult_le_compat_r; lra.
    + right. clear - Z1 Z2 H0. revert Z1 Z2. generalize (sqrt z). intros w W1 W2. subst z. field. lra.
  - replace 0 with (K * sqrt 0) at 2 by (rewrite sqrt_0; ring). apply flim_scal; [exact FL|]. apply (flim_right sqrt). apply continuity_pt_filterlim. apply continuity_pt_sqrt. lra.
Qed.
Lemma f_der z : 0 < z -> is_derive f z (f z * (- (3 / (2 * z)) - / (2 * m ^ 2) + / (2 * z ^ 2))).
Proof.
  intros H. apply (is_derive_ext_loc (fun z => exp (ln K - z / (2 * m ^ 2) - / (2 * z) - 3 / 2 * ln z))).
  - exists (mkposreal z H). intros y Hy. unfold ball in Hy; simpl in Hy; unfold AbsRing_ball, abs, minus, plus, opp in Hy; simpl in Hy.
    symmetry. apply f_ln. apply Rabs_def2 in Hy. lra.
  - rewrite f_ln by auto. auto_derive; [repeat split; try lra|]. simpl. match goal with |- context [exp ?e] => set (E := exp e) end.
    match goal with |- context [exp ?e] => fold E || (replace (exp e) with E by (unfold E; f_equal; field; lra)) | _ => idtac end. field. lra.
Qed.
Lemma mom_step n u v : (1 <= n)%nat -> integrates_to (fun z => z ^ (n - 1) * f z) 0 p_infty u -> integrates_to (fun z => z ^ n * f z) 0 p_infty v ->
  integrates_to (fun z => z ^ (n + 1) * f z) 0 p_infty (m ^ 2 * (2 * INR n - 1) * v + m ^ 2 * u).
Proof.
  intros Hn U V.
  assert (D : integrates_to (fun z => (INR n - / 2) * (z ^ n * f z) + (- / (2 * m ^ 2) * (z ^ (n + 1) * f z) + / 2 * (z ^ (n - 1) * f z))) 0 p_infty 0).
  { replace 0 with (0 - 0) at 2 by ring. apply (mk_integral _ (fun z => z ^ (n + 1) * f z)); [exact I|..].
    - intros z [H _]. simpl in H. evar_last.
      + apply (is_derive_mult (fun z => z ^ (n + 1)) f); [auto_derive; auto|apply f_der; auto|intros; apply Rmult_comm].
      + unfold plus, mult; simpl. destruct n as [|n]; [lia|]. replace (Init.Nat.pred (S n + 1)) with (S n) by lia. replace (S n - 1)%nat with n by lia.
        replace (S n + 1)%nat with (S (S n)) by lia. rewrite !S_INR. simpl pow. field. lra.
    - intros z [H _]. simpl in H. apply ex_derive_cont. 
      assert (P : forall k, ex_derive (fun z => z ^ k * f z) z).
      { intros k. apply (ex_derive_mult (fun z => z ^ k) f); [auto_derive; auto|apply f_exd; auto]. }
      apply (ex_derive_plus (fun z => (INR n - / 2) * (z ^ n * f z))); [apply ex_derive_scal; auto|].
      apply (ex_derive_plus (fun z => - / (2 * m ^ 2) * (z ^ (n + 1) * f z))); apply ex_derive_scal; auto.
    - apply zf_lo. lia.
    - apply zf_hi. }
  assert (M2 : 0 < m ^ 2) by (apply pow_lt; auto).
  apply (integrates_ext 0 p_infty I (fun z => m ^ 2 * (2 * INR n - 1) * (z ^ n * f z) + (m ^ 2 * (z ^ (n - 1) * f z) + (- (2 * m ^ 2)) *
    ((INR n - / 2) * (z ^ n * f z) + (- / (2 * m ^ 2) * (z ^ (n + 1) * f z) + / 2 * (z ^ (n - 1) * f z)))))).
  - intros z _. field. lra.
  - replace (m ^ 2 * (2 * INR n - 1) * v + m ^ 2 * u) with (m ^ 2 * (2 * INR n - 1) * v + (m ^ 2 * u + (- (2 * m ^ 2)) * 0)) by ring.
    apply integrates_plus; [apply integrates_scal; auto|]. apply integrates_plus; apply integrates_scal; auto.
Qed.
Definition cc (n k : nat) := INR (fact (n + k - 1)) / (INR (fact k) * INR (fact (n - k - 1))).
Definition Mn (n : nat) := match n with O => 1 | _ => m ^ n * nsum (fun k => cc n k * (m / 2) ^ k) n end.
Lemma fpos n : 0 < INR (fact n). Proof. apply lt_0_INR, lt_O_fact. Qed.
Lemma fS n : INR (fact (S n)) = (INR n + 1) * INR (fact n).
Proof. rewrite fact_simpl, mult_INR, S_INR. reflexivity. Qed.
Lemma cc_0 n : cc (S n) 0 = 1.
Proof. unfold cc. replace (S n + 0 - 1)%nat with n by lia. replace (S n - 0 - 1)%nat with n by lia. simpl (fact 0). pose proof (fpos n). simpl INR. field. lra. Qed.
(** For n >= 2, 1 <= k + 1 <= n. *)
Lemma cc_step n k : (k < n + 2)%nat ->
  cc (n + 3) (k + 1) = 2 * (2 * INR (n + 2) - 1) * cc (n + 2) k + (if Nat.ltb k n then cc (n + 1) (k + 1) else 0).
Proof.
  intros H. unfold cc. replace (n + 3 + (k + 1) - 1)%nat with (S (S (n + k + 1))) by lia. replace (n + 3 - (k + 1) - 1)%nat with (n + 1 - k)%nat by lia.
  replace (n + 2 + k - 1)%nat with (n + k + 1)%nat by lia. replace (n + 2 - k - 1)%nat with (n + 1 - k)%nat by lia.
  replace (n + 1 + (k + 1) - 1)%nat with (n + k + 1)%nat by lia. replace (n + 1 - (k + 1) - 1)%nat with (n - k - 1)%nat by lia.
  rewrite (PeanoNat.Nat.add_1_r k). rewrite !fS. pose proof (fpos k) as Fk. pose proof (fpos (n + k + 1)) as F1. pose proof (fpos (n + 1 - k)) as F2.
  pose proof (pos_INR k). pose proof (pos_INR n).
  destruct (Nat.ltb_spec k n) as [L|L].
  - replace (n + 1 - k)%nat with (S (S (n - k - 1))) in * by lia. pose proof (fpos (n - k - 1)) as F3. rewrite !fS in *. rewrite ?S_INR, !minus_INR, !plus_INR in * by lia. simpl INR in *.
    assert (L' : INR k + 1 <= INR n) by (rewrite <- S_INR; apply le_INR; lia).
    set (a := INR n) in *. set (b := INR k) in *. set (A1 := INR (fact (n + k + 1))) in *. set (A2 := INR (fact (n - k - 1))) in *. set (A3 := INR (fact k)) in *. clearbody a b A1 A2 A3. field. repeat split; lra.
  - assert (E : k = n \/ k = (n + 1)%nat) by lia. rewrite ?S_INR, !plus_INR. simpl INR. destruct E; subst k.
    + replace (n + 1 - n)%nat with 1%nat in * by lia. simpl (INR (fact 1)). field. lra.
    + replace (n + 1 - (n + 1))%nat with 0%nat in * by lia. rewrite ?plus_INR. simpl (INR (fact 0)). simpl INR in *. field. lra.
Qed.
Lemma Mn_0 : Mn 0 = 1. Proof. reflexivity. Qed.
Lemma Mn_1 : Mn 1 = m. Proof. unfold Mn. simpl nsum. rewrite cc_0. simpl. ring. Qed.
Lemma Mn_rec n : (1 <= n)%nat -> Mn (n + 1) = m ^ 2 * (2 * INR n - 1) * Mn n + m ^ 2 * Mn (n - 1).
Proof.
  intros Hn. destruct n as [|[|n]]; [lia| |].
  - simpl Nat.sub. simpl Nat.add. rewrite Mn_1, Mn_0. unfold Mn. simpl nsum. rewrite cc_0. unfold cc. simpl. field.
  - replace (S (S n)) with (n + 2)%nat by lia. replace (n + 2 + 1)%nat with (S (n + 2)) by lia. replace (n + 2 - 1)%nat with (n + 1)%nat by lia.
    set (h := m / 2). assert (Mh : m = 2 * h) by (unfold h; field).
    assert (X : nsum (fun k => cc (S (n + 2)) k * h ^ k) (S (n + 2)) =
      2 * (2 * INR (n + 2) - 1) * (h * nsum (fun k => cc (n + 2) k * h ^ k) (n + 2)) + nsum (fun k => cc (n + 1) k * h ^ k) (n + 1)).
    { rewrite nsum_first. rewrite cc_0. rewrite <- !nsum_scal.
      assert (Y : nsum (fun k => cc (n + 1) k * h ^ k) (n + 1) = 1 * h ^ 0 + nsum (fun k => cc (n + 1) (S k) * h ^ (S k)) n)
        by (replace (n + 1)%nat with (S n) by lia; rewrite nsum_first, cc_0; auto).
      rewrite Y.
      transitivity (1 * h ^ 0 + (nsum (fun k => 2 * (2 * INR (n + 2) - 1) * (h * (cc (n + 2) k * h ^ k))) (n + 2) +
        nsum (fun k => (if Nat.ltb k n then cc (n + 1) (k + 1) else 0) * h ^ (S k)) (n + 2))).
      - f_equal. rewrite <- nsum_plus. apply nsum_ext. intros k Hk. replace (S (n + 2)) with (n + 3)%nat by lia. replace (S k) with (k + 1)%nat by lia.
        rewrite cc_step by auto. rewrite pow_add. simpl (h ^ 1). ring.
      - assert (Z : nsum (fun k => (if Nat.ltb k n then cc (n + 1) (k + 1) else 0) * h ^ S k) (n + 2) = nsum (fun i => cc (n + 1) (S i) * h ^ S i) n).
        { rewrite nsum_app, (nsum_0 _ 2).
          - rewrite Rplus_0_r. apply nsum_ext. intros k Hk. rewrite (proj2 (Nat.ltb_lt k n)) by auto. replace (k + 1)%nat with (S k) by lia. auto.
          - intros k Hk. destruct (Nat.ltb_spec (n + k) n); [lia|]. ring. }
        rewrite Z. ring. }
    assert (E : forall j, Mn (S j) = m ^ S j * nsum (fun k => cc (S j) k * h ^ k) (S j)) by reflexivity.
    rewrite E, X. replace (n + 2)%nat with (S (n + 1)) by lia. rewrite (E (n + 1)%nat).
    replace (Mn (n + 1)) with (m ^ (n + 1) * nsum (fun k => cc (n + 1) k * h ^ k) (n + 1)) by (replace (n + 1)%nat with (S n) by lia; reflexivity).
    clear X E. generalize (nsum (fun k => cc (n + 1) k * h ^ k) (n + 1)) (nsum (fun k => cc (S (n + 1)) k * h ^ k) (S (n + 1))). intros u v.
    replace h with (m / 2) by reflexivity. simpl pow. field.
Qed.
Lemma mom0 : integrates_to (fun z => z ^ 0 * f z) 0 p_infty 1.
Proof. apply (integrates_ext 0 p_infty I f); [intros; simpl; ring|]. exact (std_mass 0 p_infty I _ _ _ ST). Qed.
Lemma moms n : integrates_to (fun z => z ^ n * f z) 0 p_infty (Mn n) /\ integrates_to (fun z => z ^ (S n) * f z) 0 p_infty (Mn (S n)).
Proof.
  induction n as [|n [I1 I2]].
  - rewrite Mn_0, Mn_1. split; [apply mom0|apply mom1].
  - split; auto. replace (S (S n)) with (S n + 1)%nat by lia. rewrite Mn_rec by lia. apply mom_step; [lia| |auto].
    replace (S n - 1)%nat with n by lia. auto.
Qed.
Lemma elo : Finite l = ls l s 0. Proof. simpl. f_equal. ring. Qed.
Lemma pdf_in x : inside l p_infty x -> pdf (Fin x) m l s = Fin (f ((x - l) / s) / s).
Proof. intros [H _]. simpl in H. apply pdf_fin; auto. Qed.
Lemma mom_le (N : nat) : forall n, (n <= N)%nat -> integrates_to (fun z => z ^ n * f z) 0 p_infty (Mn n).
Proof. intros n _. exact (proj1 (moms n)). Qed.
Notation LSM lem N := (lem 0 p_infty F f Q ST l s (fun x => pdf x m l s) (Finite l) p_infty HS elo eq_refl pdf_in Mn N%nat (mom_le N)).
Lemma mean_ok : mean_is (fun x => pdf x m l s) l p_infty (mean m l s).
Proof. apply (LSM lsm_mean 1); auto. start. veval. f_equal. rewrite Mn_1. ring. Qed.
Lemma var_ok : var_is (fun x => pdf x m l s) l p_infty (mean m l s) (var m l s).
Proof.
  apply (LSM lsm_var 2); auto; start; veval; f_equal.
  - rewrite Mn_1. ring.
  - assert (E2 : Mn 2 = m ^ 2 * (2 * INR 1 - 1) * Mn 1 + m ^ 2 * Mn 0) by exact (Mn_rec 1 (le_n 1)).
    unfold mvar. rewrite E2, Mn_1, Mn_0. simpl. ring.
Qed.
Lemma gam_nat n : vgamma (Fin (INR (S n))) = Fin (INR (fact n)).
Proof. unfold vgamma. pose proof (pos_INR n). rewrite Rltb_true by (rewrite S_INR; lra). rewrite S_INR, Gamma_fact. reflexivity. Qed.
Lemma moment_ok n : moment_is (fun x => pdf x m l s) l p_infty n (noncentral_moment n m l s).
Proof.
  apply (LSM lsm_moment n); auto. unfold noncentral_moment, validate_params. veval.
  destruct n as [|n]; [simpl; f_equal; unfold lsM; simpl; unfold Binomial.C; simpl; field|]. simpl Nat.eqb. cbv iota.
  unfold lsM. apply vfsum_seq. intros i Hi. unfold standard_noncentral_moment. destruct i as [|i].
  - simpl Nat.eqb. cbv iota. veval. reflexivity.
  - simpl Nat.eqb. cbv iota. rewrite (vfsum_seq _ (fun k => cc (S i) k * (m / 2) ^ k)).
    + veval. reflexivity.
    + intros k Hk. replace (S i + k)%nat with (S (i + k)) by lia. replace (k + 1)%nat with (S k) by lia. replace (S i - k)%nat with (S (i - k)) by lia.
      rewrite !gam_nat. cbn [vmul]. rewrite vdiv_Fin by (pose proof (fpos k); pose proof (fpos (i - k)); nra). veval. f_equal. f_equal. unfold cc.
      f_equal; [f_equal; f_equal; lia|]. f_equal. f_equal. f_equal. lia.
Qed.
End P.
Lemma loc_scale (m : R) : 0 < m -> loc_scale_law3 (fun x => pdf x m) (fun x => cdf x m) (fun x => sf x m) 0 p_infty.
Proof.
  intros A0. 
  assert (L : loc_scale_law3 (fun x => pdf x m) (fun x l s => match x with PInf => Fin 1 | _ => cdf x m l s end) (fun x l s => match x with PInf => Fin 0 | _ => sf x m l s end) 0 p_infty).
  { apply (loc_scale3_from_cert (fun x => pdf x m) (fun x => logpdf x m) _ _ 0 p_infty (F m) (f m) (Q m)).
    intros l s HS. simpl. replace (l + s * 0) with l by ring. apply CERT; auto. }
  exact L.
Qed.
Lemma bad_params prec fuel m l s : isnum m -> isnum s -> nonpositive m \/ nonpositive s ->
  support m l s = Err ValueError /\
  always_ValueError [ fun x => pdf x m l s; fun x => logpdf x m l s; fun x => cdf x m l s; fun x => sf x m l s; fun x => logcdf x m l s; fun x => logsf x m l s;
    fun p => invcdf prec fuel p m l s; fun p => invsf prec fuel p m l s; fun _ => mean m l s; fun _ => mode m l s; fun _ => var m l s;
    fun _ => median prec fuel m l s; fun _ => noncentral_moment 2 m l s ].
Proof.
  intros H1 H2 H3. unfold support, pdf, logpdf, cdf, sf, logcdf, logsf, invcdf, invsf, mean, mode, var, median, noncentral_moment.
  split; [|all_ve; intros x Hx]; rewrite ?validate_bad by auto; reflexivity.
Qed.
