(** Proofs about M_lognormal. *)
From Coq Require Import Reals Lra List.
From Coquelicot Require Import Coquelicot.
From Verif Require Import Values VTac Spec RLib LimLib DistLib DistLS IntLib SubLib MomLib PLib XLib M_common SpecStat SpecEst LLib P_est P_basic2
  SFun GammaLib GammaLib2 GammaLib3 M_sfun P_sfun.
From Verif Require P_normal.
From Verif Require Import M_lognormal.
Import ListNotations.
Local Open Scope R_scope.
Set Bullet Behavior "Strict Subproofs".

Ltac start := unfold pdf, logpdf, cdf, sf, invsf, invcdf, support, mean, mode, var, entropy, noncentral_moment, validate, validate_p, vpi.
Section P.
Variables l s : R.
Hypothesis S : 0 < s.
Definition z (x : R) := (ln x - l) / s.
Definition F (x : R) := ncdf (z x).
Definition f (x : R) := nkernel (z x) * / (s * x).
Definition Q (p : R) := exp (l + s * P_normal.Q p).
Lemma SB : subst 0 p_infty m_infty p_infty z (fun x => / (s * x)) (fun y => exp (l + s * y)).
Proof.
  constructor.
  - exact I.
  - intros; apply in_all.
  - intros x [H _]. simpl in H. unfold z. auto_derive; auto. field. lra.
  - intros x [H _]. simpl in H. apply ex_derive_cont. auto_derive. nra.
  - intros y _. split; [split; simpl; auto; apply exp_pos|]. unfold z. rewrite ln_exp. field. lra.
Qed.
Lemma INC x : inside 0 p_infty x -> 0 < / (s * x).
Proof. intros [H _]. simpl in H. pos. Qed.
Lemma ST : std 0 p_infty F f Q.
Proof. apply (sub_std SB INC P_normal.F P_normal.f P_normal.Q P_normal.ST). Qed.
Lemma f_pos x : 0 < x -> 0 < f x.
Proof. intros H. unfold f. pose proof (nkernel_pos (z x)). pos. Qed.
Lemma f_ln x : 0 < x -> ln (f x) = - ln x - ln s - 1/2 * ln (2 * PI) - z x ^ 2 / 2.
Proof.
  intros H. unfold f. pose proof (nkernel_pos (z x)). rewrite ln_mult, ln_Rinv, ln_mult, nkernel_ln by (auto; pos). field.
Qed.
Lemma pdf_fin (x : R) : 0 < x -> pdf x l s = Fin (f x) /\ logpdf x l s = Fin (ln (f x)).
Proof.
  intros H. pose proof PI_RGT_0. assert (0 < s ^ 2) by (apply pow_lt; auto). rewrite f_ln by auto. start. split.
  - veval. rewrite vnpdf_Fin by auto. veval. f_equal. unfold f, z. field. lra.
  - veval. f_equal. unfold z. field. lra.
Qed.
Lemma cdf_fin (x : R) : 0 < x -> cdf x l s = Fin (F x) /\ sf x l s = Fin (1 - F x).
Proof.
  intros H. start. veval. rewrite !vncdf_Fin by auto. split; auto. f_equal. unfold F. rewrite <- ncdf_opp. f_equal. unfold z. field. lra.
Qed.
(** The survival function with the intended value below the support. *)
Definition sf_fixed (x : val) : val := match x with Fin r => if Rle_dec r 0 then Fin 1 else sf x l s | NInf => Fin 1 | _ => sf x l s end.
Lemma CERT : cert (fun x => pdf x l s) (fun x => logpdf x l s) (fun x => cdf x l s) sf_fixed
  (fun p => invcdf p l s) (fun p => invsf p l s) 0 p_infty F f Q.
Proof.
  destruct ST as [A B C]. pose proof sqrt2_pos as S2.
  constructor; auto.
  - constructor.
    + intros x [H _]. simpl in H. unfold sf_fixed. destruct (Rle_dec x 0); [lra|]. apply cdf_fin; auto.
    + intros x H. simpl in H. unfold sf_fixed. destruct (Rle_dec x 0); [|lra]. start. veval. auto.
    + intros x [].
    + start. veval. auto.
    + unfold sf_fixed. start. veval. rewrite vncdf_NInf, vncdf_PInf by auto. auto.
  - intros x [H _]. simpl in H. apply pdf_fin; auto.
  - intros x [H|[]]. simpl in H. start. veval. auto.
  - intros p H. unfold Q, P_normal.Q. start. veval. rewrite !verfinv_Fin by lra. veval. split; f_equal; f_equal; ring.
Qed.
Lemma log_all (x : R) : log_of (fun x => pdf x l s) (fun x => logpdf x l s) x.
Proof.
  revert x. apply (cert_log_ends CERT); intros x E; [|discriminate]. injection E as E; subst x.
  right; left. start. veval. auto.
Qed.
Lemma compl_pos : forall x : R, 0 < x -> exists c, 0 <= c <= 1 /\ cdf x l s = Fin c /\ sf x l s = Fin (1 - c).
Proof.
  intros x H. exists (F x). destruct (cdf_fin x H). split; auto. unfold F. pose proof (if_range ncdf_if (z x) (in_all _)). lra.
Qed.
Lemma sf_bad (x : R) : x <= 0 -> cdf x l s = Fin 0 /\ sf x l s = Exc AttributeError.
Proof. intros H. start. veval. auto. Qed.
Lemma inv_sf : inverse_of (fun x => sf x l s) (fun p => invsf p l s) 0 p_infty /\
  (forall p, 0 < p < 1 -> invsf (Fin p) l s = invcdf (Fin (1 - p)) l s).
Proof.
  split; [|apply (cert_invsf_invcdf CERT)]. destruct (cert_inverse_sf CERT) as [A B].
  assert (E : forall x : R, inside 0 p_infty x -> sf_fixed x = sf x l s).
  { intros x [H _]. simpl in H. unfold sf_fixed. destruct (Rle_dec x 0); auto. lra. }
  split.
  - intros p H. destruct (A p H) as [x [X1 [X2 X3]]]. exists x. rewrite <- E by auto. auto.
  - intros x H. destruct (B x H) as [p [P1 [P2 P3]]]. exists p. rewrite <- E by auto. auto.
Qed.
Lemma ends : rejects_bad_p (fun p => invcdf p l s) /\ rejects_bad_p (fun p => invsf p l s) /\
  at_ends (fun p => invcdf p l s) (Fin 0) PInf /\ at_ends (fun p => invsf p l s) PInf (Fin 0).
Proof.
  pose proof sqrt2_pos as S2. assert (0 < sqrt 2 * s) by pos.
  split; [|split; [|split]].
  - split; [intros p [H'|H']|split]; start; veval; reflexivity.
  - split; [intros p [H'|H']|split]; start; veval; reflexivity.
  - unfold at_ends. start. veval. rewrite verfinv_m1, verfinv_1 by ring. veval. auto.
  - unfold at_ends. start. veval. rewrite verfinv_1, verfinv_m1 by ring. veval. auto.
Qed.
Lemma f_exp x : 0 < x -> f x = / (s * sqrt (2 * PI)) * exp (- (z x ^ 2) / 2 - ln x).
Proof.
  intros H. unfold f, nkernel. pose proof sqrt2PI_pos. rewrite exp_minus, exp_ln by auto.
  replace (- z x ^ 2 / 2) with (- (z x ^ 2) / 2) by (unfold Rdiv; ring). field. lra.
Qed.
Lemma mode_ok : is_mode (fun x => pdf x l s) (mode l s).
Proof.
  pose proof (exp_pos (l - s ^ 2)) as P. pose proof sqrt2PI_pos.
  exists (exp (l - s ^ 2)), (f (exp (l - s ^ 2))). split; [start; veval; auto|]. split; [apply pdf_fin; auto|].
  intros x. destruct (Rle_lt_dec x 0) as [H'|H'].
  - exists 0. split; [start; veval; auto|]. left. apply f_pos; auto.
  - eexists; split; [apply pdf_fin; auto|]. rewrite !f_exp by auto. apply Rmult_le_compat_l; [left; pos|]. apply exp_le_compat.
    unfold z. rewrite ln_exp. set (y := ln x).
    replace (((l - s ^ 2 - l) / s)) with (- s) by (field; lra).
    replace (y) with (l + s * ((y - l) / s)) at 2 by (field; lra). set (w := (y - l) / s). pose proof (pow2_ge_0 (w + s)). nra.
Qed.
Lemma nll_ok xs : (forall x, In x xs -> 0 < x) -> nll (map Fin xs) l s = vneg (loglik (fun x => logpdf x l s) xs).
Proof.
  intros H. unfold nll, validate, loglik. veval. rewrite vxb_pass by (intros x I; pose proof (H x I); simpl; auto).
  rewrite map_map. reflexivity.
Qed.
Lemma nll_bad xs : (exists x, In x xs /\ x <= 0) -> nll (map Fin xs) l s = Exc ValueError.
Proof. intros H. unfold nll, validate. veval. rewrite vxb_low by auto. reflexivity. Qed.
(** Moments. *)
Lemma mom_der n x : 0 < x -> is_derive (fun x => exp (INR n * l + INR n ^ 2 * s ^ 2 / 2) * ncdf (z x - INR n * s)) x (x ^ n * f x).
Proof.
  intros H. evar_last.
  - apply is_derive_scal. apply (is_derive_comp ncdf (fun x => z x - INR n * s)); [apply ncdf_der|].
    unfold z. auto_derive; auto.
  - unfold scal; simpl; unfold mult; simpl. unfold f, nkernel. pose proof sqrt2PI_pos.
    replace (x ^ n) with (exp (INR n * ln x)) by (rewrite <- Rpower_pow by auto; reflexivity).
    transitivity (exp (INR n * l + INR n ^ 2 * s ^ 2 / 2) * exp (- (z x - INR n * s) ^ 2 / 2) * (/ sqrt (2 * PI) * / (s * x))).
    { simpl. field. lra. }
    transitivity (exp (INR n * ln x) * exp (- z x ^ 2 / 2) * (/ sqrt (2 * PI) * / (s * x))); [|field; lra].
    rewrite <- !exp_plus. f_equal. f_equal. replace (ln x) with (l + s * z x) by (unfold z; field; lra). field.
Qed.
Lemma f_cont x : inside 0 p_infty x -> continuous f x. Proof. apply (st_cont _ _ _ _ _ ST). Qed.
Lemma mom_int n : integrates_to (fun x => x ^ n * f x) 0 p_infty (exp (INR n * l + INR n ^ 2 * s ^ 2 / 2)).
Proof.
  set (K := exp (INR n * l + INR n ^ 2 * s ^ 2 / 2)).
  assert (L0 : filterlim (fun x => z x - INR n * s) (near_lo 0) minf).
  { apply (filterlim_comp _ _ _ z (fun y => y - INR n * s) _ minf); [apply (sub_lo SB INC)|].
    intros P [M HM]. exists (M + INR n * s). intros y Hy. apply HM. lra. }
  assert (L1 : filterlim (fun x => z x - INR n * s) pinf pinf).
  { apply (filterlim_comp _ _ _ z (fun y => y - INR n * s) _ pinf); [apply (sub_hi SB INC)|].
    intros P [M HM]. exists (M + INR n * s). intros y Hy. apply HM. lra. }
  replace K with (K * 1 - K * 0) by ring.
  apply (mk_integral _ (fun x => K * ncdf (z x - INR n * s))); [exact I|..].
  - intros x [H _]. simpl in H. apply mom_der; auto.
  - intros x H. apply (continuous_mult (fun x => x ^ n) f); [apply ex_derive_cont; auto_derive; auto|apply f_cont; auto].
  - apply flim_scal. { apply near_lo_filter. } eapply filterlim_comp; [apply L0|apply (if_lo _ _ _ _ _ ncdf_if)].
  - apply flim_scal. { apply near_hi_filter. } eapply filterlim_comp; [apply L1|apply (if_hi _ _ _ _ _ ncdf_if)].
Qed.
Lemma pdf_in (x : R) : inside 0 p_infty x -> toR (pdf x l s) = f x.
Proof. intros [H _]. simpl in H. rewrite (proj1 (pdf_fin x H)). auto. Qed.
Lemma moment_ok n : moment_is (fun x => pdf x l s) 0 p_infty n (noncentral_moment n l s).
Proof.
  exists (exp (INR n * l + INR n ^ 2 * s ^ 2 / 2)). split; [start; veval; auto|].
  apply (integrates_ext 0 p_infty I (fun x => x ^ n * f x)); [intros x H; rewrite pdf_in by auto; auto|apply mom_int].
Qed.
Lemma mean_ok : mean_is (fun x => pdf x l s) 0 p_infty (mean l s).
Proof.
  exists (exp (INR 1 * l + INR 1 ^ 2 * s ^ 2 / 2)). split; [start; veval; f_equal; f_equal; simpl; field|].
  apply (integrates_ext 0 p_infty I (fun x => x ^ 1 * f x)); [intros x H; rewrite pdf_in by auto; ring|apply mom_int].
Qed.
Lemma var_ok : var_is (fun x => pdf x l s) 0 p_infty (mean l s) (var l s).
Proof.
  set (M := fun n => exp (INR n * l + INR n ^ 2 * s ^ 2 / 2)).
  assert (E2 : M 2%nat = exp (2 * l + s ^ 2) * exp (s ^ 2)) by (unfold M; rewrite <- exp_plus; f_equal; simpl; field).
  assert (E1 : M 1%nat * M 1%nat = exp (2 * l + s ^ 2)) by (unfold M; rewrite <- exp_plus; f_equal; simpl; field).
  exists (M 1%nat), (M 2%nat + (-2 * M 1%nat) * M 1%nat + M 1%nat ^ 2 * M 0%nat).
  split; [start; veval; f_equal; unfold M; f_equal; simpl; field|]. split.
  - start. veval. f_equal. rewrite E2. replace (M 0%nat) with 1 by (unfold M; rewrite <- exp_0; f_equal; simpl; field).
    replace (exp (2 * l + s ^ 2) * exp (s ^ 2) + -2 * M 1%nat * M 1%nat + M 1%nat ^ 2 * 1) with (exp (2 * l + s ^ 2) * exp (s ^ 2) - M 1%nat * M 1%nat) by ring.
    rewrite E1. ring.
  - apply (integrates_ext 0 p_infty I (fun x => (x ^ 2 * f x + (-2 * M 1%nat) * (x ^ 1 * f x)) + M 1%nat ^ 2 * (x ^ 0 * f x))).
    + intros x H. rewrite pdf_in by auto. simpl. ring.
    + apply integrates_plus; [apply integrates_plus; [|apply integrates_scal]|apply integrates_scal]; apply mom_int.
Qed.
Lemma expn x n : exp x ^ n = exp (INR n * x).
Proof. rewrite <- Rpower_pow by apply exp_pos. unfold Rpower. rewrite ln_exp. auto. Qed.
Definition Mn (n : nat) := exp (INR n * l + INR n ^ 2 * s ^ 2 / 2).
Lemma Mn0 : Mn 0 = 1. Proof. unfold Mn. rewrite <- exp_0. f_equal. simpl. field. Qed.
Let a := exp (l + s ^ 2 / 2).
Let q := exp (s ^ 2).
Lemma Mn1 : Mn 1 = a. Proof. unfold Mn, a. f_equal. simpl. field. Qed.
Lemma Mn2 : Mn 2 = a ^ 2 * q. Proof. unfold Mn, a, q. rewrite !expn, <- exp_plus. f_equal. simpl. field. Qed.
Lemma Mn3 : Mn 3 = a ^ 3 * q ^ 3. Proof. unfold Mn, a, q. rewrite !expn, <- exp_plus. f_equal. simpl. field. Qed.
Lemma Mn4 : Mn 4 = a ^ 4 * q ^ 6. Proof. unfold Mn, a, q. rewrite !expn, <- exp_plus. f_equal. simpl. field. Qed.
Lemma q_gt : 1 < q. Proof. unfold q. apply exp_gt_1. apply pow_lt; auto. Qed.
Lemma mvar_eq : mvar Mn = a ^ 2 * (q - 1). Proof. unfold mvar. rewrite Mn2, Mn1. ring. Qed.
Lemma mvar_pos : 0 < mvar Mn.
Proof. rewrite mvar_eq. pose proof q_gt. assert (0 < a) by apply exp_pos. assert (0 < a ^ 2) by (apply pow_lt; auto). nra. Qed.
Lemma pdf_in' (x : R) : inside 0 p_infty x -> pdf x l s = Fin (f x).
Proof. intros [H _]. simpl in H. apply pdf_fin; auto. Qed.
Lemma skew_ok : skewness_is (fun x => pdf x l s) 0 p_infty (skewness l s).
Proof.
  pose proof q_gt. assert (A : 0 < a) by apply exp_pos. assert (0 < a ^ 2) by (apply pow_lt; auto).
  assert (SQ : 0 < sqrt (q - 1)) by (apply sqrt_lt_R0; lra).
  apply (raw_skewness_is 0 p_infty _ f Mn 3 I pdf_in' (fun n _ => mom_int n) Mn0); auto using mvar_pos.
  unfold skewness, validate. veval. fold q. rewrite vsqrt_Fin by lra. varith. f_equal. rewrite mvar_eq. unfold mcen3. rewrite Mn1, Mn2, Mn3.
  rewrite sqrt_mult, sqrt_pow2 by lra. rewrite <- (sqrt_sqrt (q - 1)) at 2 by lra.
  replace q with (sqrt (q - 1) * sqrt (q - 1) + 1) at 1 3 4 by (rewrite sqrt_sqrt by lra; ring).
  set (w := sqrt (q - 1)) in *. field. lra.
Qed.
Lemma kurt_ok : kurtosis_is (fun x => pdf x l s) 0 p_infty (kurtosis l s).
Proof.
  pose proof q_gt. assert (A : 0 < a) by apply exp_pos. assert (0 < a ^ 2) by (apply pow_lt; auto).
  apply (raw_kurtosis_is 0 p_infty _ f Mn 4 I pdf_in' (fun n _ => mom_int n) Mn0); auto using mvar_pos.
  unfold kurtosis, validate. veval. f_equal. rewrite mvar_eq. unfold mcen4. rewrite Mn1, Mn2, Mn3, Mn4.
  assert (P : forall n, exp (INR n * s ^ 2) = q ^ n) by (intros n; unfold q; rewrite expn; auto).
  assert (P4 := P 4%nat). assert (P3 := P 3%nat). assert (P2 := P 2%nat). simpl INR in P4, P3, P2.
  replace (1 + 1 + 1 + 1) with 4 in P4 by ring. replace (1 + 1 + 1) with 3 in P3 by ring. replace (1 + 1) with 2 in P2 by ring.
  rewrite P4, P3, P2. field. lra.
Qed.
Lemma entropy_ok : entropy_is (fun x => pdf x l s) 0 p_infty (entropy l s).
Proof.
  pose proof PI_RGT_0.
  exists ((ln s + l + 1/2 * ln (2 * PI)) * 1 + s * 0 + /2 * 1). split.
  - start. veval. f_equal. field.
  - apply (integrates_ext 0 p_infty I (fun x => ((ln s + l + 1/2 * ln (2 * PI)) * (nkernel (z x)) + s * (z x * nkernel (z x)) + /2 * (z x ^ 2 * nkernel (z x))) * / (s * x))).
    + intros x H'. rewrite pdf_in by auto. destruct H' as [H' _]. simpl in H'. rewrite f_ln by auto.
      replace (ln x) with (l + s * z x) by (unfold z; field; lra). unfold f. field. lra.
    + apply (sub_integral SB INC (fun y => (ln s + l + 1/2 * ln (2 * PI)) * (nkernel y) + s * (y * nkernel y) + /2 * (y ^ 2 * nkernel y))).
      * intros y _. apply ex_derive_cont. unfold nkernel. pose proof sqrt2PI_pos. auto_derive. lra.
      * apply integrates_plus; [apply integrates_plus|]; apply integrates_scal; [apply ncdf_mass|apply norm_m1|apply norm_m2].
Qed.
Lemma loglik_eq xs : (forall x, In x xs -> 0 < x) -> loglik (fun x => logpdf x l s) xs =
  Fin (- (INR (length xs) * (ln (2 * PI) / 2 + ln s) + sum (map (fun x => (x - l) ^ 2) (map ln xs)) / (2 * s ^ 2)) - sum (map ln xs)).
Proof.
  intros H. rewrite (loglik_fin _ (fun x => - (ln (2 * PI) / 2 + ln s) + - (/ (2 * s ^ 2)) * (ln x - l) ^ 2 - ln x)).
  - f_equal. change sum with rsum. rewrite rsum_minus, rsum_plus, rsum_const, rsum_scal, map_map. unfold Rdiv. ring.
  - intros x I. rewrite (proj2 (pdf_fin x (H x I))). f_equal. rewrite f_ln by auto. unfold z. field. lra.
Qed.
End P.
(** Maximum likelihood. *)
Lemma mle_ok xs : (forall x, In x xs -> 0 < x) -> ~ constant xs -> exists l s, mle (map Fin xs) = Ok (Fin l, Fin s) /\
  maximises (fun '(l, s) => 0 < s) (fun '(l, s) => loglik (fun x => logpdf x (Fin l) (Fin s)) xs) (l, s).
Proof.
  intros H C0. set (ys := map ln xs).
  assert (C : ~ constant ys).
  { intros K. apply C0. intros a b Ia Ib. apply ln_inv; auto. apply K; apply in_map; auto. }
  pose proof (const_nil ys C) as N. pose proof (length_pos ys N) as LN. pose proof (dev_pos ys C) as D.
  assert (LE : length ys = length xs) by apply map_length.
  eexists _, _. split.
  - unfold mle. rewrite vxb_pass by (intros x I; pose proof (H x I); simpl; auto).
    pose proof (P_normal.mle_eval ys C) as E. unfold M_normal.mle in E.
    replace (map vlog (map Fin xs)) with (map Fin ys).
    + replace (vlen (map Fin xs)) with (vlen (map Fin ys)) by (unfold vlen; rewrite !map_length; rewrite LE; auto). exact E.
    + unfold ys. rewrite !map_map. apply map_ext_in. intros x I. rewrite vlog_Fin; auto.
  - pose proof (sqrt_lt_R0 _ D) as SP. split; auto. eexists. split; [apply loglik_eq; auto|]. intros [l s] S.
    eexists. split; [apply loglik_eq; auto|]. apply Rplus_le_compat_r, Ropp_le_contravar. fold ys. rewrite <- LE.
    rewrite !P_normal.sumsq_about by auto. set (v := sumsq_dev ys / INR (length ys)) in *.
    replace (sumsq_dev ys) with (INR (length ys) * v) by (unfold v; field; lra).
    pose proof (P_normal.lik_opt (INR (length ys)) v ((average ys - l) ^ 2) s LN D (pow2_ge_0 _) S) as K.
    replace (INR (length ys) * v + INR (length ys) * (average ys - average ys) ^ 2) with (INR (length ys) * v) by ring. lra.
Qed.
(** Method of moments: the mean and variance of the fitted law are those of the data. *)
Lemma mom_ok xs : (forall x, In x xs -> 0 < x) -> ~ constant xs -> exists l s, mom (map Fin xs) = Ok (Fin l, Fin s) /\ 0 < s /\
  reproduces (mean (Fin l) (Fin s)) (var (Fin l) (Fin s)) xs.
Proof.
  intros H C. pose proof (const_nil xs C) as N. pose proof (length_pos xs N) as LN. pose proof (dev_pos xs C) as D.
  set (n := INR (length xs)) in *. set (a := average xs). set (v := sumsq_dev xs / n) in *.
  assert (NN : INR (length xs) <> 0) by (fold n; lra).
  assert (E1 : rsum xs = n * a) by (unfold a, average, n; change (sum xs) with (rsum xs); field; auto).
  assert (AP : 0 < a).
  { unfold a, average. apply Rdiv_pos; auto. rewrite <- (map_id_R xs). apply rsum_pos; auto. }
  assert (E2 : rsum (map (fun x => x ^ 2) xs) = n * (v + a ^ 2)).
  { unfold v, a, n. change (sumsq_dev xs) with (ss xs). change (average xs) with (mu xs).
    rewrite (ss_moments xs N). change sum with rsum. field. auto. }
  assert (0 < a ^ 2) by (apply pow_lt; auto). assert (VA : 0 < v + a ^ 2) by lra.
  set (q := 1 + v / a ^ 2). assert (0 < v / a ^ 2) by (apply Rdiv_pos; auto).
  assert (Q1 : 1 < q) by (unfold q; lra). pose proof (ln_pos q Q1) as LQ.
  assert (E3 : v + a ^ 2 = a * a * q) by (unfold q; field; lra).
  assert (EL : ln (n * (v + a ^ 2)) = ln n + 2 * ln a + ln q).
  { rewrite E3, ln_mult, ln_mult, ln_mult by (auto; try pos; nra). ring. }
  exists (ln a - ln q / 2), (sqrt (ln q)).
  assert (SP : 0 < sqrt (ln q)) by (apply sqrt_lt_R0; auto). split; [|split; auto].
  - unfold mom. rewrite vxb_pass by (intros x I; pose proof (H x I); simpl; auto).
    unfold vlen. rewrite map_length, vfsum_Fin, E1, map_map. rewrite (vfsum_map _ (fun x => x ^ 2)) by (intros; apply vpown_Fin).
    rewrite E2. fold n. rewrite !vlog_Fin by (auto; pos). cbn [bindv]. rewrite EL, (ln_mult n a) by auto. varith. cbn [bindv].
    replace (ln n + 2 * ln a + ln q - 2 * (ln n + ln a) + ln n) with (ln q) by ring.
    f_equal. f_equal. f_equal. field.
  - assert (EE : exp (2 * ln a) = a * a) by (replace (2 * ln a) with (ln a + ln a) by ring; rewrite exp_plus, exp_ln by auto; auto).
    split; start; veval; f_equal; rewrite ?pow2_sqrt by lra.
    + fold a. transitivity (exp (ln a)); [f_equal; field|apply exp_ln; auto].
    + fold n v. replace (2 * (ln a - ln q / 2) + ln q) with (2 * ln a) by field.
      rewrite EE, exp_ln by lra. unfold q. field. lra.
Qed.
Lemma mle_bad xs : (exists x, In x xs /\ x <= 0) -> mle (map Fin xs) = Err ValueError /\ mom (map Fin xs) = Err ValueError.
Proof. intros H. unfold mle, mom. rewrite !vxb_low by auto. auto. Qed.
Lemma bad_params l s : nonpositive s ->
  support l s = Err ValueError /\
  always_ValueError [ fun x => pdf x l s; fun x => logpdf x l s; fun x => cdf x l s; fun x => sf x l s;
    fun p => invcdf p l s; fun p => invsf p l s; fun _ => mean l s; fun _ => mode l s; fun _ => var l s;
    fun _ => skewness l s; fun _ => kurtosis l s; fun _ => entropy l s; fun _ => noncentral_moment 2 l s; fun x => nll [x] l s ].
Proof.
  intros H. unfold support, pdf, logpdf, cdf, sf, invcdf, invsf, mean, mode, var, skewness, kurtosis, entropy, noncentral_moment, nll.
  change (@validate) with (@validate_loc_scale).
  split; [|all_ve; intros x Hx]; rewrite ?vls_bad by auto; try reflexivity.
  all: unfold validate_p; destruct Hx as [? [? | |]|]; vcases; reflexivity.
Qed.
(** x = exp(y) with y normal. *)
Lemma as_normal (l s y : R) : 0 < s -> cdf (exp y) l s = M_normal.cdf y l s /\ sf (exp y) l s = M_normal.sf y l s.
Proof.
  intros S. pose proof (exp_pos y). unfold cdf, sf, validate, M_normal.cdf, M_normal.sf, validate_loc_scale. veval. rewrite ln_exp, !vncdf_Fin by auto.
  split; auto. f_equal. f_equal. field. lra.
Qed.
