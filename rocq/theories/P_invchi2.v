(** Proofs about M_invchi2: the law is invgamma(nu/2, 0, 1/2). *)
From Coq Require Import Reals Lra List.
From Coquelicot Require Import Coquelicot.
From Verif Require Import Values VTac Spec RLib LimLib DistLib DistLS IntLib MomLib LSMom PLib M_common SpecNoMom NoInt
  SFun GammaLib GammaLib2 GammaLib3 GamLib M_sfun P_sfun.
From Verif Require M_invgamma P_invgamma M_chi2 P_chi2.
From Verif Require Import M_invchi2.
Import ListNotations.
Local Open Scope R_scope.
Set Bullet Behavior "Strict Subproofs".

Section P.
Variable n : R.
Hypothesis HN : 0 < n.
Lemma vok {A} `{CanRaise A} (k : A) : validate_nu (Fin n) k = k.
Proof. unfold validate_nu. change (cle (Fin n) (Fin 0)) with (CB (Rleb n 0)). rewrite Rleb_false by lra. reflexivity. Qed.
Lemma h_pos : 0 < n / 2. Proof. lra. Qed.
Lemma half_pos : 0 < 1 / 2. Proof. lra. Qed.
Notation IG := (P_invgamma.CERT (n / 2) 0 (1 / 2) h_pos half_pos).
Lemma pdf_same (x : R) : pdf x n = M_invgamma.pdf x (n / 2)%R 0 (1 / 2)%R /\ logpdf x n = M_invgamma.logpdf x (n / 2)%R 0 (1 / 2)%R.
Proof.
  pose proof h_pos as HP. pose proof (Gamma_pos _ HP) as G.
  destruct (Rle_lt_dec x 0) as [X|X].
  - unfold pdf, logpdf, M_invgamma.pdf, M_invgamma.logpdf, M_invgamma.validate_params. rewrite !vok. veval. auto.
  - destruct (P_invgamma.pdf_fin (n / 2) 0 (1 / 2) HP half_pos x X) as [-> ->].
    assert (X2 : 0 < x / (1 / 2)) by (apply Rdiv_pos; lra). rewrite Rminus_0_r, (P_invgamma.f_ln (n / 2) HP) by auto.
    replace (x / (1 / 2)) with (2 * x) by field. rewrite (ln_mult 2 x) by lra.
    assert (L2 : exp (- loggamma (n / 2) - (n / 2 + 1) * (ln 2 + ln x) - / (2 * x)) / (1 / 2) =
      exp (- (n / 2) * ln 2 + (- (n / 2) - 1) * ln x + - (/ (2 * x)) - loggamma (n / 2))).
    { replace (exp _ / (1 / 2)) with (exp (- loggamma (n / 2) - (n / 2 + 1) * (ln 2 + ln x) - / (2 * x)) * exp (ln 2)) by (rewrite (exp_ln 2) by lra; field).
      rewrite <- exp_plus. f_equal. ring. }
    rewrite L2, ln_exp. unfold pdf, logpdf. rewrite !vok. assert (0 < 2 * x) by lra. split.
    + cbv zeta. rewrite vdiv_Fin by lra. rewrite vgam by auto. assert (0 < Rpower 2 (- (n / 2))) by apply exp_pos. 
      veval. f_equal. unfold loggamma, Rpower. replace (- (1) / (2 * x)) with (- / (2 * x)) by (field; lra).
      set (A := - (n / 2) * ln 2). set (B := (- (n / 2) - 1) * ln x). set (D := - / (2 * x)). clearbody A B D. unfold Rminus. rewrite !exp_plus, (exp_Ropp (ln _)), exp_ln by auto. field. lra.
    + cbv zeta. rewrite vdiv_Fin by lra. rewrite vlgam by auto. veval. f_equal. unfold Rdiv. ring.
Qed.
Lemma cdf_same x : ext x -> cdf x n = M_invgamma.cdf x (n / 2)%R 0 (1 / 2)%R /\ sf x n = M_invgamma.sf x (n / 2)%R 0 (1 / 2)%R.
Proof.
  pose proof h_pos as HP. pose proof half_pos. intros E. unfold cdf, sf, M_invgamma.cdf, M_invgamma.sf, M_invgamma.validate_params. rewrite !vok. destruct E as [x| |].
  - destruct (Rle_lt_dec x 0) as [X|X]; [veval; auto|]. assert (0 < 2 * x) by lra. assert (0 < (x - 0) / (1 / 2)) by (apply Rdiv_pos; lra). veval.
    replace (1 / (2 * x)) with (1 / ((x - 0) / (1 / 2))) by (field; lra). auto.
  - veval. auto.
  - split; vif; auto.
Qed.
Lemma CERT : cert (fun x => pdf x n) (fun x => logpdf x n) (fun x => cdf x n) (fun x => sf x n)
  (fun p => ideal_cdf (P_invgamma.Q (n / 2)) p 0 (1 / 2)%R) (fun p => ideal_sf (P_invgamma.Q (n / 2)) p 0 (1 / 2)%R) 0 p_infty
  (fun x => P_invgamma.F (n / 2) ((x - 0) / (1 / 2))) (fun x => P_invgamma.f (n / 2) ((x - 0) / (1 / 2)) / (1 / 2)) (fun p => 0 + 1 / 2 * P_invgamma.Q (n / 2) p).
Proof.
  destruct IG as [[C1 C2 C3 C4 C5] SM CT QU CP CO CI]. constructor; auto.
  - constructor; cbv beta.
    + intros x H. destruct (cdf_same _ (ext_fin x)) as [-> ->]. apply C1; auto.
    + intros x H. destruct (cdf_same _ (ext_fin x)) as [-> ->]. apply C2; auto.
    + intros x H. destruct (cdf_same _ (ext_fin x)) as [-> ->]. apply C3; auto.
    + destruct (cdf_same _ ext_ninf) as [-> ->]. apply C4; auto.
    + destruct (cdf_same _ ext_pinf) as [-> ->]. apply C5; auto.
  - intros x H. rewrite (proj1 (pdf_same x)), (proj2 (pdf_same x)). apply CP; auto.
  - intros x H. rewrite (proj1 (pdf_same x)), (proj2 (pdf_same x)). apply CO; auto.
Qed.
Lemma log_all (x : R) : log_of (fun x => pdf x n) (fun x => logpdf x n) x.
Proof. unfold log_of. rewrite (proj1 (pdf_same x)), (proj2 (pdf_same x)). apply (P_invgamma.log_all (n / 2) 0 (1 / 2) h_pos half_pos). Qed.
Lemma mode_ok : is_mode (fun x => pdf x n) (mode n).
Proof.
  destruct (P_invgamma.mode_ok (n / 2) 0 (1 / 2) h_pos half_pos) as [m [v [E1 [E2 E3]]]]. exists m, v. split; [|split].
  - rewrite <- E1. rewrite (P_invgamma.mode_fin _ _ _ h_pos half_pos). unfold mode. rewrite vok. assert (0 < n + 2) by lra. veval. f_equal. field. lra.
  - rewrite (proj1 (pdf_same m)). auto.
  - intros x. rewrite (proj1 (pdf_same x)). auto.
Qed.
Lemma pdf_toR t : toR (pdf (Fin t) n) = toR (M_invgamma.pdf (Fin t) (n / 2)%R 0 (1 / 2)%R).
Proof. rewrite (proj1 (pdf_same t)). auto. Qed.
Lemma mean_eval : 2 < n -> mean n = M_invgamma.mean (n / 2)%R 0 (1 / 2)%R /\ mean n = Fin (1 / (n - 2)).
Proof.
  intros H. assert (1 < n / 2) by lra. unfold mean, M_invgamma.mean, M_invgamma.validate_params. rewrite vok. assert (0 < n - 2) by lra. assert (0 < n / 2 - 1) by lra. veval. split; f_equal; field; lra.
Qed.
Lemma mean_ok : 2 < n -> mean_is (fun x => pdf x n) 0 p_infty (mean n).
Proof.
  intros H. rewrite (proj1 (mean_eval H)). destruct (P_invgamma.mean_ok (n / 2) 0 (1 / 2) h_pos half_pos ltac:(lra)) as [r [E I]]. exists r. split; auto.
  apply (integrates_ext 0 p_infty Logic.I (fun t => t * toR (M_invgamma.pdf (Fin t) (n / 2)%R 0 (1 / 2)%R))); auto. intros x _. rewrite pdf_toR. auto.
Qed.
Lemma var_ok : 4 < n -> var_is (fun x => pdf x n) 0 p_infty (mean n) (var n).
Proof.
  intros H. assert (H2 : 2 < n) by lra. rewrite (proj1 (mean_eval H2)). 
  assert (E : var n = M_invgamma.var (n / 2)%R 0 (1 / 2)%R).
  { unfold var, M_invgamma.var, M_invgamma.validate_params. rewrite vok. assert (0 < (n - 2) ^ 2) by (apply pow_lt; lra). assert (0 < (n / 2 - 1) ^ 2) by (apply pow_lt; lra). assert (0 < n - 4) by lra. assert (0 < n / 2 - 2) by lra.
    veval. f_equal. field. repeat split; lra. }
  rewrite E. destruct (P_invgamma.var_ok (n / 2) 0 (1 / 2) h_pos half_pos ltac:(lra)) as [r [q [E1 [E2 I]]]]. exists r, q. split; auto. split; auto.
  apply (integrates_ext 0 p_infty Logic.I (fun t => (t - r) ^ 2 * toR (M_invgamma.pdf (Fin t) (n / 2)%R 0 (1 / 2)%R))); auto. intros x _. rewrite pdf_toR. auto.
Qed.
Lemma moments_nan : (n <= 2 -> mean n = NaN) /\ (n <= 4 -> var n = NaN).
Proof. split; intros H; unfold mean, var; rewrite vok; veval; auto. Qed.
(** 1/X for X with the chi-square distribution. *)
Lemma recip (x : R) : 0 < x -> cdf x n = M_chi2.sf (/ x)%R n /\ sf x n = M_chi2.cdf (/ x)%R n.
Proof.
  intros H. assert (IX : 0 < / x) by (apply Rinv_0_lt_compat; auto). unfold cdf, sf. rewrite !vok. unfold M_chi2.sf, M_chi2.cdf, M_chi2.validate_k. assert (0 < 2 * x) by lra. veval.
  replace (/ x / 2) with (1 / (2 * x)) by (field; lra). auto.
Qed.
End P.
Lemma bad_params (n : val) : nonpositive n -> support n = Err ValueError /\
  always_ValueError [ fun x => pdf x n; fun x => logpdf x n; fun x => cdf x n; fun x => sf x n; fun _ => mean n; fun _ => mode n; fun _ => var n ].
Proof.
  intros H. assert (E : forall (T : Type) (CR : CanRaise T) (k : T), validate_nu n k = raise ValueError).
  { intros. apply (vp_bad n k). auto. }
  unfold support, pdf, logpdf, cdf, sf, mean, mode, var. split; [|all_ve; intros x Hx]; rewrite E; reflexivity.
Qed.
