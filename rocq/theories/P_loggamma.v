(** Proofs about M_loggamma. *)
From Coq Require Import Reals Lra List.
From Coquelicot Require Import Coquelicot.
From Verif Require Import Values VTac Spec SpecStat SpecEst SpecInv SpecRoot SpecBracket RLib LimLib DistLib DistLS MomLib IntLib SubLib LLib XLib PLib M_common
  SFun GammaLib GammaLib2 GammaLib3 GammaLib4 GamLib M_sfun P_sfun M_bracket InvLib P_est M_digammainv P_digammainv PolyGam.
From Verif Require M_basic M_gamma P_gamma P_beta SymLib.
From Verif Require Import M_loggamma.
Import ListNotations.
Local Open Scope R_scope.
Set Bullet Behavior "Strict Subproofs".

Lemma validate_bad {A} `{CanRaise A} k s (c : A) : isnum k -> isnum s -> nonpositive k \/ nonpositive s -> validate_k_theta k s c = raise ValueError.
Proof.
  intros NA NS B. change (validate_k_theta k s c) with (validate_positive k (validate_positive s c)).
  destruct B as [B|B]; [apply vp_bad; auto|]. apply vp_pass; auto. apply vp_bad; auto.
Qed.
Lemma vok {A} `{CanRaise A} (k s : R) (c : A) : 0 < k -> 0 < s -> validate_k_theta (Fin k) (Fin s) c = c.
Proof.
  intros K S. unfold validate_k_theta. change (cle (Fin k) (Fin 0)) with (CB (Rleb k 0)). change (cle (Fin s) (Fin 0)) with (CB (Rleb s 0)). rewrite !Rleb_false by lra. reflexivity.
Qed.
Lemma gok {A} `{CanRaise A} (k s : R) (c : A) : 0 < k -> 0 < s -> M_gamma.validate_k_scale (Fin k) (Fin s) c = c.
Proof.
  intros K S. unfold M_gamma.validate_k_scale. change (cle (Fin k) (Fin 0)) with (CB (Rleb k 0)). change (cle (Fin s) (Fin 0)) with (CB (Rleb s 0)). rewrite !Rleb_false by lra. reflexivity.
Qed.
Lemma SB : subst m_infty p_infty 0 p_infty exp exp ln.
Proof.
  constructor.
  - exact I.
  - intros x _. split; simpl; auto. apply exp_pos.
  - intros x _. apply is_derive_exp.
  - intros x _. apply ex_derive_cont. auto_derive. auto.
  - intros y [H _]. simpl in H. split; [split; simpl; auto|]. apply exp_ln; auto.
Qed.
Section P.
Variables k s : R.
Hypothesis HK : 0 < k.
Hypothesis HS : 0 < s.
Definition F x := gF k (exp x).
Definition f x := gf k (exp x) * exp x.
Definition Q p := ln (gQ k p).
Lemma ST : std m_infty p_infty F f Q.
Proof. apply (sub_std SB); [intros; apply exp_pos|apply gST; auto]. Qed.
Lemma f_eq x : f x = exp (k * x - exp x) / Gamma k.
Proof.
  unfold f. rewrite gf_ln by (auto; apply exp_pos). rewrite ln_exp. pose proof (Gamma_pos k HK).
  unfold loggamma. rewrite <- exp_plus. replace (Gamma k) with (exp (ln (Gamma k))) at 2 by (apply exp_ln; auto). unfold Rdiv. rewrite <- exp_Ropp, <- exp_plus. f_equal. ring.
Qed.
Lemma f_pos x : 0 < f x. Proof. rewrite f_eq. apply Rdiv_pos; [apply exp_pos|apply Gamma_pos; auto]. Qed.
Lemma pdf_fin (x : R) : pdf x k s = Fin (f ((x - 0) / s) / s) /\ logpdf x k s = Fin (ln (f ((x - 0) / s) / s)).
Proof.
  pose proof (Gamma_pos k HK) as G. rewrite Rminus_0_r. unfold pdf, logpdf. rewrite !vok by auto. cbv zeta. rewrite (vgam k HK), (vlgam k HK), vdiv_Fin by lra. rewrite f_eq. set (z := x / s). split.
  - veval. reflexivity.
  - veval. f_equal. assert (0 < exp (k * z - exp z)) by apply exp_pos. rewrite !ln_div by (auto; apply Rdiv_pos; auto). rewrite ln_exp. unfold loggamma. ring.
Qed.
Lemma cdf_fin (x : R) : cdf x k s = Fin (F ((x - 0) / s)) /\ sf x k s = Fin (1 - F ((x - 0) / s)).
Proof.
  rewrite Rminus_0_r. unfold cdf, sf. rewrite !vok by auto. cbv zeta. rewrite vdiv_Fin by lra. cbn [vexp]. rewrite (vgl k HK), (vgu k HK) by apply exp_pos. auto.
Qed.
Lemma CERT : cert (fun x => pdf x k s) (fun x => logpdf x k s) (fun x => cdf x k s) (fun x => sf x k s)
  (fun p => match p with Fin p => Fin (0 + s * Q p) | v => v end) (fun p => match p with Fin p => Fin (0 + s * Q (1 - p)) | v => v end) m_infty p_infty (fun x => F ((x - 0) / s))
  (fun x => f ((x - 0) / s) / s) (fun p => 0 + s * Q p).
Proof.
  apply (ls_cert m_infty p_infty F f Q ST 0 s HS); auto.
  - constructor.
    + intros x _. apply cdf_fin.
    + intros x [].
    + intros x [].
    + unfold cdf, sf. rewrite !vok by auto. cbv zeta. veval. rewrite (vgl0 k HK), (vgu0 k HK). auto.
    + unfold cdf, sf. rewrite !vok by auto. cbv zeta. veval. rewrite (vgli k HK), (vgui k HK). auto.
  - intros x _. apply pdf_fin.
  - intros x [[]|[]].
Qed.
Lemma within_all x : inside m_infty p_infty x -> within NInf PInf x. Proof. intros _. split; exact I. Qed.
Lemma invcdf_ok : solves (fun x => cdf x k s) (fun fr fuel p => invcdf fr fuel p k s) m_infty p_infty.
Proof.
  apply (solves_ext _ _ (fun fr fuel p => match find_bracket fuel (fun x => cdf x k s) p NInf PInf None with Err e => Exc e | Ok x => fr (fun t => vsub (cdf t k s) p) x end)).
  - intros fr fuel p P. unfold invcdf, validate_p. vif. rewrite vok by auto. reflexivity.
  - apply (cert_call_cdf CERT); [apply (co_ninf _ _ _ _ _ (ce_core _ _ _ _ _ _ _ _ _ _ _ CERT))|apply (co_pinf _ _ _ _ _ (ce_core _ _ _ _ _ _ _ _ _ _ _ CERT))|apply within_all].
Qed.
Lemma invsf_ok p : 0 < p < 1 -> exists q, sf (Fin q) k s = Fin p /\ (forall x, sf (Fin x) k s = Fin p -> x = q) /\
  forall findroot, checked_solver1 findroot -> forall fuel x, invsf findroot fuel (Fin p) k s = Fin x -> x = q.
Proof.
  intros P. exists (0 + s * Q (1 - p)). destruct (sf_q CERT p P) as [_ E]. destruct (cv CERT (0 + s * Q (1 - p))) as [_ [C _]]. rewrite C, E. split; auto.
  assert (U : forall x, sf (Fin x) k s = Fin p -> x = 0 + s * Q (1 - p)) by (intros x X; apply (sf_inj CERT); auto; unfold Gv; rewrite X; auto). split; auto.
  intros fr CS fuel x. unfold invsf, validate_p. vif. rewrite vok by auto. destruct (find_bracket _ _ _ _ _ _); [|discriminate]. intros X. apply CS in X. apply U.
  destruct (cv CERT x) as [_ [C' _]]. rewrite C' in *. cbn [vsub vadd vneg] in X. injection X as X. f_equal. lra.
Qed.
Lemma ends fr fr1 fuel : rejects_bad_p (fun p => invcdf fr fuel p k s) /\ rejects_bad_p (fun p => invsf fr1 fuel p k s) /\
  at_ends (fun p => invcdf fr fuel p k s) NInf PInf /\ at_ends (fun p => invsf fr1 fuel p k s) PInf NInf.
Proof.
  split; [|split; [|split]].
  - unfold invcdf. split; [intros p H|split]; [apply vpp_bad; auto|apply vpp_pinf|apply vpp_ninf].
  - unfold invsf. split; [intros p H|split]; [apply vpp_bad; auto|apply vpp_pinf|apply vpp_ninf].
  - split; unfold invcdf, validate_p; vif; reflexivity.
  - split; unfold invsf, validate_p; vif; reflexivity.
Qed.
Lemma mode_ok : is_mode (fun x => pdf x k s) (mode k s).
Proof.
  exists (s * ln k), (f ((s * ln k - 0) / s) / s). split; [unfold mode; rewrite vok by auto; veval; reflexivity|]. split; [apply pdf_fin|]. intros x. eexists. split; [apply pdf_fin|].
  apply Rmult_le_compat_r; [left; apply Rinv_0_lt_compat; auto|]. replace ((s * ln k - 0) / s) with (ln k) by (field; lra). rewrite !f_eq. pose proof (Gamma_pos k HK).
  apply Rmult_le_compat_r; [left; apply Rinv_0_lt_compat; auto|]. apply exp_le_compat. rewrite exp_ln by auto. set (z := (x - 0) / s).
  pose proof (ln_ineq (exp z / k) ltac:(apply Rdiv_pos; auto; apply exp_pos)) as L. rewrite ln_div, ln_exp in L by (auto; apply exp_pos).
  assert (k * (z - ln k) <= k * (exp z / k - 1)) by (apply Rmult_le_compat_l; lra). replace (k * (exp z / k - 1)) with (exp z - k) in H0 by (field; lra). lra.
Qed.
(** C43 *)
Definition M (n : nat) := s ^ n * (Lg n k / Gamma k).
Lemma std_mom n : integrates_to (fun z => z ^ n * f z) m_infty p_infty (Lg n k / Gamma k).
Proof.
  pose proof (Gamma_pos k HK) as G. pose proof (Lg_int n k HK) as I0.
  assert (CT : forall y, inside 0 p_infty y -> continuous (lgk n k) y) by (intros y [Y _]; apply lgk_cont; auto).
  apply (sub_integral SB) in I0; [|intros; apply exp_pos|auto].
  apply (integrates_ext m_infty p_infty Logic.I (fun x => / Gamma k * (lgk n k (exp x) * exp x))).
  - intros x _. unfold lgk, f, gf. rewrite ln_exp. unfold Rdiv. ring.
  - replace (Lg n k / Gamma k) with (/ Gamma k * Lg n k) by (unfold Rdiv; ring). apply integrates_scal. auto.
Qed.
Lemma moms n : integrates_to (fun x => x ^ n * (f ((x - 0) / s) / s)) m_infty p_infty (M n).
Proof.
  pose proof (ls_integral 0 s HS m_infty p_infty (fun z => s ^ n * (z ^ n * f z)) (M n)) as L. cbn [ls] in L.
  apply (integrates_ext m_infty p_infty Logic.I (fun x => s ^ n * (((x - 0) / s) ^ n * f ((x - 0) / s)) / s)).
  - intros x _. replace (x ^ n) with (s ^ n * ((x - 0) / s) ^ n) by (rewrite <- Rpow_mult_distr; f_equal; field; lra). unfold Rdiv. ring.
  - apply L. apply integrates_scal. apply std_mom.
Qed.
Lemma M0 : M 0 = 1. Proof. unfold M. rewrite Lg_0 by auto. pose proof (Gamma_pos k HK). simpl. field. lra. Qed.
Lemma PF x : inside m_infty p_infty x -> pdf (Fin x) k s = Fin (f ((x - 0) / s) / s). Proof. intros _. apply pdf_fin. Qed.
Lemma mvar_eq : mvar M = s ^ 2 * trigamma k.
Proof. unfold mvar, M. rewrite trigamma_eq by auto. pose proof (Gamma_pos k HK). field. lra. Qed.
Lemma mvar_pos : 0 < mvar M. Proof. rewrite mvar_eq. pose proof (trigamma_pos k HK). apply Rmult_lt_0_compat; auto. apply pow_lt; auto. Qed.
Lemma mean_ok : mean_is (fun x => pdf x k s) m_infty p_infty (mean k s).
Proof.
  apply (raw_mean_is m_infty p_infty _ _ M 4 Logic.I PF); auto with arith; [intros; apply moms|]. unfold mean. rewrite vok, (vdig k HK) by auto. veval. f_equal. unfold M. rewrite digamma_eq by auto. ring.
Qed.
Lemma var_ok : var_is (fun x => pdf x k s) m_infty p_infty (mean k s) (var k s).
Proof.
  apply (raw_var_is m_infty p_infty _ _ M 4 Logic.I PF); auto with arith; [intros; apply moms|apply M0| |].
  - unfold mean. rewrite vok, (vdig k HK) by auto. veval. f_equal. unfold M. rewrite digamma_eq by auto. ring.
  - unfold var. rewrite vok, (vtrig k HK), vpown_Fin by auto. rewrite mvar_eq. veval. reflexivity.
Qed.
Lemma skewness_ok : skewness_is (fun x => pdf x k s) m_infty p_infty (skewness k s).
Proof.
  pose proof mvar_pos as V. pose proof (trigamma_pos k HK) as T. pose proof (Gamma_pos k HK) as G.
  apply (raw_skewness_is m_infty p_infty _ _ M 4 Logic.I PF); auto with arith; [intros; apply moms|apply M0|].
  unfold skewness. rewrite vok by auto. unfold vpsi2. rewrite Rltb_true by auto. rewrite (vtrig k HK). assert (0 < Rpower (trigamma k) (3 / 2)) by apply exp_pos. veval. f_equal.
  change (exp (3 / 2 * ln (trigamma k))) with (Rpower (trigamma k) (3 / 2)).
  assert (E : mvar M * sqrt (mvar M) = s ^ 3 * Rpower (trigamma k) (3 / 2)).
  { rewrite mvar_eq. rewrite sqrt_mult_alt by (left; apply pow_lt; auto). rewrite sqrt_pow2 by lra. replace (3 / 2) with (1 + / 2) by field. rewrite Rpower_plus, Rpower_1, Rpower_sqrt by auto. ring. }
  rewrite E. replace (mcen3 M) with (s ^ 3 * psi2 k) by (rewrite psi2_eq by auto; unfold mcen3, M, e2; field; lra). field. split; lra.
Qed.
Lemma kurtosis_ok : kurtosis_is (fun x => pdf x k s) m_infty p_infty (kurtosis k s).
Proof.
  pose proof mvar_pos as V. pose proof (trigamma_pos k HK) as T. pose proof (Gamma_pos k HK) as G.
  apply (raw_kurtosis_is m_infty p_infty _ _ M 4 Logic.I PF); auto with arith; [intros; apply moms|apply M0|].
  unfold kurtosis. rewrite vok by auto. unfold vpsi3. rewrite Rltb_true by auto. rewrite (vtrig k HK), vpown_Fin. assert (0 < trigamma k ^ 2) by (apply pow_lt; auto). veval. f_equal.
  rewrite mvar_eq. replace (mcen4 M) with (s ^ 4 * (psi3 k + 3 * trigamma k ^ 2)) by (rewrite psi3_eq, trigamma_eq by auto; unfold mcen4, M, e3; field; lra). field. split; lra.
Qed.
(** C44, C45 *)
Lemma scale_ok (c x : R) : 0 < c -> cdf (Fin (c * x)) k (Fin (c * s)) = cdf x k s /\ exists d, pdf x k s = Fin d /\ pdf (Fin (c * x)) k (Fin (c * s)) = Fin (d / c).
Proof.
  intros HC. assert (0 < c * s) by (apply Rmult_lt_0_compat; auto). assert (E : c * x / (c * s) = x / s) by (field; lra). split.
  - unfold cdf. rewrite !vok by auto. cbv zeta. rewrite !vdiv_Fin by lra. rewrite E. reflexivity.
  - eexists. split; [apply pdf_fin|]. unfold pdf. rewrite !vok by auto. cbv zeta. pose proof (Gamma_pos k HK). rewrite (vgam k HK), vdiv_Fin by lra. rewrite f_eq, E, Rminus_0_r. set (z := x / s). veval. f_equal. field. lra.
Qed.
Lemma exp_gamma (x : R) : cdf x k 1 = M_gamma.cdf (Fin (exp x)) k 1 /\ sf x k 1 = M_gamma.sf (Fin (exp x)) k 1.
Proof.
  unfold cdf, sf, M_gamma.cdf, M_gamma.sf. rewrite !vok by (auto; lra). rewrite ?gok by (auto; lra).
  pose proof (exp_pos x). vif. rewrite !vdiv_Fin by lra. replace (x / 1) with x by field. replace (exp x / 1) with (exp x) by field. auto.
Qed.
(** C46 *)
Lemma interval_ok x1 x2 : ext_le x1 x2 -> exists c d, cdf x1 k s = Fin c /\ cdf x2 k s = Fin d /\ interval_prob x1 x2 k s = Fin (d - c).
Proof.
  intros L. assert (G1 : interval_prob x1 x2 k s = M_gamma.vgammainc2 (Fin k) (vexp (vdiv x1 (Fin s))) (vexp (vdiv x2 (Fin s)))).
  { unfold interval_prob. rewrite vok by auto. destruct L as [a b L|x E|x E]; [|destruct E|destruct E]; vif; reflexivity. }
  rewrite G1. unfold cdf. rewrite !vok by auto. cbv zeta.
  assert (I0 : forall u v : R, 0 <= u <= v -> exists c d, vgammainc_lower (Fin k) (Fin u) = Fin c /\ vgammainc_lower (Fin k) (Fin v) = Fin d /\ M_gamma.vgammainc2 (Fin k) (Fin u) (Fin v) = Fin (d - c)).
  { intros u v U. destruct (P_gamma.interval_ok k 1 u v HK Rlt_0_1 U) as (c & d & A & B & C). exists c, d. unfold M_gamma.cdf, M_gamma.interval_prob in *. rewrite ?gok in A by (auto; lra); try (rewrite ?gok in B by (auto; lra)); rewrite ?gok in C by (auto; lra).
    revert A B C. vif. rewrite !vdiv_Fin by lra. replace (u / 1) with u by field. replace (v / 1) with v by field. auto. }
  assert (I1 : forall u : R, 0 <= u -> exists c, vgammainc_lower (Fin k) (Fin u) = Fin c /\ M_gamma.vgammainc2 (Fin k) (Fin u) PInf = Fin (1 - c)).
  { intros u U. destruct (P_gamma.interval_inf k 1 u HK Rlt_0_1 U) as (c & A & C). exists c. unfold M_gamma.cdf, M_gamma.interval_prob in *. rewrite ?gok in A by (auto; lra); try (rewrite ?gok in B by (auto; lra)); rewrite ?gok in C by (auto; lra).
    revert A C. vif. rewrite !vdiv_Fin by lra. replace (u / 1) with u by field. veval. auto. }
  assert (EP : forall x : R, vexp (vdiv (Fin x) (Fin s)) = Fin (exp (x / s))) by (intros; rewrite vdiv_Fin by lra; reflexivity).
  assert (EI : vexp (vdiv PInf (Fin s)) = PInf) by (veval; reflexivity). assert (EN : vexp (vdiv NInf (Fin s)) = Fin 0) by (veval; reflexivity).
  assert (K2 : forall u : R, 0 <= u -> exists c d, vgammainc_lower (Fin k) (Fin u) = Fin c /\ vgammainc_lower (Fin k) PInf = Fin d /\ M_gamma.vgammainc2 (Fin k) (Fin u) PInf = Fin (d - c)).
  { intros u U. destruct (I1 u U) as [c [A B]]. exists c, 1. rewrite (vgli k HK). auto. }
  destruct L as [a b L|x E|x E].
  - rewrite !EP. apply I0. split; [left; apply exp_pos|]. apply exp_le_compat. apply Rmult_le_compat_r; auto. left. apply Rinv_0_lt_compat; auto.
  - rewrite EN. destruct E as [r| |].
    + rewrite EP. apply I0. split; [lra|left; apply exp_pos].
    + rewrite EI. apply K2. lra.
    + rewrite EN. apply I0. lra.
  - rewrite EI. destruct E as [r| |].
    + rewrite EP. apply K2. left; apply exp_pos.
    + rewrite EI. exists 1, 1. rewrite (vgli k HK). split; auto. split; auto. unfold M_gamma.vgammainc2. f_equal. ring.
    + rewrite EN. apply K2. lra.
Qed.
Lemma interval_rev (x1 x2 : R) : x2 < x1 -> interval_prob x1 x2 k s = Exc ValueError.
Proof. intros L. unfold interval_prob. vif. reflexivity. Qed.
End P.

(** C49 *)
Definition term (x k s : R) := exp (x / s) - k * (x / s) + loggamma k + ln s.
Definition rnll xs k s := rsum (map (fun x => term x k s) xs).
Lemma lp_fin (x k s : R) : 0 < k -> 0 < s -> logpdf x k s = Fin (- term x k s).
Proof.
  intros K S. unfold logpdf. rewrite !vok by auto. cbv zeta. rewrite (vlgam k K), vdiv_Fin by lra. veval. f_equal. unfold term. ring.
Qed.
Lemma vx {A} `{CanRaise A} xs (c : A) : validate_x_bounds (map Fin xs) (Some NInf) (Some PInf) false false c = c.
Proof. apply vxb_pass. intros x _. split; right; exact Logic.I. Qed.
Lemma nll_fin xs (k s : R) : 0 < k -> 0 < s -> nll (map Fin xs) (Fin k) (Fin s) = Fin (rnll xs k s).
Proof.
  intros K S. unfold nll. rewrite vok, vx by auto. rewrite map_map, (vfsum_map _ (fun x => - term x k s)) by (intros; apply lp_fin; auto). cbn [vneg]. f_equal. unfold rnll.
  rewrite (rsum_ext _ (fun x => (-1) * term x k s)) by (intros; ring). rewrite rsum_scal. ring.
Qed.
Lemma nll_ok xs (k s : R) : 0 < k -> 0 < s -> exists L, loglik (fun x => logpdf x k s) xs = Fin L /\ nll (map Fin xs) (Fin k) (Fin s) = Fin (- L).
Proof.
  intros K S. eexists. split; [apply (loglik_fin _ (fun x => - term x k s)); intros; apply lp_fin; auto|]. rewrite nll_fin by auto. f_equal. unfold rnll. change sum with rsum.
  rewrite (rsum_ext _ (fun x => (-1) * (- term x k s)) xs) by (intros; ring). rewrite rsum_scal. ring.
Qed.
(** C47 *)
Section Mle.
Variable xs : list R.
Hypothesis NE : xs <> [].
Let n := INR (length xs).
Let NP : 0 < n := length_pos xs NE.
Lemma k_ineq k b s : 0 < k -> 0 < b -> 0 < s -> n * digamma k = rsum (map (fun x => x / s) xs) -> rnll xs k s <= rnll xs b s.
Proof.
  intros K B S E. assert (D : rnll xs b s - rnll xs k s = n * (loggamma b - loggamma k) - (b - k) * rsum (map (fun x => x / s) xs)).
  { unfold rnll. rewrite <- rsum_minus, <- rsum_scal. unfold n. rewrite <- (rsum_const _ xs), <- rsum_minus. apply rsum_ext. intros x _. unfold term. ring. }
  rewrite <- E in D. pose proof (loggamma_tangent k b K B). assert (0 <= n * (loggamma b - (loggamma k + digamma k * (b - k)))) by (apply Rmult_le_pos; lra). lra.
Qed.
Lemma term_s x k s t : 0 < s -> 0 < t -> term x k s + (x * (exp (x / s) - k) - s) * (/ t - / s) <= term x k t.
Proof.
  intros S T. unfold term. pose proof (exp_ineq1_le (x * (/ t - / s))) as E. apply (Rmult_le_compat_l (exp (x / s))) in E; [|left; apply exp_pos].
  rewrite <- exp_plus in E. replace (x / s + x * (/ t - / s)) with (x / t) in E by (field; lra).
  pose proof (ln_ineq (s / t) ltac:(apply Rdiv_pos; auto)) as L. rewrite ln_div in L by auto.
  replace (s / t - 1) with (s * (/ t - / s)) in L by (field; lra). replace (k * (x / t)) with (k * (x / s) + k * (x * (/ t - / s))) by (field; lra). nra.
Qed.
Lemma s_ineq k s t : 0 < s -> 0 < t -> rsum (map (fun x => x * (exp (x / s) - k)) xs) = n * s -> rnll xs k s <= rnll xs k t.
Proof.
  intros S T E. assert (Z : rsum (map (fun x => (x * (exp (x / s) - k) - s) * (/ t - / s)) xs) = 0).
  { rewrite rsum_scal_r, rsum_minus, rsum_const, E. fold n. ring. }
  unfold rnll. apply Rle_trans with (rsum (map (fun x => term x k s + (x * (exp (x / s) - k) - s) * (/ t - / s)) xs)).
  - rewrite rsum_plus, Z. lra.
  - apply rsum_le. intros x _. apply term_s; auto.
Qed.
Lemma shape_fin (k s : R) : 0 < k -> s <> 0 -> shape_eq (map Fin xs) (Fin k) (Fin s) = Fin (- n * digamma k + rsum (map (fun x => x / s) xs)).
Proof.
  intros K S. unfold shape_eq, vlen. rewrite map_length, map_map, (vdig k K). rewrite (vfsum_map _ (fun x => x / s)) by (intros; apply vdiv_Fin; auto). reflexivity.
Qed.
Lemma scale_fin (k s : R) : s <> 0 -> scale_eq (map Fin xs) (Fin k) (Fin s) = Fin (- n * s + rsum (map (fun x => x * (exp (x / s) - k)) xs)).
Proof.
  intros S. unfold scale_eq, vlen. rewrite map_length, map_map. rewrite (vfsum_map _ (fun x => x * (exp (x / s) - k))); [reflexivity|]. intros x _. rewrite vdiv_Fin by auto. reflexivity.
Qed.
Lemma mle_k_opt euler fr fr1 fr2 k0 t0 k s : checked_solver fr -> 0 < s -> mle euler fr fr1 fr2 k0 t0 (map Fin xs) None (Some (Fin s)) = Ok (Fin k, Fin s) ->
  minimises (fun k => 0 < k) (fun k => nll (map Fin xs) (Fin k) (Fin s)) k.
Proof.
  intros CS S. unfold mle. rewrite vx, vok by (auto; lra). rewrite map_map, (mean_of _ (fun x => x / s)) by (auto; intros; apply vdiv_Fin; lra). cbn [bindv].
  intros E. apply P_beta.ok_bind in E. destruct E as [E _]. destruct (digammainv_sound _ _ _ _ CS E) as [K D]. split; auto. eexists. split; [apply nll_fin; auto|].
  intros b B. eexists. split; [apply nll_fin; auto|]. apply k_ineq; auto. rewrite D. change sum with rsum. fold n. field. lra.
Qed.
Lemma mle_s_opt euler fr fr1 fr2 k0 t0 k s : checked_solver1 fr1 -> 0 < k -> 0 < s -> mle euler fr fr1 fr2 k0 t0 (map Fin xs) (Some (Fin k)) None = Ok (Fin k, Fin s) ->
  minimises (fun s => 0 < s) (fun s => nll (map Fin xs) (Fin k) (Fin s)) s.
Proof.
  intros CS K S. unfold mle. rewrite vx. generalize (match t0 with Some v => v | None => Fin 1 end). intros i. unfold validate_k_theta. vif. destruct (cle i (Fin 0)) as [[|]|]; cbn [cif]; try discriminate.
  intros E. apply P_beta.ok_bind' in E. destruct E as [E _]. apply CS in E. rewrite scale_fin in E by lra. injection E as E. split; auto. eexists. split; [apply nll_fin; auto|].
  intros b B. eexists. split; [apply nll_fin; auto|]. apply s_ineq; auto. lra.
Qed.
Lemma mle_both euler fr fr1 fr2 k0 t0 k s : checked_solver2 fr2 -> 0 < k -> 0 < s -> mle euler fr fr1 fr2 k0 t0 (map Fin xs) None None = Ok (Fin k, Fin s) ->
  minimises (fun k => 0 < k) (fun k => nll (map Fin xs) (Fin k) (Fin s)) k /\ minimises (fun s => 0 < s) (fun s => nll (map Fin xs) (Fin k) (Fin s)) s.
Proof.
  intros CS K S. unfold mle. rewrite vx. generalize (match t0 with Some v => v | None => Fin 1 end). generalize (match k0 with Some v => v | None => Fin 1 end). intros i j. unfold validate_k_theta.
  destruct (cle i (Fin 0)) as [[|]|]; cbn [cif]; try discriminate. destruct (cle j (Fin 0)) as [[|]|]; cbn [cif]; try discriminate.
  intros E. apply CS in E. rewrite scale_fin, shape_fin in E by lra. injection E as E1 E2.
  split; (split; auto; eexists; split; [apply nll_fin; auto|]; intros b B; eexists; split; [apply nll_fin; auto|]); [apply k_ineq|apply s_ineq]; auto; lra.
Qed.
End Mle.
Lemma c47_k xs euler fr fr1 fr2 k0 t0 k s : xs <> [] -> checked_solver fr -> 0 < s -> mle euler fr fr1 fr2 k0 t0 (map Fin xs) None (Some (Fin s)) = Ok (Fin k, Fin s) ->
  minimises (fun k => 0 < k) (fun k => nll (map Fin xs) (Fin k) (Fin s)) k.
Proof. intros. eapply mle_k_opt; eauto. Qed.
Lemma c47_s xs euler fr fr1 fr2 k0 t0 k s : xs <> [] -> checked_solver1 fr1 -> 0 < k -> 0 < s -> mle euler fr fr1 fr2 k0 t0 (map Fin xs) (Some (Fin k)) None = Ok (Fin k, Fin s) ->
  minimises (fun s => 0 < s) (fun s => nll (map Fin xs) (Fin k) (Fin s)) s.
Proof. intros. eapply mle_s_opt; eauto. Qed.
Lemma c47_both xs euler fr fr1 fr2 k0 t0 k s : xs <> [] -> checked_solver2 fr2 -> 0 < k -> 0 < s -> mle euler fr fr1 fr2 k0 t0 (map Fin xs) None None = Ok (Fin k, Fin s) ->
  minimises (fun k => 0 < k) (fun k => nll (map Fin xs) (Fin k) (Fin s)) k /\ minimises (fun s => 0 < s) (fun s => nll (map Fin xs) (Fin k) (Fin s)) s.
Proof. intros. eapply mle_both; eauto. Qed.
Lemma mle_k_case : exists fr k, checked_solver fr /\ 0 < k /\ mle (Fin 1) fr (fun _ _ => NaN) (fun _ _ => Err ValueError) None None (map Fin [-1; 1]) None (Some (Fin 1)) = Ok (Fin k, Fin 1).
Proof.
  destruct (onto 0) as [k [K E]].
  exists (fun func _ => match func (Fin k) with Fin v => if Reqb v 0 then Fin k else NaN | _ => NaN end), k. split; [|split; auto].
  - intros func x0 x1 r. destruct (func (Fin k)) as [v| | | |] eqn:EQ; try discriminate. destruct (Reqb_spec v 0) as [[L ->]|[L ->]]; try discriminate. intros H. injection H as <-. rewrite EQ, L. reflexivity.
  - unfold mle. rewrite vx, vok by lra. rewrite map_map, (mean_of _ (fun x => x / 1)) by (try discriminate; intros; apply vdiv_Fin; lra). cbn [bindv].
    replace (sum (map (fun x => x / 1) [-1; 1]) / INR (length [-1; 1])) with 0 by (simpl; field).
    unfold digammainv. change (cgt (Fin 0) (Fin (-1/8))) with (CB (Rltb (-1/8) 0)). rewrite Rltb_true by lra. cbn [cif]. change (vadd (vexp (Fin 0)) (Fin (1/2))) with (Fin (exp 0 + 1/2)). cbn [bindv].
    rewrite (vdig k K), E. change (vsub (Fin 0) (Fin 0)) with (Fin (0 - 0)). cbv iota beta. rewrite Reqb_true by ring. reflexivity.
Qed.
Lemma mle_s_case : exists fr1 k, checked_solver1 fr1 /\ 0 < k /\ mle (Fin 1) (fun _ _ => NaN) fr1 (fun _ _ => Err ValueError) None None (map Fin [1]) (Some (Fin k)) None = Ok (Fin k, Fin 1).
Proof.
  exists (P_beta.try1 1), (exp 1 - 1). pose proof (exp_ineq1 1 ltac:(lra)). split; [apply P_beta.try1_ok|]. split; [lra|].
  unfold mle. rewrite vx, vok by lra. unfold P_beta.try1. rewrite scale_fin by lra. rewrite Reqb_true; [reflexivity|]. simpl. replace (1 / 1) with 1 by field. ring.
Qed.
Lemma mle_both_case : exists fr2 k d, checked_solver2 fr2 /\ 0 < k /\ 0 < d /\ mle (Fin 1) (fun _ _ => NaN) (fun _ _ => NaN) fr2 None None (map Fin [- d; d]) None None = Ok (Fin k, Fin 1).
Proof.
  destruct (onto 0) as [k [K E]].
  assert (EX : exists d, 0 <= d <= 2 /\ d * (exp d - exp (- d)) - 2 = 0).
  { destruct (IVT_cor (fun d => d * (exp d - exp (- d)) - 2) 0 2) as [d X]; [|lra| |exists d; exact X].
    - intros d. apply continuity_pt_filterlim. apply (ex_derive_continuous (fun d => d * (exp d - exp (- d)) - 2)). auto_derive. auto.
    - pose proof (exp_ineq1 2 ltac:(lra)). pose proof (exp_pos (-2)). assert (exp (- (2)) < 1) by (rewrite <- exp_0; apply exp_increasing; lra). nra. }
  destruct EX as [d [D0 D]]. exists (P_beta.try2 k 1), k, d. split; [apply P_beta.try2_ok|]. split; auto. split; [destruct D0 as [[D0|<-] _]; lra|].
  unfold mle. rewrite vx, vok by lra. unfold P_beta.try2. rewrite scale_fin, shape_fin, E by (auto; lra). rewrite !Reqb_true; [reflexivity| |].
  - simpl. replace (d / 1) with d by field. replace (- d / 1) with (- d) by field. lra.
  - simpl. field.
Qed.
Lemma bad_params k s : isnum k -> isnum s -> nonpositive k \/ nonpositive s ->
  always_ValueError [fun x => pdf x k s; fun x => logpdf x k s; fun x => cdf x k s; fun x => sf x k s; fun _ => mean k s; fun _ => mode k s; fun _ => var k s; fun _ => skewness k s; fun _ => kurtosis k s] /\
  support k s = Err ValueError /\ (forall xs, nll xs k s = Exc ValueError) /\
  (forall fr fr1 fuel p, 0 < p < 1 -> invcdf fr fuel (Fin p) k s = Exc ValueError /\ invsf fr1 fuel (Fin p) k s = Exc ValueError).
Proof.
  intros NK NS B. split; [|split; [|split]].
  - unfold pdf, logpdf, cdf, sf, mean, mode, var, skewness, kurtosis. all_ve; intros x _; apply validate_bad; auto.
  - apply validate_bad; auto.
  - intros xs. apply validate_bad; auto.
  - intros fr fr1 fuel p P. unfold invcdf, invsf, validate_p. vif. split; apply validate_bad; auto.
Qed.
Lemma bad_refuted fr fr1 fuel : nonpositive (Fin (-1)) /\ invcdf fr fuel (Fin 0) (Fin (-1)) (Fin 1) = NInf /\ invsf fr1 fuel (Fin 0) (Fin (-1)) (Fin 1) = PInf.
Proof. split; [constructor; lra|]. unfold invcdf, invsf, validate_p. vif. auto. Qed.
