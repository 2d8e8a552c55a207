(** Proofs about M_betaprime. *)
From Coq Require Import Reals Lra Lia List ZArith.
From Coquelicot Require Import Coquelicot.
From Verif Require Import Values VTac Spec SpecNoMom RLib LimLib LLib XLib DistLib DistLS IntLib SubLib MomLib LSMom LSMom2 PLib DiscLib M_common SpecStat SpecEst SpecRoot SpecBracket SpecInv SpecInv3 SpecLS
  SFun GammaLib GammaLib2 GammaLib3 GammaLib4 GamLib IncLib BetaLib BpLib M_sfun P_sfun M_fun P_logb M_bracket M_numinv InvLib M_bisect P_bisect P_est.
From Verif Require M_beta P_beta.
From Verif Require Import M_betaprime.
Import ListNotations.
Local Open Scope R_scope.
Set Bullet Behavior "Strict Subproofs".

Lemma cle0 v : isnum v -> exists t, cle v (Fin 0) = CB t.
Proof. intros [? []|]; simpl; eauto. Qed.
Lemma cle1 v : nonpositive v -> cle v (Fin 0) = CB true.
Proof. intros B. inversion B; subst; simpl; auto. rewrite Rleb_true by auto. auto. Qed.
Lemma validate_bad {A} `{CanRaise A} a b s (c : A) : isnum a -> isnum b -> isnum s -> nonpositive a \/ nonpositive b \/ nonpositive s -> validate_params a b s c = raise ValueError.
Proof.
  intros NA NB NS B. unfold validate_params. destruct (cle0 a NA) as [ta EA], (cle0 b NB) as [tb EB], (cle0 s NS) as [ts ES].
  destruct B as [B|[B|B]]; apply cle1 in B; rewrite ?EA, ?EB, ?ES; (rewrite B in EA || rewrite B in EB || rewrite B in ES); destruct ta, tb, ts; try discriminate; reflexivity.
Qed.
Ltac start := unfold pdf, logpdf, cdf, sf, support, mode, mean, var, skewness, kurtosis, entropy, validate_params, validate_p, xlogy, xlog1py.
Lemma val_pass {A} `{CanRaise A} (a b s : R) (c : A) : 0 < a -> 0 < b -> 0 < s -> validate_params (Fin a) (Fin b) (Fin s) c = c.
Proof. intros. unfold validate_params. vif. reflexivity. Qed.
Lemma Irefl a b x : 0 < a -> 0 < b -> 0 <= x <= 1 -> Ifull b a (1 - x) = 1 - Ifull a b x.
Proof.
  intros A B X. pose proof (proj1 (P_beta.reflect a b x A B)) as E. unfold M_beta.cdf, M_beta.sf in E. rewrite !P_beta.val_pass in E by auto.
  revert E. vif. rewrite low_eval, up_eval by (auto; lra). intros E. injection E; auto.
Qed.
Section P.
Variables a b s : R.
Hypothesis HA : 0 < a.
Hypothesis HB : 0 < b.
Hypothesis HS : 0 < s.
Notation F := (pF a b). Notation f := (pf a b). Notation Q := (pQ a b). Notation B := (Beta a b).
Lemma m0 x : x - 0 = x. Proof. ring. Qed.
Lemma z_pos x : 0 < x -> 0 < x / s. Proof. intros. apply Rdiv_pos; lra. Qed.
Lemma z_pos' x : 0 < (x - 0) / s -> 0 < x.
Proof. intros H. assert (0 < (x - 0) / s * s) by nra. unfold Rdiv in H0. rewrite Rmult_assoc, Rinv_l in H0 by lra. lra. Qed.
Lemma lgb : logbeta vloggamma (Fin a) (Fin b) = Fin (ln B). Proof. apply P_beta.lgb; auto. Qed.
Lemma pdf_fin (x : R) : 0 < x -> pdf x a b s = Fin (f ((x - 0) / s) / s) /\ logpdf x a b s = Fin (ln (f ((x - 0) / s) / s)).
Proof.
  intros H. rewrite m0. pose proof (z_pos x H) as Z. pose proof (bB a b HA HB) as BP. rewrite ln_div by (auto; apply pf_pos; auto). rewrite ln_pf, pf_exp by auto.
  assert (RP : 0 < Rpower (1 + x / s) (a + b)) by apply exp_pos. start. rewrite (vbet a b HA HB), lgb. split.
  - veval. f_equal. apply (f_equal (fun v => v / s)).
    unfold Rpower. replace ((a - 1) * ln (x / s) - (a + b) * ln (1 + x / s) - ln B) with ((a - 1) * ln (x / s) + - ((a + b) * ln (1 + x / s)) + - ln B) by ring.
    rewrite !exp_plus, !exp_Ropp, exp_ln by auto. field. split; [lra|]. apply Rgt_not_eq, exp_pos.
  - destruct (Req_dec a 1) as [E|E]; [|assert (a - 1 <> 0) by lra]; veval; f_equal; try (rewrite E); ring.
Qed.
Lemma lowz x : 0 <= x -> cdf x a b s = Fin (Ifull a b (phi (x / s))) /\ sf x a b s = Fin (1 - Ifull a b (phi (x / s))).
Proof.
  intros X. assert (Z : 0 <= x / s) by (destruct X as [X|<-]; [left; apply z_pos; auto|unfold Rdiv; rewrite Rmult_0_l; lra]).
  assert (Z1 : 0 < 1 + x / s) by lra. assert (PI1 : 0 <= phi (x / s) <= 1).
  { destruct Z as [Z|<-]; [pose proof (phi_in _ Z); lra|]. unfold phi. unfold Rdiv. rewrite Rmult_0_l. lra. }
  assert (R1 : 1 / (1 + x / s) = 1 - phi (x / s)) by (rewrite phi_1 by auto; field; lra).
  start. destruct (Rlt_dec 1 (x / s)) as [L|L].
  - veval. rewrite R1. rewrite low_eval, up_eval by (auto; lra). rewrite Irefl by auto. split; f_equal; ring.
  - veval. change (x / s / (1 + x / s)) with (phi (x / s)). rewrite low_eval, up_eval by auto. auto.
Qed.
Lemma If_F z : 0 < z -> Ifull a b (phi z) = F z.
Proof. intros Z. pose proof (phi_in z Z). unfold pF, bF, Ifull. rewrite (Reqb_false _ 0), (Reqb_false _ 1) by lra. reflexivity. Qed.
Lemma phi0 : phi (0 / s) = 0. Proof. unfold phi, Rdiv. rewrite !Rmult_0_l. auto. Qed.
Lemma CERT : cert (fun x => pdf x a b s) (fun x => logpdf x a b s) (fun x => cdf x a b s) (fun x => sf x a b s)
  (fun p => ideal_cdf Q p 0 s) (fun p => ideal_sf Q p 0 s) 0 p_infty (fun x => F ((x - 0) / s)) (fun x => f ((x - 0) / s) / s) (fun p => 0 + s * Q p).
Proof.
  apply (ls_cert 0 p_infty F f Q (pST a b HA HB) 0 s HS); auto.
  - simpl. f_equal. ring.
  - constructor.
    + intros x [H _]. simpl in H. rewrite (proj1 (lowz x (Rlt_le _ _ H))), (proj2 (lowz x (Rlt_le _ _ H))), If_F, m0 by (apply z_pos; auto). auto.
    + intros x H. simpl in H. destruct H as [H| ->]; [start; veval; auto|]. destruct (lowz 0 (Rle_refl 0)) as [-> ->]. rewrite phi0, If_0. split; f_equal. ring.
    + intros x [].
    + start. veval. auto.
    + start. veval. auto.
  - intros x [H _]. simpl in H. apply pdf_fin. apply z_pos'; auto.
  - intros x [H|[]]. simpl in H. start. veval. auto.
Qed.
(** C34, at the lower end as well *)
Lemma B_at0 : a = 1 -> B = / b.
Proof. intros ->. unfold Beta. rewrite Gamma_1. replace (1 + b) with (b + 1) by ring. rewrite Gamma_succ by auto. pose proof (Gamma_pos b HB). field. lra. Qed.
Lemma pdf_0 : pdf 0 a b s = if Rlt_dec a 1 then PInf else if Req_EM_T a 1 then Fin (b / s) else Fin 0.
Proof.
  pose proof (bB a b HA HB) as BP. assert (RP : 0 < Rpower (1 + 0 / s) (a + b)) by apply exp_pos. assert (Z0 : 0 / s = 0) by (unfold Rdiv; ring).
  start. rewrite (vbet a b HA HB). destruct (Rlt_dec a 1) as [L|L]; [veval; auto|]. destruct (Req_EM_T a 1) as [E|E].
  - assert (a - 1 = 0) by lra. pose proof (B_at0 E) as BE. veval. f_equal. rewrite Z0. rewrite BE. rewrite Rplus_0_r. unfold Rpower. rewrite ln_1, Rmult_0_r, exp_0. field. lra.
  - assert (0 < a - 1) by lra. veval. f_equal. unfold Rdiv. ring.
Qed.
Lemma logpdf_0 : logpdf 0 a b s = if Rlt_dec a 1 then PInf else if Req_EM_T a 1 then Fin (ln (b / s)) else NInf.
Proof.
  pose proof (bB a b HA HB) as BP. assert (Z0 : 0 / s = 0) by (unfold Rdiv; ring).
  start. rewrite lgb. destruct (Rlt_dec a 1) as [L|L]; [veval; auto|]. destruct (Req_EM_T a 1) as [E|E].
  - assert (a - 1 = 0) by lra. pose proof (B_at0 E) as BE. rewrite BE. veval. f_equal. rewrite Z0. rewrite Rplus_0_r, ln_1, Rmult_0_r, ln_div, ln_Rinv by auto. ring.
  - assert (0 < a - 1) by lra. veval. auto.
Qed.
Lemma log_all : forall x : R, log_of (fun x => pdf x a b s) (fun x => logpdf x a b s) x.
Proof.
  intros x. destruct (Rtotal_order x 0) as [L|[->|L]].
  - right; left. start. veval. auto.
  - unfold log_of. rewrite pdf_0, logpdf_0. destruct (Rlt_dec a 1); [auto|]. destruct (Req_EM_T a 1); [|auto].
    left. exists (b / s). split; auto. apply Rdiv_pos; auto.
  - left. destruct (pdf_fin x L) as [A1 A2]. eexists. split; [|split; [exact A1|exact A2]]. apply Rdiv_pos; auto. apply pf_pos; auto. rewrite m0. apply z_pos; auto.
Qed.
(** C39 *)
Lemma pf_max z : 1 < a -> 0 < z -> f z <= f ((a - 1) / (b + 1)).
Proof.
  intros A Z. assert (ZM : 0 < (a - 1) / (b + 1)) by (apply Rdiv_pos; lra). rewrite !pf_exp by auto. apply exp_le_compat.
  pose proof (phi_in z Z) as T. set (t := phi z) in *.
  assert (E : forall u, 0 < u -> (a - 1) * ln u - (a + b) * ln (1 + u) = (a - 1) * ln (phi u) + (b + 1) * ln (1 - phi u)).
  { intros u U. rewrite phi_1 by lra. unfold phi. rewrite ln_div, ln_Rinv by lra. ring. }
  rewrite !E by auto. assert (TM : phi ((a - 1) / (b + 1)) = (a - 1) / (a + b)) by (unfold phi; field; lra). rewrite TM. fold t.
  assert (TM1 : 1 - (a - 1) / (a + b) = (b + 1) / (a + b)) by (field; lra). rewrite TM1.
  assert (P1 : 0 < (a - 1) / (a + b)) by (apply Rdiv_pos; lra). assert (P2 : 0 < (b + 1) / (a + b)) by (apply Rdiv_pos; lra).
  pose proof (ln_ineq (t / ((a - 1) / (a + b))) ltac:(apply Rdiv_pos; lra)) as I1. pose proof (ln_ineq ((1 - t) / ((b + 1) / (a + b))) ltac:(apply Rdiv_pos; lra)) as I2.
  rewrite ln_div in I1, I2 by lra. apply (Rmult_le_compat_l (a - 1)) in I1; [|lra]. apply (Rmult_le_compat_l (b + 1)) in I2; [|lra].
  replace ((a - 1) * (t / ((a - 1) / (a + b)) - 1)) with ((a + b) * t - (a - 1)) in I1 by (field; lra).
  replace ((b + 1) * ((1 - t) / ((b + 1) / (a + b)) - 1)) with ((a + b) * (1 - t) - (b + 1)) in I2 by (field; lra). lra.
Qed.
Lemma mode_ok : is_mode_ext (fun x => pdf x a b s) (mode a b s).
Proof.
  assert (OUT : forall x, x < 0 -> pdf x a b s = Fin 0) by (intros; start; veval; auto).
  pose proof pdf_0 as P0. destruct (Rlt_dec a 1) as [L|L].
  - exists 0. split; [start; veval; auto|]. rewrite P0. intros x. destruct (Rtotal_order x 0) as [H|[->|H]].
    + rewrite OUT by auto. constructor; constructor.
    + rewrite P0. constructor; constructor.
    + rewrite (proj1 (pdf_fin x H)). constructor; constructor.
  - destruct (Req_EM_T a 1) as [E|E].
    + exists 0. split; [start; veval; f_equal; rewrite E; field; lra|]. rewrite P0. intros x. destruct (Rtotal_order x 0) as [H|[->|H]].
      * rewrite OUT by auto. constructor. left. apply Rdiv_pos; auto.
      * rewrite P0. constructor. lra.
      * rewrite (proj1 (pdf_fin x H)). constructor. apply Rmult_le_compat_r; [left; apply Rinv_0_lt_compat; auto|]. rewrite m0, pf_exp by (auto; apply z_pos; auto).
        rewrite (B_at0 E), ln_Rinv by auto. rewrite <- (exp_ln b) at 3 by auto. apply exp_le_compat. pose proof (z_pos x H). assert (0 <= ln (1 + x / s)) by (rewrite <- ln_1; apply ln_le; lra). rewrite E. nra.
    + assert (A1 : 1 < a) by lra. assert (MP : 0 < s * (a - 1) / (b + 1)) by (apply Rdiv_pos; [apply Rmult_lt_0_compat|]; lra).
      exists (s * (a - 1) / (b + 1)). split; [start; veval; auto|]. rewrite (proj1 (pdf_fin _ MP)), m0. replace (s * (a - 1) / (b + 1) / s) with ((a - 1) / (b + 1)) by (field; lra).
      assert (FP : 0 < f ((a - 1) / (b + 1)) / s) by (apply Rdiv_pos; auto; apply pf_pos; auto; apply Rdiv_pos; lra).
      intros x. destruct (Rtotal_order x 0) as [H|[->|H]].
      * rewrite OUT by auto. constructor. lra.
      * rewrite P0. constructor. lra.
      * rewrite (proj1 (pdf_fin x H)), m0. constructor. apply Rmult_le_compat_r; [left; apply Rinv_0_lt_compat; auto|]. apply pf_max; auto. apply z_pos; auto.
Qed.
(** C35, C36 *)
Lemma within0 x : inside 0 p_infty x -> within (Fin 0) PInf x.
Proof. intros [H _]. simpl in H. split; simpl; [lra|auto]. Qed.
Lemma invcdf_ok : solves (fun x => cdf x a b s) (fun fr fuel p => invcdf fr fuel p a b s) 0 p_infty.
Proof.
  apply (solves_ext _ _ (fun fr fuel p => bracket_solve fr fuel None (fun x => cdf x a b s) p (Fin 0) PInf)).
  - intros fr fuel p P. unfold invcdf. rewrite val_pass by auto. unfold validate_p. vif. reflexivity.
  - apply (cert_bracket_cdf CERT); [apply (co_below _ _ _ _ _ (ce_core _ _ _ _ _ _ _ _ _ _ _ CERT) 0); simpl; lra|apply (co_pinf _ _ _ _ _ (ce_core _ _ _ _ _ _ _ _ _ _ _ CERT))|apply within0].
Qed.
Lemma invsf_ok : solves (fun x => sf x a b s) (fun fr fuel p => invsf fr fuel p a b s) 0 p_infty.
Proof.
  apply (solves_ext _ _ (fun fr fuel p => bracket_solve fr fuel None (fun x => sf x a b s) p (Fin 0) PInf)).
  - intros fr fuel p P. unfold invsf. rewrite val_pass by auto. unfold validate_p. vif. reflexivity.
  - apply (cert_bracket_sf CERT); [apply (co_below _ _ _ _ _ (ce_core _ _ _ _ _ _ _ _ _ _ _ CERT) 0); simpl; lra|apply (co_pinf _ _ _ _ _ (ce_core _ _ _ _ _ _ _ _ _ _ _ CERT))|apply within0].
Qed.
(** C37 *)
Lemma ends fr fuel : rejects_bad_p (fun p => invcdf fr fuel p a b s) /\ rejects_bad_p (fun p => invsf fr fuel p a b s) /\
  at_ends (fun p => invcdf fr fuel p a b s) (Fin 0) PInf /\ invsf fr fuel 1 a b s = Fin 0.
Proof.
  unfold invcdf, invsf. split; [|split; [|split]].
  - split; [intros p H|split]; rewrite val_pass by auto; [apply vpp_bad; auto|apply vpp_pinf|apply vpp_ninf].
  - split; [intros p H|split]; rewrite val_pass by auto; [apply vpp_bad; auto|apply vpp_pinf|apply vpp_ninf].
  - split; rewrite val_pass by auto; unfold validate_p; vif; reflexivity.
  - rewrite val_pass by auto; unfold validate_p; vif; reflexivity.
Qed.
Lemma F_lt1 z : 0 < z -> F z < 1.
Proof.
  intros Z. apply (F_open01 _ _ _ _ (st_smooth _ _ _ _ _ (pST a b HA HB))). split; simpl; auto.
Qed.
(** C58 *)
Lemma invsf_0 fr fuel : invsf fr fuel 0 a b s = Fin 1 /\ support a b s = Ok (Fin 0, PInf) /\ sf 1 a b s <> Fin 0.
Proof.
  split; [unfold invsf; rewrite val_pass by auto; unfold validate_p; vif; reflexivity|]. split; [start; veval; auto|].
  rewrite (proj2 (lowz 1 ltac:(lra))), If_F by (apply z_pos; lra). pose proof (F_lt1 (1 / s) (z_pos 1 ltac:(lra))). intros E. injection E as E. lra.
Qed.
(** C43 *)
Lemma elo : Finite 0 = ls 0 s 0. Proof. simpl. f_equal. ring. Qed.
Lemma pdf_in x : inside 0 p_infty x -> pdf (Fin x) a b s = Fin (f ((x - 0) / s) / s).
Proof. intros [H _]. simpl in H. apply pdf_fin; auto. Qed.
Lemma mom_int N n : INR N < b -> (n <= N)%nat -> integrates_to (fun z => z ^ n * f z) 0 p_infty (pM a b n).
Proof. intros B L. apply p_momentn; auto. apply le_INR in L. lra. Qed.
Notation LSM lem N HN := (lem 0 p_infty F f Q (pST a b HA HB) 0 s (fun x => pdf x a b s) (Finite 0) p_infty HS elo eq_refl pdf_in (pM a b) N%nat (fun n => mom_int N n HN)).
Lemma i1 : 1 < b -> INR 1 < b. Proof. simpl; lra. Qed.
Lemma i2 : 2 < b -> INR 2 < b. Proof. simpl; lra. Qed.
Lemma i3 : 3 < b -> INR 3 < b. Proof. simpl; lra. Qed.
Lemma i4 : 4 < b -> INR 4 < b. Proof. simpl; lra. Qed.
Lemma mvar_eq : 2 < b -> mvar (pM a b) = a * (a + b - 1) / ((b - 2) * (b - 1) ^ 2).
Proof. intros. unfold mvar. rewrite pM1, pM2 by lra. field. lra. Qed.
Lemma mvar_pos' : 2 < b -> 0 < mvar (pM a b).
Proof. intros. rewrite mvar_eq by auto. apply Rdiv_pos; apply Rmult_lt_0_compat; try lra. apply pow_lt. lra. Qed.
Lemma mean_ok : 1 < b -> mean_is (fun x => pdf x a b s) 0 p_infty (mean a b s).
Proof. intros B. apply (LSM lsm_mean 1 (i1 B)); auto. start. veval. f_equal. rewrite pM1 by lra. field. lra. Qed.
Lemma var_ok : 2 < b -> var_is (fun x => pdf x a b s) 0 p_infty (mean a b s) (var a b s).
Proof.
  intros B. apply (LSM lsm_var 2 (i2 B)); auto; start; [veval; f_equal; rewrite pM1 by lra; field; lra|].
  assert (0 < (b - 2) * (b - 1) ^ 2) by (apply Rmult_lt_0_compat; [|apply pow_lt]; lra). veval. f_equal. rewrite mvar_eq by lra. field. lra.
Qed.
Lemma skew_ok : 3 < b -> skewness_is (fun x => pdf x a b s) 0 p_infty (skewness a b s).
Proof.
  intros B. assert (P1 : 0 < a * (a + b - 1)) by (apply Rmult_lt_0_compat; lra). apply (LSM lsm_skewness 3 (i3 B)); auto; [apply mvar_pos'; lra|].
  assert (P2 : 0 < (b - 2) / (a * (a + b - 1))) by (apply Rdiv_pos; lra). start. veval. f_equal. unfold mcen3. rewrite mvar_eq, pM1, pM2, pM3 by lra.
  rewrite (sqrt_div (b - 2)), (sqrt_div (a * (a + b - 1))), (sqrt_mult (b - 2)), sqrt_pow2 by first [lra|apply Rmult_lt_0_compat; try lra; apply pow_lt; lra|apply pow_le; lra].
  pose proof (sqrt_lt_R0 _ P1) as Q1. pose proof (sqrt_lt_R0 (b - 2) ltac:(lra)) as Q2. pose proof (sqrt_sqrt (a * (a + b - 1)) ltac:(lra)) as E1. pose proof (sqrt_sqrt (b - 2) ltac:(lra)) as E2.
  set (u := sqrt (a * (a + b - 1))) in *. set (w := sqrt (b - 2)) in *.
  apply Rmult_eq_reg_r with (u * w); [|nra].
  transitivity (2 * (2 * a + b - 1) / (b - 3) * (w * w)); [field; lra|]. rewrite E2.
  transitivity ((a * (a + 1) * (a + 2) / ((b - 1) * (b - 2) * (b - 3)) - 3 * (a / (b - 1)) * (a * (a + 1) / ((b - 1) * (b - 2))) + 2 * (a / (b - 1)) ^ 3) / (a * (a + b - 1) / ((b - 2) * (b - 1) ^ 2)) * ((b - 1) * (w * w))); [rewrite E2; field; lra|field; lra].
Qed.
Lemma moment_eq n : INR n < b -> noncentral_moment n a b s = Fin (s ^ n * pM a b n).
Proof.
  intros B. unfold noncentral_moment. rewrite val_pass by auto. cbv zeta. vif. varith. pose proof (pos_INR n). assert (0 < a + INR n) by lra. assert (0 < b - INR n) by lra.
  rewrite !vbet by auto. pose proof (Beta_pos a b HA HB). varith. f_equal. unfold pM, bM. unfold Rdiv. rewrite Rmult_assoc. reflexivity.
Qed.
Lemma moment_ok n : (INR n < b -> moment_is (fun x => pdf x a b s) 0 p_infty n (noncentral_moment n a b s)) /\ (b <= INR n -> noncentral_moment n a b s = NaN).
Proof.
  split; intros B; [|unfold noncentral_moment; rewrite val_pass by auto; cbv zeta; vif; reflexivity].
  apply (scale_moment 0 p_infty F f Q (pST a b HA HB) s (fun x => pdf x a b s) 0 p_infty HS elo eq_refl pdf_in n (pM a b n) _ (p_momentn a b HA HB n B)). apply moment_eq; auto.
Qed.
Lemma kurt_ok : 4 < b -> kurtosis_is (fun x => pdf x a b s) 0 p_infty (kurtosis a b s).
Proof.
  intros B. apply (LSM lsm_kurtosis 4 (i4 B)); auto; [apply mvar_pos'; lra|].
  assert (VE : var a b s = Fin (s ^ 2 * (a * (a + b - 1)) / ((b - 2) * (b - 1) ^ 2))).
  { start. assert (0 < (b - 2) * (b - 1) ^ 2) by (apply Rmult_lt_0_compat; [|apply pow_lt]; lra). veval. reflexivity. }
  assert (ME : mean a b s = Fin (s * a / (b - 1))) by (start; veval; auto).
  unfold kurtosis. rewrite val_pass by auto. vif. rewrite VE, ME, !moment_eq by (simpl; lra). rewrite pM1, pM2, pM3, pM4 by lra.
  assert (0 < s ^ 2 * (a * (a + b - 1)) / ((b - 2) * (b - 1) ^ 2)) by (apply Rdiv_pos; repeat apply Rmult_lt_0_compat; try lra; apply pow_lt; lra).
  assert (0 < (s ^ 2 * (a * (a + b - 1)) / ((b - 2) * (b - 1) ^ 2)) ^ 2) by (apply pow_lt; auto).
  veval. f_equal. unfold mcen4. rewrite mvar_eq, pM1, pM2, pM3, pM4 by lra. field. repeat split; lra.
Qed.
Lemma unscale (g : R -> R) v : integrates_to (fun t => g t * toR (pdf (Fin t) a b s)) 0 p_infty v -> integrates_to (fun z => g (s * z) * f z) 0 p_infty v.
Proof.
  intros H. assert (IS : 0 < / s) by (apply Rinv_0_lt_compat; auto). pose proof (ls_integral 0 (/ s) IS _ _ _ _ H) as K. simpl ls in K.
  replace (0 + / s * 0) with 0 in K by ring. revert K. apply (integrates_ext 0 p_infty lt0i). intros x [X _]. simpl in X.
  assert (E : (x - 0) / / s = s * x) by (field; lra). rewrite E. rewrite (proj1 (pdf_fin (s * x) ltac:(apply Rmult_lt_0_compat; auto))), m0. simpl toR.
  replace (s * x / s) with x by (field; lra). field. lra.
Qed.
Lemma no_mean_ok : b <= 1 -> mean a b s = PInf /\ no_mean (fun x => pdf x a b s) 0 p_infty.
Proof.
  intros B. split; [start; veval; auto|]. intros v H. apply (unscale (fun t => t)) in H. revert H.
  apply (no_moment a b HA HB 1 (fun z => s * z) 1 s); simpl INR; auto; try lra. intros z Z. apply ex_derive_cont. auto_derive; auto. intros z Z. simpl. lra.
Qed.
Lemma no_var_ok : b <= 2 -> var a b s = NaN /\ no_var (fun x => pdf x a b s) 0 p_infty.
Proof.
  intros B. split; [start; veval; auto|]. intros m v H. apply (unscale (fun t => (t - m) ^ 2)) in H. revert H.
  apply (no_moment a b HA HB 2 (fun z => (s * z - m) ^ 2) (Rmax 1 (2 * Rabs m / s)) (s ^ 2 / 4)); simpl INR; auto; try lra.
  - assert (0 < s ^ 2) by (apply pow_lt; auto). lra.
  - apply Rmax_l.
  - intros z Z. apply ex_derive_cont. auto_derive; auto.
  - intros z Z. pose proof (Rmax_l 1 (2 * Rabs m / s)). pose proof (Rmax_r 1 (2 * Rabs m / s)) as M2. assert (M3 : 2 * Rabs m <= s * z).
    { apply Rle_trans with (s * (2 * Rabs m / s)); [right; field; lra|apply Rmult_le_compat_l; lra]. }
    assert (M4 : m <= s * z / 2) by (pose proof (Rle_abs m); lra). assert (0 <= s * z) by nra. replace (s ^ 2 / 4 * z ^ 2) with ((s * z / 2) ^ 2) by field. apply pow_incr. lra.
Qed.
Lemma entropy_ok : entropy_is (fun x => pdf x a b s) 0 p_infty (entropy a b s).
Proof.
  apply (ls_entropy_is 0 p_infty F f Q (pST a b HA HB) 0 s (fun x => pdf x a b s) 0 p_infty HS elo eq_refl pdf_in _ _ (p_entropy a b HA HB)).
  start. assert (E1 : 2 * a / 2 = a) by field. assert (E2 : 2 * b / 2 = b) by field. assert (0 < a / b) by (apply Rdiv_pos; auto). assert (0 < a / b * s) by (apply Rmult_lt_0_compat; auto). assert (0 < 2 * b / (2 * a)) by (apply Rdiv_pos; lra).
  assert (0 < a + b) by lra. varith. rewrite ?E1, ?E2. rewrite lgb, !vdig by auto. veval. f_equal. rewrite ln_mult, !ln_div, !ln_mult by lra. ring.
Qed.
End P.
(** C49 *)
Lemma vx {A} `{CanRaise A} xs (k : A) : (forall x, In x xs -> 0 <= x) -> validate_x_bounds (map Fin xs) (Some (Fin 0)) (Some PInf) false true k = k.
Proof. intros HX. apply vxb_pass. intros x I; pose proof (HX x I); simpl; auto. Qed.
Lemma nll_ok (a b s : R) xs : 0 < a -> 0 < b -> 0 < s -> (forall x, In x xs -> 0 <= x) -> nll (map Fin xs) a b s = vneg (loglik (fun x => logpdf x a b s) xs).
Proof. intros A B S H. unfold nll. rewrite val_pass, vx by auto. unfold loglik. rewrite map_map. reflexivity. Qed.
Lemma nll_bad (a b s : R) xs : 0 < a -> 0 < b -> 0 < s -> (exists x, In x xs /\ x < 0) -> nll (map Fin xs) a b s = Exc ValueError.
Proof. intros A B S H. unfold nll. rewrite val_pass by auto. rewrite vxb_low by auto. reflexivity. Qed.
(** C38 *)
Lemma bad_params fr fuel a b s : isnum a -> isnum b -> isnum s -> nonpositive a \/ nonpositive b \/ nonpositive s ->
  support a b s = Err ValueError /\
  always_ValueError [ fun x => pdf x a b s; fun x => logpdf x a b s; fun x => cdf x a b s; fun x => sf x a b s;
    fun p => invcdf fr fuel p a b s; fun p => invsf fr fuel p a b s; fun _ => mean a b s; fun _ => mode a b s; fun _ => var a b s;
    fun _ => skewness a b s; fun _ => kurtosis a b s; fun _ => entropy a b s; fun _ => noncentral_moment 2 a b s; fun x => nll [x] a b s ].
Proof.
  intros H1 H2 H3 H4. unfold support, pdf, logpdf, cdf, sf, invcdf, invsf, mean, mode, var, skewness, kurtosis, entropy, noncentral_moment, nll.
  split; [|all_ve; intros x Hx]; rewrite ?validate_bad by auto; reflexivity.
Qed.
(** C45 *)
Lemma from_beta a b (t : R) : 0 < a -> 0 < b -> 0 < t < 1 ->
  cdf (Fin (t / (1 - t))) (Fin a) (Fin b) (Fin 1) = M_beta.cdf (Fin t) (Fin a) (Fin b) /\ sf (Fin (t / (1 - t))) (Fin a) (Fin b) (Fin 1) = M_beta.sf (Fin t) (Fin a) (Fin b).
Proof.
  intros A B T. pose proof (psi_pos t T) as P. unfold psi in P. destruct (lowz a b 1 A B ltac:(lra) (t / (1 - t)) (Rlt_le _ _ P)) as [-> ->].
  replace (phi (t / (1 - t) / 1)) with t by (rewrite Rdiv_1; symmetry; apply phi_psi; auto).
  unfold M_beta.cdf, M_beta.sf. rewrite !P_beta.val_pass by auto. vif. rewrite low_eval, up_eval by (auto; lra). auto.
Qed.
Lemma recip a b s (x : R) : 0 < a -> 0 < b -> 0 < s -> 0 < x -> cdf (Fin (/ x)) (Fin b) (Fin a) (Fin (/ s)) = sf (Fin x) (Fin a) (Fin b) (Fin s).
Proof.
  intros A B S X. assert (0 < / x) by (apply Rinv_0_lt_compat; auto). assert (0 < / s) by (apply Rinv_0_lt_compat; auto).
  rewrite (proj1 (lowz b a (/ s) B A ltac:(auto) (/ x) ltac:(lra))), (proj2 (lowz a b s A B S x ltac:(lra))). f_equal. rewrite <- Irefl by (auto; assert (P := phi_in (x / s) (z_pos s S x X)); lra).
  f_equal. unfold phi. field. repeat split; try lra.
Qed.
(** C47 *)
Definition S1 xs s := rsum (map (fun x => ln (x / s)) xs).
Definition S2 xs s := rsum (map (fun x => ln (1 + x / s)) xs).
Definition S3 xs s := rsum (map (fun x => phi (x / s)) xs).
Definition rnll xs a b s := INR (length xs) * ln (Beta a b) + INR (length xs) * ln s - (a - 1) * S1 xs s + (a + b) * S2 xs s.
Lemma nll_fin xs a b s : 0 < a -> 0 < b -> 0 < s -> (forall x, In x xs -> 0 < x) -> nll (map Fin xs) a b s = Fin (rnll xs a b s).
Proof.
  intros A B S H. rewrite nll_ok by (auto; intros x I; left; auto).
  rewrite (loglik_fin _ (fun x => (a - 1) * ln (x / s) - (a + b) * ln (1 + x / s) - (ln (Beta a b) + ln s))).
  - simpl. f_equal. unfold rnll, S1, S2. change sum with rsum. rewrite rsum_minus, rsum_minus, !rsum_scal, rsum_const. ring.
  - intros x I. pose proof (H x I) as X. rewrite (proj2 (pdf_fin a b s A B S x X)), m0. f_equal. pose proof (z_pos s S x X). rewrite ln_div, ln_pf by (auto; apply pf_pos; auto). ring.
Qed.
Lemma opt xs a b s a' b' : 0 < a -> 0 < b -> 0 < a' -> 0 < b' ->
  (a' = a \/ INR (length xs) * (digamma a - digamma (a + b)) = S1 xs s - S2 xs s) -> (b' = b \/ INR (length xs) * (digamma b - digamma (a + b)) = - S2 xs s) -> rnll xs a b s <= rnll xs a' b' s.
Proof.
  intros A B A' B' E1 E2. pose proof (P_beta.lnB_tangent a b a' b' A B A' B') as T. pose proof (pos_INR (length xs)) as NP. apply (Rmult_le_compat_l _ _ _ NP) in T. unfold rnll.
  destruct E1 as [->|E1], E2 as [->|E2]; nra.
Qed.
Lemma wamgm t r : 0 < t < 1 -> 0 < r -> t * ln r <= ln (1 - t + t * r).
Proof.
  intros T R. set (w := 1 - t + t * r). assert (W : 0 < w) by (unfold w; assert (0 < t * r) by (apply Rmult_lt_0_compat; lra); lra).
  pose proof (ln_ineq (r / w) ltac:(apply Rdiv_pos; auto)) as I1. pose proof (ln_ineq (1 / w) ltac:(apply Rdiv_pos; lra)) as I2. rewrite ln_div in I1, I2 by lra. rewrite ln_1 in I2.
  apply (Rmult_le_compat_l t) in I1; [|lra]. apply (Rmult_le_compat_l (1 - t)) in I2; [|lra].
  assert (t * (r / w - 1) + (1 - t) * (1 / w - 1) = 0) by (unfold w; field; fold w; lra). lra.
Qed.
Lemma opt_s xs a b s s' : 0 < a -> 0 < b -> 0 < s -> 0 < s' -> (forall x, In x xs -> 0 < x) -> INR (length xs) * a = (a + b) * S3 xs s -> rnll xs a b s <= rnll xs a b s'.
Proof.
  intros A B S S' H E.
  assert (E1 : S1 xs s' = S1 xs s + INR (length xs) * (ln s - ln s')).
  { unfold S1. replace (INR (length xs) * (ln s - ln s')) with (rsum (map (fun _ : R => ln s - ln s') xs)) by (rewrite rsum_const; ring). rewrite <- rsum_plus. apply f_equal, map_ext_in. intros x I. pose proof (H x I). rewrite !ln_div by auto. ring. }
  assert (E2 : S2 xs s + (ln s - ln s') * S3 xs s <= S2 xs s').
  { unfold S2, S3. rewrite <- rsum_scal, <- rsum_plus. apply rsum_le. intros x I. pose proof (H x I) as X. pose proof (z_pos s S x X) as Z. pose proof (z_pos s' S' x X) as Z'. pose proof (phi_in _ Z) as T.
    pose proof (wamgm (phi (x / s)) (s / s') T ltac:(apply Rdiv_pos; auto)) as W. rewrite ln_div in W by auto.
    replace (1 - phi (x / s) + phi (x / s) * (s / s')) with ((1 + x / s') / (1 + x / s)) in W by (unfold phi; field; repeat split; lra). rewrite ln_div in W by lra. lra. }
  unfold rnll. rewrite E1. assert (0 < a + b) by lra. apply (Rmult_le_compat_l (a + b)) in E2; [|lra]. 
  replace ((a + b) * (S2 xs s + (ln s - ln s') * S3 xs s)) with ((a + b) * S2 xs s + (ln s - ln s') * ((a + b) * S3 xs s)) in E2 by ring. rewrite <- E in E2. lra.
Qed.
Lemma mean_of' (h : R -> val) (g : R -> R) l : l <> [] -> (forall a, In a l -> h a = Fin (g a)) -> M_basic.mean (map h l) None = Fin (average (map g l)).
Proof. intros N H. rewrite (mean_of h g) by auto. unfold average. rewrite map_length. reflexivity. Qed.
Lemma mlx_fin xs : xs <> [] -> (forall x, In x xs -> 0 < x) -> meanlogx (map Fin xs) = Fin (average (map ln xs)).
Proof. intros N H. unfold meanlogx. rewrite map_map. apply mean_of'; auto. intros x I. apply vlog_Fin; auto. Qed.
Lemma ml1_fin xs s : xs <> [] -> (forall x, In x xs -> 0 < x) -> 0 < s -> meanlog1px (map Fin xs) (Fin s) = Fin (average (map (fun x => ln (1 + x / s)) xs)).
Proof. intros N H S. unfold meanlog1px. rewrite map_map. apply mean_of'; auto. intros x I. pose proof (z_pos s S x (H x I)). rewrite vdiv_Fin by lra. unfold vlog1p. simpl vadd. apply vlog_Fin. lra. Qed.
Lemma mx_fin xs s : xs <> [] -> (forall x, In x xs -> 0 < x) -> 0 < s -> meanxover1px (map Fin xs) (Fin s) = Fin (average (map (fun x => phi (x / s)) xs)).
Proof. intros N H S. unfold meanxover1px. rewrite map_map. apply mean_of'; auto. intros x I. pose proof (z_pos s S x (H x I)). rewrite vdiv_Fin by lra. simpl vadd. rewrite vdiv_Fin by lra. reflexivity. Qed.
Lemma avg_map (g : R -> R) xs : xs <> [] -> INR (length xs) * average (map g xs) = rsum (map g xs).
Proof. intros N. unfold average. change sum with rsum. rewrite map_length. pose proof (length_pos _ N). field. lra. Qed.
Lemma S1_eq xs s : xs <> [] -> 0 < s -> (forall x, In x xs -> 0 < x) -> S1 xs s = INR (length xs) * (average (map ln xs) - ln s).
Proof.
  intros N S H. rewrite Rmult_minus_distr_l, avg_map by auto. unfold S1. replace (INR (length xs) * ln s) with (rsum (map (fun _ : R => ln s) xs)) by (rewrite rsum_const; ring).
  rewrite <- rsum_minus. apply f_equal, map_ext_in. intros x I. apply ln_div; auto.
Qed.
Lemma Sa xs a b s : xs <> [] -> (forall x, In x xs -> 0 < x) -> 0 < s ->
  digamma a - digamma (a + b) - average (map ln xs) + average (map (fun x => ln (1 + x / s)) xs) + ln s = 0 -> INR (length xs) * (digamma a - digamma (a + b)) = S1 xs s - S2 xs s.
Proof. intros N H S E. rewrite S1_eq by auto. unfold S2. rewrite <- avg_map by auto. rewrite <- Rmult_minus_distr_l. f_equal. lra. Qed.
Lemma Sb xs a b s : xs <> [] -> digamma b - digamma (a + b) + average (map (fun x => ln (1 + x / s)) xs) = 0 -> INR (length xs) * (digamma b - digamma (a + b)) = - S2 xs s.
Proof. intros N E. unfold S2. rewrite <- avg_map by auto. rewrite Ropp_mult_distr_r. f_equal. lra. Qed.
Lemma Ss xs a b s : xs <> [] -> a - (a + b) * average (map (fun x => phi (x / s)) xs) = 0 -> INR (length xs) * a = (a + b) * S3 xs s.
Proof. intros N E. unfold S3. rewrite <- avg_map by auto. replace a with ((a + b) * average (map (fun x => phi (x / s)) xs)) at 1 by lra. ring. Qed.
Lemma ok3 (v : val) (f g h : val -> val) a b s : bindv v (fun t => Ok (f t, g t, h t)) = Ok (a, b, s) -> exists t, v = t /\ (forall e, t <> Exc e) /\ f t = a /\ g t = b /\ h t = s.
Proof. destruct v; cbn [bindv]; intros E; try discriminate; injection E as E1 E2 E3; eexists; (split; [reflexivity|]); split; auto; discriminate. Qed.
Ltac fin_min := split; auto; eexists; split; [apply nll_fin; auto|].
Lemma min_a xs a b s : 0 < a -> 0 < b -> 0 < s -> (forall x, In x xs -> 0 < x) -> INR (length xs) * (digamma a - digamma (a + b)) = S1 xs s - S2 xs s -> minimises (fun a => 0 < a) (fun a => nll (map Fin xs) (Fin a) (Fin b) (Fin s)) a.
Proof. intros. fin_min. intros a' A'. eexists. split; [apply nll_fin; auto|]. apply opt; auto. Qed.
Lemma min_b xs a b s : 0 < a -> 0 < b -> 0 < s -> (forall x, In x xs -> 0 < x) -> INR (length xs) * (digamma b - digamma (a + b)) = - S2 xs s -> minimises (fun b => 0 < b) (fun b => nll (map Fin xs) (Fin a) (Fin b) (Fin s)) b.
Proof. intros. fin_min. intros b' B'. eexists. split; [apply nll_fin; auto|]. apply opt; auto. Qed.
Lemma min_ab xs a b s : 0 < a -> 0 < b -> 0 < s -> (forall x, In x xs -> 0 < x) -> INR (length xs) * (digamma a - digamma (a + b)) = S1 xs s - S2 xs s -> INR (length xs) * (digamma b - digamma (a + b)) = - S2 xs s -> minimises (fun '(a, b) => 0 < a /\ 0 < b) (fun '(a, b) => nll (map Fin xs) (Fin a) (Fin b) (Fin s)) (a, b).
Proof. intros. split; auto. eexists. split; [apply nll_fin; auto|]. intros [a' b'] [A' B']. eexists. split; [apply nll_fin; auto|]. apply opt; auto. Qed.
Lemma min_s xs a b s : 0 < a -> 0 < b -> 0 < s -> (forall x, In x xs -> 0 < x) -> INR (length xs) * a = (a + b) * S3 xs s -> minimises (fun s => 0 < s) (fun s => nll (map Fin xs) (Fin a) (Fin b) (Fin s)) s.
Proof. intros. fin_min. intros s' S'. eexists. split; [apply nll_fin; auto|]. apply opt_s; auto. Qed.
Lemma avg_phi xs s : xs <> [] -> (forall x, In x xs -> 0 < x) -> 0 < s -> 0 < average (map (fun x => phi (x / s)) xs) < 1.
Proof.
  intros N H S. pose proof (length_pos _ N) as LN. split.
  - apply P_beta.avg_pos; [destruct xs; [contradiction|discriminate]|]. intros y I. apply in_map_iff in I. destruct I as [x [<- I]]. apply phi_in. apply z_pos; auto.
  - apply Rmult_lt_reg_l with (INR (length xs)); auto. rewrite avg_map, Rmult_1_r by auto. assert (P : 0 < rsum (map (fun x => 1 - phi (x / s)) xs)).
    { destruct xs as [|x xs]; [contradiction|]. cbn [map]. rewrite rsum_cons. pose proof (phi_in (x / s) (z_pos s S x (H x (or_introl eq_refl)))).
      assert (0 <= rsum (map (fun x => 1 - phi (x / s)) xs)); [|lra]. replace 0 with (rsum (map (fun _ : R => 0) xs)) by (rewrite rsum_const; ring). apply rsum_le. intros y I. pose proof (phi_in (y / s) (z_pos s S y (H y (or_intror I)))). lra. }
    rewrite rsum_minus, rsum_const in P. lra.
Qed.
Lemma c47_a (fr1 : (val -> val) -> val -> val) (fr2 : (val -> val -> val * val) -> val * val -> res (val * val)) (fr3 : (val -> val -> val -> val * val * val) -> val * val * val -> res (val * val * val)) (a0 b0 s0 : option val) xs a b s : xs <> [] -> (forall x, In x xs -> 0 < x) -> checked_solver1 fr1 -> 0 < a -> 0 < b -> 0 < s ->
  mle fr1 fr2 fr3 a0 b0 s0 (map Fin xs) None (Some (Fin b)) (Some (Fin s)) = Ok (Fin a, Fin b, Fin s) ->
  minimises (fun a => 0 < a) (fun a => nll (map Fin xs) (Fin a) (Fin b) (Fin s)) a.
Proof.
  intros NE HX CS A B S. pose proof (fun x I => Rlt_le _ _ (HX x I)) as HX0. unfold mle. rewrite vx by auto.
  rewrite val_pass by (auto; lra). rewrite ml1_fin, mlx_fin, vlog_Fin by auto. cbn [bindv]. intros E. apply (ok3 _ (fun t => t) (fun _ => Fin b) (fun _ => Fin s)) in E. destruct E as (t & E & _ & -> & _).
  apply CS in E. unfold a_eqn in E. change (vadd (Fin a) (Fin b)) with (Fin (a + b)) in E. rewrite (vdig a A), (vdig (a + b)) in E by lra. simpl in E. injection E as E. apply min_a; auto. apply (Sa xs a b s); auto; rewrite <- E; ring.
Qed.
Lemma c47_b (fr1 : (val -> val) -> val -> val) (fr2 : (val -> val -> val * val) -> val * val -> res (val * val)) (fr3 : (val -> val -> val -> val * val * val) -> val * val * val -> res (val * val * val)) (a0 b0 s0 : option val) xs a b s : xs <> [] -> (forall x, In x xs -> 0 < x) -> checked_solver1 fr1 -> 0 < a -> 0 < b -> 0 < s ->
  mle fr1 fr2 fr3 a0 b0 s0 (map Fin xs) (Some (Fin a)) None (Some (Fin s)) = Ok (Fin a, Fin b, Fin s) ->
  minimises (fun b => 0 < b) (fun b => nll (map Fin xs) (Fin a) (Fin b) (Fin s)) b.
Proof.
  intros NE HX CS A B S. pose proof (fun x I => Rlt_le _ _ (HX x I)) as HX0. unfold mle. rewrite vx by auto.
  rewrite val_pass by (auto; lra). rewrite ml1_fin by auto. cbn [bindv]. intros E. apply (ok3 _ (fun _ => Fin a) (fun t => t) (fun _ => Fin s)) in E. destruct E as (t & E & _ & _ & -> & _).
  apply CS in E. unfold b_eqn in E. change (vadd (Fin a) (Fin b)) with (Fin (a + b)) in E. rewrite (vdig b B), (vdig (a + b)) in E by lra. simpl in E. injection E as E. apply min_b; auto. apply (Sb xs a b s); auto.
Qed.
Lemma c47_ab (fr1 : (val -> val) -> val -> val) (fr2 : (val -> val -> val * val) -> val * val -> res (val * val)) (fr3 : (val -> val -> val -> val * val * val) -> val * val * val -> res (val * val * val)) (a0 b0 s0 : option val) xs a b s : xs <> [] -> (forall x, In x xs -> 0 < x) -> checked_solver2 fr2 -> 0 < a -> 0 < b -> 0 < s ->
  mle fr1 fr2 fr3 a0 b0 s0 (map Fin xs) None None (Some (Fin s)) = Ok (Fin a, Fin b, Fin s) ->
  minimises (fun '(a, b) => 0 < a /\ 0 < b) (fun '(a, b) => nll (map Fin xs) (Fin a) (Fin b) (Fin s)) (a, b).
Proof.
  intros NE HX CS A B S. pose proof (fun x I => Rlt_le _ _ (HX x I)) as HX0. unfold mle. rewrite vx by auto.
  rewrite val_pass by (auto; lra). rewrite ml1_fin, mlx_fin, vlog_Fin by auto. cbn [bindv]. intros E. destruct (fr2 _ _) as [[t u]|] eqn:E2; [|discriminate]. cbn [bind fst snd] in E. injection E as -> ->.
  apply CS in E2. unfold eqns_a_b in E2. change (vadd (Fin a) (Fin b)) with (Fin (a + b)) in E2. rewrite (vdig a A), (vdig b B), (vdig (a + b)) in E2 by lra. simpl in E2. injection E2 as E1 E2.
  apply min_ab; auto; [apply (Sa xs a b s)|apply (Sb xs a b s)]; auto; rewrite <- E1; ring.
Qed.
Lemma c47_s (fr1 : (val -> val) -> val -> val) (fr2 : (val -> val -> val * val) -> val * val -> res (val * val)) (fr3 : (val -> val -> val -> val * val * val) -> val * val * val -> res (val * val * val)) (a0 b0 s0 : option val) xs a b s : xs <> [] -> (forall x, In x xs -> 0 < x) -> checked_solver1 fr1 -> 0 < a -> 0 < b -> 0 < s ->
  mle fr1 fr2 fr3 a0 b0 s0 (map Fin xs) (Some (Fin a)) (Some (Fin b)) None = Ok (Fin a, Fin b, Fin s) ->
  minimises (fun s => 0 < s) (fun s => nll (map Fin xs) (Fin a) (Fin b) (Fin s)) s.
Proof.
  intros NE HX CS A B S. pose proof (fun x I => Rlt_le _ _ (HX x I)) as HX0. unfold mle. rewrite vx by auto.
  rewrite val_pass by (auto; lra). intros E. apply (ok3 _ (fun _ => Fin a) (fun _ => Fin b) (fun t => t)) in E. destruct E as (t & E & _ & _ & _ & ->).
  apply CS in E. unfold scale_eqn in E. rewrite mx_fin in E by auto. simpl in E. injection E as E. apply min_s; auto. apply Ss; auto.
Qed.
Lemma c47_bs (fr1 : (val -> val) -> val -> val) (fr2 : (val -> val -> val * val) -> val * val -> res (val * val)) (fr3 : (val -> val -> val -> val * val * val) -> val * val * val -> res (val * val * val)) (a0 b0 s0 : option val) xs a b s : xs <> [] -> (forall x, In x xs -> 0 < x) -> checked_solver1 fr1 -> 0 < a -> 0 < b -> 0 < s ->
  mle fr1 fr2 fr3 a0 b0 s0 (map Fin xs) (Some (Fin a)) None None = Ok (Fin a, Fin b, Fin s) ->
  minimises (fun b => 0 < b) (fun b => nll (map Fin xs) (Fin a) (Fin b) (Fin s)) b /\
  minimises (fun s => 0 < s) (fun s => nll (map Fin xs) (Fin a) (Fin b) (Fin s)) s.
Proof.
  intros NE HX CS A B S. pose proof (fun x I => Rlt_le _ _ (HX x I)) as HX0. unfold mle. rewrite vx by auto.
  rewrite val_pass by (auto; lra). intros E. destruct (fr1 _ _) as [t| | | |] eqn:E1; cbn [bindv] in E; try discriminate; [|destruct (vmul (Fin a) _); cbn [bindv] in E; discriminate..].
  destruct (vmul (Fin a) _) eqn:EB; cbn [bindv] in E; try discriminate. injection E as -> ->. apply CS in E1. unfold scale_eqn_b in E1. pose proof (avg_phi xs s NE HX S) as MX.
  rewrite mx_fin in EB, E1 by auto. rewrite ml1_fin in E1 by auto. set (mx := average (map (fun x => phi (x / s)) xs)) in *. cbv zeta in E1. rewrite !vdiv_Fin in E1 by lra. rewrite vdiv_Fin in EB by lra. change (vmul (Fin a) (vsub (Fin (1 / mx)) (Fin 1))) with (Fin (a * (1 / mx - 1))) in EB. injection EB as EB.
  change (vmul (Fin a) (vsub (Fin (1 / mx)) (Fin 1))) with (Fin (a * (1 / mx - 1))) in E1. rewrite EB in E1. assert (AB : a / mx = a + b) by (rewrite <- EB; field; lra). rewrite AB in E1.
  rewrite (vdig b B), (vdig (a + b)) in E1 by lra. simpl in E1. injection E1 as E1. split; [apply min_b; auto; apply (Sb xs a b s); auto|]. apply min_s; auto. apply Ss; auto. fold mx. rewrite <- AB. field. lra.
Qed.
Lemma c47_as (fr1 : (val -> val) -> val -> val) (fr2 : (val -> val -> val * val) -> val * val -> res (val * val)) (fr3 : (val -> val -> val -> val * val * val) -> val * val * val -> res (val * val * val)) (a0 b0 s0 : option val) xs a b s : xs <> [] -> (forall x, In x xs -> 0 < x) -> checked_solver1 fr1 -> 0 < a -> 0 < b -> 0 < s ->
  mle fr1 fr2 fr3 a0 b0 s0 (map Fin xs) None (Some (Fin b)) None = Ok (Fin a, Fin b, Fin s) ->
  minimises (fun a => 0 < a) (fun a => nll (map Fin xs) (Fin a) (Fin b) (Fin s)) a /\
  minimises (fun s => 0 < s) (fun s => nll (map Fin xs) (Fin a) (Fin b) (Fin s)) s.
Proof.
  intros NE HX CS A B S. pose proof (fun x I => Rlt_le _ _ (HX x I)) as HX0. unfold mle. rewrite vx by auto.
  rewrite val_pass by (auto; lra). intros E. destruct (fr1 _ _) as [t| | | |] eqn:E1; cbn [bindv] in E; try discriminate; cbv zeta in E; [|destruct (vmul (Fin b) _); cbn [bindv] in E; discriminate..].
  destruct (vmul (Fin b) _) eqn:EB; cbn [bindv] in E; try discriminate. injection E as -> ->. apply CS in E1. unfold scale_eqn_a in E1. pose proof (avg_phi xs s NE HX S) as MX.
  rewrite mx_fin in EB, E1 by auto. rewrite ml1_fin, mlx_fin, vlog_Fin in E1 by auto. set (mx := average (map (fun x => phi (x / s)) xs)) in *. cbv zeta in E1. change (vsub (Fin 1) (Fin mx)) with (Fin (1 - mx)) in *. rewrite !vdiv_Fin in E1 by lra. rewrite vdiv_Fin in EB by lra. simpl in EB. injection EB as EB.
  change (vmul (Fin b) (Fin (mx / (1 - mx)))) with (Fin (b * (mx / (1 - mx)))) in E1. rewrite EB in E1. assert (AB : b / (1 - mx) = a + b) by (rewrite <- EB; field; lra). rewrite AB in E1.
  rewrite (vdig a A), (vdig (a + b)) in E1 by lra. simpl in E1. injection E1 as E1. split; [apply min_a; auto; apply (Sa xs a b s); auto; rewrite <- E1; ring|]. apply min_s; auto. apply Ss; auto. fold mx. rewrite <- AB. rewrite <- EB. field. lra.
Qed.
Lemma c47_abs (fr1 : (val -> val) -> val -> val) (fr2 : (val -> val -> val * val) -> val * val -> res (val * val)) (fr3 : (val -> val -> val -> val * val * val) -> val * val * val -> res (val * val * val)) (a0 b0 s0 : option val) xs a b s : xs <> [] -> (forall x, In x xs -> 0 < x) -> checked_solver3 fr3 -> 0 < a -> 0 < b -> 0 < s ->
  mle fr1 fr2 fr3 a0 b0 s0 (map Fin xs) None None None = Ok (Fin a, Fin b, Fin s) ->
  minimises (fun '(a, b) => 0 < a /\ 0 < b) (fun '(a, b) => nll (map Fin xs) (Fin a) (Fin b) (Fin s)) (a, b) /\
  minimises (fun s => 0 < s) (fun s => nll (map Fin xs) (Fin a) (Fin b) (Fin s)) s.
Proof.
  intros NE HX CS A B S. pose proof (fun x I => Rlt_le _ _ (HX x I)) as HX0. unfold mle. rewrite vx by auto.
  rewrite mlx_fin by auto. cbn [bindv]. intros E. apply CS in E. unfold eqns_a_b_scale in E. rewrite mx_fin, ml1_fin, vlog_Fin in E by auto. change (vadd (Fin a) (Fin b)) with (Fin (a + b)) in E. rewrite (vdig a A), (vdig b B), (vdig (a + b)) in E by lra. simpl in E. injection E as E1 E2 E3.
  split; [apply min_ab; auto; [apply (Sa xs a b s)|apply (Sb xs a b s)]; auto; rewrite <- E1; ring|]. apply min_s; auto. apply Ss; auto.
Qed.
Lemma c47_given (fr1 : (val -> val) -> val -> val) (fr2 : (val -> val -> val * val) -> val * val -> res (val * val)) (fr3 : (val -> val -> val -> val * val * val) -> val * val * val -> res (val * val * val)) (a0 b0 s0 : option val) xs a b s : xs <> [] -> (forall x, In x xs -> 0 < x) -> 0 < a -> 0 < b -> 0 < s ->
  mle fr1 fr2 fr3 a0 b0 s0 (map Fin xs) (Some (Fin a)) (Some (Fin b)) (Some (Fin s)) = Ok (Fin a, Fin b, Fin s).
Proof. intros NE HX A B S. pose proof (fun x I => Rlt_le _ _ (HX x I)) as HX0. unfold mle. rewrite vx by auto. rewrite val_pass by auto. reflexivity. Qed.
(** Data for which a = b = scale = 1 solves every one of the likelihood equations. *)
Lemma data_ex : exists xs, xs <> [] /\ (forall x, In x xs -> 0 < x) /\ average (map ln xs) = 0 /\ average (map (fun x => ln (1 + x / 1)) xs) = 1 /\ average (map (fun x => phi (x / 1)) xs) = 1 / 2.
Proof.
  assert (EX : exists t, 0 < t < 1 /\ t * (1 - t) = exp (-2)).
  { assert (E4 : exp (-2) < / 4). { assert (2 < exp 1) by (pose proof (exp_ineq1 1); lra). replace (-2) with (- (2)) by ring. rewrite exp_Ropp. replace 2 with (1 + 1) by ring. rewrite exp_plus. apply Rinv_lt_contravar; nra. }
    pose proof (exp_pos (-2)) as E0. set (d := 1 - 4 * exp (-2)). assert (DP : 0 < d < 1) by (unfold d; lra). pose proof (sqrt_lt_R0 d (proj1 DP)) as S0. assert (S1 : sqrt d < 1) by (rewrite <- sqrt_1; apply sqrt_lt_1; lra).
    exists ((1 - sqrt d) / 2). split; [lra|]. pose proof (sqrt_sqrt d ltac:(lra)) as SS. unfold d in SS at 3. nra. }
  destruct EX as [t [T TE]]. assert (L : ln t + ln (1 - t) = -2) by (rewrite <- ln_mult by lra; rewrite TE; apply ln_exp).
  assert (P1 : 0 < psi t) by (apply psi_pos; auto). assert (P2 : 0 < psi (1 - t)) by (apply psi_pos; lra).
  assert (L1 : ln (1 + psi t) = - ln (1 - t)). { rewrite <- ln_Rinv by lra. f_equal. unfold psi. field. lra. }
  assert (L2 : ln (1 + psi (1 - t)) = - ln t). { rewrite <- ln_Rinv by lra. f_equal. unfold psi. field. lra. }
  exists [psi t; psi (1 - t)]. split; [discriminate|]. split; [intros x [<-|[<-|[]]]; auto|]. unfold average. cbn [map sum fold_right length]. simpl INR. rewrite !Rdiv_1, L1, L2. rewrite !phi_psi by lra.
  assert (L3 : ln (psi t) = ln t - ln (1 - t)) by (unfold psi; rewrite ln_div by lra; auto).
  assert (L4 : ln (psi (1 - t)) = ln (1 - t) - ln t) by (unfold psi; rewrite ln_div by lra; f_equal; f_equal; ring). rewrite L3, L4.
  repeat split; lra.
Qed.
Definition try3 : (val -> val -> val -> val * val * val) -> val * val * val -> res (val * val * val) :=
  fun g _ => match g (Fin 1) (Fin 1) (Fin 1) with (Fin x, Fin y, Fin z) => if Reqb x 0 then if Reqb y 0 then if Reqb z 0 then Ok (Fin 1, Fin 1, Fin 1) else Err ValueError else Err ValueError else Err ValueError | _ => Err ValueError end.
Lemma try3_ok : checked_solver3 try3.
Proof.
  intros g x0 q r t. unfold try3. destruct (g (Fin 1) (Fin 1) (Fin 1)) as [[[x| | | |] [y| | | |]] [z| | | |]] eqn:E; try discriminate.
  destruct (Reqb x 0) eqn:X; [|discriminate]. destruct (Reqb y 0) eqn:Y; [|discriminate]. destruct (Reqb z 0) eqn:Z; [|discriminate].
  intros H. injection H as <- <- <-. rewrite E. apply P_beta.reqb_eq in X, Y, Z. rewrite X, Y, Z. auto.
Qed.
Notation t1 := (P_beta.try1 1). Notation t2 := (P_beta.try2 1 1).
Lemma cases : exists xs, xs <> [] /\ (forall x, In x xs -> 0 < x) /\
  (forall a b s : option val, (a = None \/ a = Some (Fin 1)) -> (b = None \/ b = Some (Fin 1)) -> (s = None \/ s = Some (Fin 1)) -> mle t1 t2 try3 None None None (map Fin xs) a b s = Ok (Fin 1, Fin 1, Fin 1)).
Proof.
  destruct data_ex as (xs & NE & HX & M1 & M2 & M3). exists xs. split; auto. split; auto. intros a b s A B S.
  pose proof (fun x I => Rlt_le _ _ (HX x I)) as HX0. assert (O : 0 < 1) by lra. assert (O2 : 0 < 1 + 1) by lra.
  pose proof (ml1_fin xs 1 NE HX O) as E1. pose proof (mlx_fin xs NE HX) as E2. pose proof (mx_fin xs 1 NE HX O) as E3. rewrite M2 in E1. rewrite M1 in E2. rewrite M3 in E3.
  assert (D : digamma 1 - digamma (1 + 1) = -1) by (rewrite digamma_succ by lra; rewrite Rinv_1; ring). assert (LG : vlog (Fin 1) = Fin 0) by (rewrite vlog_Fin by lra; rewrite ln_1; auto).
  assert (V1 : vdigamma (Fin 1) = Fin (digamma 1)) by (apply vdig; lra). assert (V2 : vdigamma (Fin (1 + 1)) = Fin (digamma (1 + 1))) by (apply vdig; lra).
  assert (DV : vdiv (Fin 1) (Fin (1 / 2)) = Fin (1 + 1)) by (rewrite vdiv_Fin by lra; f_equal; field). assert (MM : vsub (Fin 1) (Fin (1 / 2)) = Fin (1 / 2)) by (simpl; f_equal; field).
  assert (BV : vmul (Fin 1) (vsub (Fin (1 + 1)) (Fin 1)) = Fin 1) by (simpl; f_equal; ring).
  assert (AV : vmul (Fin 1) (vdiv (Fin (1 / 2)) (Fin (1 / 2))) = Fin 1) by (rewrite vdiv_Fin by lra; simpl; f_equal; field).
  assert (P11 : vadd (Fin 1) (Fin 1) = Fin (1 + 1)) by reflexivity.
  assert (Q1 : scale_eqn_a (map Fin xs) (Fin 1) (Fin 1) = Fin 0) by (unfold scale_eqn_a; cbv zeta; rewrite E3, MM, AV, DV, V1, V2, E1, E2, LG; simpl; f_equal; lra).
  assert (Q2 : scale_eqn_b (map Fin xs) (Fin 1) (Fin 1) = Fin 0) by (unfold scale_eqn_b; cbv zeta; rewrite E3, DV, BV, V1, V2, E1; simpl; f_equal; lra).
  assert (Q3 : scale_eqn (map Fin xs) (Fin 1) (Fin 1) (Fin 1) = Fin 0) by (unfold scale_eqn; rewrite E3; simpl; f_equal; lra).
  assert (Q4 : a_eqn (Fin 1) (Fin 0) (Fin 0) (Fin 1) (Fin 1) = Fin 0) by (unfold a_eqn; rewrite P11, V1, V2; simpl; f_equal; lra).
  assert (Q5 : b_eqn (Fin 1) (Fin 1) (Fin 1) = Fin 0) by (unfold b_eqn; rewrite P11, V1, V2; simpl; f_equal; lra).
  assert (Q6 : eqns_a_b (Fin 1) (Fin 0) (Fin 0) (Fin 1) (Fin 1) = (Fin 0, Fin 0)) by (unfold eqns_a_b; cbv zeta; rewrite P11, V1, V2; simpl; f_equal; f_equal; lra).
  assert (Q7 : eqns_a_b_scale (map Fin xs) (Fin 0) (Fin 1) (Fin 1) (Fin 1) = (Fin 0, Fin 0, Fin 0)) by (unfold eqns_a_b_scale; cbv zeta; rewrite E1, E3, LG, P11, V1, V2; simpl; f_equal; [f_equal|]; f_equal; lra).
  unfold mle. rewrite vx by auto.
  destruct A as [->| ->], B as [->| ->], S as [->| ->]; rewrite ?(val_pass 1 1 1) by auto; rewrite ?E1, ?E2, ?LG; cbn [bindv];
  unfold P_beta.try1, P_beta.try2, try3; rewrite ?Q1, ?Q2, ?Q3, ?Q4, ?Q5, ?Q6, ?Q7, ?(Reqb_true 0 0) by auto; cbn [bindv bind fst snd]; cbv zeta; rewrite ?E3, ?DV, ?MM, ?BV, ?AV; reflexivity.
Qed.
Lemma case_a : exists fr1 fr2 fr3 xs, checked_solver1 fr1 /\ checked_solver2 fr2 /\ checked_solver3 fr3 /\ xs <> [] /\ (forall x, In x xs -> 0 < x) /\
  mle fr1 fr2 fr3 None None None (map Fin xs) None (Some (Fin 1)) (Some (Fin 1)) = Ok (Fin 1, Fin 1, Fin 1).
Proof. destruct cases as (xs & NE & HX & H). exists t1, t2, try3, xs. repeat split; auto using P_beta.try1_ok, P_beta.try2_ok, try3_ok. Qed.
Lemma case_b : exists fr1 fr2 fr3 xs, checked_solver1 fr1 /\ checked_solver2 fr2 /\ checked_solver3 fr3 /\ xs <> [] /\ (forall x, In x xs -> 0 < x) /\
  mle fr1 fr2 fr3 None None None (map Fin xs) (Some (Fin 1)) None (Some (Fin 1)) = Ok (Fin 1, Fin 1, Fin 1).
Proof. destruct cases as (xs & NE & HX & H). exists t1, t2, try3, xs. repeat split; auto using P_beta.try1_ok, P_beta.try2_ok, try3_ok. Qed.
Lemma case_ab : exists fr1 fr2 fr3 xs, checked_solver1 fr1 /\ checked_solver2 fr2 /\ checked_solver3 fr3 /\ xs <> [] /\ (forall x, In x xs -> 0 < x) /\
  mle fr1 fr2 fr3 None None None (map Fin xs) None None (Some (Fin 1)) = Ok (Fin 1, Fin 1, Fin 1).
Proof. destruct cases as (xs & NE & HX & H). exists t1, t2, try3, xs. repeat split; auto using P_beta.try1_ok, P_beta.try2_ok, try3_ok. Qed.
Lemma case_s : exists fr1 fr2 fr3 xs, checked_solver1 fr1 /\ checked_solver2 fr2 /\ checked_solver3 fr3 /\ xs <> [] /\ (forall x, In x xs -> 0 < x) /\
  mle fr1 fr2 fr3 None None None (map Fin xs) (Some (Fin 1)) (Some (Fin 1)) None = Ok (Fin 1, Fin 1, Fin 1).
Proof. destruct cases as (xs & NE & HX & H). exists t1, t2, try3, xs. repeat split; auto using P_beta.try1_ok, P_beta.try2_ok, try3_ok. Qed.
Lemma case_bs : exists fr1 fr2 fr3 xs, checked_solver1 fr1 /\ checked_solver2 fr2 /\ checked_solver3 fr3 /\ xs <> [] /\ (forall x, In x xs -> 0 < x) /\
  mle fr1 fr2 fr3 None None None (map Fin xs) (Some (Fin 1)) None None = Ok (Fin 1, Fin 1, Fin 1).
Proof. destruct cases as (xs & NE & HX & H). exists t1, t2, try3, xs. repeat split; auto using P_beta.try1_ok, P_beta.try2_ok, try3_ok. Qed.
Lemma case_as : exists fr1 fr2 fr3 xs, checked_solver1 fr1 /\ checked_solver2 fr2 /\ checked_solver3 fr3 /\ xs <> [] /\ (forall x, In x xs -> 0 < x) /\
  mle fr1 fr2 fr3 None None None (map Fin xs) None (Some (Fin 1)) None = Ok (Fin 1, Fin 1, Fin 1).
Proof. destruct cases as (xs & NE & HX & H). exists t1, t2, try3, xs. repeat split; auto using P_beta.try1_ok, P_beta.try2_ok, try3_ok. Qed.
Lemma case_abs : exists fr1 fr2 fr3 xs, checked_solver1 fr1 /\ checked_solver2 fr2 /\ checked_solver3 fr3 /\ xs <> [] /\ (forall x, In x xs -> 0 < x) /\
  mle fr1 fr2 fr3 None None None (map Fin xs) None None None = Ok (Fin 1, Fin 1, Fin 1).
Proof. destruct cases as (xs & NE & HX & H). exists t1, t2, try3, xs. repeat split; auto using P_beta.try1_ok, P_beta.try2_ok, try3_ok. Qed.
