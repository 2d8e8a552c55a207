(** Proofs about M_ncx2. *)
From Coq Require Import Reals Lra Lia List.
From Coquelicot Require Import Coquelicot.
From Verif Require Import Values VTac Spec RLib LimLib LLib DistLib DistLS IntLib SubLib MomLib LSMom LSMom2 PLib M_common SpecStat SpecEst
  SFun SFun4 GammaLib GammaLib2 GammaLib3 GamLib GamMix KumLib M_sfun P_sfun M_marcumq P_marcumq.
From Verif Require M_chi2.
From Verif Require Import M_ncx2.
Import ListNotations.
Local Open Scope R_scope.
Set Bullet Behavior "Strict Subproofs".

Section P.
Variables k lam : R.
Hypothesis HK : 0 < k.
Hypothesis HL : 0 < lam.
Notation c := (k / 2). Notation mu := (lam / 2).
Lemma HC : 0 < c. Proof. lra. Qed.
Lemma HM : 0 <= mu. Proof. lra. Qed.
Lemma H2 : 0 < 2. Proof. lra. Qed.
Notation F := (pmF c mu). Notation f := (pm c mu). Notation Q := (pmQ c mu).
Notation ST := (pmST c mu HC HM).
Lemma z0 x : (x - 0) / 2 = x / 2. Proof. field. Qed.
Lemma pdf_val (x : R) : 0 < x -> pdf x k lam = Fin (f (x / 2) / 2).
Proof.
  intros X. rewrite pm_eq by apply HC. assert (XL : 0 < x / lam) by (apply Rdiv_pos; auto). assert (LX : 0 < lam * x) by (apply Rmult_lt_0_compat; auto).
  assert (SQ : 0 < sqrt (lam * x)) by (apply sqrt_lt_R0; auto).
  unfold pdf, vbesseli. rewrite (vdiv_Fin k 2) by lra. veval. rewrite (Rltb_true (-1) (c - 1)), (Rltb_true 0 (sqrt (lam * x))) by lra. veval. f_equal. f_equal.
  unfold besseli, gamma_kernel. rewrite pow2_sqrt by lra.
  rewrite (Series_ext (fun j => (lam * x / 4) ^ j / (INR (fact j) * Gamma (c - 1 + 1 + INR j))) (fun j => (mu * (x / 2)) ^ j / (INR (fact j) * Gamma (c + INR j)))).
  - set (S := Series _). clearbody S. replace (exp (- (x + lam) / 2)) with (exp (- (x / 2)) * exp (- mu)) by (rewrite <- exp_plus; f_equal; field).
    replace (Rpower (x / 2) (c - 1)) with (Rpower (x / lam) ((c - 1) / 2) * Rpower (sqrt (lam * x) / 2) (c - 1)); [ring|].
    replace (Rpower (sqrt (lam * x) / 2) (c - 1)) with (Rpower (lam * x / 4) ((c - 1) / 2)).
    + rewrite Rpower_mult_distr by lra. replace (x / lam * (lam * x / 4)) with (Rpower (x / 2) 2) by (change 2 with (INR 2) at 2; rewrite Rpower_pow by lra; field; lra). rewrite Rpower_mult. f_equal. field.
    + replace (lam * x / 4) with (Rpower (sqrt (lam * x) / 2) 2).
      * rewrite Rpower_mult. f_equal. field.
      * change 2 with (INR 2) at 2. rewrite Rpower_pow by lra. replace ((sqrt (lam * x) / 2) ^ 2) with (sqrt (lam * x) ^ 2 / 4) by field. rewrite pow2_sqrt by lra. reflexivity.
  - intros j. f_equal; [f_equal; field|]. f_equal. f_equal. ring.
Qed.
Lemma cdf_val (x : R) : 0 < x -> cdf x k lam = Fin (F (x / 2)) /\ sf x k lam = Fin (1 - F (x / 2)).
Proof.
  intros X. unfold cdf, sf. rewrite (vdiv_Fin k 2) by lra. rewrite !vsqrt_Fin by lra. pose proof (mq_all c (sqrt lam) (sqrt x) HC (sqrt_pos lam) (sqrt_lt_R0 x X)) as [E1 E2]. rewrite !pow2_sqrt in * by lra.
  split; veval; auto.
Qed.
Lemma CERT : cert (fun x => pdf x k lam) (fun x => vlog (pdf x k lam)) (fun x => cdf x k lam) (fun x => sf x k lam)
  (fun p => ideal_cdf Q p 0 2) (fun p => ideal_sf Q p 0 2) 0 p_infty (fun x => F ((x - 0) / 2)) (fun x => f ((x - 0) / 2) / 2) (fun p => 0 + 2 * Q p).
Proof.
  apply (ls_cert 0 p_infty F f Q ST 0 2 H2); auto.
  - simpl. f_equal. ring.
  - constructor.
    + intros x [H0 _]. simpl in H0. rewrite z0. apply cdf_val; auto.
    + intros x H0. simpl in H0. unfold cdf, sf. destruct H0 as [H0| ->]; veval; auto.
    + intros x [].
    + unfold cdf, sf. veval. auto.
    + unfold cdf, sf. rewrite (vdiv_Fin k 2) by lra. rewrite (vsqrt_Fin lam) by lra. pose proof (mq_inf_all c (sqrt lam) HC (sqrt_pos lam)) as [E1 E2]. veval. auto.
  - intros x [H0 _]. simpl in H0. rewrite z0 in *. rewrite pdf_val by lra. split; auto. assert (0 < f (x / 2)) by (apply (if_pos _ _ _ _ _ (pm_if c mu HC HM)); apply inside_pos; auto). veval. reflexivity.
  - intros x [H0|[]]. simpl in H0. unfold pdf. veval. auto.
Qed.
Lemma supp_ok : support k lam = Ok (Fin 0, PInf). Proof. reflexivity. Qed.
Lemma elo : Finite 0 = ls 0 2 0. Proof. simpl. f_equal. ring. Qed.
Lemma pdf_in x : inside 0 p_infty x -> pdf (Fin x) k lam = Fin (f ((x - 0) / 2) / 2).
Proof. intros X%inside_pos. rewrite z0. apply pdf_val; auto. Qed.
Notation Mn := (fun n => Gamma (c + INR n) / Gamma c * hyp1f1 (- INR n) c (- mu)).
Notation LSM lem N := (lem 0 p_infty F f Q ST 0 2 (fun x => pdf x k lam) (Finite 0) p_infty H2 elo eq_refl pdf_in Mn N%nat (fun n _ => pm_momentn c mu n HC HM)).
Lemma Mn1 : Mn 1%nat = c + mu.
Proof. pose proof HC. pose proof (Gamma_pos c HC). cbv beta. simpl INR. replace (Ropp 1) with (-1) by ring. rewrite hyp1f1_m1, Gamma_succ by auto. field. lra. Qed.
Lemma Mn2 : Mn 2%nat = c * (c + 1) + 2 * mu * (c + 1) + mu ^ 2.
Proof. pose proof HC. pose proof (Gamma_pos c HC). cbv beta. simpl INR. replace (1 + 1) with 2 by ring. replace (Ropp 2) with (-2) by ring. rewrite hyp1f1_m2 by auto. replace (c + 2) with (c + 1 + 1) by ring. rewrite !Gamma_succ by lra. field. lra. Qed.
Lemma mean_ok : mean_is (fun x => pdf x k lam) 0 p_infty (mean k lam).
Proof. apply (LSM lsm_mean 1); auto. rewrite Mn1. unfold mean. veval. f_equal. field. Qed.
Lemma var_ok : var_is (fun x => pdf x k lam) 0 p_infty (mean k lam) (var k lam).
Proof.
  apply (LSM lsm_var 2); auto; [rewrite Mn1; unfold mean; veval; f_equal; field|]. unfold var. veval. f_equal. unfold mvar. rewrite Mn1, Mn2. field.
Qed.
End P.
(** with noncentrality 0 the distribution functions are those of chi2, and pdf raises *)
Lemma central (k : R) : 0 < k -> forall x : R, cdf x k 0 = M_chi2.cdf x k /\ sf x k 0 = M_chi2.sf x k.
Proof.
  intros K x. unfold M_chi2.cdf, M_chi2.sf, M_chi2.validate_k, cdf, sf. destruct (Rle_lt_dec x 0) as [L|L]; [split; veval; auto|].
  rewrite (vdiv_Fin k 2) by lra. rewrite !vsqrt_Fin by lra. rewrite sqrt_0. pose proof (sqrt_lt_R0 x L) as S.
  pose proof (central_ok (k / 2) (sqrt x) ltac:(lra) S) as (q & A & B & C & D). rewrite pow2_sqrt in * by lra. split; veval; congruence.
Qed.
Lemma pdf_zero (k : R) : 0 < k -> forall x : R, 0 < x -> pdf x k 0 = Exc ZeroDivisionError /\ exists d, 0 < d /\ M_chi2.pdf x k = Fin d.
Proof.
  intros K x X. split.
  - unfold pdf. assert (Z : vdiv (Fin x) (Fin 0) = Exc ZeroDivisionError) by (unfold vdiv; rewrite (Reqb_true 0 0) by auto; reflexivity). rewrite Z. veval. reflexivity.
  - unfold M_chi2.pdf, M_chi2.validate_k. assert (0 < k / 2) by lra. pose proof (Gamma_pos _ H). assert (0 < x / 2) by lra. rewrite (vdiv_Fin k 2), (vgam (k / 2)) by lra. veval. eexists. split; [|reflexivity]. apply Rdiv_pos; auto. apply Rdiv_pos; [|lra]. apply Rmult_lt_0_compat; apply exp_pos.
Qed.
(** nothing is validated: a negative number of degrees of freedom gives a negative mean and variance *)
Lemma no_check : mean (Fin (-3)) (Fin 1) = Fin (-2) /\ var (Fin (-3)) (Fin 1) = Fin (-2) /\ support (Fin (-3)) (Fin 1) = Ok (Fin 0, PInf).
Proof. unfold mean, var. split; [veval; f_equal; ring|split; [veval; f_equal; ring|reflexivity]]. Qed.
