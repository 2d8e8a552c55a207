(** Proofs about M_chi. *)
From Coq Require Import Reals Lra Lia List.
From Coquelicot Require Import Coquelicot.
From Verif Require Import Values VTac Spec RLib LimLib LLib DistLib DistLS IntLib SubLib MomLib LSMom LSMom2 PLib M_common SpecStat SpecEst
  SFun GammaLib GammaLib2 GammaLib3 GammaLib4 GamLib GamSq M_sfun P_sfun.
From Verif Require M_chi2 P_chi2.
From Verif Require Import M_chi.
Import ListNotations.
Local Open Scope R_scope.
Set Bullet Behavior "Strict Subproofs".

Lemma validate_bad {A} `{CanRaise A} k (c : A) : isnum k -> nonpositive k -> validate_k k c = raise ValueError.
Proof. intros NA B. change (validate_k k c) with (validate_positive k c). apply vp_bad; auto. Qed.

Ltac start := unfold pdf, logpdf, cdf, sf, support, mode, var, mean, entropy, validate_k.
Section P.
Variable k : R.
Hypothesis HK : 0 < k.
Notation a := (k / 2). Notation c := (1 / 2).
Lemma HA : 0 < a. Proof. lra. Qed.
Lemma HC : 0 < c. Proof. lra. Qed.
Lemma H1 : 0 < 1. Proof. lra. Qed.
Notation F := (qF a c). Notation f := (qf a c). Notation Q := (qQ a c).
Lemma z0 x : (x - 0) / 1 = x. Proof. field. Qed.
Lemma pdf_fin (x : R) : 0 < x -> pdf x k = Fin (f ((x - 0) / 1) / 1) /\ logpdf x k = Fin (ln (f ((x - 0) / 1) / 1)).
Proof.
  intros H. rewrite z0. replace (f x / 1) with (f x) by field. rewrite (ln_qf a c HA HC) by auto. rewrite (qf_ln a c HA HC) by auto.
  pose proof HA. start. rewrite (vdiv_Fin k 2) by lra. rewrite (vlgam a HA). veval.
  assert (L2 : ln (1 / 2) = - ln 2) by (rewrite ln_div by lra; rewrite ln_1; ring). rewrite L2. split; [do 2 f_equal|f_equal]; field.
Qed.
Lemma CERT : cert (fun x => pdf x k) (fun x => logpdf x k) (fun x => cdf x k) (fun x => sf x k)
  (fun p => ideal_cdf Q p 0 1) (fun p => ideal_sf Q p 0 1) 0 p_infty (fun x => F ((x - 0) / 1)) (fun x => f ((x - 0) / 1) / 1) (fun p => 0 + 1 * Q p).
Proof.
  pose proof HA. apply (ls_cert 0 p_infty F f Q (qST a c HA HC) 0 1 H1); auto.
  - simpl. f_equal. ring.
  - constructor.
    + intros x [H0 _]. simpl in H0. assert (0 < x ^ 2 / 2) by (assert (0 < x ^ 2) by (apply pow_lt; auto); lra). rewrite z0. unfold qF. replace (c * x ^ 2) with (x ^ 2 / 2) by field. start. veval. rewrite (vgl a), (vgu a) by auto. auto.
    + intros x H0. simpl in H0. destruct H0 as [H0| ->]; start; veval; auto.
    + intros x [].
    + start. veval. auto.
    + start. veval. rewrite (vgli a), (vgui a) by auto. auto.
  - intros x [H0 _]. simpl in H0. rewrite z0 in H0. apply pdf_fin; auto.
  - intros x [H0|[]]. simpl in H0. start. veval. auto.
Qed.
(** C65 *)
Lemma log_end : 1 < k -> log_of (fun x => pdf x k) (fun x => logpdf x k) 0.
Proof.
  intros H. right; left. pose proof HA. start. rewrite (vdiv_Fin k 2) by lra. rewrite (vlgam a HA). veval. auto.
Qed.
Lemma log_one : k = 1 -> pdf 0 k = NaN /\ logpdf 0 k = NaN.
Proof. intros ->. start. rewrite (vdiv_Fin 1 2) by lra. rewrite (vlgam (1 / 2)) by lra. veval. auto. Qed.
Lemma log_inf : k < 1 -> pdf 0 k = PInf /\ logpdf 0 k = PInf.
Proof. intros H. pose proof HA. start. rewrite (vdiv_Fin k 2) by lra. rewrite (vlgam a HA). veval. auto. Qed.
Lemma pdf_le x y : 0 < x -> 0 < y -> f x <= f y -> toR (pdf x k) <= toR (pdf y k).
Proof. intros X Y H. rewrite (proj1 (pdf_fin x X)), (proj1 (pdf_fin y Y)), !z0. simpl. lra. Qed.
Lemma mode_ok : 1 < k -> is_mode (fun x => pdf x k) (mode k).
Proof.
  intros H. assert (SP : 0 < sqrt (k - 1)) by (apply sqrt_lt_R0; lra). exists (sqrt (k - 1)). eexists. split; [start; veval; reflexivity|]. split; [apply pdf_fin; auto|].
  rewrite z0. intros x. assert (FP : 0 < f (sqrt (k - 1)) / 1) by (apply Rdiv_pos; [apply qf_pos; auto; lra|lra]). destruct (Rtotal_order x 0) as [L|[->|L]].
  - exists 0. split; [start; veval; reflexivity|lra].
  - exists 0. split; [|lra]. destruct (log_end H) as [(y & Y & E & _)|[(E & _)|(E & _)]]; auto; exfalso; pose proof HA; revert E; start; rewrite (vdiv_Fin k 2) by lra; rewrite (vlgam a HA); veval; intros E; [injection E as E; lra|discriminate].
  - eexists. split; [apply pdf_fin; auto|]. rewrite z0. apply Rmult_le_compat_r; [lra|]. apply qf_le; auto; try lra. rewrite pow2_sqrt by lra. apply Rle_ge. right. field.
Qed.
Lemma mode_small : k <= 1 -> mode k = Fin 0 /\ forall x y : R, 0 < x -> x <= y -> toR (pdf y k) <= toR (pdf x k).
Proof.
  intros H. split.
  - start. destruct (Req_dec k 1) as [->|N]; veval; f_equal. replace (1 - 1) with 0 by ring. apply sqrt_0.
  - intros x y X L. apply pdf_le; try lra. apply qf_le; try lra. assert (0 < x ^ 2) by (apply pow_lt; auto). nra.
Qed.
(** C43 *)
Lemma elo : Finite 0 = ls 0 1 0. Proof. simpl. f_equal. ring. Qed.
Lemma pdf_in x : inside 0 p_infty x -> pdf (Fin x) k = Fin (f ((x - 0) / 1) / 1).
Proof. intros [H _]. simpl in H. apply pdf_fin; auto. Qed.
Notation Mn := (qM a c).
Notation LSM lem N := (lem 0 p_infty F f Q (qST a c HA HC) 0 1 (fun x => pdf x k) (Finite 0) p_infty H1 elo eq_refl pdf_in Mn N%nat (fun n _ => q_moment a c HA HC n)).
Lemma Mn1 : Mn 1 = sqrt 2 * Gamma ((k + 1) / 2) / Gamma a.
Proof.
  rewrite (qM1 a c HC). replace (a + 1 / 2) with ((k + 1) / 2) by field. pose proof (Gamma_pos a HA). replace (1 / 2) with (/ 2) by field. rewrite sqrt_inv by lra.
  assert (0 < sqrt 2) by (apply sqrt_lt_R0; lra). field. lra.
Qed.
Lemma mean_fin : mean k = Fin (sqrt 2 * Gamma ((k + 1) / 2) / Gamma a).
Proof.
  pose proof HA. pose proof (Gamma_pos a HA). start. rewrite (vdiv_Fin k 2) by lra. rewrite (vgam a HA). change (vadd (Fin k) (Fin 1)) with (Fin (k + 1)). rewrite (vdiv_Fin (k + 1) 2) by lra. rewrite (vgam ((k + 1) / 2)) by lra. veval. reflexivity.
Qed.
Lemma mean_ok : mean_is (fun x => pdf x k) 0 p_infty (mean k).
Proof. apply (LSM lsm_mean 1); auto. rewrite mean_fin, Mn1. f_equal. ring. Qed.
Lemma var_ok : var_is (fun x => pdf x k) 0 p_infty (mean k) (var k).
Proof.
  apply (LSM lsm_var 2); auto; [rewrite mean_fin, Mn1; f_equal; ring|]. unfold var, validate_k. rewrite mean_fin. veval. f_equal.
  unfold mvar. rewrite Mn1, (qM2 a c HA HC). field. apply Rgt_not_eq, Gamma_pos, HA.
Qed.
Lemma moment_ok n : moment_is (fun x => pdf x k) 0 p_infty n (noncentral_moment n k).
Proof.
  apply (scale_moment 0 p_infty F f Q (qST a c HA HC) 1 (fun x => pdf x k) 0 p_infty H1 elo eq_refl pdf_in n (Mn n) _ (q_moment a c HA HC n)).
  unfold noncentral_moment, validate_k. veval. destruct n as [|n].
  - simpl. f_equal. unfold qM. simpl INR. replace (0 / 2) with 0 by field. rewrite gM_0 by apply HA. rewrite Ropp_0, Rpower_O by lra. ring.
  - cbn [Nat.eqb]. pose proof HA. pose proof (pos_INR (S n)). pose proof (Gamma_pos a HA).
    rewrite (vgam a HA), (vgam ((INR (S n) + k) / 2)) by lra. rewrite vdiv_Fin by lra. rewrite pow1. varith. f_equal. unfold qM, gM.
    replace (a + INR (S n) / 2) with ((INR (S n) + k) / 2) by field. replace (Rpower (1 / 2) (- (INR (S n) / 2))) with (Rpower 2 (INR (S n) / 2)); [ring|].
    unfold Rpower. f_equal. rewrite ln_div, ln_1 by lra. field.
Qed.
Lemma entropy_ok : entropy_is (fun x => pdf x k) 0 p_infty (entropy k).
Proof.
  apply (ls_entropy_is 0 p_infty F f Q (qST a c HA HC) 0 1 (fun x => pdf x k) 0 p_infty H1 elo eq_refl pdf_in _ _ (q_entropy a c HA HC)).
  start. rewrite (vdiv_Fin k 2) by lra. rewrite (vlgam a HA), (vdig a HA). veval. f_equal. rewrite ln_1, ln_div, ln_1 by lra. field.
Qed.
(** C45: the square of a chi variable is chi2. *)
Lemma is_chi2 : forall x : R, 0 <= x -> cdf x k = M_chi2.cdf (Fin (x ^ 2)) k /\ sf x k = M_chi2.sf (Fin (x ^ 2)) k.
Proof.
  intros x X. pose proof HA. destruct X as [X| <-].
  - assert (0 < x ^ 2) by (apply pow_lt; auto). start. unfold M_chi2.cdf, M_chi2.sf, M_chi2.validate_k. veval. auto.
  - replace (0 ^ 2) with 0 by ring. start. unfold M_chi2.cdf, M_chi2.sf, M_chi2.validate_k. veval. auto.
Qed.
End P.
Lemma bad_params k : isnum k -> nonpositive k -> support k = Err ValueError /\
  always_ValueError [ fun x => pdf x k; fun x => logpdf x k; fun x => cdf x k; fun x => sf x k;
    fun _ => mean k; fun _ => mode k; fun _ => var k; fun _ => entropy k; fun _ => noncentral_moment 2 k ].
Proof.
  intros A B. unfold support, pdf, logpdf, cdf, sf, mean, mode, var, entropy, noncentral_moment.
  split; [|all_ve; intros x Hx]; rewrite ?validate_bad by auto; reflexivity.
Qed.
