(** Proofs about M_chi2. *)
From Coq Require Import Reals Lra Lia List ZArith.
From Coquelicot Require Import Coquelicot.
From Verif Require Import Values VTac Spec RLib LimLib LLib DistLib DistLS IntLib SubLib MomLib LSMom LSMom2 PLib M_common SpecStat SpecEst SpecRoot SpecInv
  SFun GammaLib GammaLib2 GammaLib3 GammaLib4 GamLib GamMono M_sfun P_sfun M_bracket InvLib.
From Verif Require M_gamma P_gamma.
From Verif Require Import M_chi2.
Import ListNotations.
Local Open Scope R_scope.
Set Bullet Behavior "Strict Subproofs".

Lemma validate_bad {A} `{CanRaise A} k (c : A) : isnum k -> nonpositive k -> validate_k k c = raise ValueError.
Proof. intros NA B. change (validate_k k c) with (validate_positive k c). apply vp_bad; auto. Qed.

Ltac start := unfold pdf, logpdf, cdf, sf, support, mode, mean, var, entropy, validate_k.
Section P.
Variable k : R.
Hypothesis HK : 0 < k.
Notation a := (k / 2).
Lemma HA : 0 < a. Proof. lra. Qed.
Lemma H2 : 0 < 2. Proof. lra. Qed.
Notation F := (gF a). Notation f := (gf a). Notation Q := (gQ a).
Lemma m0 x : x - 0 = x. Proof. ring. Qed.
Lemma pdf_fin (x : R) : 0 < x -> pdf x k = Fin (f ((x - 0) / 2) / 2) /\ logpdf x k = Fin (ln (f ((x - 0) / 2) / 2)).
Proof.
  intros H. rewrite m0. assert (Z : 0 < x / 2) by lra. pose proof HA. pose proof (Gamma_pos a HA) as G. pose proof (gf_pos a HA (x / 2)) as FP.
  start. rewrite ln_div by lra. rewrite (gf_ln a HA) by auto. rewrite ln_exp.
  change (vdiv (Fin k) (Fin 2)) with (vdiv (Fin k) (Fin 2)). rewrite (vdiv_Fin k 2) by lra. rewrite (vgam a HA), (vlgam a HA). veval. split; f_equal.
  - replace (- x / 2) with (- (x / 2)) by field. unfold Rpower, loggamma, Rminus. rewrite !exp_plus, !exp_Ropp, exp_ln by auto. field. split; apply Rgt_not_eq; auto. apply exp_pos.
  - field.
Qed.
Lemma CERT : cert (fun x => pdf x k) (fun x => logpdf x k) (fun x => cdf x k) (fun x => sf x k)
  (fun p => ideal_cdf Q p 0 2) (fun p => ideal_sf Q p 0 2) 0 p_infty (fun x => F ((x - 0) / 2)) (fun x => f ((x - 0) / 2) / 2) (fun p => 0 + 2 * Q p).
Proof.
  pose proof HA. apply (ls_cert 0 p_infty F f Q (gST a HA) 0 2 H2); auto.
  - simpl. f_equal. ring.
  - constructor.
    + intros x [H0 _]. simpl in H0. assert (0 < x / 2) by lra. start. veval. rewrite (vgl a), (vgu a), m0 by auto. auto.
    + intros x H0. simpl in H0. destruct H0 as [H0| ->]; start; veval; auto.
    + intros x [].
    + start. veval. auto.
    + start. veval. rewrite (vgli a), (vgui a) by auto. auto.
  - intros x [H0 _]. simpl in H0. apply pdf_fin. lra.
  - intros x [H0|[]]. simpl in H0. start. veval. auto.
Qed.
(** C65 *)
Lemma pdf_0 : 2 < k -> pdf 0 k = Fin 0.
Proof.
  intros H. pose proof HA. pose proof (Gamma_pos a HA). start. rewrite (vdiv_Fin k 2) by lra. rewrite (vgam a HA). veval. f_equal. field. lra.
Qed.
Lemma log_end : 2 < k -> log_of (fun x => pdf x k) (fun x => logpdf x k) 0.
Proof.
  intros H. right; left. split; [apply pdf_0; auto|]. pose proof HA. start. rewrite (vdiv_Fin k 2) by lra. rewrite (vlgam a HA). veval. auto.
Qed.
Lemma log_two : k = 2 -> pdf 0 k = Fin (1 / 2) /\ logpdf 0 k = NaN.
Proof.
  intros ->. start. rewrite (vdiv_Fin 2 2) by lra. replace (2 / 2) with 1 by field. rewrite (vgam 1), (vlgam 1) by lra. rewrite Gamma_1. veval. split; auto.
  f_equal. replace (- 0 / 2) with 0 by field. rewrite exp_0. field.
Qed.
Lemma pdf_le x y : 0 < x -> 0 < y -> f (x / 2) <= f (y / 2) -> toR (pdf x k) <= toR (pdf y k).
Proof. intros X Y H. rewrite (proj1 (pdf_fin x X)), (proj1 (pdf_fin y Y)), !m0. simpl. lra. Qed.
Lemma mode_fin : mode k = Fin (Rmax (k - 2) 0).
Proof. start. unfold vmax2. destruct (Rle_dec 2 k); [rewrite Rmax_left by lra|rewrite Rmax_right by lra]; veval; f_equal; lra. Qed.
Lemma mode_ok : 2 <= k -> is_mode (fun x => pdf x k) (mode k).
Proof.
  intros H. rewrite mode_fin, Rmax_left by lra. destruct (Req_dec k 2) as [E|E].
  - destruct (log_two E) as [A _]. exists 0, (1 / 2). split; [f_equal; lra|]. split; auto.
    intros x. destruct (Rtotal_order x 0) as [L|[->|L]].
    + exists 0. split; [start; veval; reflexivity|]. lra.
    + exists (1 / 2). split; auto. lra.
    + eexists. split; [apply pdf_fin; auto|]. rewrite m0, (gf_ln a HA) by lra. subst k. replace (2 / 2) with 1 by field. unfold loggamma. rewrite Gamma_1, ln_1.
      assert (exp ((1 - 1) * ln (x / 2) - x / 2 - 0) <= exp 0) by (apply exp_le_compat; lra). rewrite exp_0 in H0. lra.
  - assert (K1 : 2 < k) by lra. exists (k - 2). eexists. split; [reflexivity|]. split; [apply pdf_fin; lra|].
    rewrite m0. intros x. destruct (Rtotal_order x 0) as [L|[->|L]].
    + exists 0. split; [start; veval; reflexivity|]. left. apply Rdiv_pos; [apply gf_pos, HA|lra].
    + exists 0. split; [apply pdf_0; lra|left; apply Rdiv_pos; [apply gf_pos, HA|lra]].
    + eexists. split; [apply pdf_fin; auto|]. rewrite m0. apply Rmult_le_compat_r; [lra|]. apply gf_le; try lra.
Qed.
Lemma mode_small : k <= 2 -> mode k = Fin 0 /\ forall x y : R, 0 < x -> x <= y -> toR (pdf y k) <= toR (pdf x k).
Proof.
  intros H. split; [rewrite mode_fin, Rmax_right by lra; reflexivity|]. intros x y X L. apply pdf_le; try lra. apply gf_down; try lra.
Qed.
(** C35, C36 *)
Lemma invcdf_ok : solves (fun x => cdf x k) (fun fr fuel p => invcdf fr fuel p k) 0 p_infty.
Proof. apply (cert_generic_cdf CERT); auto. Qed.
Lemma invsf_ok : solves (fun x => sf x k) (fun fr fuel p => invsf fr fuel p k) 0 p_infty.
Proof. apply (cert_generic_sf CERT); auto. Qed.
(** C43 *)
Lemma elo : Finite 0 = ls 0 2 0. Proof. simpl. f_equal. ring. Qed.
Lemma pdf_in x : inside 0 p_infty x -> pdf (Fin x) k = Fin (f ((x - 0) / 2) / 2).
Proof. intros [H _]. simpl in H. apply pdf_fin; auto. Qed.
Definition Mn (n : nat) := gM a (INR n).
Lemma mom_int n : integrates_to (fun z => z ^ n * f z) 0 p_infty (Mn n).
Proof. apply g_momentn, HA. Qed.
Notation LSM lem N := (lem 0 p_infty F f Q (gST a HA) 0 2 (fun x => pdf x k) (Finite 0) p_infty H2 elo eq_refl pdf_in Mn N%nat (fun n _ => mom_int n)).
Lemma Mn1 : Mn 1 = a. Proof. unfold Mn. simpl INR. apply gM1, HA. Qed.
Lemma Mn2 : Mn 2 = a * (a + 1). Proof. unfold Mn. simpl INR. replace (1 + 1) with 2 by ring. apply gM2, HA. Qed.
Lemma mean_ok : mean_is (fun x => pdf x k) 0 p_infty (mean k).
Proof. apply (LSM lsm_mean 1); auto. start. veval. f_equal. rewrite Mn1. field. Qed.
Lemma var_ok : var_is (fun x => pdf x k) 0 p_infty (mean k) (var k).
Proof. apply (LSM lsm_var 2); auto; start; veval; f_equal; unfold mvar; rewrite ?Mn1, ?Mn2; field. Qed.
Lemma moment_ok n : moment_is (fun x => pdf x k) 0 p_infty n (noncentral_moment n k).
Proof.
  apply (scale_moment 0 p_infty F f Q (gST a HA) 2 (fun x => pdf x k) 0 p_infty H2 elo eq_refl pdf_in n (Mn n) _ (mom_int n)).
  unfold noncentral_moment, validate_k. veval. destruct n as [|n].
  - simpl. f_equal. unfold Mn. simpl. rewrite gM_0 by apply HA. ring.
  - cbn [Nat.eqb]. pose proof HA. assert (0 < a + INR (S n)) by (pose proof (pos_INR (S n)); lra). pose proof (Gamma_pos a HA).
    change (vadd (Fin (INR (S n))) (Fin a)) with (Fin (INR (S n) + a)). rewrite (Rplus_comm _ a). rewrite (vgam a HA), (vgam (a + INR (S n))) by auto. rewrite vdiv_Fin by lra. reflexivity.
Qed.
Lemma entropy_ok : entropy_is (fun x => pdf x k) 0 p_infty (entropy k).
Proof.
  apply (ls_entropy_is 0 p_infty F f Q (gST a HA) 0 2 (fun x => pdf x k) 0 p_infty H2 elo eq_refl pdf_in _ _ (g_entropy a HA)).
  start. rewrite (vdiv_Fin k 2) by lra. rewrite (vlgam a HA), (vdig a HA). veval. f_equal. ring.
Qed.
(** C45: chi2(k) is gamma(k/2, 2). *)
Lemma is_gamma : (forall x : R, cdf x k = M_gamma.cdf x (k / 2)%R 2 /\ sf x k = M_gamma.sf x (k / 2)%R 2) /\
  (forall x : R, x <> 0 -> pdf x k = M_gamma.pdf x (k / 2)%R 2 /\ logpdf x k = M_gamma.logpdf x (k / 2)%R 2) /\
  mean k = M_gamma.mean (k / 2)%R 2 /\ var k = M_gamma.var (k / 2)%R 2 /\ mode k = M_gamma.mode (k / 2)%R 2 /\ entropy k = M_gamma.entropy (k / 2)%R 2 /\
  forall n, noncentral_moment n k = M_gamma.noncentral_moment n (k / 2)%R 2.
Proof.
  pose proof HA as A. pose proof (P_gamma.CERT a 2 A H2) as CG. split; [|split; [|split; [|split; [|split; [|split]]]]].
  - intros x. destruct (Rle_dec x 0) as [L|L].
    + destruct (co_below _ _ _ _ _ (ce_core _ _ _ _ _ _ _ _ _ _ _ CERT) x) as [-> ->]; [exact L|].
      destruct (co_below _ _ _ _ _ (ce_core _ _ _ _ _ _ _ _ _ _ _ CG) x) as [-> ->]; [exact L|]. auto.
    + assert (I : inside 0 p_infty x) by (split; simpl; auto; lra). destruct (co_in _ _ _ _ _ (ce_core _ _ _ _ _ _ _ _ _ _ _ CERT) x I) as [-> ->].
      destruct (co_in _ _ _ _ _ (ce_core _ _ _ _ _ _ _ _ _ _ _ CG) x I) as [-> ->]. auto.
  - intros x X. destruct (Rtotal_order x 0) as [L|[L|L]]; [|lra|].
    + destruct (ce_out _ _ _ _ _ _ _ _ _ _ _ CERT x) as [-> ->]; [left; exact L|]. destruct (ce_out _ _ _ _ _ _ _ _ _ _ _ CG x) as [-> ->]; [left; exact L|]. auto.
    + destruct (pdf_fin x L) as [-> ->]. destruct (P_gamma.pdf_fin a 2 A H2 x L) as [-> ->]. auto.
  - start. unfold M_gamma.mean, M_gamma.validate_k_scale. veval. f_equal. field.
  - start. unfold M_gamma.var, M_gamma.validate_k_scale. veval. f_equal. field.
  - rewrite mode_fin. unfold M_gamma.mode, M_gamma.validate_k_scale. destruct (Rle_dec a 1); [rewrite Rmax_right by lra|rewrite Rmax_left by lra]; veval; f_equal; field.
  - start. unfold M_gamma.entropy, M_gamma.validate_k_scale. rewrite (vdiv_Fin k 2) by lra. rewrite (vlgam a HA), (vdig a HA). veval. f_equal; ring.
  - intros n. unfold noncentral_moment, M_gamma.noncentral_moment, validate_k, M_gamma.validate_k_scale. veval. destruct n as [|n]; auto. cbn [Nat.eqb].
    change (vadd (Fin (INR (S n))) (Fin a)) with (Fin (INR (S n) + a)). rewrite (Rplus_comm _ a). reflexivity.
Qed.
End P.
(** C72: chi2.cdf and sf are strictly monotone in k. *)
Lemma cdf_fin k x : 0 < k -> 0 < x -> cdf (Fin x) (Fin k) = Fin (gF (k / 2) (x / 2)) /\ sf (Fin x) (Fin k) = Fin (1 - gF (k / 2) (x / 2)).
Proof.
  intros K X. assert (I : inside 0 p_infty x) by (split; simpl; auto). destruct (co_in _ _ _ _ _ (ce_core _ _ _ _ _ _ _ _ _ _ _ (CERT k K)) x I) as [-> ->]. rewrite m0. auto.
Qed.
Lemma k_unique x p j k : 0 < x -> cdf (Fin x) (Fin j) = Fin p \/ sf (Fin x) (Fin j) = Fin (1 - p) -> cdf (Fin x) (Fin k) = Fin p \/ sf (Fin x) (Fin k) = Fin (1 - p) -> j = k.
Proof.
  intros X. assert (B : forall j, cdf (Fin x) (Fin j) = Fin p \/ sf (Fin x) (Fin j) = Fin (1 - p) -> 0 < j /\ gF (j / 2) (x / 2) = p).
  { clear j k. intros j H. destruct (Rlt_le_dec 0 j) as [J|J].
    - split; auto. destruct (cdf_fin j x J X) as [E1 E2]. rewrite E1, E2 in H. destruct H as [H|H]; injection H as H; lra.
    - unfold cdf, sf in H. rewrite !validate_bad in H by first [apply num_ext, ext_fin | apply ele_fin; lra]. destruct H; discriminate. }
  intros H1 H2. apply B in H1. apply B in H2. destruct H1 as [J E], H2 as [K E']. assert (j / 2 = k / 2) by (apply (gF_inj_a _ _ (x / 2)); lra). lra.
Qed.
Lemma inv_k_sound fr fuel x p k : checked_solver fr -> 0 < x ->
  (invcdf_k fr fuel (Fin x) (Fin p) = Fin k -> 0 < k /\ cdf (Fin x) (Fin k) = Fin p /\ forall j, cdf (Fin x) (Fin j) = Fin p -> j = k) /\
  (invsf_k fr fuel (Fin x) (Fin p) = Fin k -> 0 < k /\ sf (Fin x) (Fin k) = Fin p /\ forall j, sf (Fin x) (Fin j) = Fin p -> j = k).
Proof.
  intros CS X.
  assert (Z : forall g d, generic_inv fuel fr g (Fin p) d = Fin k -> vsub (g (Fin k)) (Fin p) = Fin 0).
  { intros g d. unfold generic_inv. destruct (find_bracket_0_inf fuel g (Fin p) d) as [[x0 x1]|]; [|discriminate]. intros E. apply CS in E. exact E. }
  assert (G : forall g, (g = cdf (Fin x) \/ g = sf (Fin x)) -> vsub (g (Fin k)) (Fin p) = Fin 0 -> 0 < k /\ g (Fin k) = Fin p).
  { intros g D E. destruct (Rlt_le_dec 0 k) as [K|K].
    - split; auto. destruct (cdf_fin k x K X) as [E1 E2]. destruct D as [-> | ->]; rewrite ?E1, ?E2 in *; injection E as E; f_equal; lra.
    - exfalso. destruct D as [-> | ->]; unfold cdf, sf in E; rewrite validate_bad in E by first [apply num_ext, ext_fin | apply ele_fin; lra]; discriminate. }
  split; intros H; apply Z in H.
  - destruct (G (cdf (Fin x)) (or_introl eq_refl) H) as [K E]. split; auto. split; auto. intros j J. apply (k_unique x p); auto.
  - destruct (G (sf (Fin x)) (or_intror eq_refl) H) as [K E]. split; auto. split; auto. intros j J. apply (k_unique x (1 - p)); auto; right; replace (1 - (1 - p)) with p by ring; auto.
Qed.
Lemma bad_params fr fuel k : isnum k -> nonpositive k -> support k = Err ValueError /\
  always_ValueError [ fun x => pdf x k; fun x => logpdf x k; fun x => cdf x k; fun x => sf x k; fun p => invcdf fr (S fuel) p k; fun p => invsf fr (S fuel) p k;
    fun _ => mean k; fun _ => mode k; fun _ => var k; fun _ => entropy k; fun _ => noncentral_moment 2 k ].
Proof.
  intros H1 H2. unfold support, mean, mode, var, entropy, noncentral_moment.
  split; [|all_ve; intros x Hx; unfold pdf, logpdf, cdf, sf, invcdf, invsf, generic_inv, find_bracket_0_inf; cbn [bad_direction Z.eqb Pos.eqb negb orb while not_high_enough]]; unfold cdf, sf, not_high_enough; rewrite ?validate_bad by auto; reflexivity.
Qed.

(** A case in which invcdf_k returns. *)
Lemma inv_k_case : exists fr p, checked_solver fr /\ invcdf_k fr 1 (Fin 1) (Fin p) = Fin 1.
Proof.
  destruct (cdf_fin 1 1 Rlt_0_1 Rlt_0_1) as [E _]. set (p := gF (1 / 2) (1 / 2)) in *.
  exists (fun g _ => match g (Fin 1) with Fin r => if Reqb r 0 then Fin 1 else NaN | _ => NaN end), p. split.
  - intros g x0 x1 r. destruct (g (Fin 1)) as [u| | | |] eqn:EU; try discriminate. destruct (Reqb_spec u 0) as [[L ->]|[L ->]]; [|discriminate]. intros H. injection H as <-. rewrite EU, L. auto.
  - unfold invcdf_k, generic_inv, find_bracket_0_inf, bad_direction, not_high_enough, not_low_enough. cbn [Z.eqb negb orb Pos.eqb while]. rewrite E.
    change (cgt (Fin p) (Fin p)) with (CB (Rltb p p)). change (clt (Fin p) (Fin p)) with (CB (Rltb p p)). rewrite Rltb_false by lra. cbn [bind].
    change (cgt (Fin 1) (Fin 0)) with (CB (Rltb 0 1)). rewrite Rltb_true by lra. cbn [cand]. cbn [bind].
    change (vsub (Fin p) (Fin p)) with (Fin (p - p)). cbv iota. rewrite Reqb_true by lra. reflexivity.
Qed.
