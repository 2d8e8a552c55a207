(** Proofs about M_nakagami. *)
From Coq Require Import Reals Lra Lia List.
From Coquelicot Require Import Coquelicot.
From Verif Require Import Values VTac Spec RLib LimLib LLib XLib DistLib DistLS IntLib SubLib MomLib LSMom LSMom2 PLib M_common SpecStat SpecEst SpecLS SpecRoot SpecBracket SpecInv
  SFun GammaLib GammaLib2 GammaLib3 GammaLib4 GamLib GamSq M_sfun P_sfun M_bracket M_numinv InvLib P_est P_digammainv.
From Verif Require M_chi.
From Verif Require Import M_nakagami.
Import ListNotations.
Local Open Scope R_scope.
Set Bullet Behavior "Strict Subproofs".

Lemma validate_bad {A} `{CanRaise A} nu l s (c : A) : isnum nu -> isnum s -> nonpositive nu \/ nonpositive s -> validate_params nu l s c = raise ValueError.
Proof.
  intros NA NS B. change (validate_params nu l s c) with (validate_positive nu (validate_positive s c)).
  destruct B as [B|B]; [apply vp_bad; auto|]. apply vp_pass; auto. apply vp_bad; auto.
Qed.

Ltac start := unfold pdf, logpdf, cdf, sf, support, mode, var, mean, entropy, validate_params.
Section P.
Variables nu l s : R.
Hypothesis HN : 0 < nu.
Hypothesis HS : 0 < s.
Notation F := (qF nu nu). Notation f := (qf nu nu). Notation Q := (qQ nu nu).
Lemma z_pos x : l < x -> 0 < (x - l) / s. Proof. intros. apply Rdiv_pos; lra. Qed.
Lemma z_pos' x : 0 < (x - l) / s -> l < x.
Proof. intros H. assert (0 < (x - l) / s * s) by nra. unfold Rdiv in H0. rewrite Rmult_assoc, Rinv_l in H0 by lra. lra. Qed.
Lemma pdf_fin (x : R) : l < x -> pdf x nu l s = Fin (f ((x - l) / s) / s) /\ logpdf x nu l s = Fin (ln (f ((x - l) / s) / s)).
Proof.
  intros H. pose proof (z_pos x H) as Z. pose proof (Gamma_pos nu HN) as G.
  assert (FP := qf_pos nu nu HN HN _ Z).
  rewrite (ln_div _ s) by auto. rewrite (ln_qf nu nu HN HN), (qf_ln nu nu HN HN) by auto.
  start. rewrite (vgam nu HN), (vlgam nu HN). veval. split; [|reflexivity]. f_equal.
  set (z := (x - l) / s) in *. unfold Rpower.
  replace (ln 2 + nu * ln nu - loggamma nu + (2 * nu - 1) * ln z - nu * z ^ 2) with (ln 2 + nu * ln nu + (2 * nu - 1) * ln z + - nu * z ^ 2 + - loggamma nu) by ring.
  rewrite !exp_plus. rewrite (exp_Ropp (loggamma nu)). unfold loggamma. rewrite !exp_ln by lra. field. lra.
Qed.
Lemma CERT : cert (fun x => pdf x nu l s) (fun x => logpdf x nu l s) (fun x => cdf x nu l s) (fun x => sf x nu l s)
  (fun p => ideal_cdf Q p l s) (fun p => ideal_sf Q p l s) l p_infty (fun x => F ((x - l) / s)) (fun x => f ((x - l) / s) / s) (fun p => l + s * Q p).
Proof.
  apply (ls_cert 0 p_infty F f Q (qST nu nu HN HN) l s HS); auto.
  - simpl. f_equal. ring.
  - constructor.
    + intros x [H _]. simpl in H. pose proof (z_pos x H) as Z. assert (0 < nu * ((x - l) / s) ^ 2) by (apply sq_pos; auto). unfold qF. start. veval. rewrite (vgl nu HN), (vgu nu HN) by auto. auto.
    + intros x H. simpl in H. start; veval; auto.
    + intros x [].
    + start. veval. auto.
    + start. veval. rewrite (vgli nu HN), (vgui nu HN) by auto. auto.
  - intros x [H _]. simpl in H. apply pdf_fin. apply z_pos'; auto.
  - intros x [H|[]]. simpl in H. start. veval. auto.
Qed.
Lemma log_all (x : R) : log_of (fun x => pdf x nu l s) (fun x => logpdf x nu l s) x.
Proof.
  revert x. apply (cert_log_ends CERT); intros x E; [|discriminate]. injection E as E; subst x.
  right; left. start. veval. auto.
Qed.
Lemma rad : 1 / 2 <= nu -> 0 <= 1 - 1 / (2 * nu).
Proof. intros H. assert (1 / (2 * nu) <= 1); [|lra]. apply (Rmult_le_reg_r (2 * nu)); [lra|]. unfold Rdiv. rewrite Rmult_assoc, Rinv_l by lra. lra. Qed.
Lemma mode_ok : 1 / 2 < nu -> is_mode (fun x => pdf x nu l s) (mode nu l s).
Proof.
  intros H. assert (RP : 0 < 1 - 1 / (2 * nu)). { assert (1 / (2 * nu) < 1); [|lra]. apply (Rmult_lt_reg_r (2 * nu)); [lra|]. unfold Rdiv. rewrite Rmult_assoc, Rinv_l by lra. lra. }
  set (m := sqrt (1 - 1 / (2 * nu))). assert (SP : 0 < m) by (apply sqrt_lt_R0; lra). assert (X : l < l + s * m) by nra. exists (l + s * m). eexists. split; [start; veval; reflexivity|]. split; [apply pdf_fin; auto|].
  replace ((l + s * m - l) / s) with m by (field; lra).
  intros x. destruct (Rle_lt_dec x l) as [L|L].
  - exists 0. split; [start; veval; reflexivity|]. left. apply Rdiv_pos; auto. apply qf_pos; auto; lra.
  - eexists. split; [apply pdf_fin; auto|]. apply Rmult_le_compat_r; [left; pos|]. apply qf_le; auto; try lra; [apply z_pos; auto|]. unfold m. rewrite pow2_sqrt by lra. apply Rle_ge. right. field. lra.
Qed.
Lemma pdf_le x y : l < x -> l < y -> f ((x - l) / s) <= f ((y - l) / s) -> toR (pdf x nu l s) <= toR (pdf y nu l s).
Proof. intros X Y H. rewrite (proj1 (pdf_fin x X)), (proj1 (pdf_fin y Y)). simpl. apply Rmult_le_compat_r; auto. left; pos. Qed.
Lemma mode_half : nu = 1 / 2 -> mode nu l s = Fin l /\ forall x y : R, l < x -> x <= y -> toR (pdf y nu l s) <= toR (pdf x nu l s).
Proof.
  intros H. split.
  - start. subst nu. replace (1 / 2) with (/ 2) by field. assert (1 - 1 / (2 * / 2) = 0) by field. veval. rewrite H, sqrt_0. f_equal. ring.
  - intros x y X L. apply pdf_le; try lra. pose proof (z_pos x X). assert ((x - l) / s <= (y - l) / s) by (unfold Rdiv; apply Rmult_le_compat_r; [left; pos|lra]). apply qf_le; try lra.
    assert (0 < ((x - l) / s) ^ 2) by (apply pow_lt; auto). nra.
Qed.
Lemma mode_small : nu < 1 / 2 -> mode nu l s = Exc NonReal.
Proof.
  intros H. assert (RP : 1 - 1 / (2 * nu) < 0). { assert (1 < 1 / (2 * nu)); [|lra]. apply (Rmult_lt_reg_r (2 * nu)); [lra|]. unfold Rdiv. rewrite Rmult_assoc, Rinv_l by lra. lra. }
  start. veval. unfold vsqrt. rewrite Rltb_true by lra. reflexivity.
Qed.
(** C43 *)
Lemma elo : Finite l = ls l s 0. Proof. simpl. f_equal. ring. Qed.
Lemma pdf_in x : inside l p_infty x -> pdf (Fin x) nu l s = Fin (f ((x - l) / s) / s).
Proof. intros [H _]. simpl in H. apply pdf_fin; auto. Qed.
Notation Mn := (qM nu nu).
Notation LSM lem N := (lem 0 p_infty F f Q (qST nu nu HN HN) l s (fun x => pdf x nu l s) (Finite l) p_infty HS elo eq_refl pdf_in Mn N%nat (fun n _ => q_moment nu nu HN HN n)).
Lemma gratio_fin : gratio nu = Fin (Gamma (nu + 1 / 2) / Gamma nu).
Proof. pose proof (Gamma_pos nu HN). unfold gratio. rewrite (vgam nu HN). change (vadd (Fin nu) (Fin (1 / 2))) with (Fin (nu + 1 / 2)). rewrite (vgam (nu + 1 / 2)) by lra. apply vdiv_Fin. lra. Qed.
Lemma mean_fin : mean nu l s = Fin (l + s * Mn 1).
Proof. assert (0 < sqrt nu) by (apply sqrt_lt_R0; auto). rewrite (qM1 nu nu HN). start. rewrite gratio_fin. veval. reflexivity. Qed.
Lemma mean_ok : mean_is (fun x => pdf x nu l s) l p_infty (mean nu l s).
Proof. apply (LSM lsm_mean 1); auto. apply mean_fin. Qed.
Lemma var_ok : var_is (fun x => pdf x nu l s) l p_infty (mean nu l s) (var nu l s).
Proof.
  apply (LSM lsm_var 2); auto; [apply mean_fin|]. start. rewrite gratio_fin. veval. f_equal.
  unfold mvar. rewrite (qM1 nu nu HN), (qM2 nu nu HN HN). assert (0 < sqrt nu) by (apply sqrt_lt_R0; auto). pose proof (Gamma_pos nu HN). 
  replace ((Gamma (nu + 1 / 2) / Gamma nu / sqrt nu) ^ 2) with ((Gamma (nu + 1 / 2) / Gamma nu) ^ 2 / (sqrt nu ^ 2)) by (field; lra). rewrite pow2_sqrt by lra. field. lra.
Qed.
Lemma entropy_ok : entropy_is (fun x => pdf x nu l s) l p_infty (entropy nu l s).
Proof.
  apply (ls_entropy_is 0 p_infty F f Q (qST nu nu HN HN) l s (fun x => pdf x nu l s) l p_infty HS elo eq_refl pdf_in _ _ (q_entropy nu nu HN HN)).
  start. rewrite (vlgam nu HN), (vdig nu HN). veval. f_equal. ring.
Qed.
(** C35, C36 *)
Lemma core' : core (fun x => cdf x nu l s) (fun x => sf x nu l s) l p_infty (fun x => F ((x - l) / s)). Proof. apply (ce_core _ _ _ _ _ _ _ _ _ _ _ CERT). Qed.
Lemma low (x : R) : x <= l -> cdf x nu l s = Fin 0 /\ sf x nu l s = Fin 1. Proof. intros H. apply (co_below _ _ _ _ _ core' x H). Qed.
Lemma within0 x : 0 <= l -> inside l p_infty x -> within (Fin 0) PInf x.
Proof. intros L [H _]. simpl in H. split; simpl; [lra|auto]. Qed.
Lemma invcdf_ok : 0 <= l -> solves (fun x => cdf x nu l s) (fun fr fuel p => invcdf fr fuel p nu l s) l p_infty.
Proof.
  intros L. apply (solves_ext _ _ (fun fr fuel p => match find_bracket fuel (fun x => cdf x nu l s) p (Fin 0) PInf None with Err e => Exc e | Ok x => fr (fun t => vsub (cdf t nu l s) p) x end)).
  - intros fr fuel p P. unfold invcdf, validate_params, validate_p. veval. reflexivity.
  - apply (cert_call_cdf CERT); [apply low; auto|apply (co_pinf _ _ _ _ _ core')|intros x; apply within0; auto].
Qed.
Lemma invsf_ok : 0 <= l -> solves (fun x => sf x nu l s) (fun fr fuel p => invsf fr fuel p nu l s) l p_infty.
Proof.
  intros L. apply (solves_ext _ _ (fun fr fuel p => match find_bracket fuel (fun x => sf x nu l s) p (Fin 0) PInf None with Err e => Exc e | Ok x => fr (fun t => vsub (sf t nu l s) p) x end)).
  - intros fr fuel p P. unfold invsf, validate_params, validate_p. veval. reflexivity.
  - apply (cert_call_sf CERT); [apply low; auto|apply (co_pinf _ _ _ _ _ core')|intros x; apply within0; auto].
Qed.
(** C64 *)
Lemma cdf_total (x : R) : exists g, cdf x nu l s = Fin g /\ sf x nu l s = Fin (1 - g).
Proof.
  destruct (Rle_lt_dec x l) as [H|H].
  - exists 0. rewrite Rminus_0_r. apply low; auto.
  - exists (F ((x - l) / s)). apply (co_in _ _ _ _ _ core'). split; simpl; auto.
Qed.
Lemma inv_sound fr fuel (p x : R) : checked_solver fr -> (invcdf fr fuel p nu l s = Fin x -> cdf x nu l s = Fin p) /\ (invsf fr fuel p nu l s = Fin x -> sf x nu l s = Fin p).
Proof.
  intros CS. unfold invcdf, invsf, validate_params, validate_p. veval. destruct (cdf_total x) as (g & G & G').
  split; (destruct (cor _ _) as [[|]|e]; cbn [cif]; try discriminate; destruct (find_bracket _ _ _ _ _ _) as [[x0 x1]|e]; [|discriminate]; intros H; apply CS in H; cbv beta in H).
  - rewrite G in *. injection H as H. f_equal. lra.
  - rewrite G' in *. injection H as H. f_equal. lra.
Qed.
(** C45 *)
Lemma is_chi (x : R) : l <= x -> cdf x nu l s = M_chi.cdf (Fin (sqrt (2 * nu) * ((x - l) / s))) (Fin (2 * nu)) /\ sf x nu l s = M_chi.sf (Fin (sqrt (2 * nu) * ((x - l) / s))) (Fin (2 * nu)).
Proof.
  assert (S2 : 0 < sqrt (2 * nu)) by (apply sqrt_lt_R0; lra). intros [X| <-].
  - pose proof (z_pos x X) as Z. assert (0 < sqrt (2 * nu) * ((x - l) / s)) by (apply Rmult_lt_0_compat; auto).
    assert (E : (sqrt (2 * nu) * ((x - l) / s)) ^ 2 / 2 = nu * ((x - l) / s) ^ 2) by (rewrite Rpow_mult_distr, pow2_sqrt by lra; field; lra).
    start. unfold M_chi.cdf, M_chi.sf, M_chi.validate_k. veval. rewrite E. replace (2 * nu / 2) with nu by field. auto.
  - replace (sqrt (2 * nu) * ((l - l) / s)) with 0 by (field; lra). start. unfold M_chi.cdf, M_chi.sf, M_chi.validate_k. veval. auto.
Qed.
End P.

Lemma loc_scale nu : 0 < nu -> loc_scale_law3 (fun x => pdf x nu) (fun x => cdf x nu) (fun x => sf x nu) 0 p_infty.
Proof.
  intros H. apply (loc_scale3_from_cert (fun x => pdf x nu) (fun x => logpdf x nu) (fun x => cdf x nu) (fun x => sf x nu) 0 p_infty (qF nu nu) (qf nu nu) (qQ nu nu)).
  intros l s S. simpl. replace (l + s * 0) with l by ring. apply CERT; auto.
Qed.
Lemma bad_params fr fuel nu l s : isnum nu -> isnum s -> nonpositive nu \/ nonpositive s -> support nu l s = Err ValueError /\
  always_ValueError [ fun x => pdf x nu l s; fun x => logpdf x nu l s; fun x => cdf x nu l s; fun x => sf x nu l s;
    fun p => invcdf fr fuel p nu l s; fun p => invsf fr fuel p nu l s;
    fun _ => mean nu l s; fun _ => mode nu l s; fun _ => var nu l s; fun _ => entropy nu l s; fun x => nll [x] nu l s;
    fun x => nll_grad_nu [x] nu l s; fun x => nll_grad_loc [x] nu l s; fun x => nll_grad_scale [x] nu l s ].
Proof.
  intros A A' B. unfold support, pdf, logpdf, cdf, sf, invcdf, invsf, mean, mode, var, entropy, nll, nll_grad_nu, nll_grad_loc, nll_grad_scale.
  split; [|all_ve; intros x Hx]; rewrite ?validate_bad by auto; try reflexivity; apply vpp_pass; auto.
Qed.
(** C49 *)
Section Data.
Variable xs : list R.
Notation N := (INR (length xs)).
Definition rnll (nu l s : R) := - (N * (ln 2 + nu * ln nu - loggamma nu - ln s) + (2 * nu - 1) * rsum (map (fun x => ln ((x - l) / s)) xs) - nu * rsum (map (fun x => ((x - l) / s) ^ 2) xs)).
Lemma xb {A} `{CanRaise A} (l : R) (k : A) : (forall x, In x xs -> l < x) -> validate_x_bounds (map Fin xs) (Some (Fin l)) None true false k = k.
Proof. intros HX. apply vxb_pass. intros x I. simpl. auto. Qed.
Lemma nll_fin nu l s : 0 < nu -> 0 < s -> (forall x, In x xs -> l < x) -> nll (map Fin xs) (Fin nu) (Fin l) (Fin s) = Fin (rnll nu l s).
Proof.
  intros HN HS HX. unfold nll, validate_params. rewrite xb by auto. rewrite (vlgam nu HN). rewrite !map_map.
  rewrite (vfsum_map _ (fun x => ln ((x - l) / s))) by (intros x I; pose proof (z_pos l s HS x (HX x I)); veval; reflexivity).
  rewrite (vfsum_map _ (fun x => ((x - l) / s) ^ 2)) by (intros x I; pose proof (z_pos l s HS x (HX x I)); veval; reflexivity).
  unfold vlen. rewrite map_length. veval. reflexivity.
Qed.
Definition rlogpdf (nu l s x : R) := ln 2 + nu * ln nu - loggamma nu + (2 * nu - 1) * ln ((x - l) / s) - nu * ((x - l) / s) ^ 2 - ln s.
Lemma nll_ok nu l s : 0 < nu -> 0 < s -> (forall x, In x xs -> l < x) -> nll (map Fin xs) (Fin nu) (Fin l) (Fin s) = vneg (loglik (fun x => logpdf x (Fin nu) (Fin l) (Fin s)) xs).
Proof.
  intros HN HS HX. rewrite nll_fin by auto. rewrite (loglik_fin _ (rlogpdf nu l s)).
  - simpl. f_equal. unfold rnll. f_equal. change sum with rsum. unfold rlogpdf. rewrite !rsum_minus, rsum_plus, !rsum_scal, !rsum_const. ring.
  - intros x I. pose proof (z_pos l s HS x (HX x I)). specialize (HX x I). unfold logpdf, validate_params. rewrite (vlgam nu HN). veval. reflexivity.
Qed.
Lemma nll_bad nu l s : 0 < nu -> 0 < s -> (exists x, In x xs /\ x <= l) -> nll (map Fin xs) (Fin nu) (Fin l) (Fin s) = Exc ValueError.
Proof. intros K S H. unfold nll, validate_params. veval. apply vxb_low. exact H. Qed.
(** C73: nll_grad *)
Lemma der_rsum (f f' : R -> R -> R) t (ys : list R) : (forall x, In x ys -> is_derive (f x) t (f' x t)) -> is_derive (fun t => rsum (map (fun x => f x t) ys)) t (rsum (map (fun x => f' x t) ys)).
Proof.
  induction ys as [|y ys IH]; intros H; [apply (is_derive_const 0)|]. cbn [map]. rewrite rsum_cons. apply (is_derive_ext (fun t => f y t + rsum (map (fun x => f x t) ys))); [intros; rewrite rsum_cons; auto|].
  apply (is_derive_plus (f y)); [apply H; left; auto|apply IH; intros; apply H; right; auto].
Qed.
Lemma gap (l : R) : (forall x, In x xs -> l < x) -> exists e, 0 < e /\ forall x, In x xs -> l + e <= x.
Proof.
  induction xs as [|y ys IH]; intros H; [exists 1; split; [lra|intros x []]|]. destruct IH as (e & E & G); [intros; apply H; right; auto|].
  pose proof (H y (or_introl eq_refl)) as Y. exists (Rmin e (y - l)). split; [apply Rmin_case; lra|]. intros x [<-|I]; [pose proof (Rmin_r e (y - l)); lra|]. pose proof (Rmin_l e (y - l)). specialize (G x I). lra.
Qed.
Lemma near (g : R -> val) (h : R -> R) x d (e : R) : 0 < e -> (forall t, Rabs (t - x) < e -> g t = Fin (h t)) -> is_derive h x d -> is_derive (fun t => toR (g t)) x d.
Proof.
  intros X E. apply is_derive_ext_loc. exists (mkposreal e X). intros y Hy. unfold ball in Hy; simpl in Hy; unfold AbsRing_ball, abs, minus, plus, opp in Hy; simpl in Hy.
  rewrite E by auto. reflexivity.
Qed.
Lemma grad_ok nu l s : 0 < nu -> 0 < s -> (forall x, In x xs -> l < x) -> exists g1 g2 g3,
  nll_grad_nu (map Fin xs) (Fin nu) (Fin l) (Fin s) = Fin g1 /\ nll_grad_loc (map Fin xs) (Fin nu) (Fin l) (Fin s) = Fin g2 /\ nll_grad_scale (map Fin xs) (Fin nu) (Fin l) (Fin s) = Fin g3 /\
  is_derive (fun t => toR (nll (map Fin xs) (Fin t) (Fin l) (Fin s))) nu g1 /\ is_derive (fun t => toR (nll (map Fin xs) (Fin nu) (Fin t) (Fin s))) l g2 /\
  is_derive (fun t => toR (nll (map Fin xs) (Fin nu) (Fin l) (Fin t))) s g3.
Proof.
  intros HN HS HX. assert (S2 : 0 < s ^ 2) by (apply pow_lt; auto).
  exists (- (N * (1 + ln nu - digamma nu) + 2 * rsum (map (fun x => ln ((x - l) / s)) xs) - rsum (map (fun x => (x - l) ^ 2) xs) / s ^ 2)),
    (- (- (2 * nu - 1) * rsum (map (fun x => 1 / (x - l)) xs) + 2 * nu * rsum (map (fun x => x - l) xs) / s ^ 2)),
    (- (2 * nu / s * (- N + rsum (map (fun x => (x - l) ^ 2) xs) / s ^ 2))).
  assert (SS : forall t, t <> 0 -> rsum (map (fun x => ((x - l) / t) ^ 2) xs) = rsum (map (fun x => (x - l) ^ 2) xs) / t ^ 2).
  { intros t T. rewrite <- rsum_div. apply rsum_ext. intros x I. field. auto. }
  split; [|split; [|split; [|split; [|split]]]].
  - unfold nll_grad_nu, validate_params. rewrite xb by auto. rewrite (vdig nu HN). rewrite !map_map.
    rewrite (vfsum_map _ (fun x => ln ((x - l) / s))) by (intros x I; pose proof (z_pos l s HS x (HX x I)); veval; reflexivity).
    rewrite (vfsum_map _ (fun x => (x - l) ^ 2)) by (intros x I; veval; reflexivity). unfold vlen. rewrite map_length. veval. reflexivity.
  - unfold nll_grad_loc, validate_params. rewrite xb by auto. rewrite !map_map.
    rewrite (vfsum_map _ (fun x => 1 / (x - l))) by (intros x I; specialize (HX x I); veval; reflexivity).
    rewrite (vfsum_map _ (fun x => x - l)) by (intros x I; veval; reflexivity). veval. reflexivity.
  - unfold nll_grad_scale, validate_params. rewrite xb by auto. rewrite !map_map.
    rewrite (vfsum_map _ (fun x => (x - l) ^ 2)) by (intros x I; veval; reflexivity). unfold vlen. rewrite map_length. veval. reflexivity.
  - apply (near _ (fun t => rnll t l s) nu _ nu HN); [intros t T; apply Rabs_def2 in T; apply nll_fin; auto; lra|]. unfold rnll. rewrite SS by lra.
    set (A := rsum (map (fun x => ln ((x - l) / s)) xs)). set (B := rsum (map (fun x => (x - l) ^ 2) xs)). generalize N. intros n.
    apply (is_derive_ext (fun t => (- (n * (ln 2 + t * ln t - ln s) + (2 * t - 1) * A - t * (B / s ^ 2))) + n * loggamma t)); [intros t; simpl; ring|].
    evar_last; [apply (is_derive_plus (fun t => - (n * (ln 2 + t * ln t - ln s) + (2 * t - 1) * A - t * (B / s ^ 2))) (fun t => n * loggamma t)); [auto_derive; [auto|reflexivity]|apply (is_derive_scal loggamma); apply loggamma_digamma; auto]|].
    unfold plus, scal; simpl. unfold mult; simpl. field. lra.
  - destruct (gap l HX) as (e & E & G). apply (near _ (fun t => rnll nu t s) l _ e E); [intros t T; apply Rabs_def2 in T; apply nll_fin; auto; intros x I; specialize (G x I); lra|]. unfold rnll. generalize N. intros n.
    evar_last.
    + apply (is_derive_opp (fun t => n * (ln 2 + nu * ln nu - loggamma nu - ln s) + (2 * nu - 1) * rsum (map (fun x => ln ((x - t) / s)) xs) - nu * rsum (map (fun x => ((x - t) / s) ^ 2) xs))).
      apply (is_derive_minus (fun t => n * (ln 2 + nu * ln nu - loggamma nu - ln s) + (2 * nu - 1) * rsum (map (fun x => ln ((x - t) / s)) xs)) (fun t => nu * rsum (map (fun x => ((x - t) / s) ^ 2) xs))).
      * apply (is_derive_plus (fun t => n * (ln 2 + nu * ln nu - loggamma nu - ln s)) (fun t => (2 * nu - 1) * rsum (map (fun x => ln ((x - t) / s)) xs))); [apply is_derive_const|].
        apply (is_derive_scal (fun t => rsum (map (fun x => ln ((x - t) / s)) xs))). apply (der_rsum (fun x t => ln ((x - t) / s)) (fun x t => -1 * (1 / (x - t)))).
        intros x I. specialize (HX x I). pose proof (z_pos l s HS x HX) as Z. unfold Rdiv in *. auto_derive; [repeat split; try exact Z; lra|]. field. lra.
      * apply (is_derive_scal (fun t => rsum (map (fun x => ((x - t) / s) ^ 2) xs))). apply (der_rsum (fun x t => ((x - t) / s) ^ 2) (fun x t => (x - t) * (-2 / s ^ 2))).
        intros x I. auto_derive; [lra|]. field. lra.
    + rewrite rsum_scal, rsum_scal_r. unfold opp, minus, plus, opp, zero; simpl. field. lra.
  - apply (near _ (fun t => rnll nu l t) s _ s HS); [intros t T; apply Rabs_def2 in T; apply nll_fin; auto; lra|].
    apply (is_derive_ext_loc (fun t => - (N * (ln 2 + nu * ln nu - loggamma nu - ln t) + (2 * nu - 1) * (rsum (map (fun x => ln (x - l)) xs) - N * ln t) - nu * (rsum (map (fun x => (x - l) ^ 2) xs) / t ^ 2)))).
    + exists (mkposreal s HS). intros t Ht. unfold ball in Ht; simpl in Ht; unfold AbsRing_ball, abs, minus, plus, opp in Ht; simpl in Ht. apply Rabs_def2 in Ht. unfold rnll. rewrite SS by lra.
      do 2 f_equal. f_equal. f_equal. rewrite <- rsum_const, <- rsum_minus. apply rsum_ext. intros x I. specialize (HX x I). rewrite ln_div by lra. reflexivity.
    + generalize (rsum (map (fun x => (x - l) ^ 2) xs)). intros b. auto_derive; [repeat split; auto; nra|]. field. lra.
Qed.
(** C47 *)
Section Mle.
Variable l : R.
Hypothesis NE : xs <> [].
Hypothesis HX : forall x, In x xs -> l < x.
Definition B := average (map (fun x => (x - l) ^ 2) xs).
Definition L := average (map (fun x => ln (x - l)) xs).
Lemma NP : 0 < N. Proof. apply length_pos; auto. Qed.
Lemma BP : 0 < B.
Proof.
  pose proof NP. unfold B, average. rewrite map_length. apply Rdiv_pos; auto. change sum with rsum. apply rsum_pos; auto. intros x I. apply pow_lt. specialize (HX x I). lra.
Qed.
Lemma lnz s : 0 < s -> rsum (map (fun x => ln ((x - l) / s)) xs) = N * (L - ln s).
Proof.
  intros S. pose proof NP. unfold L, average. rewrite map_length. change sum with rsum.
  replace (N * (rsum (map (fun x => ln (x - l)) xs) / N - ln s)) with (rsum (map (fun x => ln (x - l)) xs) - N * ln s) by (field; lra).
  rewrite <- rsum_const, <- rsum_minus. apply rsum_ext. intros x I. specialize (HX x I). rewrite ln_div by lra. reflexivity.
Qed.
Lemma sqz s : 0 < s -> rsum (map (fun x => ((x - l) / s) ^ 2) xs) = N * (B / s ^ 2).
Proof.
  intros S. pose proof NP. assert (0 < s ^ 2) by (apply pow_lt; auto). unfold B, average. rewrite map_length. change sum with rsum.
  replace (N * (rsum (map (fun x => (x - l) ^ 2) xs) / N / s ^ 2)) with (rsum (map (fun x => (x - l) ^ 2) xs) / s ^ 2) by (field; lra).
  rewrite <- rsum_div. apply rsum_ext. intros x I. field. lra.
Qed.
Lemma rnll_eq nu s : 0 < s -> rnll nu l s = N * (loggamma nu - nu * ln nu + nu * (2 * ln s + B / s ^ 2) - (2 * nu - 1) * L - ln 2).
Proof. intros S. unfold rnll. rewrite lnz, sqz by auto. ring. Qed.
Lemma scale_ineq s : 0 < s -> 1 + ln B <= 2 * ln s + B / s ^ 2.
Proof.
  intros S. pose proof BP as BP. assert (S2 : 0 < s ^ 2) by (apply pow_lt; auto). pose proof (ln_ineq (B / s ^ 2) (Rdiv_pos _ _ BP S2)) as I. rewrite ln_div in I by auto. rewrite (ln_pow s 2) in I by auto. simpl INR in I. lra.
Qed.
Lemma mle_scale_val : vsqrt (vdiv (vfsum (map (fun t => vpown t 2) (map (fun t => vsub t (Fin l)) (map Fin xs)))) (vlen (map (fun t => vsub t (Fin l)) (map Fin xs)))) = Fin (sqrt B).
Proof.
  pose proof NP. pose proof BP. rewrite !map_map. unfold vlen. rewrite map_length. rewrite (vfsum_map _ (fun x => (x - l) ^ 2)) by (intros x I; veval; reflexivity). rewrite vdiv_Fin by lra.
  replace (rsum (map (fun x => (x - l) ^ 2) xs) / N) with B by (unfold B, average; rewrite map_length; auto). apply vsqrt_Fin. lra.
Qed.
Lemma SB : 0 < sqrt B. Proof. apply sqrt_lt_R0, BP. Qed.
Lemma at_B nu : rnll nu l (sqrt B) = N * (loggamma nu - nu * ln nu + nu * (1 + ln B) - (2 * nu - 1) * L - ln 2).
Proof.
  pose proof BP as BP. pose proof SB. rewrite rnll_eq by auto. rewrite pow2_sqrt by lra. replace (B / B) with 1 by (field; lra).
  replace (2 * ln (sqrt B)) with (ln B); [ring|]. rewrite <- (sqrt_sqrt B) at 1 by lra. rewrite ln_mult by auto. ring.
Qed.
Lemma mle_scale_opt fr nu : 0 < nu -> exists s, mle fr (map Fin xs) (Some (Fin nu)) (Some (Fin l)) None = Ok (Fin nu, Fin l, Fin s) /\
  minimises (fun s => 0 < s) (fun s => nll (map Fin xs) (Fin nu) (Fin l) (Fin s)) s.
Proof.
  intros K. pose proof SB as SB. exists (sqrt B). split.
  - unfold mle. rewrite xb by auto. rewrite mle_scale_val. reflexivity.
  - split; auto. eexists. split; [apply nll_fin; auto|]. intros s S. eexists. split; [apply nll_fin; auto|]. rewrite at_B, rnll_eq by auto. apply Rmult_le_compat_l; [left; apply NP|]. pose proof (scale_ineq s S). nra.
Qed.
Lemma root_nu nu (r : R) : mle_nu_func (Fin nu) (Fin r) = Fin 0 -> 0 < nu /\ ln nu - digamma nu = r.
Proof.
  unfold mle_nu_func, vlog, vdigamma. destruct (Rltb_spec 0 nu) as [[P ->]|[P ->]].
  - intros E. injection E as E. split; auto. lra.
  - destruct (Reqb nu 0); discriminate.
Qed.
Lemma nu_opt nu s : 0 < nu -> 0 < s -> ln nu - digamma nu = 2 * ln s + B / s ^ 2 - 2 * L - 1 ->
  minimises (fun nu => 0 < nu) (fun nu => nll (map Fin xs) (Fin nu) (Fin l) (Fin s)) nu.
Proof.
  intros K S E. split; auto. eexists. split; [apply nll_fin; auto|]. intros b Hb. eexists. split; [apply nll_fin; auto|]. rewrite !rnll_eq by auto. apply Rmult_le_compat_l; [left; apply NP|].
  pose proof (gdual_tangent nu b K Hb) as T. nra.
Qed.
Lemma both_opt nu : 0 < nu -> ln nu - digamma nu = ln B - 2 * L ->
  minimises (fun '(nu, s) => 0 < nu /\ 0 < s) (fun '(nu, s) => nll (map Fin xs) (Fin nu) (Fin l) (Fin s)) (nu, sqrt B).
Proof.
  intros K E. pose proof SB as SB. split; auto. eexists. split; [apply nll_fin; auto|]. intros [b s] [Hb S]. eexists. split; [apply nll_fin; auto|].
  apply Rle_trans with (rnll b l (sqrt B)).
  - rewrite !at_B. apply Rmult_le_compat_l; [left; apply NP|]. pose proof (gdual_tangent nu b K Hb) as T. nra.
  - rewrite at_B, rnll_eq by auto. apply Rmult_le_compat_l; [left; apply NP|]. pose proof (scale_ineq s S). nra.
Qed.
Lemma m2 s : 0 < s -> M_basic.mean (map (fun t => vmul (Fin 2) (vlog (vdiv t (Fin s)))) (map (fun t => vsub t (Fin l)) (map Fin xs))) None = Fin (2 * (L - ln s)).
Proof.
  intros S. pose proof NP. unfold M_basic.mean, vlen. rewrite !map_map, map_length. rewrite (vfsum_map _ (fun x => 2 * ln ((x - l) / s))) by (intros x I; pose proof (z_pos l s S x (HX x I)); veval; reflexivity).
  rewrite vdiv_Fin by lra. f_equal. rewrite rsum_scal, lnz by auto. field. lra.
Qed.
Lemma msq s : 0 < s -> M_basic.mean (map (fun t => vpown (vdiv t (Fin s)) 2) (map (fun t => vsub t (Fin l)) (map Fin xs))) None = Fin (B / s ^ 2).
Proof.
  intros S. pose proof NP. unfold M_basic.mean, vlen. rewrite !map_map, map_length. rewrite (vfsum_map _ (fun x => ((x - l) / s) ^ 2)) by (intros x I; veval; reflexivity).
  rewrite vdiv_Fin by lra. f_equal. rewrite sqz by auto. field. lra.
Qed.
Lemma est_raise r : (exists e, estimate_nu (Fin r) = Exc e) \/ exists v, estimate_nu (Fin r) = Fin v.
Proof.
  unfold estimate_nu. change (cge (Fin r) (Fin 10)) with (CB (Rleb 10 r)). change (clt (Fin r) (Fin (1 / 2))) with (CB (Rltb r (1 / 2))). destruct (Rleb 10 r), (Rltb r (1 / 2)); cbn [cif].
  all: match goal with |- context [vdiv (Fin 1) (vmul (Fin ?u) (Fin ?v))] => change (vmul (Fin u) (Fin v)) with (Fin (u * v)) | _ => idtac end.
  all: unfold vdiv; match goal with |- context [Reqb ?u 0] => destruct (Reqb u 0) end; eauto.
Qed.
Lemma mle_nu_opt fr nu s : checked_solver1 fr -> 0 < s -> mle fr (map Fin xs) None (Some (Fin l)) (Some (Fin s)) = Ok (Fin nu, Fin l, Fin s) ->
  minimises (fun nu => 0 < nu) (fun nu => nll (map Fin xs) (Fin nu) (Fin l) (Fin s)) nu.
Proof.
  intros CS S. unfold mle. rewrite xb by auto. cbn [bindv]. rewrite msq, m2 by auto. change (vsub (vsub (Fin (B / s ^ 2)) (Fin (2 * (L - ln s)))) (Fin 1)) with (Fin (B / s ^ 2 - 2 * (L - ln s) - 1)). cbn [bindv].
  destruct (est_raise (B / s ^ 2 - 2 * (L - ln s) - 1)) as [[e ->]|[v ->]]; cbn [bindv]; [discriminate|].
  match goal with |- context [fr ?g ?x] => destruct (fr g x) as [r| | | |] eqn:E end; cbn [bindv]; try discriminate. intros H. injection H as ->.
  apply CS in E. apply root_nu in E. destruct E as [K E]. apply nu_opt; auto. lra.
Qed.
Lemma mle_both_opt fr nu s : checked_solver1 fr -> mle fr (map Fin xs) None (Some (Fin l)) None = Ok (Fin nu, Fin l, Fin s) ->
  minimises (fun '(nu, s) => 0 < nu /\ 0 < s) (fun '(nu, s) => nll (map Fin xs) (Fin nu) (Fin l) (Fin s)) (nu, s).
Proof.
  intros CS. pose proof SB as SB. unfold mle. rewrite xb by auto. rewrite mle_scale_val. cbn [bindv]. rewrite m2 by auto. change (vneg (Fin (2 * (L - ln (sqrt B))))) with (Fin (- (2 * (L - ln (sqrt B))))). cbn [bindv].
  destruct (est_raise (- (2 * (L - ln (sqrt B))))) as [[e ->]|[v ->]]; cbn [bindv]; [discriminate|].
  match goal with |- context [fr ?g ?x] => destruct (fr g x) as [r| | | |] eqn:E end; cbn [bindv]; try discriminate. intros H. injection H as -> <-.
  apply CS in E. apply root_nu in E. destruct E as [K E]. apply both_opt; auto. rewrite E.
  pose proof BP. assert (X : ln B = 2 * ln (sqrt B)) by (rewrite <- (sqrt_sqrt B) at 1 by lra; rewrite ln_mult by auto; ring). rewrite X. ring.
Qed.
End Mle.
End Data.
(** The lifted statements. *)
Lemma c47_scale fr xs l nu : xs <> [] -> (forall x, In x xs -> l < x) -> 0 < nu -> exists s, mle fr (map Fin xs) (Some (Fin nu)) (Some (Fin l)) None = Ok (Fin nu, Fin l, Fin s) /\
  minimises (fun s => 0 < s) (fun s => nll (map Fin xs) (Fin nu) (Fin l) (Fin s)) s.
Proof. intros. apply mle_scale_opt; auto. Qed.
Lemma c47_nu fr xs l nu s : xs <> [] -> (forall x, In x xs -> l < x) -> checked_solver1 fr -> 0 < s ->
  mle fr (map Fin xs) None (Some (Fin l)) (Some (Fin s)) = Ok (Fin nu, Fin l, Fin s) ->
  minimises (fun nu => 0 < nu) (fun nu => nll (map Fin xs) (Fin nu) (Fin l) (Fin s)) nu.
Proof. intros A B' C' D. apply mle_nu_opt; auto. Qed.
Lemma c47_both fr xs l nu s : xs <> [] -> (forall x, In x xs -> l < x) -> checked_solver1 fr ->
  mle fr (map Fin xs) None (Some (Fin l)) None = Ok (Fin nu, Fin l, Fin s) ->
  minimises (fun '(nu, s) => 0 < nu /\ 0 < s) (fun '(nu, s) => nll (map Fin xs) (Fin nu) (Fin l) (Fin s)) (nu, s).
Proof. intros A B' C'. apply mle_both_opt; auto. Qed.
Lemma c49_ok xs nu l s : 0 < nu -> 0 < s -> (forall x, In x xs -> l < x) -> nll (map Fin xs) (Fin nu) (Fin l) (Fin s) = vneg (loglik (fun x => logpdf x (Fin nu) (Fin l) (Fin s)) xs).
Proof. apply nll_ok. Qed.
Lemma c49_bad xs nu l s : 0 < nu -> 0 < s -> (exists x, In x xs /\ x <= l) -> nll (map Fin xs) (Fin nu) (Fin l) (Fin s) = Exc ValueError.
Proof. apply nll_bad. Qed.
Lemma c73_grad xs nu l s : 0 < nu -> 0 < s -> (forall x, In x xs -> l < x) -> exists g1 g2 g3,
  nll_grad_nu (map Fin xs) (Fin nu) (Fin l) (Fin s) = Fin g1 /\ nll_grad_loc (map Fin xs) (Fin nu) (Fin l) (Fin s) = Fin g2 /\ nll_grad_scale (map Fin xs) (Fin nu) (Fin l) (Fin s) = Fin g3 /\
  is_derive (fun t => toR (nll (map Fin xs) (Fin t) (Fin l) (Fin s))) nu g1 /\ is_derive (fun t => toR (nll (map Fin xs) (Fin nu) (Fin t) (Fin s))) l g2 /\
  is_derive (fun t => toR (nll (map Fin xs) (Fin nu) (Fin l) (Fin t))) s g3.
Proof. apply grad_ok. Qed.
(** A checked solver with which mle returns. *)
Definition solver_at (q : R) (g : val -> val) (_ : val) : val :=
  match g (Fin q) with Fin r => if Reqb r 0 then Fin q else NaN | _ => NaN end.
Lemma solver_checked q : checked_solver1 (solver_at q).
Proof.
  intros g x0 r. unfold solver_at. destruct (g (Fin q)) as [u| | | |] eqn:E; try discriminate. destruct (Reqb_spec u 0) as [[L ->]|[L ->]]; [|discriminate]. intros H. injection H as <-. rewrite E, L. auto.
Qed.
Lemma solver_root k r : 0 < k -> ln k - digamma k = r -> solver_at k (fun nu => mle_nu_func nu (Fin r)) = fun _ => Fin k.
Proof.
  intros K E. unfold solver_at, mle_nu_func. rewrite (vdig k K), vlog_Fin by auto. change (vsub (vsub (Fin (ln k)) (Fin (digamma k))) (Fin r)) with (Fin (ln k - digamma k - r)). cbv iota. rewrite Reqb_true by lra. reflexivity.
Qed.
Lemma est_pos r : 0 < r -> exists v, estimate_nu (Fin r) = Fin v.
Proof. intros H. unfold estimate_nu. change (cge (Fin r) (Fin 10)) with (CB (Rleb 10 r)). change (clt (Fin r) (Fin (1 / 2))) with (CB (Rltb r (1 / 2))). destruct (Rleb 10 r), (Rltb r (1 / 2)); cbn [cif]; veval; eauto. Qed.
Lemma data12 : [1; 2] <> [] /\ forall x, In x [1; 2] -> 0 < x.
Proof. split; [discriminate|]. simpl. intros x [<-|[<-|[]]]; lra. Qed.
Lemma c47_both_case : exists fr nu s, checked_solver1 fr /\ mle fr (map Fin [1; 2]) None (Some (Fin 0)) None = Ok (Fin nu, Fin 0, Fin s).
Proof.
  destruct data12 as [NE HX]. pose proof (SB [1; 2] 0 NE HX) as SB. set (b := sqrt (B [1; 2] 0)) in *.
  assert (EB : B [1; 2] 0 = 5 / 2) by (unfold B, average; simpl; field). assert (EL : L [1; 2] 0 = ln 2 / 2) by (unfold L, average; simpl; rewrite !Rminus_0_r, ln_1; field).
  assert (RP : 0 < - (2 * (L [1; 2] 0 - ln b))).
  { rewrite EL. assert (X : ln (B [1; 2] 0) = 2 * ln b). { unfold b. rewrite <- (sqrt_sqrt (B [1; 2] 0)) at 1 by (rewrite EB; lra). rewrite ln_mult by auto. ring. }
    rewrite EB in X. assert (ln 2 < ln (5 / 2)) by (apply ln_increasing; lra). lra. }
  destruct (lndig_onto _ RP) as (k & K & E). destruct (est_pos _ RP) as [v V].
  exists (solver_at k), k, b. split; [apply solver_checked|]. unfold mle. rewrite xb by auto. rewrite mle_scale_val by auto. fold b. cbn [bindv]. rewrite m2 by auto.
  change (vneg (Fin (2 * (L [1; 2] 0 - ln b)))) with (Fin (- (2 * (L [1; 2] 0 - ln b)))). cbn [bindv]. rewrite V. cbn [bindv]. rewrite (solver_root k _ K E). reflexivity.
Qed.
Lemma c47_nu_case : exists fr nu, checked_solver1 fr /\ mle fr (map Fin [1; 2]) None (Some (Fin 0)) (Some (Fin 1)) = Ok (Fin nu, Fin 0, Fin 1).
Proof.
  destruct data12 as [NE HX].
  assert (EB : B [1; 2] 0 = 5 / 2) by (unfold B, average; simpl; field). assert (EL : L [1; 2] 0 = ln 2 / 2) by (unfold L, average; simpl; rewrite !Rminus_0_r, ln_1; field).
  assert (RP : 0 < B [1; 2] 0 / 1 ^ 2 - 2 * (L [1; 2] 0 - ln 1) - 1).
  { rewrite EB, EL, ln_1. pose proof (ln_ineq 2 ltac:(lra)). lra. }
  destruct (lndig_onto _ RP) as (k & K & E). destruct (est_pos _ RP) as [v V].
  exists (solver_at k), k. split; [apply solver_checked|]. unfold mle. rewrite xb by auto. cbn [bindv]. rewrite msq, m2 by (auto; lra).
  change (vsub (vsub (Fin (B [1; 2] 0 / 1 ^ 2)) (Fin (2 * (L [1; 2] 0 - ln 1)))) (Fin 1)) with (Fin (B [1; 2] 0 / 1 ^ 2 - 2 * (L [1; 2] 0 - ln 1) - 1)). cbn [bindv]. rewrite V. cbn [bindv]. rewrite (solver_root k _ K E). reflexivity.
Qed.
