(** Proofs about M_maxwell. *)
From Coq Require Import Reals Lra Lia List.
From Coquelicot Require Import Coquelicot.
From Verif Require Import Values VTac Spec RLib LimLib LLib DistLib DistLS IntLib SubLib MomLib LSMom LSMom2 PLib M_common SpecStat SpecEst SpecLS SpecRoot SpecBracket SpecInv SpecEuler
  SFun GammaLib GammaLib2 GammaLib3 GammaLib4 GamLib GamSq EulerLib M_sfun P_sfun M_bracket M_numinv InvLib.
From Verif Require M_chi.
From Verif Require Import M_maxwell.
Import ListNotations.
Local Open Scope R_scope.
Set Bullet Behavior "Strict Subproofs".

Lemma validate_bad {A} `{CanRaise A} l s (c : A) : isnum s -> nonpositive s -> validate_params l s c = raise ValueError.
Proof. intros NA B. change (validate_params l s c) with (validate_positive s c). apply vp_bad; auto. Qed.

Ltac start := unfold pdf, logpdf, cdf, sf, support, mode, var, mean, entropy, validate_params.
Notation a := (3 / 2). Notation c := (1 / 2).
Lemma HA : 0 < a. Proof. lra. Qed.
Lemma HC : 0 < c. Proof. lra. Qed.
Lemma G32 : Gamma a = sqrt PI / 2.
Proof. replace a with (/ 2 + 1) by field. rewrite Gamma_succ by lra. rewrite Gamma_half. field. Qed.
Lemma lg32 : loggamma a = ln PI / 2 - ln 2.
Proof.
  pose proof PI_RGT_0. assert (0 < sqrt PI) by (apply sqrt_lt_R0; auto). unfold loggamma. rewrite G32, ln_div by lra. f_equal. rewrite <- (sqrt_sqrt PI) at 2 by lra. rewrite ln_mult by auto. field.
Qed.
Notation F := (qF a c). Notation f := (qf a c). Notation Q := (qQ a c).
Section P.
Variables l s : R.
Hypothesis HS : 0 < s.
Lemma z_pos x : l < x -> 0 < (x - l) / s. Proof. intros. apply Rdiv_pos; lra. Qed.
Lemma z_pos' x : 0 < (x - l) / s -> l < x.
Proof. intros H. assert (0 < (x - l) / s * s) by nra. unfold Rdiv in H0. rewrite Rmult_assoc, Rinv_l in H0 by lra. lra. Qed.
Lemma pdf_fin (x : R) : l < x -> pdf x l s = Fin (f ((x - l) / s) / s) /\ logpdf x l s = Fin (ln (f ((x - l) / s) / s)).
Proof.
  intros H. pose proof (z_pos x H) as Z. pose proof PI_RGT_0 as PI0. assert (P2 : 0 < 2 / PI) by (apply Rdiv_pos; lra). assert (0 < sqrt (2 / PI)) by (apply sqrt_lt_R0; auto).
  assert (FP := qf_pos a c HA HC _ Z).
  rewrite (ln_div _ s) by auto. rewrite (ln_qf a c HA HC), (qf_ln a c HA HC), lg32 by auto.
  assert (L2 : ln (1 / 2) = - ln 2) by (rewrite ln_div by lra; rewrite ln_1; ring). rewrite L2.
  assert (EQ : ln 2 + 3 / 2 * - ln 2 - (ln PI / 2 - ln 2) = ln (2 / PI) / 2) by (rewrite (ln_div 2 PI) by lra; field). rewrite EQ.
  start. change vpi with (Fin PI). veval. split; f_equal; [|field; lra].
  replace (2 * a - 1) with 2 by field. rewrite <- (sqrt_sqrt (2 / PI)) at 2 by lra. rewrite ln_mult by auto. set (z := (x - l) / s) in *.
  replace ((ln (sqrt (2 / PI)) + ln (sqrt (2 / PI))) / 2 + 2 * ln z - 1 / 2 * z ^ 2) with (ln (sqrt (2 / PI)) + (ln z + ln z) + - z ^ 2 / 2) by field.
  rewrite !exp_plus, !exp_ln by auto. f_equal. ring.
Qed.
Lemma CERT : cert (fun x => pdf x l s) (fun x => logpdf x l s) (fun x => cdf x l s) (fun x => sf x l s)
  (fun p => ideal_cdf Q p l s) (fun p => ideal_sf Q p l s) l p_infty (fun x => F ((x - l) / s)) (fun x => f ((x - l) / s) / s) (fun p => l + s * Q p).
Proof.
  apply (ls_cert 0 p_infty F f Q (qST a c HA HC) l s HS); auto.
  - simpl. f_equal. ring.
  - constructor.
    + intros x [H _]. simpl in H. pose proof (z_pos x H) as Z. assert (0 < ((x - l) / s) ^ 2 / 2) by (assert (0 < ((x - l) / s) ^ 2) by (apply pow_lt; auto); lra). unfold qF. replace (c * ((x - l) / s) ^ 2) with (((x - l) / s) ^ 2 / 2) by (field; lra). start. veval. rewrite (vgl a HA), (vgu a HA) by auto. auto.
    + intros x H. simpl in H. start; veval; auto.
    + intros x [].
    + start. veval. auto.
    + start. veval. rewrite (vgli a HA), (vgui a HA) by auto. auto.
  - intros x [H _]. simpl in H. apply pdf_fin. apply z_pos'; auto.
  - intros x [H|[]]. simpl in H. start. veval. auto.
Qed.
Lemma log_all (x : R) : log_of (fun x => pdf x l s) (fun x => logpdf x l s) x.
Proof.
  revert x. apply (cert_log_ends CERT); intros x E; [|discriminate]. injection E as E; subst x.
  right; left. start. veval. auto.
Qed.
Lemma mode_ok : is_mode (fun x => pdf x l s) (mode l s).
Proof.
  assert (SP : 0 < sqrt 2) by (apply sqrt_lt_R0; lra). assert (X : l < l + s * sqrt 2) by nra. exists (l + s * sqrt 2). eexists. split; [start; veval; reflexivity|]. split; [apply pdf_fin; auto|].
  replace ((l + s * sqrt 2 - l) / s) with (sqrt 2) by (field; lra).
  intros x. destruct (Rle_lt_dec x l) as [L|L].
  - exists 0. split; [start; veval; reflexivity|]. left. apply Rdiv_pos; auto. apply qf_pos; auto; lra.
  - eexists. split; [apply pdf_fin; auto|]. apply Rmult_le_compat_r; [left; pos|]. apply qf_le; auto; try lra; [apply z_pos; auto|]. rewrite pow2_sqrt by lra. apply Rle_ge. right. field. lra.
Qed.
(** C43 *)
Lemma elo : Finite l = ls l s 0. Proof. simpl. f_equal. ring. Qed.
Lemma pdf_in x : inside l p_infty x -> pdf (Fin x) l s = Fin (f ((x - l) / s) / s).
Proof. intros [H _]. simpl in H. apply pdf_fin; auto. Qed.
Notation Mn := (qM a c).
Notation LSM lem N := (lem 0 p_infty F f Q (qST a c HA HC) l s (fun x => pdf x l s) (Finite l) p_infty HS elo eq_refl pdf_in Mn N%nat (fun n _ => q_moment a c HA HC n)).
Lemma Mn1 : Mn 1 = 2 * sqrt (2 / PI).
Proof.
  pose proof PI_RGT_0. rewrite (qM1 a c HC), G32. replace (a + 1 / 2) with (1 + 1) by field. rewrite Gamma_succ, Gamma_1 by lra. replace (1 / 2) with (/ 2) by field. rewrite sqrt_inv by lra.
  unfold Rdiv. rewrite sqrt_mult, sqrt_inv by (try lra; left; pos). assert (0 < sqrt 2) by (apply sqrt_lt_R0; lra). assert (0 < sqrt PI) by (apply sqrt_lt_R0; lra). field. lra.
Qed.
Lemma mean_fin : mean l s = Fin (l + s * Mn 1).
Proof. pose proof PI_RGT_0. assert (0 < 2 / PI) by (apply Rdiv_pos; lra). rewrite Mn1. start. change vpi with (Fin PI). veval. f_equal. ring. Qed.
Lemma mean_ok : mean_is (fun x => pdf x l s) l p_infty (mean l s).
Proof. apply (LSM lsm_mean 1); auto. apply mean_fin. Qed.
Lemma var_ok : var_is (fun x => pdf x l s) l p_infty (mean l s) (var l s).
Proof.
  pose proof PI_RGT_0. assert (0 < 2 / PI) by (apply Rdiv_pos; lra). apply (LSM lsm_var 2); auto; [apply mean_fin|]. start. change vpi with (Fin PI). veval. f_equal.
  unfold mvar. rewrite Mn1, (qM2 a c HA HC). rewrite Rpow_mult_distr, pow2_sqrt by lra. field. lra.
Qed.
Lemma entropy_ok g : euler_constant g -> entropy_is (fun x => pdf x l s) l p_infty (entropy (Fin g) l s).
Proof.
  intros E. apply euler_eq in E. pose proof PI_RGT_0 as PI0. assert (S2 : 0 < sqrt (2 * PI)) by (apply sqrt_lt_R0; lra). assert (SS : 0 < s * sqrt (2 * PI)) by nra.
  apply (ls_entropy_is 0 p_infty F f Q (qST a c HA HC) l s (fun x => pdf x l s) l p_infty HS elo eq_refl pdf_in _ _ (q_entropy a c HA HC)).
  start. change vpi with (Fin PI). veval. f_equal. rewrite digamma_3half, lg32, E, ln_mult by lra.
  assert (LS : ln (sqrt (2 * PI)) = (ln 2 + ln PI) / 2). { rewrite <- ln_mult by lra. rewrite <- (sqrt_sqrt (2 * PI)) at 2 by lra. rewrite ln_mult by lra. field. }
  rewrite LS, ln_div, ln_1 by lra. field.
Qed.
(** C35, C36 *)
Definition both (secant : (val -> val) -> val * val -> val) (newton : (val -> val) -> val -> val) (g : val -> val) (x : val * val) : val :=
  vtry (secant g x) (newton g ((fst x + snd x) / Fin 2)%V).
Lemma both_checked se ne : checked_solver se -> checked_solver1 ne -> checked_solver (both se ne).
Proof. intros S N g x0 x1 r. unfold both, vtry. intros H. destruct (se g (x0, x1)) eqn:E; try discriminate; [injection H as ->; eapply S; eauto|eapply N; eauto]. Qed.
Lemma both_bracket se ne : bracket_solver se -> bracket_solver (both se ne).
Proof. intros B g h x0 x1 A1 A2 A3 A4. destruct (B g h x0 x1 A1 A2 A3 A4) as (r & E & R). exists r. split; auto. unfold both. rewrite E. reflexivity. Qed.
Lemma solves_both func inv inv2 ne lo hi : checked_solver1 ne -> (forall se fuel p, 0 < p < 1 -> inv2 se fuel (Fin p) = inv (both se ne) fuel (Fin p)) ->
  solves func inv lo hi -> solves func inv2 lo hi.
Proof.
  intros N E S p P. destruct (S p P) as (q & n & A & B & C' & D & G). exists q, n. repeat split; auto; try apply A.
  - intros se CS fuel x L. rewrite E by auto. apply D; auto. apply both_checked; auto.
  - intros se BS fuel L. rewrite E by auto. apply G; auto. apply both_bracket; auto.
Qed.
Lemma core' : core (fun x => cdf x l s) (fun x => sf x l s) l p_infty (fun x => F ((x - l) / s)). Proof. apply (ce_core _ _ _ _ _ _ _ _ _ _ _ CERT). Qed.
Lemma low (x : R) : x <= l -> cdf x l s = Fin 0 /\ sf x l s = Fin 1. Proof. intros H. apply (co_below _ _ _ _ _ core' x H). Qed.
Lemma within0 x : 0 <= l -> inside l p_infty x -> within (Fin 0) PInf x.
Proof. intros L [H _]. simpl in H. split; simpl; [lra|auto]. Qed.
Lemma invcdf_ok newton : 0 <= l -> checked_solver1 newton -> solves (fun x => cdf x l s) (fun secant fuel p => invcdf secant newton fuel p l s) l p_infty.
Proof.
  intros L N. apply (solves_both _ (fun fr fuel p => bracket_solve fr fuel None (fun x => cdf x l s) p (Fin 0) PInf) _ newton); auto.
  - intros se fuel p P. unfold invcdf, validate_params, validate_p. veval. unfold bracket_solve. destruct (find_bracket _ _ _ _ _ _) as [[x0 x1]|e]; reflexivity.
  - apply (cert_bracket_cdf CERT); [apply low; auto|apply (co_pinf _ _ _ _ _ core')|intros x; apply within0; auto].
Qed.
Lemma invsf_ok e : 0 <= l -> solves (fun x => sf x l s) (fun secant fuel p => invsf secant (fun _ _ => Exc e) fuel p l s) l p_infty.
Proof.
  intros L. apply (solves_both _ (fun fr fuel p => bracket_solve fr fuel None (fun x => sf x l s) p (Fin 0) PInf) _ (fun _ _ => Exc e)); auto.
  - intros g x r. discriminate.
  - intros se fuel p P. unfold invsf, validate_params, validate_p. veval. unfold bracket_solve. destruct (find_bracket _ _ _ _ _ _) as [[x0 x1]|e']; reflexivity.
  - apply (cert_bracket_sf CERT); [apply low; auto|apply (co_pinf _ _ _ _ _ core')|intros x; apply within0; auto].
Qed.
(** C64 *)
Lemma cdf_total (x : R) : exists g, cdf x l s = Fin g /\ sf x l s = Fin (1 - g).
Proof.
  destruct (Rle_lt_dec x l) as [H|H].
  - exists 0. rewrite Rminus_0_r. apply low; auto.
  - exists (F ((x - l) / s)). apply (co_in _ _ _ _ _ core'). split; simpl; auto.
Qed.
Lemma sub0 g x p : Values.vsub (Fin g) (Fin p) = Fin 0 -> x = Fin g -> x = Fin p.
Proof. intros H ->. injection H as H. f_equal. lra. Qed.
Lemma invcdf_sound secant newton fuel p x : checked_solver secant -> checked_solver1 newton -> 0 < p < 1 -> invcdf secant newton fuel p l s = Fin x -> cdf x l s = Fin p.
Proof.
  intros CS CN P. unfold invcdf, validate_params, validate_p. veval.
  destruct (find_bracket _ _ _ _ _ _) as [[x0 x1]|e] eqn:E; [|discriminate].
  assert (HG : forall y : R, cdf y l s = Fin (toR (cdf y l s))) by (intros y; destruct (cdf_total y) as (g & -> & _); reflexivity).
  assert (NB : cdf PInf l s <> Fin p) by (rewrite (proj1 (co_pinf _ _ _ _ _ core')); intros H; injection H as H; lra).
  pose proof (bracket_pt (fun x => cdf x l s) (fun y => toR (cdf (Fin y) l s)) p HG fuel _ x0 x1 x NB E) as PT.
  destruct (ceq x0 x1) as [[|]|e] eqn:EQ; cbn [cif] in *; [|clear PT|discriminate].
  - intros H. rewrite HG, PT; auto.
  - unfold vtry. intros H. destruct (cdf_total x) as (g & G & _). rewrite G.
    assert (Z : Values.vsub (Fin g) (Fin p) = Fin 0).
    { rewrite <- G. destruct (secant _ _) eqn:ES; try discriminate; [injection H as ->; apply CS in ES; auto|apply CN in H; auto]. }
    eapply sub0; eauto.
Qed.
Lemma invsf_sound secant newton fuel p x : checked_solver secant -> (forall g y e, secant g y <> Exc e) -> 0 < p < 1 -> invsf secant newton fuel p l s = Fin x -> sf x l s = Fin p.
Proof.
  intros CS NR P. unfold invsf, validate_params, validate_p. veval.
  destruct (find_bracket _ _ _ _ _ _) as [[x0 x1]|e] eqn:E; [|discriminate].
  assert (HG : forall y : R, sf y l s = Fin (toR (sf y l s))) by (intros y; destruct (cdf_total y) as (g & _ & ->); reflexivity).
  assert (NB : sf PInf l s <> Fin p) by (rewrite (proj2 (co_pinf _ _ _ _ _ core')); intros H; injection H as H; lra).
  pose proof (bracket_pt (fun x => sf x l s) (fun y => toR (sf (Fin y) l s)) p HG fuel _ x0 x1 x NB E) as PT.
  destruct (ceq x0 x1) as [[|]|e] eqn:EQ; cbn [cif] in *; [|clear PT|discriminate].
  - intros H. rewrite HG, PT; auto.
  - unfold vtry. intros H. destruct (cdf_total x) as (g & _ & G). rewrite G.
    assert (Z : Values.vsub (Fin (1 - g)) (Fin p) = Fin 0).
    { rewrite <- G. destruct (secant _ _) eqn:ES; try discriminate; [injection H as ->; apply CS in ES; auto|exfalso; eapply NR; eauto]. }
    eapply sub0; eauto.
Qed.
Lemma at_ends_ok secant newton fuel : rejects_bad_p (fun p => invcdf secant newton fuel p l s) /\ rejects_bad_p (fun p => invsf secant newton fuel p l s) /\
  at_ends (fun p => invcdf secant newton fuel p l s) (Fin 0) PInf /\ at_ends (fun p => invsf secant newton fuel p l s) PInf (Fin 0).
Proof.
  unfold invcdf, invsf, validate_params, validate_p. split; [|split; [|split]].
  - split; [intros p [H'|H']|split]; veval; reflexivity.
  - split; [intros p [H'|H']|split]; veval; reflexivity.
  - unfold at_ends. veval. auto.
  - unfold at_ends. veval. auto.
Qed.
Lemma ends_wrong secant newton fuel : l <> 0 -> support l s = Ok (Fin l, PInf) /\ invcdf secant newton fuel 0 l s <> Fin l /\ invsf secant newton fuel 1 l s <> Fin l.
Proof.
  intros N. destruct (at_ends_ok secant newton fuel) as (_ & _ & [-> _] & [_ ->]). split; [start; veval; reflexivity|]. split; intros H; injection H as H; auto.
Qed.
(** C45 *)
Lemma is_chi (x : R) : l <= x -> cdf x l s = M_chi.cdf (Fin ((x - l) / s)) (Fin 3) /\ sf x l s = M_chi.sf (Fin ((x - l) / s)) (Fin 3).
Proof.
  intros [X| <-].
  - pose proof (z_pos x X). start. unfold M_chi.cdf, M_chi.sf, M_chi.validate_k. veval. auto.
  - replace ((l - l) / s) with 0 by (field; lra). start. unfold M_chi.cdf, M_chi.sf, M_chi.validate_k. veval. auto.
Qed.
End P.
(** C36: the second attempt of invsf solves cdf(x) = p. *)
Definition newton_at (q : R) (g : val -> val) (_ : val) : val :=
  match g (Fin q) with Fin r => if Reqb r 0 then Fin q else NaN | _ => NaN end.
Lemma newton_checked q : checked_solver1 (newton_at q).
Proof.
  intros g x0 r. unfold newton_at. destruct (g (Fin q)) as [u| | | |] eqn:E; try discriminate. destruct (Reqb_spec u 0) as [[L ->]|[L ->]]; [|discriminate]. intros H. injection H as <-. rewrite E, L. auto.
Qed.
Lemma invsf_wrong : exists (l : R) secant newton fuel x, checked_solver secant /\ checked_solver1 newton /\
  invsf secant newton fuel (1 / 4)%R l 1 = Fin x /\ sf x l 1 = Fin (3 / 4).
Proof.
  set (l := - Q (7 / 8)). pose proof (CERT l 1 Rlt_0_1) as CE.
  destruct (cdf_q CE (7 / 8) ltac:(lra)) as [_ C0]. replace (l + 1 * Q (7 / 8)) with 0 in C0 by (unfold l; ring). unfold Gv in C0.
  destruct (cdf_q CE (1 / 4) ltac:(lra)) as [_ C1]. set (q := l + 1 * Q (1 / 4)) in C1. unfold Gv in C1.
  assert (S0 : forall y, 0 <= y -> exists g, sf (Fin y) (Fin l) (Fin 1) = Fin g /\ g <= 1 / 8).
  { intros y Y. pose proof (cdf_mono CE 0 y Y) as M. unfold Gv in M. rewrite C0 in M. destruct (cdf_total l 1 Rlt_0_1 y) as (g & E & E'). rewrite E in M. simpl in M. exists (1 - g). split; auto. lra. }
  destruct (cdf_total l 1 Rlt_0_1 q) as (g & E1 & E2). rewrite E1 in C1. simpl in C1. subst g.
  exists l, (fun _ _ => Exc ValueError), (newton_at q), 1%nat, q. split; [intros ? ? ? ? ?; discriminate|]. split; [apply newton_checked|]. split; [|rewrite E2; f_equal; field].
  set (sg := vsign (vsub (Fin 0) (sf (Fin 0) (Fin l) (Fin 1)))).
  assert (V1 : forall d, 0 < d -> vsign (Fin d) = Fin 1) by (intros d D; unfold vsign; rewrite ?(Rltb_true 0 d), ?(Rltb_false d 0) by lra; auto).
  assert (RD : forall n r, 0 < r -> exists r', 0 < r' /\ refine n (fun x => sf x (Fin l) (Fin 1)) (Fin (1 / 4)) (Fin (-1)) (Fin 0) (Fin r) = Ok (Fin 0, Fin r')).
  { induction n as [|n IH]; intros r R; cbn [refine]; [eauto|]. change (vadd (Fin 0) (Fin r)) with (Fin (0 + r)). rewrite vdiv_Fin by lra. destruct (S0 ((0 + r) / 2)) as (g & -> & G); [lra|]. cbn [bindv].
    change (ceq (Fin g) (Fin (1 / 4))) with (CB (Reqb g (1 / 4))). rewrite Reqb_false by lra. cbn [cif]. change (vsub (Fin (1 / 4)) (Fin g)) with (Fin (1 / 4 - g)). rewrite V1 by lra.
    change (ceq (Fin 1) (Fin (-1))) with (CB (Reqb 1 (-1))). rewrite Reqb_false by lra. cbn [cif]. apply IH. lra. }
  assert (FB : exists r, 0 < r /\ find_bracket 1 (fun x => sf x (Fin l) (Fin 1)) (Fin (1 / 4)) (Fin 0) PInf None = Ok (Fin 0, Fin r)).
  { unfold find_bracket. rewrite (proj2 (co_pinf _ _ _ _ _ (core' l 1 Rlt_0_1))). assert (ES : sf (Fin 0) (Fin l) (Fin 1) = Fin (1 / 8)).
    { destruct (cdf_total l 1 Rlt_0_1 0) as (g & H1 & ->). rewrite H1 in C0. simpl in C0. f_equal. lra. }
    rewrite ES. cbn [bindv]. change (ceq (Fin (1 / 4)) (Fin (1 / 8))) with (CB (Reqb (1 / 4) (1 / 8))). rewrite Reqb_false by lra. cbn [cif]. change (ceq (Fin (1 / 4)) (Fin 0)) with (CB (Reqb (1 / 4) 0)). rewrite Reqb_false by lra. cbn [cif].
    assert (SG : vsign (vsub (Fin 0) (Fin (1 / 8))) = Fin (-1)) by (change (vsub (Fin 0) (Fin (1 / 8))) with (Fin (0 - 1 / 8)); unfold vsign; rewrite ?(Rltb_true (0 - 1 / 8) 0), ?(Rltb_false 0 (0 - 1 / 8)) by lra; auto).
    rewrite SG. unfold expand_bracket. change (cand (ceq (Fin 0) NInf) (ceq PInf PInf)) with (CB false). change (ceq (Fin 0) NInf) with (CB false). change (ceq PInf PInf) with (CB true). cbn [cif while]. cbn [fst snd].
    change (vadd (Fin 0) (Fin 1)) with (Fin (0 + 1)). destruct (S0 (0 + 1)) as (g & -> & G); [lra|]. change (vsub (Fin (1 / 4)) (Fin g)) with (Fin (1 / 4 - g)). rewrite V1 by lra.
    change (ceq (Fin 1) (Fin (-1))) with (CB (Reqb 1 (-1))). rewrite Reqb_false by lra. cbn [bind fst snd]. apply RD. lra. }
  destruct FB as (r & R & FB). unfold invsf, validate_params, validate_p. veval. rewrite FB. change (ceq (Fin 0) (Fin r)) with (CB (Reqb 0 r)). rewrite Reqb_false by lra. cbn [cif vtry].
  unfold newton_at. rewrite E1. change (vsub (Fin (1 / 4)) (Fin (1 / 4))) with (Fin (1 / 4 - 1 / 4)). cbv iota. rewrite Reqb_true by lra. reflexivity.
Qed.
Lemma loc_scale : loc_scale_law3 pdf cdf sf 0 p_infty.
Proof.
  apply (loc_scale3_from_cert pdf logpdf cdf sf 0 p_infty F f Q). intros l s S. simpl. replace (l + s * 0) with l by ring. apply CERT; auto.
Qed.
Lemma bad_params secant newton fuel euler l s : isnum s -> nonpositive s -> support l s = Err ValueError /\
  always_ValueError [ fun x => pdf x l s; fun x => logpdf x l s; fun x => cdf x l s; fun x => sf x l s;
    fun p => invcdf secant newton fuel p l s; fun p => invsf secant newton fuel p l s; 
    fun _ => mean l s; fun _ => mode l s; fun _ => var l s; fun _ => entropy euler l s ].
Proof.
  intros A B. unfold support, pdf, logpdf, cdf, sf, invcdf, invsf, mean, mode, var, entropy.
  split; [|all_ve; intros x Hx]; rewrite ?validate_bad by auto; try reflexivity; apply vpp_pass; auto.
Qed.

Lemma inv_case : exists se ne fuel x, checked_solver se /\ checked_solver1 ne /\ (forall g y e, se g y <> Exc e) /\
  invcdf se ne fuel (1 / 4)%R 1 2 = Fin x.
Proof.
  assert (S2 : 0 < 2) by lra. pose proof (CERT 1 2 S2) as CE. destruct (cdf_q CE (1 / 4) ltac:(lra)) as [QI C1]. set (q := 1 + 2 * Q (1 / 4)) in *. unfold Gv in C1.
  set (se := fun (g : val -> val) (_ : val * val) => newton_at q g (Fin 0)).
  assert (CS : checked_solver se) by (intros g x0 x1 r; apply (newton_checked q g (Fin 0))).
  assert (E1 : cdf (Fin q) (Fin 1) (Fin 2) = Fin (1 / 4)) by (destruct (cdf_total 1 2 S2 q) as (g & E & _); rewrite E in *; simpl in C1; subst; auto).
  destruct (bracket_in (fun x => cdf x (Fin 1) (Fin 2)) (Gv (fun x => cdf x (Fin 1) (Fin 2))) true 1 p_infty (fun p => 1 + 2 * Q p)) with (nb := @None nat) (a := Fin 0) (b := PInf) (pa := 0) (pb := 1) (p := 1 / 4) as (x0 & x1 & N & E & IN); auto; try lra.
  - intros x. unfold Gv. destruct (cdf_total 1 2 S2 x) as (g & -> & _). reflexivity.
  - apply (cdf_mono CE).
  - apply (cdf_q CE).
  - intros p x. apply (cdf_inj CE).
  - apply low; lra.
  - apply (co_pinf _ _ _ _ _ (core' 1 2 S2)).
  - intros x. apply within0. lra.
  - exists se, (fun _ _ => NaN), (S N). 
    assert (R : exists x, invcdf se (fun _ _ => NaN) (S N) (Fin (1 / 4)) (Fin 1) (Fin 2) = Fin x).
    { unfold invcdf, validate_params, validate_p. veval. rewrite E by lia. change (ceq (Fin x0) (Fin x1)) with (CB (Reqb x0 x1)). destruct (Reqb x0 x1); cbn [cif]; eauto.
      unfold se, newton_at. rewrite E1. change (vsub (Fin (1 / 4)) (Fin (1 / 4))) with (Fin (1 / 4 - 1 / 4)). cbv iota. rewrite Reqb_true by lra. cbn [vtry]. eauto. }
    destruct R as [x R]. exists x. split; auto. split; [intros g y r; discriminate|]. split; auto. intros g y e. unfold se, newton_at. destruct (g (Fin q)); try discriminate. destruct (Reqb _ _); discriminate.
Qed.
