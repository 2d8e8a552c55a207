(** From a handful of facts about real functions to the laws of [Spec].

    [lo, hi] is the support, [F] the cdf, [f] the density and [Q] the quantile
    function as real functions on the open support. *)
From Coq Require Import Reals Lra List Bool ZArith.
From Coquelicot Require Import Coquelicot.
From Verif Require Import Values VTac Spec RLib.
Local Open Scope R_scope.
Set Bullet Behavior "Strict Subproofs".

Record smooth (lo hi : Rbar) (F f : R -> R) : Prop := {
  sm_lt : Rbar_lt lo hi;
  sm_01 : forall x, inside lo hi x -> 0 <= F x <= 1;
  sm_der : forall x, inside lo hi x -> is_derive F x (f x);
  sm_pos : forall x, inside lo hi x -> 0 < f x
}.

Definition quantile (lo hi : Rbar) (F Q : R -> R) : Prop :=
  forall p, 0 < p < 1 -> inside lo hi (Q p) /\ F (Q p) = p.

Record core (cdf sf : val -> val) (lo hi : Rbar) (F : R -> R) : Prop := {
  co_in : forall x, inside lo hi x -> cdf (Fin x) = Fin (F x) /\ sf (Fin x) = Fin (1 - F x);
  co_below : forall x : R, Rbar_le x lo -> cdf (Fin x) = Fin 0 /\ sf (Fin x) = Fin 1;
  co_above : forall x : R, Rbar_le hi x -> cdf (Fin x) = Fin 1 /\ sf (Fin x) = Fin 0;
  co_ninf : cdf NInf = Fin 0 /\ sf NInf = Fin 1;
  co_pinf : cdf PInf = Fin 1 /\ sf PInf = Fin 0
}.

Lemma Rbar_trichotomy (lo hi : Rbar) (x : R) :
  Rbar_le x lo \/ inside lo hi x \/ Rbar_le hi x.
Proof.
  destruct (Rbar_lt_le_dec lo x) as [H|H]; [|now left].
  destruct (Rbar_lt_le_dec x hi) as [H'|H']; [|now right; right].
  right; left; split; auto.
Qed.

Lemma inside_mid lo hi x y z : inside lo hi x -> inside lo hi y -> x <= z <= y -> inside lo hi z.
Proof.
  intros [A1 A2] [B1 B2] [T1 T2]. split.
  - destruct lo; simpl in *; auto; lra.
  - destruct hi; simpl in *; auto; lra.
Qed.

Lemma exists_below lo hi x : inside lo hi x -> exists y, y < x /\ inside lo hi y.
Proof.
  intros [H1 H2]. destruct lo as [a| |]; simpl in H1.
  - exists ((a + x)/2). split; [lra|]. split; simpl; [lra|].
    destruct hi; simpl in *; auto; lra.
  - destruct H1.
  - exists (x - 1). split; [lra|]. split; simpl; auto. destruct hi; simpl in *; auto; lra.
Qed.
Lemma exists_above lo hi x : inside lo hi x -> exists y, x < y /\ inside lo hi y.
Proof.
  intros [H1 H2]. destruct hi as [a| |]; simpl in H2.
  - exists ((a + x)/2). split; [lra|]. split; simpl; [|lra].
    destruct lo; simpl in *; auto; lra.
  - exists (x + 1). split; [lra|]. split; simpl; auto. destruct lo; simpl in *; auto; lra.
  - destruct H2.
Qed.

(** A function with positive derivative on an interval is increasing there. *)
Lemma deriv_pos_incr lo hi (F f : R -> R) :
  (forall x, inside lo hi x -> is_derive F x (f x)) ->
  (forall x, inside lo hi x -> 0 < f x) ->
  forall x y, inside lo hi x -> inside lo hi y -> x < y -> F x < F y.
Proof.
  intros Hd Hp x y Hx Hy Hxy.
  destruct (MVT_gen F x y f) as [c [Hc E]].
  - intros z Hz. apply Hd. apply (inside_mid lo hi x y); auto.
    rewrite Rmin_left, Rmax_right in Hz by lra. lra.
  - intros z Hz. apply continuity_pt_filterlim.
    apply (ex_derive_continuous (V := R_NormedModule)). exists (f z).
    apply Hd. apply (inside_mid lo hi x y); auto.
    rewrite Rmin_left, Rmax_right in Hz by lra. lra.
  - rewrite Rmin_left, Rmax_right in Hc by lra.
    assert (0 < f c) by (apply Hp; apply (inside_mid lo hi x y); auto). nra.
Qed.

Lemma deriv_nonneg_incr lo hi (F f : R -> R) :
  (forall x, inside lo hi x -> is_derive F x (f x)) ->
  (forall x, inside lo hi x -> 0 <= f x) ->
  forall x y, inside lo hi x -> inside lo hi y -> x <= y -> F x <= F y.
Proof.
  intros Hd Hp x y Hx Hy Hxy.
  destruct (MVT_gen F x y f) as [c [Hc E]].
  - intros z Hz. apply Hd. apply (inside_mid lo hi x y); auto.
    rewrite Rmin_left, Rmax_right in Hz by lra. lra.
  - intros z Hz. apply continuity_pt_filterlim.
    apply (ex_derive_continuous (V := R_NormedModule)). exists (f z).
    apply Hd. apply (inside_mid lo hi x y); auto.
    rewrite Rmin_left, Rmax_right in Hz by lra. lra.
  - rewrite Rmin_left, Rmax_right in Hc by lra.
    assert (0 <= f c) by (apply Hp; apply (inside_mid lo hi x y); auto). nra.
Qed.

Section Smooth.
Variables (lo hi : Rbar) (F f Q : R -> R).
Hypothesis SM : smooth lo hi F f.

Lemma F_incr x y : inside lo hi x -> inside lo hi y -> x < y -> F x < F y.
Proof. apply (deriv_pos_incr lo hi F f); [apply (sm_der _ _ _ _ SM) | apply (sm_pos _ _ _ _ SM)]. Qed.

Lemma F_mono x y : inside lo hi x -> inside lo hi y -> x <= y -> F x <= F y.
Proof. intros Hx Hy [H| ->]; [left; apply F_incr; auto | lra]. Qed.

Lemma F_open01 x : inside lo hi x -> 0 < F x < 1.
Proof.
  intros Hx. destruct (exists_below _ _ _ Hx) as [y [Hy Iy]].
  destruct (exists_above _ _ _ Hx) as [z [Hz Iz]].
  pose proof (F_incr _ _ Iy Hx Hy). pose proof (F_incr _ _ Hx Iz Hz).
  pose proof (sm_01 _ _ _ _ SM _ Iy). pose proof (sm_01 _ _ _ _ SM _ Iz). lra.
Qed.

Lemma F_inj x y : inside lo hi x -> inside lo hi y -> F x = F y -> x = y.
Proof.
  intros Hx Hy E. destruct (Rtotal_order x y) as [H|[H|H]]; auto.
  - pose proof (F_incr _ _ Hx Hy H). lra.
  - pose proof (F_incr _ _ Hy Hx H). lra.
Qed.

Hypothesis HQ : quantile lo hi F Q.

Lemma Q_F x : inside lo hi x -> Q (F x) = x.
Proof.
  intros Hx. pose proof (F_open01 _ Hx) as H01. destruct (HQ _ H01) as [I E].
  apply F_inj; auto.
Qed.

Lemma lim_lo : filterlim F (near_lo lo) (locally 0).
Proof.
  pose proof (near_lo_filter lo) as FF.
  apply (proj2 (filterlim_locally F 0)). intros eps.
  set (p := Rmin (eps/2) (1/2)).
  assert (Hp : 0 < p < 1).
  { unfold p. pose proof (cond_pos eps). split.
    - apply Rmin_glb_lt; lra.
    - apply Rle_lt_trans with (1/2); [apply Rmin_r|lra]. }
  assert (Hpe : p < eps).
  { unfold p. pose proof (cond_pos eps). apply Rle_lt_trans with (eps/2); [apply Rmin_l|lra]. }
  destruct (HQ p Hp) as [I E].
  assert (N : near_lo lo (fun y => inside lo hi y /\ y < Q p)).
  { apply filter_and.
    - apply near_lo_inside. apply (sm_lt _ _ _ _ SM).
    - generalize (near_lo_inside lo (Q p) (proj1 I)). apply (filter_imp (F := near_lo lo)). intros y [_ Hy]. exact Hy. }
  revert N. apply filter_imp. intros y [Iy Hy].
  pose proof (F_open01 _ Iy). pose proof (F_incr _ _ Iy I Hy).
  unfold ball; simpl; unfold AbsRing_ball, abs, minus, plus, opp; simpl.
  rewrite Rabs_right; lra.
Qed.

Lemma lim_hi : filterlim F (near_hi hi) (locally 1).
Proof.
  pose proof (near_hi_filter hi) as FF.
  apply (proj2 (filterlim_locally F 1)). intros eps.
  set (p := Rmin (eps/2) (1/2)).
  assert (Hp : 0 < p < 1).
  { unfold p. pose proof (cond_pos eps). split.
    - apply Rmin_glb_lt; lra.
    - apply Rle_lt_trans with (1/2); [apply Rmin_r|lra]. }
  assert (Hpe : p < eps).
  { unfold p. pose proof (cond_pos eps). apply Rle_lt_trans with (eps/2); [apply Rmin_l|lra]. }
  destruct (HQ (1 - p)) as [I E]; [lra|].
  assert (N : near_hi hi (fun y => inside lo hi y /\ Q (1 - p) < y)).
  { apply filter_and.
    - apply near_hi_inside. apply (sm_lt _ _ _ _ SM).
    - generalize (near_hi_inside (Q (1 - p)) hi (proj2 I)). apply (filter_imp (F := near_hi hi)). intros y [Hy _]. exact Hy. }
  revert N. apply filter_imp. intros y [Iy Hy].
  pose proof (F_open01 _ Iy). pose proof (F_incr _ _ I Iy Hy).
  unfold ball; simpl; unfold AbsRing_ball, abs, minus, plus, opp; simpl.
  rewrite Rabs_left1; lra.
Qed.
End Smooth.

Section Laws.
Variables (cdf sf pdf logpdf invcdf invsf : val -> val).
Variables (lo hi : Rbar) (F f Q Q' : R -> R).
Hypothesis CO : core cdf sf lo hi F.
Hypothesis SM : smooth lo hi F f.

Lemma law_complementary : complementary cdf sf.
Proof.
  intros x Hx; destruct Hx as [x| |].
  - destruct (Rbar_trichotomy lo hi x) as [H|[H|H]].
    + exists 0. destruct (co_below _ _ _ _ _ CO x H) as [-> ->].
      repeat split; try lra. f_equal; lra.
    + exists (F x). destruct (co_in _ _ _ _ _ CO x H) as [-> ->].
      split; [apply (sm_01 _ _ _ _ SM); auto|]. split; reflexivity.
    + exists 1. destruct (co_above _ _ _ _ _ CO x H) as [-> ->].
      repeat split; try lra. f_equal; lra.
  - exists 1. destruct (co_pinf _ _ _ _ _ CO) as [-> ->].
    repeat split; try lra. f_equal; lra.
  - exists 0. destruct (co_ninf _ _ _ _ _ CO) as [-> ->].
    repeat split; try lra. f_equal; lra.
Qed.

Lemma cdf_val x : ext x -> exists c, cdf x = Fin c /\ 0 <= c <= 1.
Proof.
  intros Hx. destruct (law_complementary x Hx) as [c [Hc [E _]]]. exists c; auto.
Qed.

Lemma law_nondecreasing : nondecreasing cdf.
Proof.
  intros x y H. destruct H as [x y Hxy|y Hy|x Hx].
  - destruct (Rbar_trichotomy lo hi x) as [Hx|[Hx|Hx]].
    + destruct (cdf_val (Fin y) (ext_fin y)) as [c [E Hc]].
      exists 0, c. rewrite (proj1 (co_below _ _ _ _ _ CO x Hx)). split; [reflexivity|split; [exact E|lra]].
    + destruct (Rbar_trichotomy lo hi y) as [Hy|[Hy|Hy]].
      * exfalso. destruct Hx as [Hx _]. destruct lo; simpl in *; auto; lra.
      * exists (F x), (F y). rewrite (proj1 (co_in _ _ _ _ _ CO x Hx)),
          (proj1 (co_in _ _ _ _ _ CO y Hy)). repeat split; auto.
        apply (F_mono lo hi F f SM); auto.
      * exists (F x), 1. rewrite (proj1 (co_in _ _ _ _ _ CO x Hx)),
          (proj1 (co_above _ _ _ _ _ CO y Hy)). repeat split; auto.
        apply (sm_01 _ _ _ _ SM); auto.
    + assert (Hy : Rbar_le hi y) by (destruct hi; simpl in *; auto; lra).
      exists 1, 1. rewrite (proj1 (co_above _ _ _ _ _ CO x Hx)),
          (proj1 (co_above _ _ _ _ _ CO y Hy)). split; [reflexivity|split; [reflexivity|lra]].
  - destruct (cdf_val y Hy) as [c [E Hc]]. exists 0, c.
    rewrite (proj1 (co_ninf _ _ _ _ _ CO)). repeat split; auto; lra.
  - destruct (cdf_val x Hx) as [c [E Hc]]. exists c, 1.
    rewrite (proj1 (co_pinf _ _ _ _ _ CO)). repeat split; auto; lra.
Qed.

Definition val_of_Rbar (b : Rbar) : val :=
  match b with Finite r => Fin r | p_infty => PInf | m_infty => NInf end.

Lemma law_supported : supported_on cdf (val_of_Rbar lo) (val_of_Rbar hi).
Proof.
  split; intros x H.
  - destruct lo as [l| |] eqn:El; simpl in H; inversion H; subst.
    + apply (co_below _ _ _ _ _ CO). simpl; auto.
    + apply (co_ninf _ _ _ _ _ CO).
    + pose proof (sm_lt _ _ _ _ SM) as L. destruct L.
    + pose proof (sm_lt _ _ _ _ SM) as L. destruct L.
    + apply (co_ninf _ _ _ _ _ CO).
  - destruct hi as [l| |] eqn:El; simpl in H; inversion H; subst.
    + apply (co_above _ _ _ _ _ CO). simpl; auto.
    + apply (co_pinf _ _ _ _ _ CO).
    + apply (co_pinf _ _ _ _ _ CO).
    + pose proof (sm_lt _ _ _ _ SM) as L. destruct lo; destruct L.
    + pose proof (sm_lt _ _ _ _ SM) as L. destruct lo; destruct L.
Qed.

Hypothesis pdf_in : forall x, inside lo hi x -> pdf (Fin x) = Fin (f x).

Lemma law_density :
  (forall x : R, Rbar_lt x lo \/ Rbar_lt hi x -> pdf (Fin x) = Fin 0) ->
  density_of cdf pdf lo hi.
Proof.
  intros Hout. apply (mk_density cdf pdf lo hi F f); auto.
  - intros x Hx. apply (co_in _ _ _ _ _ CO x Hx).
  - intros x Hx. left. apply (sm_pos _ _ _ _ SM); auto.
  - apply (sm_der _ _ _ _ SM).
Qed.

Lemma law_total_mass :
  quantile lo hi F Q ->
  (forall x, inside lo hi x -> continuous f x) ->
  total_mass_one pdf lo hi.
Proof.
  intros HQ Hc. apply (mk_total_mass pdf lo hi F f); auto.
  - apply (sm_lt _ _ _ _ SM).
  - apply (sm_der _ _ _ _ SM).
  - apply (lim_lo lo hi F f Q SM HQ).
  - apply (lim_hi lo hi F f Q SM HQ).
Qed.

Lemma law_inverse :
  quantile lo hi F Q ->
  (forall p, 0 < p < 1 -> invcdf (Fin p) = Fin (Q p)) ->
  inverse_of cdf invcdf lo hi.
Proof.
  intros HQ Hi. split.
  - intros p Hp. exists (Q p). destruct (HQ p Hp) as [I E].
    rewrite (proj1 (co_in _ _ _ _ _ CO _ I)), E. auto.
  - intros x Hx. exists (F x). pose proof (F_open01 lo hi F f SM x Hx) as H01.
    rewrite (proj1 (co_in _ _ _ _ _ CO _ Hx)), (Hi _ H01), (Q_F lo hi F f Q SM HQ x Hx). auto.
Qed.

Lemma law_inverse_sf :
  quantile lo hi F Q ->
  (forall p, 0 < p < 1 -> invsf (Fin p) = Fin (Q (1 - p))) ->
  inverse_of sf invsf lo hi.
Proof.
  intros HQ Hi. split.
  - intros p Hp. exists (Q (1 - p)). destruct (HQ (1 - p)) as [I E]; [lra|].
    rewrite (proj2 (co_in _ _ _ _ _ CO _ I)), E. repeat split; auto; try apply I. f_equal; lra.
  - intros x Hx. exists (1 - F x). pose proof (F_open01 lo hi F f SM x Hx) as H01.
    rewrite (proj2 (co_in _ _ _ _ _ CO _ Hx)), Hi by lra.
    replace (1 - (1 - F x)) with (F x) by ring.
    rewrite (Q_F lo hi F f Q SM HQ x Hx). repeat split; auto; lra.
Qed.
End Laws.

(** Everything at once: the facts to check for one distribution at fixed
    parameters, and the laws they imply. *)
Record cert (pdf logpdf cdf sf invcdf invsf : val -> val) (lo hi : Rbar) (F f Q : R -> R) : Prop := {
  ce_core : core cdf sf lo hi F;
  ce_smooth : smooth lo hi F f;
  ce_cont : forall x, inside lo hi x -> continuous f x;
  ce_quant : quantile lo hi F Q;
  ce_pdf : forall x, inside lo hi x -> pdf (Fin x) = Fin (f x) /\ logpdf (Fin x) = Fin (ln (f x));
  ce_out : forall x : R, Rbar_lt x lo \/ Rbar_lt hi x -> pdf (Fin x) = Fin 0 /\ logpdf (Fin x) = NInf;
  ce_inv : forall p, 0 < p < 1 -> invcdf (Fin p) = Fin (Q p) /\ invsf (Fin p) = Fin (Q (1 - p))
}.

Section Cert.
Context {pdf logpdf cdf sf invcdf invsf : val -> val} {lo hi : Rbar} {F f Q : R -> R}.
Hypothesis C : cert pdf logpdf cdf sf invcdf invsf lo hi F f Q.

Lemma cert_complementary : complementary cdf sf.
Proof. destruct C. eapply law_complementary; eauto. Qed.
Lemma cert_nondecreasing : nondecreasing cdf.
Proof. destruct C. eapply law_nondecreasing; eauto. Qed.
Lemma cert_supported : supported_on cdf (val_of_Rbar lo) (val_of_Rbar hi).
Proof. destruct C. eapply law_supported; eauto. Qed.
Lemma cert_density : density_of cdf pdf lo hi.
Proof.
  destruct C. eapply law_density; eauto.
  - intros; apply ce_pdf0; auto.
  - intros; apply ce_out0; auto.
Qed.
Lemma cert_total_mass : total_mass_one pdf lo hi.
Proof. destruct C. eapply law_total_mass; eauto. intros; apply ce_pdf0; auto. Qed.
Lemma cert_inverse : inverse_of cdf invcdf lo hi.
Proof. destruct C. eapply law_inverse; eauto. intros; apply ce_inv0; auto. Qed.
Lemma cert_inverse_sf : inverse_of sf invsf lo hi.
Proof. destruct C. eapply law_inverse_sf; eauto. intros; apply ce_inv0; auto. Qed.
Lemma cert_log_in x : inside lo hi x -> log_of pdf logpdf (Fin x).
Proof.
  intros H. left. destruct C. destruct (ce_pdf0 x H). exists (f x).
  split; auto. apply (sm_pos _ _ _ _ ce_smooth0); auto.
Qed.
Lemma cert_log x : lo <> Finite x -> hi <> Finite x -> log_of pdf logpdf (Fin x).
Proof.
  intros N1 N2. destruct (Rbar_trichotomy lo hi x) as [H|[H|H]].
  - right; left. destruct C. apply ce_out0. left.
    destruct lo as [l| |]; simpl in *; auto. destruct H; auto. subst; congruence.
  - apply cert_log_in; auto.
  - right; left. destruct C. apply ce_out0. right.
    destruct hi as [l| |]; simpl in *; auto. destruct H; auto. subst; congruence.
Qed.
Lemma cert_log_ends :
  (forall x, lo = Finite x -> log_of pdf logpdf (Fin x)) ->
  (forall x, hi = Finite x -> log_of pdf logpdf (Fin x)) ->
  forall x : R, log_of pdf logpdf (Fin x).
Proof.
  intros H1 H2 x.
  destruct (Rbar_eq_dec lo (Finite x)) as [E|N]; [apply H1; auto|].
  destruct (Rbar_eq_dec hi (Finite x)) as [E|N']; [apply H2; auto|].
  apply cert_log; auto.
Qed.
End Cert.

(** Mean value theorem with the point strictly inside. *)
Lemma MVT_open (f g : R -> R) (a b : R) : a < b ->
  (forall x, a < x < b -> is_derive f x (g x)) ->
  continuous f a -> continuous f b ->
  exists c, a < c < b /\ f b - f a = g c * (b - a).
Proof.
  intros Hab Hd Ha Hb.
  assert (pr1 : forall c, a < c < b -> derivable_pt f c).
  { intros c Hc. exists (g c). apply is_derive_Reals. apply Hd; auto. }
  assert (pr2 : forall c : R, a < c < b -> derivable_pt id c) by (intros; apply derivable_pt_id).
  destruct (MVT f id a b pr1 pr2 Hab) as [c [P E]].
  - intros c Hc. apply continuity_pt_filterlim.
    destruct (Req_dec c a) as [->|Na]; [exact Ha|].
    destruct (Req_dec c b) as [->|Nb]; [exact Hb|].
    apply ex_derive_cont. exists (g c). apply Hd. lra.
  - intros c Hc. apply derivable_continuous_pt. apply derivable_pt_id.
  - exists c. split; [exact P|]. unfold id in E.
    rewrite (derive_pt_eq_0 f c (g c) (pr1 c P)) in E by (apply is_derive_Reals; apply Hd; auto).
    replace (derive_pt (fun x => x) c (pr2 c P)) with 1 in E.
    + lra.
    + symmetry. apply derive_pt_eq_0. apply derivable_pt_lim_id.
Qed.

(** Monotonicity on a closed interval from the sign of the derivative inside. *)
Lemma mono_closed (f g : R -> R) (a b : R) : a <= b ->
  (forall x, a < x < b -> is_derive f x (g x) /\ 0 <= g x) ->
  continuous f a -> continuous f b -> f a <= f b.
Proof.
  intros [Hab| ->] Hd Ha Hb; [|lra].
  destruct (MVT_open f g a b Hab) as [c [Hc E]]; auto.
  { intros x Hx; apply Hd; auto. }
  destruct (Hd c Hc). nra.
Qed.
Lemma anti_closed (f g : R -> R) (a b : R) : a <= b ->
  (forall x, a < x < b -> is_derive f x (g x) /\ g x <= 0) ->
  continuous f a -> continuous f b -> f b <= f a.
Proof.
  intros [Hab| ->] Hd Ha Hb; [|lra].
  destruct (MVT_open f g a b Hab) as [c [Hc E]]; auto.
  { intros x Hx; apply Hd; auto. }
  destruct (Hd c Hc). nra.
Qed.
Lemma smono_closed (f g : R -> R) (a b : R) : a < b ->
  (forall x, a < x < b -> is_derive f x (g x) /\ 0 < g x) ->
  continuous f a -> continuous f b -> f a < f b.
Proof.
  intros Hab Hd Ha Hb.
  destruct (MVT_open f g a b Hab) as [c [Hc E]]; auto.
  { intros x Hx; apply Hd; auto. }
  destruct (Hd c Hc). nra.
Qed.

Lemma cert_invsf_invcdf {pdf logpdf cdf sf invcdf invsf : val -> val} {lo hi : Rbar} {F f Q : R -> R} :
  cert pdf logpdf cdf sf invcdf invsf lo hi F f Q ->
  forall p, 0 < p < 1 -> invsf (Fin p) = invcdf (Fin (1 - p)).
Proof.
  intros C p Hp. destruct C. rewrite (proj2 (ce_inv0 p Hp)).
  rewrite (proj1 (ce_inv0 (1 - p) ltac:(lra))). reflexivity.
Qed.
