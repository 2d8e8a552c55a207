(** Existence of improper integrals of positive continuous functions. *)
From Coq Require Import Reals Lra List Bool ZArith.
From Coquelicot Require Import Coquelicot.
From Verif Require Import Values VTac Spec RLib DistLib LimLib.
Local Open Scope R_scope.
Set Bullet Behavior "Strict Subproofs".

Lemma near_hi_above lo hi x0 : inside lo hi x0 -> near_hi hi (fun x => inside lo hi x /\ x0 < x).
Proof.
  intros [H1 H2]. destruct hi as [b| |]; simpl in *; [| |destruct H2].
  - generalize (left_gt x0 b H2). apply filter_imp. intros x H. repeat split; simpl; try lra.
    destruct lo; simpl in *; auto; lra.
  - exists x0. intros x H. repeat split; simpl; auto; try lra. destruct lo; simpl in *; auto; lra.
Qed.
Lemma near_lo_below lo hi x0 : inside lo hi x0 -> near_lo lo (fun x => inside lo hi x /\ x < x0).
Proof.
  intros [H1 H2]. destruct lo as [b| |]; simpl in *; [|destruct H1|].
  - generalize (right_lt b x0 H1). apply filter_imp. intros x H. repeat split; simpl; try lra.
    destruct hi; simpl in *; auto; lra.
  - exists x0. intros x H. repeat split; simpl; auto; try lra. destruct hi; simpl in *; auto; lra.
Qed.
Section Mono.
Variables (lo hi : Rbar) (F : R -> R) (c : R).
Hypothesis C : inside lo hi c.
Hypothesis M : forall x y, inside lo hi x -> inside lo hi y -> x <= y -> F x <= F y.
Lemma mono_hi B : (forall x, inside lo hi x -> c <= x -> F x <= B) ->
  exists L, filterlim F (near_hi hi) (locally L) /\ (forall x, inside lo hi x -> F x <= L) /\ L <= B.
Proof.
  intros U0. assert (U : forall x, inside lo hi x -> F x <= B).
  { intros x H. destruct (Rle_lt_dec c x); auto. eapply Rle_trans; [apply (M x c); auto; lra|apply U0; auto; lra]. }
  destruct (completeness (fun y => exists x, inside lo hi x /\ y = F x)) as [L [L1 L2]].
  - exists B. intros y [x [H ->]]. auto.
  - exists (F c), c. auto.
  - assert (UB : forall x, inside lo hi x -> F x <= L) by (intros x H; apply L1; exists x; auto).
    exists L. split; [|split; auto; apply L2; intros y [x [H ->]]; auto].
    pose proof (near_hi_filter hi). apply (proj2 (filterlim_locally F L)). intros e.
    destruct (Classical_Prop.classic (exists x, inside lo hi x /\ L - e < F x)) as [[x0 [H0 H1]]|N].
    + generalize (near_hi_above lo hi x0 H0). apply filter_imp. intros x [Ix H2].
      unfold ball; simpl; unfold AbsRing_ball, abs, minus, plus, opp; simpl.
      pose proof (M x0 x H0 Ix ltac:(lra)). pose proof (UB x Ix). pose proof (cond_pos e). apply Rabs_def1; lra.
    + exfalso. assert (L <= L - e); [|pose proof (cond_pos e); lra]. apply L2. intros y [x [H2 ->]].
      destruct (Rle_lt_dec (F x) (L - e)); auto. exfalso. apply N. exists x. auto.
Qed.
Lemma mono_lo B : (forall x, inside lo hi x -> x <= c -> B <= F x) ->
  exists L, filterlim F (near_lo lo) (locally L) /\ (forall x, inside lo hi x -> L <= F x) /\ B <= L.
Proof.
  intros U0. assert (U : forall x, inside lo hi x -> B <= F x).
  { intros x H. destruct (Rle_lt_dec x c); auto. apply Rle_trans with (F c); [apply U0; auto; lra|apply M; auto; lra]. }
  destruct (completeness (fun y => exists x, inside lo hi x /\ y = - F x)) as [L [L1 L2]].
  - exists (- B). intros y [x [H ->]]. pose proof (U x H). lra.
  - exists (- F c), c. auto.
  - assert (UB : forall x, inside lo hi x -> - L <= F x).
    { intros x H. assert (- F x <= L) by (apply L1; exists x; auto). lra. }
    exists (- L). split; [|split; auto].
    + pose proof (near_lo_filter lo). apply (proj2 (filterlim_locally F (- L))). intros e.
      destruct (Classical_Prop.classic (exists x, inside lo hi x /\ F x < - L + e)) as [[x0 [H0 H1]]|N].
      * generalize (near_lo_below lo hi x0 H0). apply filter_imp. intros x [Ix H2].
        unfold ball; simpl; unfold AbsRing_ball, abs, minus, plus, opp; simpl.
        pose proof (M x x0 Ix H0 ltac:(lra)). pose proof (UB x Ix). pose proof (cond_pos e). apply Rabs_def1; lra.
      * exfalso. assert (L <= L - e); [|pose proof (cond_pos e); lra]. apply L2. intros y [x [H2 ->]].
        destruct (Rle_lt_dec (- F x) (L - e)); auto. exfalso. apply N. exists x. split; auto. lra.
    + assert (L <= - B); [|lra]. apply L2. intros y [x [H ->]]. pose proof (U x H). lra.
Qed.
End Mono.

Section Prim.
Variables (lo hi : Rbar) (g : R -> R) (c : R).
Hypothesis C : inside lo hi c.
Hypothesis CT : forall x, inside lo hi x -> continuous g x.
Hypothesis POS : forall x, inside lo hi x -> 0 < g x.
Definition prim x := RInt g c x.
Lemma prim_der x : inside lo hi x -> is_derive prim x (g x).
Proof.
  intros H. apply (is_derive_RInt g prim c x); auto.
  generalize (inside_locally lo hi x H). apply filter_imp. intros y Hy.
  apply (RInt_correct (V := R_CompleteNormedModule)). apply (ex_RInt_continuous (V := R_CompleteNormedModule)).
  intros z Hz. apply CT. apply (inside_between lo hi c y); auto.
Qed.
Lemma prim_incr x y : inside lo hi x -> inside lo hi y -> x < y -> prim x < prim y.
Proof. apply (deriv_pos_incr lo hi prim g); auto. apply prim_der. Qed.
Lemma prim_c : prim c = 0.
Proof. unfold prim. apply (RInt_point (V := R_CompleteNormedModule)). Qed.
(** Domination by a function with known primitive. *)
Lemma nonneg_between (H h : R -> R) a b : inside lo hi a -> inside lo hi b -> a <= b ->
  (forall x, a <= x <= b -> is_derive H x (h x) /\ 0 <= h x) -> H a <= H b.
Proof.
  intros Ia Ib AB D. destruct (Req_dec a b) as [->|NE]; [lra|].
  destruct (MVT_gen H a b h) as [z [Hz E]].
  - intros z Hz. rewrite Rmin_left, Rmax_right in Hz by lra. apply D; lra.
  - intros z Hz. rewrite Rmin_left, Rmax_right in Hz by lra.
    apply continuity_pt_filterlim. apply (ex_derive_continuous (V := R_NormedModule)). exists (h z). apply D; lra.
  - rewrite Rmin_left, Rmax_right in Hz by lra. pose proof (proj2 (D z Hz)). nra.
Qed.
Lemma dom_hi (D d : R -> R) : (forall x, inside lo hi x -> c <= x -> is_derive D x (d x) /\ g x <= d x) ->
  forall x, inside lo hi x -> c <= x -> prim x <= D x - D c.
Proof.
  intros HD x Ix CX. pose proof (nonneg_between (fun x => D x - prim x) (fun x => d x - g x) c x C Ix CX) as N.
  cbv beta in N. rewrite prim_c in N. cut (D c - 0 <= D x - prim x); [lra|]. apply N. intros y Hy.
  assert (Iy : inside lo hi y) by (apply (inside_mid lo hi c x); auto).
  destruct (HD y Iy ltac:(lra)) as [H1 H2]. split; [|lra].
  apply (is_derive_minus D prim); auto. apply prim_der; auto.
Qed.
Lemma dom_lo (D d : R -> R) : (forall x, inside lo hi x -> x <= c -> is_derive D x (d x) /\ g x <= d x) ->
  forall x, inside lo hi x -> x <= c -> D x - D c <= prim x.
Proof.
  intros HD x Ix CX. pose proof (nonneg_between (fun x => D x - prim x) (fun x => d x - g x) x c Ix C CX) as N.
  cbv beta in N. rewrite prim_c in N. cut (D x - prim x <= D c - 0); [lra|]. apply N. intros y Hy.
  assert (Iy : inside lo hi y) by (apply (inside_mid lo hi x c); auto).
  destruct (HD y Iy ltac:(lra)) as [H1 H2]. split; [|lra].
  apply (is_derive_minus D prim); auto. apply prim_der; auto.
Qed.
Lemma prim_lims (B0 B1 : R) : (forall x, inside lo hi x -> x <= c -> B0 <= prim x) -> (forall x, inside lo hi x -> c <= x -> prim x <= B1) ->
  exists L0 L1, filterlim prim (near_lo lo) (locally L0) /\ filterlim prim (near_hi hi) (locally L1) /\
    (forall x, inside lo hi x -> L0 < prim x < L1) /\ B0 <= L0 /\ L1 <= B1.
Proof.
  intros H0 H1.
  assert (M : forall x y, inside lo hi x -> inside lo hi y -> x <= y -> prim x <= prim y).
  { intros x y Hx Hy [H| ->]; [left; apply prim_incr; auto|lra]. }
  destruct (mono_lo lo hi prim c C M B0 H0) as [L0 [A0 [A1 A2]]].
  destruct (mono_hi lo hi prim c C M B1 H1) as [L1 [E0 [E1 E2]]].
  exists L0, L1. repeat split; auto.
  - destruct (exists_below lo hi x H) as [y [Y1 Y2]]. apply Rle_lt_trans with (prim y); auto. apply prim_incr; auto.
  - destruct (exists_above lo hi x H) as [y [Y1 Y2]]. apply Rlt_le_trans with (prim y); auto. apply prim_incr; auto.
Qed.
End Prim.
(** Everything an integral of a positive function is used for: a primitive [F] that starts
    at 0 and ends at [v]. *)
Record integral_fn (lo hi : Rbar) (g F : R -> R) (v : R) : Prop := {
  if_lt : Rbar_lt lo hi;
  if_cont : forall x, inside lo hi x -> continuous g x;
  if_pos : forall x, inside lo hi x -> 0 < g x;
  if_der : forall x, inside lo hi x -> is_derive F x (g x);
  if_lo : filterlim F (near_lo lo) (locally 0);
  if_hi : filterlim F (near_hi hi) (locally v)
}.
Lemma mk_integral_fn lo hi (g : R -> R) c (D0 d0 D1 d1 : R -> R) B0 B1 :
  inside lo hi c -> (forall x, inside lo hi x -> continuous g x) -> (forall x, inside lo hi x -> 0 < g x) ->
  (forall x, inside lo hi x -> x <= c -> is_derive D0 x (d0 x) /\ g x <= d0 x) ->
  (forall x, inside lo hi x -> c <= x -> is_derive D1 x (d1 x) /\ g x <= d1 x) ->
  (forall x, inside lo hi x -> x <= c -> B0 <= D0 x) -> (forall x, inside lo hi x -> c <= x -> D1 x <= B1) ->
  exists F v, integral_fn lo hi g F v.
Proof.
  intros C CT POS H0 H1 K0 K1.
  destruct (prim_lims lo hi g c C CT POS (B0 - D0 c) (B1 - D1 c)) as [L0 [L1 [A0 [A1 _]]]].
  - intros x Ix X. pose proof (dom_lo lo hi g c C CT D0 d0 H0 x Ix X). pose proof (K0 x Ix X). lra.
  - intros x Ix X. pose proof (dom_hi lo hi g c C CT D1 d1 H1 x Ix X). pose proof (K1 x Ix X). lra.
  - exists (fun x => prim g c x - L0), (L1 - L0).
    pose proof (near_lo_filter lo). pose proof (near_hi_filter hi). constructor; auto.
    + destruct C as [C1 C2]. destruct lo, hi; simpl in *; auto; try lra; tauto.
    + intros x Hx. evar_last.
      * apply (is_derive_minus (prim g c) (fun _ => L0)); [apply (prim_der lo hi); auto|apply is_derive_const].
      * unfold minus, plus, opp, zero; simpl. ring.
    + replace 0 with (L0 - L0) by ring. apply flim_minus; auto; apply flim_const; auto.
    + apply flim_minus; auto; apply flim_const; auto.
Qed.
Section Use.
Context {lo hi : Rbar} {g F : R -> R} {v : R}.
Hypothesis I : integral_fn lo hi g F v.
Lemma if_integral : integrates_to g lo hi v.
Proof. replace v with (v - 0) by ring. destruct I. apply (mk_integral g F); auto. Qed.
Lemma if_incr x y : inside lo hi x -> inside lo hi y -> x < y -> F x < F y.
Proof. destruct I. apply (deriv_pos_incr lo hi F g); auto. Qed.
Lemma if_range x : inside lo hi x -> 0 < F x < v.
Proof.
  intros H. destruct I.
  assert (A : forall x, inside lo hi x -> 0 <= F x).
  { intros y Hy. pose proof (near_lo_proper lo hi if_lt0) as PF.
    apply (filterlim_le (F := near_lo lo) F (fun _ => F y) (Finite 0) (Finite (F y))); auto; [|apply flim_const; apply PF].
    generalize (near_lo_below lo hi y Hy). apply filter_imp. intros z [Hz L]. left. apply if_incr; auto. }
  assert (B : forall x, inside lo hi x -> F x <= v).
  { intros y Hy. pose proof (near_hi_proper lo hi if_lt0) as PF.
    apply (filterlim_le (F := near_hi hi) (fun _ => F y) F (Finite (F y)) (Finite v)); auto; [|apply flim_const; apply PF].
    generalize (near_hi_above lo hi y Hy). apply filter_imp. intros z [Hz L]. left. apply if_incr; auto. }
  destruct (exists_below lo hi x H) as [y [Y1 Y2]]. destruct (exists_above lo hi x H) as [z [Z1 Z2]].
  pose proof (A y Y2). pose proof (B z Z2). pose proof (if_incr y x Y2 H Y1). pose proof (if_incr x z H Z2 Z1). lra.
Qed.
Lemma if_vpos : 0 < v.
Proof.
  assert (exists c, inside lo hi c) as [c C].
  { pose proof (if_lt _ _ _ _ _ I) as L. destruct lo as [a| |], hi as [b| |]; simpl in L; try tauto.
    - exists ((a + b) / 2). split; simpl; lra.
    - exists (a + 1). split; simpl; auto; lra.
    - exists (b - 1). split; simpl; auto; lra.
    - exists 0. split; simpl; auto. }
  pose proof (if_range c C). lra.
Qed.
(** The primitive at an inner point is the integral up to there. *)
Lemma if_upto x : inside lo hi x -> integrates_to g lo x (F x).
Proof.
  intros H. replace (F x) with (F x - 0) by ring. destruct I.
  assert (S : forall y, inside lo x y -> inside lo hi y).
  { intros y [Y1 Y2]. destruct H as [H1 H2]. split; auto. destruct hi; simpl in *; auto; lra. }
  apply (mk_integral g F); auto.
  - apply H.
  - simpl. apply flim_left. apply ex_derive_cont. exists (g x). auto.
Qed.
(** Every level between 0 and [v] is reached. *)
Lemma if_onto p : 0 < p < v -> exists x, inside lo hi x /\ F x = p.
Proof.
  intros P. pose proof (if_lt _ _ _ _ _ I) as LT.
  assert (E1 : exists a, inside lo hi a /\ F a < p).
  { pose proof (near_lo_proper lo hi LT) as PF.
    assert (L : near_lo lo (fun x => F x < p)).
    { pose proof (if_lo _ _ _ _ _ I) as T. apply (T (fun y => y < p)). exists (mkposreal p (proj1 P)).
      intros y Hy. unfold ball in Hy; simpl in Hy; unfold AbsRing_ball, abs, minus, plus, opp in Hy; simpl in Hy.
      apply Rabs_def2 in Hy. lra. }
    destruct (filter_ex (F := near_lo lo) _ (filter_and _ _ L (near_lo_inside lo hi LT))) as [a [A1 A2]]. eauto. }
  assert (E2 : exists b, inside lo hi b /\ p < F b).
  { pose proof (near_hi_proper lo hi LT) as PF.
    assert (L : near_hi hi (fun x => p < F x)).
    { pose proof (if_hi _ _ _ _ _ I) as T. apply (T (fun y => p < y)). exists (mkposreal (v - p) ltac:(lra)).
      intros y Hy. unfold ball in Hy; simpl in Hy; unfold AbsRing_ball, abs, minus, plus, opp in Hy; simpl in Hy.
      apply Rabs_def2 in Hy. lra. }
    destruct (filter_ex (F := near_hi hi) _ (filter_and _ _ L (near_hi_inside lo hi LT))) as [a [A1 A2]]. eauto. }
  destruct E1 as [a [Ia Fa]], E2 as [b [Ib Fb]].
  assert (AB : a < b).
  { destruct (Rlt_le_dec a b) as [L|L]; auto. exfalso. destruct L as [L| ->]; [|lra]. pose proof (if_incr b a Ib Ia L). lra. }
  assert (CF : forall x, inside lo hi x -> continuity_pt F x).
  { intros x Hx. apply continuity_pt_filterlim. apply (ex_derive_continuous (V := R_NormedModule)). exists (g x). apply (if_der _ _ _ _ _ I); auto. }
  destruct (IVT_Rbar_incr F a b (F a) (F b) p) as [x [X1 [X2 X3]]]; simpl; auto.
  - apply is_lim_continuity. auto.
  - apply is_lim_continuity. auto.
  - intros x X1 X2. simpl in *. apply CF. apply (inside_mid lo hi a b); auto. lra.
  - exists x. split; auto. simpl in *. apply (inside_mid lo hi a b); auto. lra.
Qed.
End Use.
