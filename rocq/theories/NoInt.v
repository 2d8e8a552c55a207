(** Divergence of improper integrals by comparison. *)
From Coq Require Import Reals Lra List.
From Coquelicot Require Import Coquelicot.
From Verif Require Import Values Spec RLib DistLib LimLib IntLib.
Local Open Scope R_scope.

Lemma no_integral lo hi (g : R -> R) c (D d : R -> R) :
  inside lo hi c -> (forall x, inside lo hi x -> continuous g x) ->
  (forall x, inside lo hi x -> c <= x -> is_derive D x (d x) /\ d x <= g x) ->
  (forall M, near_hi hi (fun x => M < D x)) ->
  forall v, ~ integrates_to g lo hi v.
Proof.
  intros C CT HD INF v I. assert (LT : Rbar_lt lo hi) by (destruct C as [C1 C2]; destruct lo, hi; simpl in *; auto; lra).
  pose proof (near_lo_proper lo hi LT) as PL. pose proof (near_hi_proper lo hi LT) as PH.
  assert (PD : forall x, inside lo hi x -> is_derive (prim g c) x (g x)) by (intros x X; apply (prim_der lo hi g c C CT x X)).
  assert (RI : forall a b, inside lo hi a -> inside lo hi b -> is_RInt g a b (prim g c b - prim g c a)).
  { intros a b A B. apply (is_RInt_derive (prim g c) g).
    - intros x X. apply PD. apply (inside_between lo hi a b); auto.
    - intros x X. apply CT. apply (inside_between lo hi a b); auto. }
  assert (DB : forall x, inside lo hi x -> c <= x -> D x - D c <= prim g c x).
  { intros x X CX. pose proof (nonneg_between lo hi (fun x => prim g c x - D x) (fun x => g x - d x) c x C X CX) as N.
    cbv beta in N. rewrite prim_c in N. cut (0 - D c <= prim g c x - D x); [lra|]. apply N. intros y Y.
    assert (Iy : inside lo hi y) by (apply (inside_mid lo hi c x); auto). destruct (HD y Iy ltac:(lra)) as [H1 H2].
    split; [|lra]. apply (is_derive_minus (prim g c) D); auto. }
  assert (B1 : locally v (fun y => y < v + 1)).
  { exists (mkposreal 1 Rlt_0_1). intros y B. unfold ball in B; simpl in B; unfold AbsRing_ball, abs, minus, plus, opp in B; simpl in B.
    apply Rabs_def2 in B. lra. }
  destruct (I _ B1) as [A B HA HB HAB].
  destruct (filter_ex _ (filter_and _ _ HA (near_lo_below lo hi c C))) as [a [Aa [Ia _]]].
  destruct (filter_ex _ (filter_and _ _ (filter_and _ _ HB (near_hi_above lo hi c C)) (INF (v + 1 + D c + prim g c a)))) as [b [[Bb [Ib Cb]] Lb]].
  destruct (HAB a b Aa Bb) as [y [Y1 Y2]]. simpl in Y1. pose proof (RI a b Ia Ib) as R1.
  assert (E : y = prim g c b - prim g c a) by (rewrite <- (is_RInt_unique _ _ _ _ Y1); apply is_RInt_unique; auto).
  pose proof (DB b Ib ltac:(lra)). lra.
Qed.
