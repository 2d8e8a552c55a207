(** What is assumed of mpmath's bracketing root finders (findroot with two starting points and a
    bracketing solver): given a function that takes real values, is continuous on the bracket
    and changes sign over it, the solver returns a zero of the function in the bracket.
    [RootLib.ref_root] satisfies this, so the assumption is consistent. *)
From Coq Require Import Reals.
From Verif Require Import Values.
Local Open Scope R_scope.

Definition bracket_solver (findroot : (val -> val) -> val * val -> val) : Prop :=
  forall (func : val -> val) (f : R -> R) (a b : R),
  a <= b ->
  (forall x, a <= x <= b -> func (Fin x) = Fin (f x)) ->
  (forall x, a <= x <= b -> continuity_pt f x) ->
  (f a <= 0 <= f b \/ f b <= 0 <= f a) ->
  exists r, findroot func (Fin a, Fin b) = Fin r /\ a <= r <= b /\ f r = 0.
