(** What a numeric inverse by bisection in floating point is supposed to do. *)
From Coq Require Import Reals.
From Verif Require Import Values SpecGrid.
Local Open Scope R_scope.

(** [r] is [q], or one of the two numbers of [prec] bits next to [q]. *)
Definition next_to (prec : positive) (q r : R) : Prop :=
  r = q \/ exists l h, neighbours prec l h /\ l < q < h /\ (r = l \/ r = h).

(** [inv fuel prec p] solves [func(x) = p] on [0,1], at any precision of at least 8 bits: for every p in
    (0,1) there is exactly one solution q; the search ends, and its result is in [0,1] and next to q. *)
Definition solves_bisect (func : val -> val) (inv : nat -> positive -> val -> val) : Prop :=
  forall prec p, (8 <= prec)%positive -> 0 < p < 1 -> exists q r N, 0 < q < 1 /\ func (Fin q) = Fin p /\
    (forall x, func (Fin x) = Fin p -> x = q) /\ 0 <= r <= 1 /\ next_to prec q r /\
    forall fuel, (N < fuel)%nat -> inv fuel prec (Fin p) = Fin r.
