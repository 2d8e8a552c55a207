(** Vocabulary for the bracket searches: the interval searched, the direction of the function, and what it
    means for an interval to bracket the solution of f(x) = p. *)
From Coq Require Import Reals.
From Verif Require Import Values.
Local Open Scope R_scope.

(** x is a finite point of the closed interval from a to b (a may be -inf, b may be inf). *)
Definition within (a b : val) (x : R) : Prop :=
  match a with NInf => True | Fin r => r <= x | _ => False end /\
  match b with PInf => True | Fin r => x <= r | _ => False end.

(** y comes strictly before p in the direction in which the function moves. *)
Definition before (increasing : bool) (y p : R) : Prop := if increasing then y < p else p < y.

(** f never moves against its direction on the interval. *)
Definition monotone (increasing : bool) (a b : val) (f : R -> R) : Prop :=
  forall x y, within a b x -> within a b y -> x <= y -> if increasing then f x <= f y else f y <= f x.

(** [x0, x1] lies in the interval; either it is one point at which f is exactly p, or f moves from strictly
    one side of p at x0 to the other side, or p itself, at x1. *)
Definition brackets (increasing : bool) (f : R -> R) (p : R) (a b : val) (x0 x1 : R) : Prop :=
  within a b x0 /\ within a b x1 /\
  ((x0 = x1 /\ f x0 = p) \/ (x0 < x1 /\ before increasing (f x0) p /\ ~ before increasing (f x1) p)).
