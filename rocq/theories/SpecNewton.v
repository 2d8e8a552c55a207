(** What a monotone Newton iteration is.  Independent of the model. *)
From Coq Require Import Reals ZArith.
From Coquelicot Require Import Coquelicot.
From Verif Require Import Values.
Local Open Scope R_scope.

(** Equal up to 2^(4-prec), absolutely or relatively. *)
Definition almost_equal (prec : Z) (x y : R) : Prop :=
  Rabs (x - y) <= powerRZ 2 (4 - prec) \/ Rabs (x - y) <= powerRZ 2 (4 - prec) * Rmax (Rabs x) (Rabs y).

(** [u] are the Newton iterates for cdf x = p started at [m]. *)
Definition newton_iterates (cdf pdf : val -> val) (p m : R) (u : nat -> R) : Prop :=
  u 0%nat = m /\
  forall n, exists c d, cdf (Fin (u n)) = Fin c /\ pdf (Fin (u n)) = Fin d /\ 0 < d /\ d * (u (S n) - u n) = p - c.

(** The iterates from [m] stay in (lo, inf), move monotonically towards the solution [q] without
    ever crossing it, and converge to it; [result fuel] is the first iterate almost equal to its
    predecessor, provided [fuel] is at least the (finite) number of passes. *)
Definition newton_monotone (cdf pdf : val -> val) (lo m p : R) (prec : Z) (result : nat -> val) : Prop :=
  exists (q : R) (u : nat -> R) (k : nat),
    lo < q /\ cdf (Fin q) = Fin p /\
    newton_iterates cdf pdf p m u /\ (forall n, lo < u n) /\
    ((forall n, q <= u (S n) <= u n) \/ (forall n, u n <= u (S n) <= q)) /\
    is_lim_seq u q /\
    almost_equal prec (u (S k)) (u k) /\ (forall j, (j < k)%nat -> ~ almost_equal prec (u (S j)) (u j)) /\
    (forall fuel, (k < fuel)%nat -> result fuel = Fin (u (S k))).
