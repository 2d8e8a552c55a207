(** The numeric inverses shared by several distributions: a call of _common._find_bracket, an early
    return when the bracket is a point, and mpmath.findroot on the bracket
    (e.g. gamma.py:96-102, beta.py, loggamma.py, betaprime.py; each use cites its lines). *)
From Coq Require Import Reals.
From Verif Require Import Values M_bracket.
Local Open Scope R_scope.
Local Open Scope val_scope.

Definition bracket_solve (findroot : (val -> val) -> val * val -> val) (fuel : nat) (nbisect : option nat)
    (func : val -> val) (p a b : val) : val :=
  match find_bracket fuel func p a b nbisect with
  | Err e => Exc e
  | Ok x => IF fst x =? snd x THEN fst x ELSE findroot (fun t => func t - p) x
  end.
