(** Specification for C28: what a call observes must be what the same call observes in a fresh
    process at the same precision.  The identity of the returned list object is not compared. *)
From Coq Require Import List.
From Verif Require Import Values SpecDisc M_fnch M_fnch_cache.
Import ListNotations.
Definition same_obs (a b : obs) : Prop :=
  match a, b with
  | Num x, Num y => x = y
  | Lst r _, Lst r' _ => r = r'
  | Nothing, Nothing => True
  | _, _ => False
  end.
Definition is_assign (o : op) : bool := match o with Assign _ _ _ => true | _ => false end.
(** [o] observes, after the history [os], what it observes first thing in a fresh process. *)
Definition history_independent (compute : nat -> args -> res (isupport * list val)) (up : nat -> nat) (p0 : nat) (os : list op) (o : op) : Prop :=
  same_obs (snd (step compute up o (run compute up os (init p0))))
           (snd (step compute up o (init (prec (run compute up os (init p0)))))).
