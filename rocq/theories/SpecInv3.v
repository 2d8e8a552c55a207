(** Root finders for three simultaneous equations.  Nothing here mentions the model of mpsci. *)
From Coq Require Import Reals.
From Verif Require Import Values.

(** [findroot] only returns points where all three functions vanish. *)
Definition checked_solver3 (findroot : (val -> val -> val -> val * val * val) -> val * val * val -> res (val * val * val)) : Prop :=
  forall func x0 a b c, findroot func x0 = Ok (Fin a, Fin b, Fin c) -> func (Fin a) (Fin b) (Fin c) = (Fin 0, Fin 0, Fin 0).
