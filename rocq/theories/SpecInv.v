(** What a numeric inverse (bracket search followed by mpmath's findroot) is supposed to do. *)
From Coq Require Import Reals.
From Coquelicot Require Import Coquelicot.
From Verif Require Import Values Spec SpecRoot.
Local Open Scope R_scope.

(** findroot checks its result before returning it (keyword verify, on by default): a number that
    it returns is a zero of the function.  The tolerance of the check is idealised to 0. *)
Definition checked_solver (findroot : (val -> val) -> val * val -> val) : Prop :=
  forall func x0 x1 r, findroot func (x0, x1) = Fin r -> func (Fin r) = Fin 0.

Definition checked_solver1 (findroot : (val -> val) -> val -> val) : Prop :=
  forall func x0 r, findroot func x0 = Fin r -> func (Fin r) = Fin 0.

(** [inv findroot fuel p] solves [func(x) = p] for every p in (0,1).  There is exactly one solution
    q, it lies inside (lo, hi), and, with enough iterations allowed for the bracket search:
    any number returned is q, whatever checked solver is used; and q is returned if the solver
    always finds a root in an interval over which the function changes sign. *)
Definition solves (func : val -> val) (inv : ((val -> val) -> val * val -> val) -> nat -> val -> val) (lo hi : Rbar) : Prop :=
  forall p, 0 < p < 1 -> exists q N, inside lo hi q /\ func (Fin q) = Fin p /\ (forall x, func (Fin x) = Fin p -> x = q) /\
    (forall findroot, checked_solver findroot -> forall fuel x, (N < fuel)%nat -> inv findroot fuel (Fin p) = Fin x -> x = q) /\
    (forall findroot, bracket_solver findroot -> forall fuel, (N < fuel)%nat -> inv findroot fuel (Fin p) = Fin q).

(** The same for a system of two equations in two unknowns. *)
Definition checked_solver2 (findroot : (val -> val -> val * val) -> val * val -> res (val * val)) : Prop :=
  forall func x0 a b, findroot func x0 = Ok (Fin a, Fin b) -> func (Fin a) (Fin b) = (Fin 0, Fin 0).

(** A numeric inverse that hands a bracket computed in closed form to findroot.  There is exactly
    one solution q of [func(x) = p] in (lo, hi); any number returned there is q, whatever checked
    solver is used; and q is returned if the solver always finds a root in an interval over which
    the function changes sign. *)
Definition inverts (func : val -> val) (inv : ((val -> val) -> val * val -> val) -> val -> val) (lo hi : Rbar) : Prop :=
  forall p, 0 < p < 1 -> exists q, inside lo hi q /\ func (Fin q) = Fin p /\ (forall x, inside lo hi x -> func (Fin x) = Fin p -> x = q) /\
    (forall findroot, checked_solver findroot -> forall x, inside lo hi x -> inv findroot (Fin p) = Fin x -> x = q) /\
    (forall findroot, bracket_solver findroot -> inv findroot (Fin p) = Fin q).
