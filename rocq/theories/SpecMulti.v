(** Specification vocabulary for distributions on vectors.  Independent of the model. *)
From Coq Require Import Reals List ZArith.
From Verif Require Import Values Spec SpecStat.
Import ListNotations.
Local Open Scope R_scope.

(** The possible outcomes of drawing [n] items from an urn with [cs] items of each colour. *)
Definition outcome (cs : list nat) (n : nat) (k : list Z) : Prop :=
  Forall2 (fun c x => (0 <= x <= Z.of_nat c)%Z) cs k /\ fold_right Z.add 0%Z k = Z.of_nat n.
(** Lexicographic order. *)
Fixpoint lex_lt (a b : list Z) : Prop :=
  match a, b with
  | x :: a, y :: b => (x < y)%Z \/ (x = y /\ lex_lt a b)
  | _, _ => False
  end.
Fixpoint increasing {A} (lt : A -> A -> Prop) (l : list A) : Prop :=
  match l with [] => True | x :: l => (forall y, In y l -> lt x y) /\ increasing lt l end.
(** Expectation of [f] over the points of [L]. *)
Definition expectation (pmf : list Z -> val) (L : list (list Z)) (f : list Z -> R) : R :=
  sum (map (fun k => toR (pmf k) * f k) L).
Definition coord (i : nat) (k : list Z) : R := IZR (nth i k 0%Z).
(** Vectors and matrices of reals as Python lists. *)
Definition vvec (v : list R) : list val := map Fin v.
Definition vmat (m : list (list R)) : list (list val) := map vvec m.
Definition entry (m : list (list R)) (i j : nat) : R := nth j (nth i m []) 0.
Definition square (m : list (list R)) (n : nat) : Prop := length m = n /\ forall r, In r m -> length r = n.
