(** Specification vocabulary for the integer part: binomial coefficients, 2x2
    tables, exact sums.  Independent of the model of mpsci. *)
From Coq Require Import List Arith ZArith QArith Factorial.
Import ListNotations.

(** Binomial coefficients by Pascal's rule. *)
Fixpoint choose (n k : nat) : nat :=
  match k with
  | O => 1
  | S k' => match n with O => 0 | S n' => choose n' k' + choose n' k end
  end.

(** 2x2 tables of natural numbers [[a, b], [c, d]]. *)
Record table := mkT { t00 : nat; t01 : nat; t10 : nat; t11 : nat }.
Definition row0 t := (t00 t + t01 t)%nat.
Definition row1 t := (t10 t + t11 t)%nat.
Definition col0 t := (t00 t + t10 t)%nat.
Definition col1 t := (t01 t + t11 t)%nat.
Definition total t := (row0 t + row1 t)%nat.
Definition same_margins t t' :=
  row0 t = row0 t' /\ row1 t = row1 t' /\ col0 t = col0 t' /\ col1 t = col1 t'.

Definition Qnat (n : nat) : Q := inject_Z (Z.of_nat n).

(** Hypergeometric probability of a table given its margins. *)
Definition prob (t : table) : Q :=
  (Qnat (choose (row0 t) (t00 t) * choose (row1 t) (t10 t)) / Qnat (choose (total t) (col0 t)))%Q.

(** All tables with the margins of [t], by increasing upper left entry. *)
Definition tables_like (t : table) : list table :=
  flat_map (fun w =>
    if (w <=? col0 t)%nat && (col0 t - w <=? row1 t)%nat
    then [mkT w (row0 t - w) (col0 t - w) (row1 t - (col0 t - w))] else [])
    (seq 0 (row0 t + 1)).

Definition sumQ (l : list Q) : Q := fold_right Qplus 0%Q l.

(** Sum of the probabilities of the tables satisfying [P]. *)
Definition prob_of (t : table) (P : table -> bool) : Q :=
  sumQ (map prob (filter P (tables_like t))).

Definition transpose t := mkT (t00 t) (t10 t) (t01 t) (t11 t).
Definition swap_rows t := mkT (t10 t) (t11 t) (t00 t) (t01 t).
Definition swap_cols t := mkT (t01 t) (t00 t) (t11 t) (t10 t).
