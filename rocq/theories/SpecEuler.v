(** Euler's constant: the limit of 1 + 1/2 + ... + 1/n - ln n. *)
From Coq Require Import Reals.
From Coquelicot Require Import Coquelicot.
Local Open Scope R_scope.
Fixpoint harmonic (n : nat) : R := match n with O => 0 | S m => harmonic m + / INR n end.
Definition euler_constant (g : R) : Prop := is_lim_seq (fun n => harmonic n - ln (INR n)) g.
