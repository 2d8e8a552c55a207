(** The Gauss hypergeometric function.  Independent of the model. *)
From Coq Require Import Reals.
From Coquelicot Require Import Coquelicot.
From Verif Require Import Values Spec SFun.
Local Open Scope R_scope.

(** 2F1(a, b; c; z) for 0 < a < c and z < 1: Euler's integral (DLMF 15.6.1 with a and b, in which
    2F1 is symmetric, exchanged). *)
Definition hyp2f1_kernel (a b c z t : R) : R := Rpower t (a - 1) * Rpower (1 - t) (c - a - 1) * Rpower (1 - z * t) (- b).
Definition hyp2f1 (a b c z : R) : R := Gamma c / (Gamma a * Gamma (c - a)) * improper (hyp2f1_kernel a b c z) 0 1.
