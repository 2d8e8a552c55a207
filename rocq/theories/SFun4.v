(** mpmath.besseli and mpmath.hyp1f1 on the reals: the defining power series. *)
From Coq Require Import Reals.
From Coquelicot Require Import Coquelicot.
From Verif Require Import SFun.
Local Open Scope R_scope.

(** I_nu(z) = (z/2)^nu sum_k (z^2/4)^k / (k! Gamma(nu + 1 + k)) for nu > -1 and z > 0. *)
Definition besseli (nu z : R) : R :=
  Rpower (z / 2) nu * Series (fun k => (z ^ 2 / 4) ^ k / (INR (fact k) * Gamma (nu + 1 + INR k))).
(** (a)_n = a (a+1) ... (a+n-1). *)
Fixpoint rising (a : R) (n : nat) : R := match n with O => 1 | S m => rising a m * (a + INR m) end.
(** 1F1(a; b; x) = sum_n (a)_n x^n / ((b)_n n!). *)
Definition hyp1f1 (a b x : R) : R := Series (fun n => rising a n / (rising b n * INR (fact n)) * x ^ n).
