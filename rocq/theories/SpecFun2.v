(** Specification of the special functions and the quadrature rule of mpsci.fun that the C76-C80 theorems mention. *)
From Coq Require Import Reals List.
From Coquelicot Require Import Coquelicot.
From Verif Require Import SFun.
Import ListNotations.
Local Open Scope R_scope.

(** The terms of Wright's series sum_k z^k / (k! Gamma(rho k + beta)), https://dlmf.nist.gov/10.46. *)
Definition wright_term (z rho beta : R) (k : nat) : R := z ^ k / (INR (fact k) * Gamma (INR k * rho + beta)).
(** The probabilists' Hermite polynomials: He_0 = 1, He_1 = x, He_(n+2) = x He_(n+1) - (n+1) He_n. *)
Fixpoint He (n : nat) (x : R) : R :=
  match n with
  | O => 1
  | S m => match m with O => x | S k => x * He m x - INR m * He k x end
  end.
(** A quadrature rule with nodes [xs] and weights [ws], applied to [f]. *)
Fixpoint rule (xs ws : list R) (f : R -> R) : R :=
  match xs, ws with x :: xs, w :: ws => w * f x + rule xs ws f | _, _ => 0 end.
(** The polynomial with coefficients c 0, ..., c d. *)
Definition poly (c : nat -> R) (d : nat) (x : R) : R := sum_f_R0 (fun i => c i * x ^ i) d.
(** The Legendre polynomials, (n+2) P_(n+2) = (2n+3) x P_(n+1) - (n+1) P_n, https://dlmf.nist.gov/18.9. *)
Fixpoint legendre (n : nat) (x : R) : R :=
  match n with
  | O => 1
  | S m => match m with O => x | S k => ((2 * INR m + 1) * x * legendre m x - INR m * legendre k x) / INR n end
  end.
