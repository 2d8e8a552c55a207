(** Mathematical definitions of the special functions that mpsci takes from mpmath.

    mpmath is outside /repo: it is modelled by the textbook definition of the function it
    computes (see DESIGN.md, trusted base), on the real arguments given here. *)
From Coq Require Import Reals.
From Coquelicot Require Import Coquelicot.
From Verif Require Import Values Spec.
Local Open Scope R_scope.

(** The (improper Riemann) integral of [g] over the open interval (lo, hi). *)
Definition improper (g : R -> R) (lo hi : Rbar) : R := RInt_gen g (near_lo lo) (near_hi hi).

(** mpmath.gamma(a), a > 0: Euler's integral. *)
Definition gamma_kernel (a t : R) : R := Rpower t (a - 1) * exp (- t).
Definition Gamma (a : R) : R := improper (gamma_kernel a) 0 p_infty.
(** mpmath.gammainc(a, 0, x) and mpmath.gammainc(a, x, inf), a > 0, x > 0. *)
Definition lower_gamma (a x : R) : R := improper (gamma_kernel a) 0 x.
Definition upper_gamma (a x : R) : R := improper (gamma_kernel a) x p_infty.
(** mpmath.loggamma(a), a > 0, and mpmath.digamma(a) = psi(0, a). *)
Definition loggamma (a : R) : R := ln (Gamma a).
Definition digamma (a : R) : R := Derive loggamma a.
(** mpmath.beta(a, b), a, b > 0, defined by mpmath as a quotient of gammas. *)
Definition Beta (a b : R) : R := Gamma a * Gamma b / Gamma (a + b).
(** mpmath.betainc(a, b, 0, x), a, b > 0, 0 < x < 1. *)
Definition beta_kernel (a b t : R) : R := Rpower t (a - 1) * Rpower (1 - t) (b - 1).
Definition lower_beta (a b x : R) : R := improper (beta_kernel a b) 0 x.
Definition upper_beta (a b x : R) : R := improper (beta_kernel a b) x 1.
(** mpmath.erf, mpmath.erfc, mpmath.ncdf and mpmath.npdf on real arguments. *)
Definition erf (x : R) : R := 2 / sqrt PI * RInt (fun t => exp (- t ^ 2)) 0 x.
Definition erfc (x : R) : R := 1 - erf x.
Definition ncdf (x : R) : R := / 2 * (1 + erf (x / sqrt 2)).
(** The inverse of an increasing function on (lo, hi): the value that an exact inverse or an
    exact root finder (mpmath.erfinv, mpmath.findroot on [F x - p]) returns. *)
Definition inverse_fn (lo hi : Rbar) (F : R -> R) (p : R) : R := real (Lub_Rbar (fun x => inside lo hi x /\ F x <= p)).
(** mpmath.psi(1, a). *)
Definition trigamma (a : R) : R := Derive digamma a.
