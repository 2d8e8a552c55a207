(** What the laws mean.  Nothing in this file mentions the model of mpsci: the
    predicates speak about arbitrary functions on mpmath values. *)
From Coq Require Import Reals Lra List.
From Coquelicot Require Import Coquelicot.
From Verif Require Import Values.
Local Open Scope R_scope.

(** An argument that is a number or an infinity (not nan, not an exception). *)
Inductive ext : val -> Prop :=
| ext_fin : forall r, ext (Fin r)
| ext_pinf : ext PInf
| ext_ninf : ext NInf.

(** The order of the extended reals. *)
Inductive ext_le : val -> val -> Prop :=
| ele_fin : forall x y, x <= y -> ext_le (Fin x) (Fin y)
| ele_ninf : forall y, ext y -> ext_le NInf y
| ele_pinf : forall x, ext x -> ext_le x PInf.

Definition toR (v : val) : R := match v with Fin r => r | _ => 0 end.

(** [cdf] and [sf] return probabilities adding up to one, for every argument. *)
Definition complementary (cdf sf : val -> val) : Prop :=
  forall x, ext x ->
    exists c, 0 <= c <= 1 /\ cdf x = Fin c /\ sf x = Fin (1 - c).

(** [cdf] is non-decreasing on the extended reals. *)
Definition nondecreasing (cdf : val -> val) : Prop :=
  forall x y, ext_le x y ->
    exists cx cy, cdf x = Fin cx /\ cdf y = Fin cy /\ cx <= cy.

(** No mass outside [lo, hi]. *)
Definition supported_on (cdf : val -> val) (lo hi : val) : Prop :=
  (forall x, ext_le x lo -> cdf x = Fin 0) /\
  (forall x, ext_le hi x -> cdf x = Fin 1).

(** Strictly between two extended reals (Coquelicot's [Rbar]). *)
Definition inside (lo hi : Rbar) (x : R) : Prop := Rbar_lt lo x /\ Rbar_lt x hi.

(** [pdf] is finite, non-negative and the derivative of [cdf] inside the support,
    and zero strictly outside of it. *)
Definition density_of (cdf pdf : val -> val) (lo hi : Rbar) : Prop :=
  (forall x, inside lo hi x ->
     exists f, pdf (Fin x) = Fin f /\ 0 <= f /\
               is_derive (fun t => toR (cdf (Fin t))) x f) /\
  (forall x : R, Rbar_lt x lo \/ Rbar_lt hi x -> pdf (Fin x) = Fin 0).

(** The improper integral of [pdf] over (lo, hi) is 1. *)
Definition near_lo (lo : Rbar) : (R -> Prop) -> Prop :=
  match lo with Finite a => at_right a | b => Rbar_locally b end.
Definition near_hi (hi : Rbar) : (R -> Prop) -> Prop :=
  match hi with Finite a => at_left a | b => Rbar_locally b end.
Definition integrates_to (f : R -> R) (lo hi : Rbar) (v : R) : Prop :=
  is_RInt_gen f (near_lo lo) (near_hi hi) v.
Definition total_mass_one (pdf : val -> val) (lo hi : Rbar) : Prop :=
  integrates_to (fun t => toR (pdf (Fin t))) lo hi 1.

(** [logpdf] is the logarithm of [pdf]: -inf exactly where [pdf] is zero, and +inf
    exactly where [pdf] is +inf. *)
Definition log_of (pdf logpdf : val -> val) (x : val) : Prop :=
  (exists f, 0 < f /\ pdf x = Fin f /\ logpdf x = Fin (ln f)) \/
  (pdf x = Fin 0 /\ logpdf x = NInf) \/
  (pdf x = PInf /\ logpdf x = PInf).

(** [inv] is the two-sided inverse of [cdf] between (0,1) and the open support. *)
Definition inverse_of (cdf inv : val -> val) (lo hi : Rbar) : Prop :=
  (forall p, 0 < p < 1 ->
     exists x, inv (Fin p) = Fin x /\ inside lo hi x /\ cdf (Fin x) = Fin p) /\
  (forall x, inside lo hi x ->
     exists p, 0 < p < 1 /\ cdf (Fin x) = Fin p /\ inv (Fin p) = Fin x).

Definition rejects_bad_p (inv : val -> val) : Prop :=
  (forall p, p < 0 \/ 1 < p -> inv (Fin p) = Exc ValueError) /\
  inv PInf = Exc ValueError /\ inv NInf = Exc ValueError.

(** Values at the two ends: [inv 0] and [inv 1]. *)
Definition at_ends (inv : val -> val) (at0 at1 : val) : Prop :=
  inv (Fin 0) = at0 /\ inv (Fin 1) = at1.

(** [m] is a point where the finite function [pdf] is globally maximal. *)
Definition is_mode (pdf : val -> val) (m : val) : Prop :=
  exists xm fm, m = Fin xm /\ pdf (Fin xm) = Fin fm /\
    forall x, exists f, pdf (Fin x) = Fin f /\ f <= fm.

(** Same, over a given set of points. *)
Definition is_mode_on (pdf : val -> val) (S : R -> Prop) (m : val) : Prop :=
  exists xm fm, m = Fin xm /\ S xm /\ pdf (Fin xm) = Fin fm /\
    forall x, S x -> exists f, pdf (Fin x) = Fin f /\ f <= fm.

(** Every function in the list raises ValueError, whatever number is passed. *)
Inductive isnum : val -> Prop :=
| num_ext : forall v, ext v -> isnum v
| num_nan : isnum NaN.
Definition always_ValueError (fs : list (val -> val)) : Prop :=
  List.Forall (fun f => forall x, isnum x -> f x = Exc ValueError) fs.

(** A number that is zero, negative or -inf. *)
Definition nonpositive (v : val) : Prop := ext_le v (Fin 0).
Definition negative (v : val) : Prop := nonpositive v /\ v <> Fin 0.

(** [m] is a point where [pdf], which may be +inf there, is globally maximal. *)
Definition is_mode_ext (pdf : val -> val) (m : val) : Prop :=
  exists xm : R, m = Fin xm /\ forall x : R, ext_le (pdf (Fin x)) (pdf (Fin xm)).

(** Location and scale act as documented, for z in the open standard support (lo, hi). *)
Definition loc_scale_law (pdf cdf sf invcdf invsf : val -> val -> val -> val) (lo hi : Rbar) : Prop :=
  forall l s : R, 0 < s ->
  (forall z : R, cdf (Fin (l + s * z)) (Fin l) (Fin s) = cdf (Fin z) (Fin 0) (Fin 1) /\
                 sf (Fin (l + s * z)) (Fin l) (Fin s) = sf (Fin z) (Fin 0) (Fin 1)) /\
  (forall z, inside lo hi z -> exists d, pdf (Fin z) (Fin 0) (Fin 1) = Fin d /\
                 pdf (Fin (l + s * z)) (Fin l) (Fin s) = Fin (d / s)) /\
  (forall p, 0 < p < 1 -> exists q r, invcdf (Fin p) (Fin 0) (Fin 1) = Fin q /\
                 invcdf (Fin p) (Fin l) (Fin s) = Fin (l + s * q) /\
                 invsf (Fin p) (Fin 0) (Fin 1) = Fin r /\ invsf (Fin p) (Fin l) (Fin s) = Fin (l + s * r)).

(** Moments as improper integrals against the density over the support (lo, hi). *)
Definition mean_is (pdf : val -> val) (lo hi : Rbar) (m : val) : Prop :=
  exists r, m = Fin r /\ integrates_to (fun t => t * toR (pdf (Fin t))) lo hi r.
Definition moment_is (pdf : val -> val) (lo hi : Rbar) (n : nat) (m : val) : Prop :=
  exists r, m = Fin r /\ integrates_to (fun t => t ^ n * toR (pdf (Fin t))) lo hi r.
Definition var_is (pdf : val -> val) (lo hi : Rbar) (m v : val) : Prop :=
  exists r q, m = Fin r /\ v = Fin q /\
    integrates_to (fun t => (t - r) ^ 2 * toR (pdf (Fin t))) lo hi q.
Definition entropy_is (pdf : val -> val) (lo hi : Rbar) (h : val) : Prop :=
  exists r, h = Fin r /\
    integrates_to (fun t => - (toR (pdf (Fin t)) * ln (toR (pdf (Fin t))))) lo hi r.
(** Skewness and excess kurtosis: the third and fourth central moments over the variance v,
    E (X-m)^3 / v^(3/2) and E (X-m)^4 / v^2 - 3. *)
Definition central_is (pdf : val -> val) (lo hi : Rbar) (n : nat) (m c : R) : Prop :=
  integrates_to (fun t => (t - m) ^ n * toR (pdf (Fin t))) lo hi c.
Definition skewness_is (pdf : val -> val) (lo hi : Rbar) (k : val) : Prop :=
  exists m v c, integrates_to (fun t => t * toR (pdf (Fin t))) lo hi m /\ 0 < v /\
    central_is pdf lo hi 2 m v /\ central_is pdf lo hi 3 m c /\ k = Fin (c / (v * sqrt v)).
Definition kurtosis_is (pdf : val -> val) (lo hi : Rbar) (k : val) : Prop :=
  exists m v c, integrates_to (fun t => t * toR (pdf (Fin t))) lo hi m /\ 0 < v /\
    central_is pdf lo hi 2 m v /\ central_is pdf lo hi 4 m c /\ k = Fin (c / v ^ 2 - 3).
(** The cdf is 1/2 at the median. *)
Definition median_is (cdf : val -> val) (m : val) : Prop :=
  exists r, m = Fin r /\ cdf (Fin r) = Fin (1 / 2).

(** A scale parameter acts as documented (the location is zero). *)
Definition scale_law (pdf cdf sf invcdf invsf : val -> val -> val) (lo hi : Rbar) : Prop :=
  forall s : R, 0 < s ->
  (forall z : R, cdf (Fin (s * z)) (Fin s) = cdf (Fin z) (Fin 1) /\
                 sf (Fin (s * z)) (Fin s) = sf (Fin z) (Fin 1)) /\
  (forall z, inside lo hi z -> exists d, pdf (Fin z) (Fin 1) = Fin d /\
                 pdf (Fin (s * z)) (Fin s) = Fin (d / s)) /\
  (forall p, 0 < p < 1 -> exists q r, invcdf (Fin p) (Fin 1) = Fin q /\
                 invcdf (Fin p) (Fin s) = Fin (s * q) /\
                 invsf (Fin p) (Fin 1) = Fin r /\ invsf (Fin p) (Fin s) = Fin (s * r)).
