(** Model of /repo/mpsci/distributions/lognormal.py. *)
From Coq Require Import Reals List.
From Verif Require Import Values M_common M_basic M_sfun.
Import ListNotations.
Local Open Scope R_scope.
Local Open Scope val_scope.

(** lognormal.py:21-24. *)
Definition validate {A} `{CanRaise A} (mu sigma : val) (k : A) : A :=
  RIF sigma <=? 0 THEN raise ValueError ELSE k.
(** lognormal.py:28-37. *)
Definition pdf (x mu sigma : val) : val :=
  validate mu sigma (IF x <=? 0 THEN 0 ELSE (let lnx := vlog x in vnpdf lnx mu sigma / x)).
(** lognormal.py:41-52. *)
Definition logpdf (x mu sigma : val) : val :=
  validate mu sigma
  (IF x <=? 0 THEN NInf ELSE
   (let lnx := vlog x in let t := - vpown (lnx - mu) 2 / (2 * vpown sigma 2) in
    - vlog x - vlog sigma - Fin (1/2) * vlog (2 * vpi) + t)).
(** lognormal.py:56-65. *)
Definition cdf (x mu sigma : val) : val :=
  validate mu sigma (IF x <=? 0 THEN 0 ELSE vncdf (vlog x) mu sigma).
(** lognormal.py:69-78.  Line 76 evaluates [mp.mp.one]: with [from mpmath import mp] that is
    an attribute [mp] of the context object, which does not exist. *)
Definition sf (x mu sigma : val) : val :=
  validate mu sigma (IF x <=? 0 THEN Exc AttributeError ELSE vncdf (- vlog x) (- mu) sigma).
(** lognormal.py:82-93. *)
Definition invcdf (p mu sigma : val) : val :=
  validate_p p (validate mu sigma (vexp (vsqrt 2 * sigma * verfinv (2 * p - Fin 1) + mu))).
(** lognormal.py:97-103. *)
Definition invsf (p mu sigma : val) : val :=
  validate_p p (validate mu sigma (invcdf (Fin 1 - p) mu sigma)).
(** lognormal.py:107-112. *)
Definition support (mu sigma : val) : res (val * val) := validate mu sigma (Ok (Fin 0, PInf)).
(** lognormal.py:116-121, 125-130, 134-140, 144-150, 154-161, 165-170, 174-180. *)
Definition mean (mu sigma : val) : val := validate mu sigma (vexp (mu + vpown sigma 2 / 2)).
Definition mode (mu sigma : val) : val := validate mu sigma (vexp (mu - vpown sigma 2)).
Definition var (mu sigma : val) : val :=
  validate mu sigma (let sigma2 := vpown sigma 2 in vexpm1 sigma2 * vexp (2 * mu + sigma2)).
Definition skewness (mu sigma : val) : val :=
  validate mu sigma (let sigma2 := vpown sigma 2 in (vexp sigma2 + 2) * vsqrt (vexpm1 sigma2)).
Definition kurtosis (mu sigma : val) : val :=
  validate mu sigma (let sigma2 := vpown sigma 2 in
    vexp (4 * sigma2) + 2 * vexp (3 * sigma2) + 3 * vexp (2 * sigma2) - Fin 6).
Definition entropy (mu sigma : val) : val :=
  validate mu sigma (vlog sigma + mu + Fin (1/2) + Fin (1/2) * vlog (2 * vpi)).
(** [n] is a non-negative integer: other values are rejected by _validate_moment_n. *)
Definition noncentral_moment (n : nat) (mu sigma : val) : val :=
  validate mu sigma (vexp (INR n * mu + Fin (INR n ^ 2) * vpown sigma 2 / 2)).
(** lognormal.py:184-193. *)
Definition nll (x : list val) (mu sigma : val) : val :=
  validate mu sigma (validate_x_bounds x (Some (Fin 0)) (Some PInf) true true
    (- vfsum (map (fun t => logpdf t mu sigma) x))).
(** lognormal.py:200-214. *)
Definition mle (x : list val) : res (val * val) :=
  validate_x_bounds x (Some (Fin 0)) None true false
  (let lnx := map vlog x in
   let N := vlen x in
   bindv (vfsum lnx / N) (fun meanx =>
   bindv (vfsum (map (fun xi => vpown (xi - meanx) 2) lnx) / N) (fun var =>
   bindv (vsqrt var) (fun sigma => Ok (meanx, sigma))))).
(** lognormal.py:218-232. *)
Definition mom (x : list val) : res (val * val) :=
  validate_x_bounds x (Some (Fin 0)) None true false
  (bindv (vlog (vfsum x)) (fun logsumx =>
   bindv (vlog (vfsum (map (fun t => vpown t 2) x))) (fun logsumx2 =>
   bindv (vlog (vlen x)) (fun logn =>
   bindv (- logsumx2 / 2 + 2 * logsumx - 3 * logn / 2) (fun mu =>
   bindv (vsqrt (logsumx2 - 2 * logsumx + logn)) (fun sigma => Ok (mu, sigma))))))).
