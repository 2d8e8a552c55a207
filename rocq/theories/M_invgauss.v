(** Model of /repo/mpsci/distributions/invgauss.py.  [entropy] (lines 241-249, an exponential
    integral) is not modelled. *)
From Coq Require Import Reals List ZArith.
From Verif Require Import Values M_common M_sfun M_newton.
Import ListNotations.
Local Open Scope R_scope.
Local Open Scope val_scope.

(** invgauss.py:47-55. *)
Definition validate_params {A} `{CanRaise A} (m loc scale : val) (c : A) : A :=
  RIF m <=? 0 THEN raise ValueError ELSE RIF scale <=? 0 THEN raise ValueError ELSE c.
(** mpmath.ncdf(x), standard normal. *)
Definition ncdf1 (x : val) : val := vncdf x 0 1.
(** invgauss.py:58-71. *)
Definition pdf (x m loc scale : val) : val :=
  validate_params m loc scale
  (IF x <=? loc THEN 0 ELSE
   let z := (x - loc) / scale in
   let den := scale * vsqrt (2 * vpi * vpown z 3) in
   let t := vpown ((z - m) / m) 2 in
   let num := vexp (- t / (2 * z)) in
   num / den).
(** invgauss.py:74-87. *)
Definition logpdf (x m loc scale : val) : val :=
  validate_params m loc scale
  (IF x <=? loc THEN NInf ELSE
   let z := (x - loc) / scale in
   let t := vpown ((z - m) / m) 2 in
   Fin (- (1/2)) * vlog (2 * vpi) - Fin (3/2) * vlog z - t / (2 * z) - vlog scale).
(** invgauss.py:90-102. *)
Definition cdf (x m loc scale : val) : val :=
  validate_params m loc scale
  (IF x <=? loc THEN 0 ELSE
   let z := (x - loc) / scale in
   let t1 := ncdf1 ((z / m - 1) / vsqrt z) in
   let t2 := vexp (2 / m) * ncdf1 (- (z / m + 1) / vsqrt z) in
   t1 + t2).
(** invgauss.py:105-117. *)
Definition logcdf (x m loc scale : val) : val :=
  validate_params m loc scale
  (IF x <=? loc THEN NInf ELSE
   let z := (x - loc) / scale in
   let t1 := vlog (ncdf1 ((z / m - 1) / vsqrt z)) in
   let t2 := 2 / m + vlog (ncdf1 (- (z / m + 1) / vsqrt z)) in
   t1 + vlog1p (vexp (t2 - t1))).
(** invgauss.py:141-153. *)
Definition sf (x m loc scale : val) : val :=
  validate_params m loc scale
  (IF x <=? loc THEN 1 ELSE
   let z := (x - loc) / scale in
   let t1 := ncdf1 (- (z / m - 1) / vsqrt z) in
   let t2 := vexp (2 / m) * ncdf1 (- (z / m + 1) / vsqrt z) in
   t1 - t2).
(** invgauss.py:156-168. *)
Definition logsf (x m loc scale : val) : val :=
  validate_params m loc scale
  (IF x <=? loc THEN 0 ELSE
   let z := (x - loc) / scale in
   let t1 := vlog (ncdf1 (- (z / m - 1) / vsqrt z)) in
   let t2 := 2 / m + vlog (ncdf1 (- (z / m + 1) / vsqrt z)) in
   t1 + vlog1p (- vexp (t2 - t1))).
(** invgauss.py:219-229. *)
Definition mode (m loc scale : val) : val :=
  validate_params m loc scale
  (let s := 3 * m / 2 in
   let t := vexpm1 (vlog1p (1 / vpown s 2) / 2) in
   scale * (m * s * t) + loc).
(** invgauss.py:120-138; [prec] is the working precision in bits, [fuel] bounds the passes of
    the loop (see M_newton.v). *)
Definition invcdf (prec : Z) (fuel : nat) (p m loc scale : val) : val :=
  validate_params m loc scale (validate_p p
  (IF p =? 0 THEN loc ELSE IF p =? 1 THEN PInf ELSE
   newton prec fuel (fun x0 => x0 + (p - cdf x0 m loc scale) / pdf x0 m loc scale) (mode m loc scale))).
(** invgauss.py:171-189. *)
Definition invsf (prec : Z) (fuel : nat) (p m loc scale : val) : val :=
  validate_params m loc scale (validate_p p
  (IF p =? 0 THEN PInf ELSE IF p =? 1 THEN loc ELSE
   newton prec fuel (fun x0 => x0 - (p - sf x0 m loc scale) / pdf x0 m loc scale) (mode m loc scale))).
(** invgauss.py:192-198. *)
Definition support (m loc scale : val) : res (val * val) :=
  validate_params m loc scale (Ok (loc, PInf)).
(** invgauss.py:201-207. *)
Definition mean (m loc scale : val) : val := validate_params m loc scale (scale * m + loc).
(** invgauss.py:210-216. *)
Definition median (prec : Z) (fuel : nat) (m loc scale : val) : val :=
  validate_params m loc scale (invcdf prec fuel (1 / 2) m loc scale).
(** invgauss.py:232-238. *)
Definition var (m loc scale : val) : val := validate_params m loc scale (vpown m 3 * vpown scale 2).
(** invgauss.py:252-261; the gammaprod arguments n + k, k + 1 and n - k are positive. *)
Definition standard_noncentral_moment (n : nat) (m : val) : val :=
  if Nat.eqb n 0 then Fin 1 else
  vpown m n * vfsum (map (fun k => vgamma (Fin (INR (n + k))) / (vgamma (Fin (INR (k + 1))) * vgamma (Fin (INR (n - k))))
                                   * vpown (m / 2) k) (seq 0 n)).
(** invgauss.py:264-282; [n] has passed [_validate_moment_n]. *)
Definition noncentral_moment (n : nat) (m loc scale : val) : val :=
  validate_params m loc scale
  (if Nat.eqb n 0 then Fin 1 else
   vfsum (map (fun i => Fin (C n i) * vpown loc (n - i) * vpown scale i
                        * standard_noncentral_moment i m) (seq 0 (n + 1)))).
