(** Model of /repo/mpsci/distributions/invgamma.py. *)
From Coq Require Import Reals List ZArith.
From Verif Require Import Values M_common M_sfun M_newton.
Import ListNotations.
Local Open Scope R_scope.
Local Open Scope val_scope.

(** invgamma.py:26-34. *)
Definition validate_params {A} `{CanRaise A} (a loc scale : val) (c : A) : A :=
  RIF a <=? 0 THEN raise ValueError ELSE RIF scale <=? 0 THEN raise ValueError ELSE c.
(** invgamma.py:49-60. *)
Definition logpdf (x a loc scale : val) : val :=
  validate_params a loc scale
  (IF x <=? loc THEN NInf ELSE
   let z := (x - loc) / scale in
   - vlog scale - vloggamma a - (a + 1) * vlog z - Fin 1 / z).
(** invgamma.py:37-46. *)
Definition pdf (x a loc scale : val) : val :=
  validate_params a loc scale (IF x <=? loc THEN 0 ELSE vexp (logpdf x a loc scale)).
(** invgamma.py:63-73. *)
Definition cdf (x a loc scale : val) : val :=
  validate_params a loc scale
  (IF x <=? loc THEN 0 ELSE vgammainc_upper a (Fin 1 / ((x - loc) / scale))).
(** invgamma.py:98-108. *)
Definition sf (x a loc scale : val) : val :=
  validate_params a loc scale
  (IF x <=? loc THEN 1 ELSE vgammainc_lower a (Fin 1 / ((x - loc) / scale))).
(** invgamma.py:152-158. *)
Definition mode (a loc scale : val) : val :=
  validate_params a loc scale (loc + scale / (a + 1)).
(** invgamma.py:76-95; [prec] is the working precision in bits, [fuel] bounds the passes of
    the loop (see M_newton.v). *)
Definition invcdf (prec : Z) (fuel : nat) (p a loc scale : val) : val :=
  validate_params a loc scale (validate_p p
  (IF p =? 0 THEN loc ELSE IF p =? 1 THEN PInf ELSE
   newton prec fuel (fun x0 => x0 + (p - cdf x0 a loc scale) / pdf x0 a loc scale) (mode a loc scale))).
(** invgamma.py:111-129. *)
Definition invsf (prec : Z) (fuel : nat) (p a loc scale : val) : val :=
  validate_params a loc scale (validate_p p
  (IF p =? 0 THEN PInf ELSE IF p =? 1 THEN loc ELSE
   newton prec fuel (fun x0 => x0 - (p - sf x0 a loc scale) / pdf x0 a loc scale) (mode a loc scale))).
(** invgamma.py:132-138. *)
Definition support (a loc scale : val) : res (val * val) :=
  validate_params a loc scale (Ok (loc, PInf)).
(** invgamma.py:141-149. *)
Definition mean (a loc scale : val) : val :=
  validate_params a loc scale (IF a >? 1 THEN loc + scale / (a - 1) ELSE NaN).
(** invgamma.py:161-169. *)
Definition var (a loc scale : val) : val :=
  validate_params a loc scale (IF a >? 2 THEN vpown scale 2 / vpown (a - 1) 2 / (a - 2) ELSE NaN).
(** invgamma.py:172-178. *)
Definition skewness (a loc scale : val) : val :=
  validate_params a loc scale (IF a >? 3 THEN 4 * vsqrt (a - 2) / (a - 3) ELSE NaN).
(** invgamma.py:181-187. *)
Definition kurtosis (a loc scale : val) : val :=
  validate_params a loc scale (IF a >? 4 THEN 6 * (5 * a - 11) / (a - 3) / (a - 4) ELSE NaN).
(** invgamma.py:190-196. *)
Definition entropy (a loc scale : val) : val :=
  validate_params a loc scale (a + vlog scale + vloggamma a - (1 + a) * vdigamma a).
(** invgamma.py:199-205; gammaprod([a - n], [a]) with a > n > 0. *)
Definition standard_noncentral_moment (n : nat) (a : val) : val :=
  if Nat.eqb n 0 then Fin 1 else IF a <=? Fin (INR n) THEN NaN ELSE vgamma (a - Fin (INR n)) / vgamma a.
(** invgamma.py:208-226; [n] has passed [_validate_moment_n]. *)
Definition noncentral_moment (n : nat) (a loc scale : val) : val :=
  validate_params a loc scale
  (if Nat.eqb n 0 then Fin 1 else
   vfsum (map (fun i => Fin (C n i) * vpown loc (n - i) * vpown scale i
                        * standard_noncentral_moment i a) (seq 0 (n + 1)))).
