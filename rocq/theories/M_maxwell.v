(** Model of /repo/mpsci/distributions/maxwell.py. *)
From Coq Require Import Reals List.
From Verif Require Import Values M_common SFun M_sfun M_bracket.
Import ListNotations.
Local Open Scope R_scope.
Local Open Scope val_scope.

(** maxwell.py:25-28. *)
Definition validate_params {A} `{CanRaise A} (loc scale : val) (c : A) : A :=
  RIF scale <=? 0 THEN raise ValueError ELSE c.
(** maxwell.py:32-42. *)
Definition pdf (x loc scale : val) : val :=
  validate_params loc scale
  (IF x <=? loc THEN 0 ELSE
   let z := (x - loc) / scale in let z2 := vpown z 2 in
   vsqrt (Fin 2 / vpi) * z2 * vexp (- z2 / Fin 2) / scale).
(** maxwell.py:46-55. *)
Definition logpdf (x loc scale : val) : val :=
  validate_params loc scale
  (IF x <=? loc THEN NInf ELSE
   let z := (x - loc) / scale in
   vlog (Fin 2 / vpi) / Fin 2 + Fin 2 * vlog z - vpown z 2 / Fin 2 - vlog scale).
(** maxwell.py:59-68. *)
Definition cdf (x loc scale : val) : val :=
  validate_params loc scale
  (IF x <=? loc THEN 0 ELSE
   let z := (x - loc) / scale in vgammainc_lower (Fin (3/2)) (vpown z 2 / Fin 2)).
(** maxwell.py:101-110. *)
Definition sf (x loc scale : val) : val :=
  validate_params loc scale
  (IF x <=? loc THEN 1 ELSE
   let z := (x - loc) / scale in vgammainc_upper (Fin (3/2)) (vpown z 2 / Fin 2)).
(** [try: a except Exception: b]. *)
Definition vtry (a b : val) : val := match a with Exc _ => b | _ => a end.
(** maxwell.py:72-97; [secant] and [newton] stand for mpmath.findroot with these solvers, started from two
    points and from one. *)
Definition invcdf (secant : (val -> val) -> val * val -> val) (newton : (val -> val) -> val -> val) (fuel : nat)
    (p loc scale : val) : val :=
  validate_p p (validate_params loc scale
  (IF p =? 0 THEN 0 ELSE IF p =? 1 THEN PInf ELSE
   match find_bracket fuel (fun x => cdf x loc scale) p 0 PInf None with
   | Err e => Exc e
   | Ok (x0, x1) =>
       IF x0 =? x1 THEN x0 ELSE
       vtry (secant (fun x => cdf x loc scale - p) (x0, x1))
            (newton (fun x => cdf x loc scale - p) ((x0 + x1) / Fin 2))
   end)).
(** maxwell.py:114-137; the second attempt is made with cdf. *)
Definition invsf (secant : (val -> val) -> val * val -> val) (newton : (val -> val) -> val -> val) (fuel : nat)
    (p loc scale : val) : val :=
  validate_p p (validate_params loc scale
  (IF p =? 0 THEN PInf ELSE IF p =? 1 THEN 0 ELSE
   match find_bracket fuel (fun x => sf x loc scale) p 0 PInf None with
   | Err e => Exc e
   | Ok (x0, x1) =>
       IF x0 =? x1 THEN x0 ELSE
       vtry (secant (fun x => sf x loc scale - p) (x0, x1))
            (newton (fun x => cdf x loc scale - p) ((x0 + x1) / Fin 2))
   end)).
(** maxwell.py:140-145. *)
Definition support (loc scale : val) : res (val * val) := validate_params loc scale (Ok (loc, PInf)).
(** maxwell.py:149-154, 158-163, 167-172. *)
Definition mean (loc scale : val) : val :=
  validate_params loc scale (loc + scale * Fin 2 * vsqrt (Fin 2 / vpi)).
Definition mode (loc scale : val) : val := validate_params loc scale (loc + scale * vsqrt (Fin 2)).
Definition var (loc scale : val) : val :=
  validate_params loc scale (vpown scale 2 * (Fin 3 * vpi - Fin 8) / vpi).
(** maxwell.py:176-181; [euler] is mpmath's Euler constant. *)
Definition entropy (euler loc scale : val) : val :=
  validate_params loc scale (vlog (scale * vsqrt (Fin 2 * vpi)) + euler - Fin 1 / Fin 2).
