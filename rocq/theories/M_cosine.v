(** Model of /repo/mpsci/distributions/cosine.py. *)
From Coq Require Import Reals List.
From Verif Require Import Values M_common.
Local Open Scope R_scope.
Local Open Scope val_scope.

(** cosine.py:19-33. *)
Definition pdf (x : val) : val :=
  IF (x <=? (- vpi)) || (x >=? vpi) THEN 0 ELSE (vcos x + 1) / (2 * vpi).
(** cosine.py:49-62. *)
Definition logpdf (x : val) : val :=
  IF (x <=? (- vpi)) || (x >=? vpi) THEN NInf ELSE vlog1p (vcos x) - vlog (2 * vpi).
(** cosine.py:71-85. *)
Definition cdf (x : val) : val :=
  IF x <=? (- vpi) THEN 0 ELSE IF x >=? vpi THEN 1 ELSE (1 / 2)%R + (x + vsin x) / (2 * vpi).
(** cosine.py:104-109 and 112-117.  The floats are taken to be the decimal fractions. *)
Definition p2 (t : val) : val :=
  (5 / 10)%R + t * (Fin (- 6532856457583547 / 100000000000000000) + t * (Fin (20893844847965047 / 10000000000000000000) + t * Fin (- 10233693819385904 / 1000000000000000000000))).
Definition q2 (t : val) : val :=
  1 + t * (Fin (- 15149046248500425 / 100000000000000000) + t * (Fin (6293153604697265 / 1000000000000000000) + t * Fin (- 6042645518776793 / 100000000000000000000))).
(** cosine.py:120-141. *)
Definition poly_approx (s : val) : val :=
  let s2 := vpown s 2 in
  s * (1 + s2 * (Fin (1 / 60) + s2 * (Fin (1 / 1400) + s2 * (Fin (1 / 25200) + s2 * Fin (43 / 17248000))))).
(** cosine.py:145-172.  [cbrt] is a power with exponent 1/3.  [findroot f x0] also receives the first
    two derivatives of f; they are left out. *)
Definition invcdf (findroot : (val -> val) -> val -> val) (p : val) : val :=
  validate_p p
  (IF p =? 0 THEN - vpi ELSE IF p =? 1 THEN vpi ELSE
   let x :=
     IF p <? (94 / 1000)%R THEN poly_approx (vpow (12 * vpi * p) (1 / 3)%R) - vpi
     ELSE IF p >? (906 / 1000)%R THEN vpi - poly_approx (vpow (12 * vpi * (Fin 1 - p)) (1 / 3)%R)
     ELSE let y := vpi * (2 * p - 1) in let y2 := vpown y 2 in y * p2 y2 / q2 y2 in
   findroot (fun t => cdf t - p) x).
(** cosine.py:175-179 and 182-186. *)
Definition sf (x : val) : val := cdf (- x).
Definition invsf (findroot : (val -> val) -> val -> val) (p : val) : val := - invcdf findroot p.
(** cosine.py:189-193. *)
Definition support : res (val * val) := Ok (- vpi, vpi).
(** cosine.py:196-202 and 205-211. *)
Definition mean : val := 0.
Definition mode : val := 0.
(** cosine.py:214-221. *)
Definition var : val := vpown vpi 2 / 3 - 2.
(** cosine.py:224-230. *)
Definition skewness : val := 0.
(** cosine.py:233-241. *)
Definition kurtosis : val :=
  let pi2 := vpown vpi 2 in (Fin 90 - vpown pi2 2) / vpown (pi2 - 6) 2 * 6 / 5.
