(** Model of /repo/mpsci/distributions/slash.py. *)
From Coq Require Import Reals List.
From Verif Require Import Values M_common M_sfun.
Local Open Scope R_scope.
Local Open Scope val_scope.

(** slash.py:24.  The float is taken to be the decimal fraction. *)
Definition delta_x2_threshold : val := Fin (9 / 1000000).
(** slash.py:27-44; npdf has the default arguments mu = 0, sigma = 1. *)
Definition delta (x : val) : val :=
  let x2 := x * x in
  IF x2 <? delta_x2_threshold THEN - vexpm1 (- x2 / Fin 2) / vsqrt (Fin 2 * vpi)
  ELSE vnpdf (Fin 0) (Fin 0) (Fin 1) - vnpdf x (Fin 0) (Fin 1).
(** slash.py:47-55. *)
Definition pdf (x : val) : val :=
  IF x =? Fin 0 THEN Fin 1 / (Fin 2 * vsqrt (Fin 2 * vpi)) ELSE delta x / vpown x 2.
(** slash.py:58-67; [mp.absmax] is the absolute value. *)
Definition logpdf (x : val) : val :=
  IF x =? Fin 0 THEN vlog (pdf (Fin 0)) ELSE vlog (delta x) - Fin 2 * vlog (vabs x).
(** slash.py:70-79. *)
Definition cdf (x : val) : val :=
  IF x =? Fin 0 THEN Fin 1 / Fin 2 ELSE vncdf x (Fin 0) (Fin 1) - delta x / x.
(** slash.py:82-91. *)
Definition sf (x : val) : val :=
  IF x =? Fin 0 THEN Fin 1 / Fin 2 ELSE vncdf (- x) (Fin 0) (Fin 1) + delta x / x.
(** slash.py:94-116. *)
Definition invcdf (findroot : (val -> val) -> val -> val) (p : val) : val :=
  let npdf0 := vnpdf (Fin 0) (Fin 0) (Fin 1) in
  validate_p p
  (IF p =? Fin 0 THEN NInf ELSE IF p =? Fin 1 THEN PInf ELSE IF p =? Fin (1 / 2) THEN Fin 0 ELSE
   let x0 := IF p >? Fin (1 / 2) THEN npdf0 / (Fin 1 - p) ELSE - npdf0 / p in
   findroot (fun x => cdf x - p) x0).
(** slash.py:119-139. *)
Definition invsf (findroot : (val -> val) -> val -> val) (p : val) : val :=
  let npdf0 := vnpdf (Fin 0) (Fin 0) (Fin 1) in
  validate_p p
  (IF p =? Fin 0 THEN PInf ELSE IF p =? Fin 1 THEN NInf ELSE IF p =? Fin (1 / 2) THEN Fin 0 ELSE
   let x0 := IF p >? Fin (1 / 2) THEN - npdf0 / (Fin 1 - p) ELSE npdf0 / p in
   findroot (fun x => sf x - p) x0).
(** slash.py:142-144, 147-153, 156-162. *)
Definition support : res (val * val) := Ok (NInf, PInf).
Definition mean : val := Fin 0.
Definition mode : val := Fin 0.
