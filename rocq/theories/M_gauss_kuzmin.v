(** Model of /repo/mpsci/distributions/gauss_kuzmin.py. *)
From Coq Require Import Reals List ZArith.
From Verif Require Import Values SpecDisc M_common M_disc.
Local Open Scope R_scope.
Local Open Scope val_scope.

(** gauss_kuzmin.py:23-40. *)
Definition support : isupport := Count 1.
(** gauss_kuzmin.py:43-54. *)
Definition pmf (k : val) : val :=
  IF k <? 1 THEN 0 ELSE let r := Fin 1 / (k + 1) in - (vlog1p (- r) + vlog1p r) / vlog (Fin 2).
(** gauss_kuzmin.py:57-67. *)
Definition logpmf (k : val) : val := IF k <? 0 THEN NInf ELSE vlog (pmf k).
(** gauss_kuzmin.py:70-83. *)
Definition cdf (k : val) : val :=
  IF k <? 0 THEN 0 ELSE IF visinf k THEN 1 ELSE let r := Fin 1 / (k + 1) in Fin 1 - vlog1p r / vlog (Fin 2).
(** gauss_kuzmin.py:86-99. *)
Definition invcdf (p : val) : val :=
  validate_p p (IF p =? 1 THEN PInf ELSE let t := vpowm1 (Fin 2) (Fin 1 - p) in vpowm1 t (Fin (-1))).
(** gauss_kuzmin.py:102-113. *)
Definition sf (k : val) : val := IF k <? 0 THEN 1 ELSE let r := Fin 1 / (k + 1) in vlog1p r / vlog (Fin 2).
(** gauss_kuzmin.py:116-129. *)
Definition invsf (p : val) : val :=
  validate_p p (IF p =? 0 THEN PInf ELSE let t := vpowm1 (Fin 2) p in vpowm1 t (Fin (-1))).
(** gauss_kuzmin.py:132-136, 139-143, 146-150, 153-157. *)
Definition mode : val := 1.
Definition median : val := 2.
Definition mean : val := PInf.
Definition var : val := PInf.
