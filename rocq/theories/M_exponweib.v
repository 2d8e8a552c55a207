(** Model of /repo/mpsci/distributions/exponweib.py ([noncentral_moment], [mean] and [var], which sum
    a series numerically, are not modelled). *)
From Coq Require Import Reals List.
From Verif Require Import Values M_common.
Local Open Scope R_scope.
Local Open Scope val_scope.

(** exponweib.py:13-20. *)
Definition validate {A} `{CanRaise A} (a c scale : val) (k : A) : A :=
  validate_positive a (validate_positive c (validate_positive scale k)).
(** exponweib.py:24-37. *)
Definition pdf (x a c scale : val) : val :=
  validate a c scale
  (IF x <? 0 THEN 0
   ELSE let z := x / scale in
     a * c / scale * vpow z (c - 1) * vpow (- vexpm1 (- vpow z c)) (a - 1) * vexp (- vpow z c)).
(** exponweib.py:41-58. *)
Definition logpdf (x a c scale : val) : val :=
  validate a c scale
  (IF x <? 0 THEN NInf
   ELSE let z := x / scale in
     vlog a + vlog c - vlog scale + (c - 1) * vlog z
     + (a - 1) * vlog (- vexpm1 (- vpow z c)) - vpow z c).
(** exponweib.py:62-76. *)
Definition cdf (x a c scale : val) : val :=
  validate a c scale
  (IF x <? 0 THEN 0 ELSE let z := x / scale in vpow (- vexpm1 (- vpow z c)) a).
(** exponweib.py:80-86. *)
Definition invcdf (p a c scale : val) : val :=
  validate a c scale (validate_p p
  (scale * vpow (- vlog1p (- vpow p (Fin 1 / a))) (Fin 1 / c))).
(** exponweib.py:90-99. *)
Definition sf (x a c scale : val) : val :=
  validate a c scale
  (IF x <? 0 THEN 1 ELSE let z := x / scale in - vpowm1 (- vexpm1 (- vpow z c)) a).
(** exponweib.py:103-109. *)
Definition invsf (p a c scale : val) : val :=
  validate a c scale (validate_p p
  (scale * vpow (- vlog (- vexpm1 (vlog1p (- p) / a))) (Fin 1 / c))).
(** exponweib.py:112-117. *)
Definition support (a c scale : val) : res (val * val) := validate a c scale (Ok (Fin 0, PInf)).
