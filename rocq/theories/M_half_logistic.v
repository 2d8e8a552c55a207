(** Model of /repo/mpsci/distributions/half_logistic.py. *)
From Coq Require Import Reals List.
From Verif Require Import Values M_common.
Import ListNotations.
Local Open Scope R_scope.
Local Open Scope val_scope.

(** half_logistic.py:20-29. *)
Definition pdf (x loc scale : val) : val :=
  validate_loc_scale loc scale
  (IF x <? loc THEN 0 ELSE
   let z := (x - loc) / scale in vpown (vsech (z / 2)) 2 / 2 / scale).
(** half_logistic.py:33-42. *)
Definition logpdf (x loc scale : val) : val :=
  validate_loc_scale loc scale
  (IF x <? loc THEN NInf ELSE
   let z := (x - loc) / scale in 2 * vlog (vsech (z / 2)) - vlog 2 - vlog scale).
(** half_logistic.py:46-55. *)
Definition cdf (x loc scale : val) : val :=
  validate_loc_scale loc scale
  (IF x <? loc THEN 0 ELSE
   let z := (x - loc) / scale in - vexpm1 (- z) / (1 + vexp (- z))).
(** half_logistic.py:59-71. *)
Definition invcdf (p loc scale : val) : val :=
  validate_loc_scale loc scale (validate_p p
  (IF p =? 1 THEN PInf ELSE IF p =? 0 THEN loc ELSE
   loc - scale * (vlog1p (- p) - vlog1p p))).
(** half_logistic.py:75-84. *)
Definition sf (x loc scale : val) : val :=
  validate_loc_scale loc scale
  (IF x <? loc THEN 1 ELSE
   let z := (x - loc) / scale in 2 * vexp (- z) / (1 + vexp (- z))).
(** half_logistic.py:88-98. *)
Definition invsf (p loc scale : val) : val :=
  validate_loc_scale loc scale (validate_p p
  (IF p =? 1 THEN loc ELSE IF p =? 0 THEN PInf ELSE
   loc - scale * vlog (p / 2 / (Fin 1 - p / 2)))).
(** half_logistic.py:102-107, 110-118, 122-127, 131-136, 139-144. *)
Definition mean (loc scale : val) : val := validate_loc_scale loc scale (loc + scale * vlog 4).
Definition mode (loc scale : val) : val := validate_loc_scale loc scale loc.
Definition var (loc scale : val) : val :=
  validate_loc_scale loc scale (vpown scale 2 * (vpown vpi 2 / 3 - vpown (vlog 4) 2)).
Definition entropy (loc scale : val) : val := validate_loc_scale loc scale (vlog (scale / 2) + 2).
Definition support (loc scale : val) : res (val * val) :=
  validate_loc_scale loc scale (Ok (loc, PInf)).
