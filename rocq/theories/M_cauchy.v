(** Model of /repo/mpsci/distributions/cauchy.py. *)
From Coq Require Import Reals List.
From Verif Require Import Values M_common M_sfun2.
Local Open Scope R_scope.
Local Open Scope val_scope.

(** cauchy.py:15-20. *)
Definition support (loc scale : val) : res (val * val) := validate_loc_scale loc scale (Ok (NInf, PInf)).
(** cauchy.py:24-29. *)
Definition pdf (x loc scale : val) : val :=
  validate_loc_scale loc scale
  (let z := (x - loc) / scale in Fin 1 / (vpi * scale * (Fin 1 + vpown z 2))).
(** cauchy.py:33-38. *)
Definition logpdf (x loc scale : val) : val :=
  validate_loc_scale loc scale
  (let z := (x - loc) / scale in - vlog vpi - vlog scale - vlog1p (vpown z 2)).
(** cauchy.py:42-47. *)
Definition cdf (x loc scale : val) : val :=
  validate_loc_scale loc scale (let z := (x - loc) / scale in vatan2_1 (- z) / vpi).
(** cauchy.py:51-55. *)
Definition invcdf (p loc scale : val) : val :=
  validate_p p (validate_loc_scale loc scale (loc - scale * vcot (vpi * p))).
(** cauchy.py:59-64. *)
Definition sf (x loc scale : val) : val :=
  validate_loc_scale loc scale (let z := (x - loc) / scale in vatan2_1 z / vpi).
(** cauchy.py:68-72. *)
Definition invsf (p loc scale : val) : val :=
  validate_p p (validate_loc_scale loc scale (loc + scale * vcot (vpi * p))).
(** cauchy.py:75-82. *)
Definition mean (loc scale : val) : val := validate_loc_scale loc scale NaN.
(** cauchy.py:85-92. *)
Definition mode (loc scale : val) : val := validate_loc_scale loc scale loc.
(** cauchy.py:95-102. *)
Definition var (loc scale : val) : val := validate_loc_scale loc scale NaN.
(** cauchy.py:106-113. *)
Definition entropy (loc scale : val) : val := validate_loc_scale loc scale (vlog (4 * vpi * scale)).
