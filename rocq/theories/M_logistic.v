(** Model of /repo/mpsci/distributions/logistic.py. *)
From Coq Require Import Reals List.
From Verif Require Import Values M_common M_basic.
Import ListNotations.
Local Open Scope R_scope.
Local Open Scope val_scope.

(** logistic.py:20-27. *)
Definition pdf (x loc scale : val) : val :=
  validate_loc_scale loc scale
  (let z := (x - loc) / scale in vpown (vsech (z / 2)) 2 / (4 * scale)).
(** logistic.py:31-38. *)
Definition logpdf (x loc scale : val) : val :=
  validate_loc_scale loc scale
  (let z := (x - loc) / scale in 2 * vlog (vsech (z / 2)) - vlog (4 * scale)).
(** logistic.py:42-49. *)
Definition cdf (x loc scale : val) : val :=
  validate_loc_scale loc scale
  (let z := (x - loc) / scale in (1 + vtanh (z / 2)) / 2).
(** logistic.py:53-60. *)
Definition sf (x loc scale : val) : val :=
  validate_loc_scale loc scale
  (let z := (x - loc) / scale in (Fin 1 - vtanh (z / 2)) / 2).
(** logistic.py:64-73. *)
Definition invcdf (p loc scale : val) : val :=
  validate_loc_scale loc scale (validate_p p (loc + scale * (vlog p - vlog1p (- p)))).
(** logistic.py:77-83. *)
Definition invsf (p loc scale : val) : val :=
  validate_loc_scale loc scale (validate_p p (loc + scale * (vlog1p (- p) - vlog p))).
(** logistic.py:86-91. *)
Definition support (loc scale : val) : res (val * val) :=
  validate_loc_scale loc scale (Ok (NInf, PInf)).
(** logistic.py:94-99, 102-107, 111-116, 120-125. *)
Definition mean (loc scale : val) : val := validate_loc_scale loc scale loc.
Definition mode (loc scale : val) : val := validate_loc_scale loc scale loc.
Definition var (loc scale : val) : val :=
  validate_loc_scale loc scale (vpown scale 2 * vpown vpi 2 / 3).
Definition entropy (loc scale : val) : val := validate_loc_scale loc scale (vlog scale + 2).
(** logistic.py:129-140. *)
Definition mom (x : list val) : res (val * val) :=
  bindv (M_basic.mean x None) (fun M1 =>
  bindv (M_basic.mean (map (fun t => vpown t 2) x) None) (fun M2 =>
  bindv (vsqrt (3 * (M2 - vpown M1 2)) / vpi) (fun s => Ok (M1, s)))).
(** logistic.py:144-154. *)
Definition nll (x : list val) (loc scale : val) : val :=
  validate_loc_scale loc scale
  (let v := map (fun t => vlog (vsech ((t - loc) / (2 * scale)))) x in
   vlen x * vlog (4 * scale) - 2 * vfsum v).
