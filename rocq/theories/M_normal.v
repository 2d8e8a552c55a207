(** Model of /repo/mpsci/distributions/normal.py. *)
From Coq Require Import Reals List.
From Verif Require Import Values M_common M_basic M_sfun.
Import ListNotations.
Local Open Scope R_scope.
Local Open Scope val_scope.

(** normal.py:16-22. *)
Definition pdf (x mu sigma : val) : val := validate_loc_scale mu sigma (vnpdf x mu sigma).
(** normal.py:26-34. *)
Definition logpdf (x mu sigma : val) : val :=
  validate_loc_scale mu sigma
  (- vlog (2 * vpi) / 2 - vlog sigma - vpown (x - mu) 2 / (2 * vpown sigma 2)).
(** normal.py:38-44. *)
Definition cdf (x mu sigma : val) : val := validate_loc_scale mu sigma (vncdf x mu sigma).
(** normal.py:48-54. *)
Definition sf (x mu sigma : val) : val :=
  validate_loc_scale mu sigma (vncdf (- x + 2 * mu) mu sigma).
(** normal.py:57-69. *)
Definition invcdf (p mu sigma : val) : val :=
  validate_p p (validate_loc_scale mu sigma (vsqrt 2 * sigma * verfinv (2 * p - Fin 1) + mu)).
(** normal.py:72-81. *)
Definition invsf (p mu sigma : val) : val :=
  validate_p p (validate_loc_scale mu sigma (vsqrt 2 * sigma * verfinv (Fin 1 - 2 * p) + mu)).
(** normal.py:85-90. *)
Definition support (mu sigma : val) : res (val * val) := validate_loc_scale mu sigma (Ok (NInf, PInf)).
(** normal.py:93-100, 103-110, 113-120, 124-129. *)
Definition mean (mu sigma : val) : val := validate_loc_scale mu sigma mu.
Definition median (mu sigma : val) : val := validate_loc_scale mu sigma mu.
Definition mode (mu sigma : val) : val := validate_loc_scale mu sigma mu.
Definition entropy (mu sigma : val) : val :=
  validate_loc_scale mu sigma ((vlog (2 * vpi) + 1) / 2 + vlog sigma).
(** normal.py:133-139, with the default values of the keyword arguments of logpdf (line 26)
    and of nll (line 133). *)
Definition nll (x : list val) (mu sigma : val) : val :=
  validate_loc_scale mu sigma (- vfsum (map (fun t => logpdf t mu sigma) x)).
Definition logpdf_default (x : val) : val := logpdf x 0 1.
Definition nll_default (x : list val) : val := nll x 1 1.
(** normal.py:145-156. [sum(...)/N] raises ZeroDivisionError for an empty sequence. *)
Definition mle (x : list val) : res (val * val) :=
  let N := vlen x in
  bindv (vfsum x / N) (fun meanx =>
  bindv (vfsum (map (fun xi => vpown (xi - meanx) 2) x) / N) (fun var =>
  bindv (vsqrt var) (fun sigma => Ok (meanx, sigma)))).
