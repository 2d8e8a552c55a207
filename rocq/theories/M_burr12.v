(** Model of /repo/mpsci/distributions/burr12.py.  [beta] is [mp.beta]. *)
From Coq Require Import Reals List.
From Verif Require Import Values M_common M_basic.
Import ListNotations.
Local Open Scope R_scope.
Local Open Scope val_scope.

(** burr12.py:19-26 [_validate_params]. *)
Definition validate {A} `{CanRaise A} (c d scale : val) (k : A) : A :=
  validate_positive c (validate_positive d (validate_positive scale k)).
(** burr12.py:30-39. *)
Definition pdf (x c d scale : val) : val :=
  validate c d scale
  (IF x <=? 0 THEN 0
   ELSE let z := x / scale in
        c * d * vpow z (c - 1) / scale / vpow (1 + vpow z c) (d + 1)).
(** burr12.py:43-52. *)
Definition logpdf (x c d scale : val) : val :=
  validate c d scale
  (IF x <=? 0 THEN NInf
   ELSE vlog c + vlog d + (c - 1) * vlog x - c * vlog scale
        - (d + 1) * vlog1p (vpow (x / scale) c)).
(** burr12.py:91-99. *)
Definition sf (x c d scale : val) : val :=
  validate c d scale
  (IF x <=? 0 THEN 1 ELSE vpow (1 + vpow (x / scale) c) (- d)).
(** burr12.py:56-65. *)
Definition cdf (x c d scale : val) : val :=
  validate c d scale
  (IF x <=? 0 THEN 0 ELSE Fin 1 - sf x c d scale).
(** burr12.py:69-75. *)
Definition invcdf (p c d scale : val) : val :=
  validate c d scale (validate_p p
  (scale * vpow (vpowm1 (Fin 1 - p) ((-1)%R / d)) (1 / c))).
(** burr12.py:103-109. *)
Definition invsf (p c d scale : val) : val :=
  validate c d scale (validate_p p
  (scale * vpow (vpowm1 p ((-1)%R / d)) (1 / c))).
(** burr12.py:79-87. *)
Definition logcdf (x c d scale : val) : val :=
  validate c d scale
  (IF x <=? 0 THEN NInf ELSE vlog1p (- sf x c d scale)).
(** burr12.py:113-121. *)
Definition logsf (x c d scale : val) : val :=
  validate c d scale
  (IF x <=? 0 THEN 0 ELSE - d * vlog1p (vpow (x / scale) c)).
(** burr12.py:124-129. *)
Definition support (c d scale : val) : res (val * val) :=
  validate c d scale (Ok (Fin 0, PInf)).
(** burr12.py:157-162. *)
Definition median (c d scale : val) : val :=
  validate c d scale (scale * vpow (vpow 2 (1 / d) - 1) (1 / c)).
(** burr12.py:166-173. *)
Definition mode (c d scale : val) : val :=
  validate c d scale
  (IF c <=? 1 THEN 0 ELSE scale * vpow ((c - 1) / (d * c + 1)) (1 / c)).
Section Beta.
Variable beta : val -> val -> val.
(** burr12.py:133-140. *)
Definition mean (c d scale : val) : val :=
  validate c d scale
  (IF c * d <=? 1 THEN NaN ELSE d * beta (d - 1 / c) (1 + 1 / c) * scale).
(** burr12.py:144-153. *)
Definition var (c d scale : val) : val :=
  validate c d scale
  (IF c * d <=? 2 THEN NaN ELSE
   let mu1 := mean c d 1 in
   let mu2 := d * beta (d - 2 / c) (1 + 2 / c) in
   vpown scale 2 * (- vpown mu1 2 + mu2)).
End Beta.
(** burr12.py:177-185. *)
Definition nll (x : list val) (c d scale : val) : val :=
  validate c d scale (validate_x_bounds x (Some (Fin 0)) (Some PInf) true false
  (- vfsum (map (fun t => logpdf t c d scale) x))).
(** burr12.py:313-390 [mle] with [c] and [scale] given and [d] free (lines 348-354);
    the other cases are numerical searches and are not modelled. *)
Definition mle_d (x : list val) (c scale : val) : res (val * val * val) :=
  validate_x_bounds x (Some (Fin 0)) (Some PInf) true false
  (validate c 1 scale
  (bindv (1 / M_basic.mean (map (fun xi => vlog1p (vpow (xi / scale) c)) x) None) (fun d =>
   Ok (c, d, scale)))).
