(** Model of /repo/mpsci/distributions/benini.py. *)
From Coq Require Import Reals List.
From Verif Require Import Values M_common.
Import ListNotations.
Local Open Scope R_scope.
Local Open Scope val_scope.

(** benini.py:87-91 [_validate_params]. *)
Definition validate {A} `{CanRaise A} (alpha beta scale : val) (k : A) : A :=
  validate_positive alpha (validate_positive beta (validate_positive scale k)).

(** benini.py:94-96. *)
Definition support (alpha beta scale : val) : res (val * val) :=
  validate alpha beta scale (Ok (scale, PInf)).

(** benini.py:99-112. *)
Definition logpdf (x alpha beta scale : val) : val :=
  validate alpha beta scale
  (IF x =? scale THEN vlog alpha - vlog scale
   ELSE IF x <? scale THEN NInf
   ELSE
     let logz := vlog (x / scale) in
     let blogz := beta * logz in
     - logz * (alpha + blogz) + vlog (alpha + 2 * blogz) - vlog x).

(** benini.py:115-120. *)
Definition pdf (x alpha beta scale : val) : val := vexp (logpdf x alpha beta scale).

(** benini.py:123-133. *)
Definition cdf (x alpha beta scale : val) : val :=
  validate alpha beta scale
  (IF x <=? scale THEN 0
   ELSE let logz := vlog (x / scale) in
        - vexpm1 (- logz * (alpha + beta * logz))).

(** benini.py:152-161. *)
Definition invcdf (p alpha beta scale : val) : val :=
  validate alpha beta scale (validate_p p
  (let r := - Fin 4 * beta / vpown alpha 2 * vlog1p (- p) in
   let t := - r / (1 + vsqrt (1 + r)) in
   scale * vexp (- alpha / (2 * beta) * t))).

(** benini.py:164-174. *)
Definition sf (x alpha beta scale : val) : val :=
  validate alpha beta scale
  (IF x <=? scale THEN 1
   ELSE let logz := vlog (x / scale) in
        vexp (- logz * (alpha + beta * logz))).

(** benini.py:194-203. *)
Definition invsf (p alpha beta scale : val) : val :=
  validate alpha beta scale (validate_p p
  (let r := - Fin 4 * beta / vpown alpha 2 * vlog p in
   let t := - r / (1 + vsqrt (1 + r)) in
   scale * vexp (- alpha / (2 * beta) * t))).

(** benini.py:206-211. *)
Definition median (alpha beta scale : val) : val := invcdf (Fin (1/2)) alpha beta scale.

(** benini.py:137-149. *)
Definition logcdf (x alpha beta scale : val) : val :=
  validate alpha beta scale
  (IF x <=? scale THEN NInf
   ELSE let m := median alpha beta scale in
   IF x <? m THEN vlog (cdf x alpha beta scale)
   ELSE vlog1p (- sf x alpha beta scale)).

(** benini.py:177-191. *)
Definition logsf (x alpha beta scale : val) : val :=
  validate alpha beta scale
  (IF x <=? scale THEN 0
   ELSE let m := median alpha beta scale in
   IF x <? m THEN vlog1p (- cdf x alpha beta scale)
   ELSE let logz := vlog (x / scale) in
        - logz * (alpha + beta * logz)).

(** benini.py:214-225. *)
Definition mode (alpha beta scale : val) : val :=
  validate alpha beta scale
  (IF beta <=? alpha * (alpha + 1) / 2 THEN scale
   ELSE scale * vexp ((- Fin 2 * alpha + vsqrt (8 * beta + 1) - 1) / (4 * beta))).
