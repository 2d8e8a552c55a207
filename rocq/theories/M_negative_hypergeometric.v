(** Model of /repo/mpsci/distributions/negative_hypergeometric.py. *)
From Coq Require Import Reals List Bool ZArith.
From Verif Require Import Values SpecDisc M_common M_sfun M_disc M_fun.
From Verif Require M_hypergeometric.
Import ListNotations.
Local Open Scope R_scope.
Local Open Scope val_scope.

(** negative_hypergeometric.py:20-26. *)
Definition validate {A} `{CanRaise A} (ntotal ngood untilnbad : val) (cont : A) : A :=
  RIF (ntotal <? 0) || (ngood <? 0) || (untilnbad <? 0) THEN raise ValueError ELSE
  RIF ngood >? ntotal THEN raise ValueError ELSE
  RIF ntotal - ngood <? untilnbad THEN raise ValueError ELSE cont.
(** negative_hypergeometric.py:30-42. *)
Definition pmf (k ntotal ngood untilnbad : val) : val :=
  validate ntotal ngood untilnbad
  (IF (k <? 0) || (k >? ngood) THEN Fin 0 ELSE
   let b1 := vbinomial (k + untilnbad - 1) k in
   let b2 := vbinomial (ntotal - untilnbad - k) (ngood - k) in
   let b3 := vbinomial ntotal ngood in
   b1 * (b2 / b3)).
(** negative_hypergeometric.py:46-58. *)
Definition logpmf (k ntotal ngood untilnbad : val) : val :=
  validate ntotal ngood untilnbad
  (IF (k <? 0) || (k >? ngood) THEN NInf ELSE
   bindv (logbinomial vloggamma (k + untilnbad - 1) k) (fun t1 =>
   bindv (logbinomial vloggamma (ntotal - untilnbad - k) (ngood - k)) (fun t2 =>
   bindv (logbinomial vloggamma ntotal ngood) (fun t3 =>
   vfsum [t1; t2; - t3])))).
(** negative_hypergeometric.py:61-71. *)
Definition cdf (k ntotal ngood untilnbad : val) : val :=
  validate ntotal ngood untilnbad
  (IF k <? 0 THEN Fin 0 ELSE IF k >=? ngood THEN Fin 1 ELSE
   M_hypergeometric.sf (untilnbad - 1) ntotal (ntotal - ngood) (k + untilnbad)).
(** negative_hypergeometric.py:74-84. *)
Definition sf (k ntotal ngood untilnbad : val) : val :=
  validate ntotal ngood untilnbad
  (IF k <? 0 THEN Fin 1 ELSE IF k >=? ngood THEN Fin 0 ELSE
   M_hypergeometric.cdf (untilnbad - 1) ntotal (ntotal - ngood) (k + untilnbad)).
(** negative_hypergeometric.py:88-94. *)
Definition mean (ntotal ngood untilnbad : val) : val :=
  validate ntotal ngood untilnbad (untilnbad * ngood / (ntotal - ngood + 1)).
(** negative_hypergeometric.py:98-118. *)
Definition mode (ntotal ngood untilnbad : val) : val :=
  validate ntotal ngood untilnbad
  (IF (untilnbad =? 0) || (ngood =? 0) THEN Fin 0 ELSE
   IF ntotal >? untilnbad * (ngood + 1) THEN Fin 0 ELSE
   let t := ngood + untilnbad - 1 in
   IF t >? (ntotal - t) * ngood THEN ngood ELSE
   vint (vceil ((untilnbad * (ngood + 1) - ntotal) / (ntotal - ngood - 1)))).
(** negative_hypergeometric.py:122-132. *)
Definition var (ntotal ngood untilnbad : val) : val :=
  validate ntotal ngood untilnbad
  (let nbad := ntotal - ngood in
   let r := untilnbad in
   r * (ntotal + 1) * ngood * (Fin 1 - r / (nbad + 1)) / (nbad + 1) / (nbad + 2)).
(** negative_hypergeometric.py:135-151. *)
Definition support (ntotal ngood untilnbad : val) : res isupport :=
  validate ntotal ngood untilnbad
  (let m := IF untilnbad =? 0 THEN Fin 1 ELSE ngood + 1 in vrange (Fin 0) m).
(** negative_hypergeometric.py:154-177. *)
Definition support_pmf (ntotal ngood untilnbad : val) : res (isupport * list val) :=
  bindr (support ntotal ngood untilnbad) (fun sup =>
  match sup with
  | Range a b => Ok (sup, map (fun k => pmf (Fin (IZR k)) ntotal ngood untilnbad) (zrange a b))
  | Count _ => Err NonTermination
  end).
