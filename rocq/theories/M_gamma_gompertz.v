(** Model of /repo/mpsci/distributions/gamma_gompertz.py.  [hyp2f1] is [mp.hyp2f1] as a function of
    its last argument. *)
From Coq Require Import Reals List.
From Verif Require Import Values M_common M_fun.
Local Open Scope R_scope.
Local Open Scope val_scope.

(** gamma_gompertz.py:28-35. *)
Definition validate {A} `{CanRaise A} (c beta scale : val) (k : A) : A :=
  validate_positive c (validate_positive beta (validate_positive scale k)).
(** gamma_gompertz.py:39-50. *)
Definition pdf (x c beta scale : val) : val :=
  validate c beta scale
  (IF x <? 0 THEN 0
   ELSE let z := x / scale in
     let num := c * vexp z * vpow beta c in
     let den := scale * vpow (beta + vexpm1 z) (c + 1) in num / den).
(** gamma_gompertz.py:54-64. *)
Definition logpdf (x c beta scale : val) : val :=
  validate c beta scale
  (IF x <? 0 THEN NInf
   ELSE let z := x / scale in
     vlog c + z + c * vlog beta - (c + 1) * vlog (beta + vexpm1 z) - vlog scale).
(** gamma_gompertz.py:68-79. *)
Definition cdf (x c beta scale : val) : val :=
  validate c beta scale
  (IF x <? 0 THEN 0
   ELSE let z := x / scale in
     IF beta =? 1 THEN - vexpm1 (- c * z)
     ELSE - vpowm1 (beta / (beta + vexpm1 z)) c).
(** gamma_gompertz.py:83-90. *)
Definition invcdf (p c beta scale : val) : val :=
  validate c beta scale (validate_p p
  (let r := pow1pm1 (- p) (Fin (-1) / c) in scale * vlog1p (beta * r))).
(** gamma_gompertz.py:94-106. *)
Definition sf (x c beta scale : val) : val :=
  validate c beta scale
  (IF x <? 0 THEN 1
   ELSE let z := x / scale in
     IF beta =? 1 THEN vexp (- c * z)
     ELSE let ex := vexp z in vpow (beta / (beta - 1 + ex)) c).
(** gamma_gompertz.py:110-118. *)
Definition invsf (p c beta scale : val) : val :=
  validate c beta scale (validate_p p
  (let r := vpowm1 p (Fin (-1) / c) in scale * vlog1p (beta * r))).
(** gamma_gompertz.py:122-127. *)
Definition support (c beta scale : val) : res (val * val) := validate c beta scale (Ok (Fin 0, PInf)).
(** gamma_gompertz.py:131-140. *)
Definition mean (hyp2f1 : val -> val -> val -> val -> val) (c beta scale : val) : val :=
  validate c beta scale
  (IF beta =? 1 THEN scale / c
   ELSE IF c =? 1 THEN scale * beta / (beta - 1) * vlog beta
   ELSE scale / c * hyp2f1 c 1 (c + 1) ((beta - 1) / beta)).
(** gamma_gompertz.py:144-153. *)
Definition mode (c beta scale : val) : val :=
  validate c beta scale (IF beta <=? c + 1 THEN 0 ELSE scale * vlog ((beta - 1) / c)).
