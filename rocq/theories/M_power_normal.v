(** Model of /repo/mpsci/distributions/power_normal.py. *)
From Coq Require Import Reals List.
From Verif Require Import Values M_common M_sfun.
From Verif Require M_normal.
Local Open Scope R_scope.
Local Open Scope val_scope.

(** power_normal.py:19-24. *)
Definition validate {A} `{CanRaise A} (c loc scale : val) (k : A) : A :=
  RIF c <=? Fin 0 THEN raise ValueError ELSE
  RIF scale <=? Fin 0 THEN raise ValueError ELSE k.
(** power_normal.py:27-35; npdf and ncdf have the default arguments mu = 0, sigma = 1. *)
Definition pdf (x c loc scale : val) : val :=
  validate c loc scale
  (let z := (x - loc) / scale in
   c * vnpdf z (Fin 0) (Fin 1) * vpow (vncdf (- z) (Fin 0) (Fin 1)) (c - Fin 1) / scale).
(** power_normal.py:38-49. *)
Definition logpdf (x c loc scale : val) : val :=
  validate c loc scale
  (let z := (x - loc) / scale in
   vlog c + M_normal.logpdf z (Fin 0) (Fin 1) + (c - Fin 1) * vlog (vncdf (- z) (Fin 0) (Fin 1)) - vlog scale).
(** power_normal.py:52-60. *)
Definition cdf (x c loc scale : val) : val :=
  validate c loc scale
  (let z := (x - loc) / scale in
   - vexpm1 (c * vlog (vncdf (- z) (Fin 0) (Fin 1)))).
(** power_normal.py:63-72. *)
Definition invcdf (p c loc scale : val) : val :=
  validate c loc scale (validate_p p
  (loc - scale * M_normal.invcdf (vpow (Fin 1 - p) (Fin 1 / c)) (Fin 0) (Fin 1))).
(** power_normal.py:75-83. *)
Definition sf (x c loc scale : val) : val :=
  validate c loc scale
  (let z := (x - loc) / scale in
   vexp (c * vlog (vncdf (- z) (Fin 0) (Fin 1)))).
(** power_normal.py:86-93. *)
Definition invsf (p c loc scale : val) : val :=
  validate c loc scale (validate_p p
  (loc - scale * M_normal.invcdf (vpow p (Fin 1 / c)) (Fin 0) (Fin 1))).
(** power_normal.py:96-101. *)
Definition support (c loc scale : val) : res (val * val) := validate c loc scale (Ok (NInf, PInf)).
