(** Model of /repo/mpsci/distributions/genexpon.py. *)
From Coq Require Import Reals List.
From Verif Require Import Values M_common M_sfun2.
Local Open Scope R_scope.
Local Open Scope val_scope.

(** genexpon.py:16-25. *)
Definition validate {A} `{CanRaise A} (a b c loc scale : val) (k : A) : A :=
  validate_positive a (validate_positive b (validate_positive c (validate_positive scale k))).
(** genexpon.py:28-33. *)
Definition validate_x {A} `{CanRaise A} (x a b c loc scale : val) (k : A) : A :=
  validate a b c loc scale (cif (x <? loc) (raise ValueError) k).
(** genexpon.py:41-44, 66-69: the exponent shared by pdf, logpdf, cdf and sf. *)
Definition expo (z a b c : val) : val :=
  let s := a + b in let r := b / c in - s * z + r * (- vexpm1 (- c * z)).
(** genexpon.py:37-46. *)
Definition pdf (x a b c loc scale : val) : val :=
  validate_x x a b c loc scale
  (let z := (x - loc) / scale in (a + b * (- vexpm1 (- c * z))) * vexp (expo z a b c) / scale).
(** genexpon.py:50-58. *)
Definition logpdf (x a b c loc scale : val) : val :=
  validate_x x a b c loc scale
  (let z := (x - loc) / scale in vlog (a + b * (- vexpm1 (- c * z))) + expo z a b c).
(** genexpon.py:62-70. *)
Definition cdf (x a b c loc scale : val) : val :=
  validate_x x a b c loc scale (let z := (x - loc) / scale in - vexpm1 (expo z a b c)).
(** genexpon.py:74-82. *)
Definition sf (x a b c loc scale : val) : val :=
  validate_x x a b c loc scale (let z := (x - loc) / scale in vexp (expo z a b c)).
(** genexpon.py:86-97. *)
Definition invcdf (p a b c loc scale : val) : val :=
  validate_p p (validate a b c loc scale
  (let r := b / (a + b) in
   let s := r / c - vlog1p (- p) / (a + b) in
   let x := s + vlambertw (- r * vexp (- s * c)) / c in
   loc + scale * x)).
(** genexpon.py:101-110. *)
Definition invsf (p a b c loc scale : val) : val :=
  validate_p p (validate a b c loc scale
  (let r := b / (a + b) in
   let s := r / c - vlog p / (a + b) in
   let x := s + vlambertw (- r * vexp (- s * c)) / c in
   loc + scale * x)).
(** genexpon.py:113-118. *)
Definition support (a b c loc scale : val) : res (val * val) := validate a b c loc scale (Ok (loc, PInf)).
