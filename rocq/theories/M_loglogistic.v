(** Model of /repo/mpsci/distributions/loglogistic.py.  [sincpi] and [sinc] are mpmath's. *)
From Coq Require Import Reals List.
From Verif Require Import Values M_common.
Import ListNotations.
Local Open Scope R_scope.
Local Open Scope val_scope.

(** loglogistic.py:23-28 [_validate_params]. *)
Definition validate {A} `{CanRaise A} (beta scale : val) (k : A) : A :=
  validate_positive beta (validate_positive scale k).
(** loglogistic.py:31-36. *)
Definition support (beta scale : val) : res (val * val) :=
  validate beta scale (Ok (Fin 0, PInf)).
(** loglogistic.py:40-51. *)
Definition pdf (x beta scale : val) : val :=
  validate beta scale
  (IF x <=? 0 THEN 0
   ELSE let z := x / scale in
        (beta / scale) * vpow z (beta - 1) / vpown (1 + vpow z beta) 2).
(** loglogistic.py:55-67. *)
Definition logpdf (x beta scale : val) : val :=
  validate beta scale
  (IF x <=? 0 THEN NInf
   ELSE let z := x / scale in
        vlog beta - vlog scale + (beta - 1) * vlog z - 2 * vlog1p (vpow z beta)).
(** loglogistic.py:71-82. *)
Definition cdf (x beta scale : val) : val :=
  validate beta scale
  (IF x <=? 0 THEN 0
   ELSE let z := x / scale in 1 / (1 + vpow z (- beta))).
(** loglogistic.py:86-98. *)
Definition sf (x beta scale : val) : val :=
  validate beta scale
  (IF x <=? 0 THEN 1
   ELSE let z := x / scale in
        let r := vpow z (- beta) in r / (1 + r)).
(** loglogistic.py:102-114. *)
Definition invcdf (p beta scale : val) : val :=
  validate beta scale (validate_p p
  (IF p =? 1 THEN PInf ELSE scale * vpow (p / (Fin 1 - p)) (1 / beta))).
(** loglogistic.py:118-127. *)
Definition invsf (p beta scale : val) : val :=
  validate beta scale (validate_p p
  (IF p =? 0 THEN PInf ELSE scale * vpow ((Fin 1 - p) / p) (1 / beta))).
(** mpmath's [sinc] and [sincpi]: sin(x)/x and sin(pi x)/(pi x), 1 at 0. *)
Definition vsinc (x : val) : val :=
  match x with Fin r => if Reqb r 0 then Fin 1 else Fin (sin r / r) | PInf | NInf => Fin 0 | _ => x end.
Definition vsincpi (x : val) : val :=
  match x with Fin r => if Reqb r 0 then Fin 1 else Fin (sin (PI * r) / (PI * r)) | PInf | NInf => Fin 0 | _ => x end.
Section Sinc.
Variables sincpi sinc : val -> val.
(** loglogistic.py:131-140. *)
Definition mean (beta scale : val) : val :=
  validate beta scale (IF beta >? 1 THEN scale / sincpi (1 / beta) ELSE NaN).
(** loglogistic.py:144-153. *)
Definition var (beta scale : val) : val :=
  validate beta scale
  (IF beta >? 2 THEN vpown scale 2 * (1 / sincpi (2 / beta) - 1 / vpown (sincpi (1 / beta)) 2) ELSE NaN).
(** loglogistic.py:157-170; [n] has passed [_validate_moment_n]. *)
Definition noncentral_moment (n : nat) (beta scale : val) : val :=
  validate beta scale
  (IF Fin (INR n) >=? beta THEN NaN ELSE vpown scale n / sinc (vpi * Fin (INR n) / beta)).
End Sinc.
