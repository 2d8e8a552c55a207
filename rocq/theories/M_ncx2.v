(** Model of /repo/mpsci/distributions/ncx2.py.  The parameters are not validated by the code. *)
From Coq Require Import Reals.
From Verif Require Import Values M_common M_marcumq.
Local Open Scope R_scope.
Local Open Scope val_scope.

(** ncx2.py:13-25. *)
Definition pdf (x k lam : val) : val :=
  IF x <? 0 THEN 0 ELSE
  vexp (- (x + lam) / 2) * vpow (x / lam) ((k / 2 - 1) / 2) * vbesseli (k / 2 - 1) (vsqrt (lam * x)) / 2.
(** ncx2.py:28-39. *)
Definition cdf (x k lam : val) : val :=
  IF x <=? 0 THEN 0 ELSE cmarcumq (k / 2) (vsqrt lam) (vsqrt x).
(** ncx2.py:42-53. *)
Definition sf (x k lam : val) : val :=
  IF x <=? 0 THEN 1 ELSE marcumq (k / 2) (vsqrt lam) (vsqrt x).
(** ncx2.py:56-63. *)
Definition support (k lam : val) : res (val * val) := Ok (Fin 0, PInf).
(** ncx2.py:66-73, 76-83. *)
Definition mean (k lam : val) : val := k + lam.
Definition var (k lam : val) : val := Fin 2 * (k + Fin 2 * lam).
