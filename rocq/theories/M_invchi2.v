(** Model of /repo/mpsci/distributions/invchi2.py. *)
From Coq Require Import Reals List.
From Verif Require Import Values M_common M_sfun.
Local Open Scope R_scope.
Local Open Scope val_scope.

(** invchi2.py:38-41. *)
Definition validate_nu {A} `{CanRaise A} (nu : val) (k : A) : A :=
  RIF nu <=? Fin 0 THEN raise ValueError ELSE k.
(** invchi2.py:44-56. *)
Definition pdf (x nu : val) : val :=
  validate_nu nu
  (IF x <=? Fin 0 THEN Fin 0 ELSE
   let hnu := nu / Fin 2 in
   vpow (Fin 2) (- hnu) * vpow x (- hnu - Fin 1) * vexp (- Fin 1 / (Fin 2 * x)) / vgamma hnu).
(** invchi2.py:59-71. *)
Definition logpdf (x nu : val) : val :=
  validate_nu nu
  (IF x <=? Fin 0 THEN NInf ELSE
   let hnu := nu / Fin 2 in
   - hnu * vlog (Fin 2) + (- hnu - Fin 1) * vlog x - Fin 1 / (Fin 2 * x) - vloggamma hnu).
(** invchi2.py:74-84. *)
Definition cdf (x nu : val) : val :=
  validate_nu nu
  (IF x <=? Fin 0 THEN Fin 0 ELSE vgammainc_upper (nu / Fin 2) (Fin 1 / (Fin 2 * x))).
(** invchi2.py:87-97. *)
Definition sf (x nu : val) : val :=
  validate_nu nu
  (IF x <=? Fin 0 THEN Fin 1 ELSE vgammainc_lower (nu / Fin 2) (Fin 1 / (Fin 2 * x))).
(** invchi2.py:100-105. *)
Definition support (nu : val) : res (val * val) := validate_nu nu (Ok (Fin 0, PInf)).
(** invchi2.py:108-117. *)
Definition mean (nu : val) : val := validate_nu nu (IF nu >? Fin 2 THEN Fin 1 / (nu - Fin 2) ELSE NaN).
(** invchi2.py:131-139. *)
Definition mode (nu : val) : val := validate_nu nu (Fin 1 / (nu + Fin 2)).
(** invchi2.py:142-153. *)
Definition var (nu : val) : val :=
  validate_nu nu (IF nu >? Fin 4 THEN Fin 2 / vpown (nu - Fin 2) 2 / (nu - Fin 4) ELSE NaN).
