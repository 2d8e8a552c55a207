(** Model of /repo/mpsci/distributions/vonmises.py.  The parameters are not validated by the code. *)
From Coq Require Import Reals List.
From Coquelicot Require Import Coquelicot.
From Verif Require Import Values M_common.
From Verif Require Import M_argus.
Local Open Scope R_scope.
Local Open Scope val_scope.

(** mpmath.besseli(0, y) for real y: Bessel's integral of the modified Bessel function of order 0
    (order 1 is [M_argus.vbesseli1]). *)
Definition vbesseli0 (y : val) : val :=
  match y with
  | Fin y => Fin (1 / PI * RInt (fun t => exp (y * cos t)) 0 PI)%R
  | v => v
  end.
(** vonmises.py:19-29. *)
Definition pdf (x kappa mu : val) : val :=
  let i0k := vbesseli0 kappa in
  let numer := vexp (kappa * vcos (x - mu)) in
  numer / (2 * vpi * i0k).
(** vonmises.py:32-41. *)
Definition logpdf (x kappa mu : val) : val :=
  let i0k := vbesseli0 kappa in
  kappa * vcos (x - mu) - vlog (2 * vpi) - vlog i0k.
(** vonmises.py:44-50. *)
Definition circmean (kappa mu : val) : val := mu.
(** vonmises.py:53-69. *)
Definition circvar (kappa mu : val) : val :=
  let r := vbesseli1 kappa / vbesseli0 kappa in Fin 1 - r.
(** vonmises.py:72-85. *)
Definition support (kappa mu : val) : res (val * val) := Ok (- vpi + mu, vpi + mu).
(** vonmises.py:88-96. *)
Definition entropy (kappa mu : val) : val :=
  let i0k := vbesseli0 kappa in
  let r := vbesseli1 kappa / i0k in
  - kappa * r + vlog (2 * vpi * i0k).
