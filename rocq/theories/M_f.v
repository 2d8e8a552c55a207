(** Model of /repo/mpsci/distributions/f.py. *)
From Coq Require Import Reals List ZArith.
From Coquelicot Require Import Coquelicot.
From Verif Require Import Values M_common M_fun SFun M_sfun M_bisect.
Import ListNotations.
Local Open Scope R_scope.
Local Open Scope val_scope.

(** f.py:15-20. *)
Definition validate_params {A} `{CanRaise A} (dfn dfd : val) (c : A) : A :=
  RIF dfn <=? 0 THEN raise ValueError ELSE
  RIF dfd <=? 0 THEN raise ValueError ELSE c.
(** f.py:24-41. *)
Definition pdf (x dfn dfd : val) : val :=
  validate_params dfn dfd
  (IF x <=? 0 THEN 0 ELSE
   let r := dfn / dfd in
   let hdfn := dfn / 2 in
   let hdfd := dfd / 2 in
   vpow r hdfn * vpow x (hdfn - 1) * vpow (Fin 1 + r * x) (- (hdfn + hdfd)) / vbeta hdfn hdfd).
(** f.py:45-62. *)
Definition logpdf (x dfn dfd : val) : val :=
  validate_params dfn dfd
  (IF x <=? 0 THEN NInf ELSE
   let r := dfn / dfd in
   let hdfn := dfn / 2 in
   let hdfd := dfd / 2 in
   hdfn * (vlog dfn - vlog dfd) + xlogy (hdfn - 1) x - xlog1py (hdfn + hdfd) (r * x) - logbeta vloggamma hdfn hdfd).
(** f.py:66-78. *)
Definition cdf (x dfn dfd : val) : val :=
  validate_params dfn dfd
  (IF x <=? 0 THEN 0 ELSE
   let dfnx := dfn * x in
   vbetainc_lower (dfn / 2) (dfd / 2) (dfnx / (dfnx + dfd))).
(** f.py:82-92.  [betaincinv] is called with method 'bisect', so its findroot is not used. *)
Definition invcdf (fuel : nat) (prec : positive) (p dfn dfd : val) : val :=
  validate_params dfn dfd (validate_p p
  (let g := betaincinv fuel prec (fun _ _ => NaN) (dfn / 2) (dfd / 2) p Bisect false in
   (dfd / dfn) * g / (Fin 1 - g))).
(** f.py:96-108. *)
Definition sf (x dfn dfd : val) : val :=
  validate_params dfn dfd
  (IF x <=? 0 THEN 1 ELSE
   let dfnx := dfn * x in
   vbetainc_upper (dfn / 2) (dfd / 2) (dfnx / (dfnx + dfd))).
(** f.py:112-122. *)
Definition invsf (fuel : nat) (prec : positive) (p dfn dfd : val) : val :=
  validate_params dfn dfd (validate_p p
  (let g := betaincinv fuel prec (fun _ _ => NaN) (dfd / 2) (dfn / 2) p Bisect false in
   (dfd / dfn) * (Fin 1 - g) / g)).
(** f.py:126-131. *)
Definition support (dfn dfd : val) : res (val * val) := validate_params dfn dfd (Ok (Fin 0, PInf)).
(** f.py:135-147. *)
Definition mean (dfn dfd : val) : val :=
  validate_params dfn dfd (IF dfd >? 2 THEN dfd / (dfd - 2) ELSE PInf).
(** f.py:151-162. *)
Definition mode (dfn dfd : val) : val :=
  validate_params dfn dfd (IF dfn <=? 2 THEN 0 ELSE (dfn - 2) / dfn * (dfd / (dfd + 2))).
(** f.py:166-179. *)
Definition var (dfn dfd : val) : val :=
  validate_params dfn dfd
  (IF dfd >? 4 THEN Fin 2 * vpown dfd 2 * (dfn + dfd - 2) / (dfn * vpown (dfd - 2) 2 * (dfd - 4)) ELSE PInf).
(** f.py:183-198. *)
Definition entropy (dfn dfd : val) : val :=
  validate_params dfn dfd
  (let dfn2 := dfn / 2 in
   let dfd2 := dfd / 2 in
   let dfmean := dfn2 + dfd2 in
   vlog (dfd / dfn) + logbeta vloggamma dfn2 dfd2 + (Fin 1 - dfn2) * vdigamma dfn2
   - (Fin 1 + dfd2) * vdigamma dfd2 + dfmean * vdigamma dfmean).
