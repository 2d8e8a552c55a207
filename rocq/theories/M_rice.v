(** Model of /repo/mpsci/distributions/rice.py. *)
From Coq Require Import Reals List.
From Verif Require Import Values M_common SFun M_sfun M_marcumq.
Import ListNotations.
Local Open Scope R_scope.
Local Open Scope val_scope.

(** rice.py:28-33. *)
Definition validate_params {A} `{CanRaise A} (nu sigma : val) (c : A) : A :=
  RIF nu <? 0 THEN raise ValueError ELSE RIF sigma <=? 0 THEN raise ValueError ELSE c.
(** rice.py:36-48. *)
Definition pdf (x nu sigma : val) : val :=
  validate_params nu sigma
  (IF x <=? 0 THEN 0 ELSE
   let sigma2 := vpown sigma 2 in
   (x / sigma2) * vexp (- (vpown x 2 + vpown nu 2) / (Fin 2 * sigma2)) * vbesseli 0 (x * nu / sigma2)).
(** rice.py:51-66. *)
Definition logpdf (x nu sigma : val) : val :=
  validate_params nu sigma
  (IF x <=? 0 THEN NInf ELSE
   let sigma2 := vpown sigma 2 in
   vlog x - Fin 2 * vlog sigma - (vpown x 2 + vpown nu 2) / (Fin 2 * sigma2) + vlog (vbesseli 0 (x * nu / sigma2))).
(** rice.py:69-79. *)
Definition cdf (x nu sigma : val) : val :=
  validate_params nu sigma (IF x <=? 0 THEN 0 ELSE cmarcumq 1 (nu / sigma) (x / sigma)).
(** rice.py:82-92. *)
Definition sf (x nu sigma : val) : val :=
  validate_params nu sigma (IF x <=? 0 THEN 1 ELSE marcumq 1 (nu / sigma) (x / sigma)).
(** rice.py:95-101. *)
Definition support (nu sigma : val) : res (val * val) := validate_params nu sigma (Ok (Fin 0, PInf)).
(** rice.py:104-111.  mpmath.laguerre(n, 0, z) is 1F1(-n; 1; z). *)
Definition mean (nu sigma : val) : val :=
  validate_params nu sigma
  (sigma * vsqrt (vpi / 2) * vhyp1f1 (Fin (- (1/2))) 1 (- vpown (nu / sigma) 2 / 2)).
(** rice.py:142-157; [n] has passed [_validate_moment_n]. *)
Definition noncentral_moment (n : nat) (nu sigma : val) : val :=
  validate_params nu sigma
  (if Nat.eqb n 0 then Fin 1 else
   let h := Fin (INR n / 2) in
   let t1 := Fin (INR n) * vlog sigma in
   let t2 := h * vlog 2 in
   let t3 := vloggamma (Fin 1 + h) in
   let t4 := vlog (vhyp1f1 (- h) 1 (- vpown (nu / sigma) 2 / 2)) in
   vexp (vfsum [t1; t2; t3; t4])).
(** rice.py:133-139. *)
Definition var (nu sigma : val) : val :=
  validate_params nu sigma (noncentral_moment 2 nu sigma - vpown (mean nu sigma) 2).
(** rice.py:114-130: the function handed to the secant solver, and the mode it returns for the starting
    point mean(nu, sigma).  [findroot] is abstract. *)
Definition mode_eq (nu sigma x : val) : val :=
  let r := nu / vpown sigma 2 in
  (sigma + x) * (sigma - x) + x * nu * vbesseli 1 (r * x) / vbesseli 0 (r * x).
Definition mode (findroot : (val -> val) -> val -> val) (nu sigma : val) : val :=
  validate_params nu sigma (findroot (mode_eq nu sigma) (mean nu sigma)).
