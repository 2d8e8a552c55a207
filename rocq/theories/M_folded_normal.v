(** Model of /repo/mpsci/distributions/folded_normal.py. *)
From Coq Require Import Reals List.
From Verif Require Import Values M_common SFun M_sfun M_fun.
From Verif Require M_normal.
Import ListNotations.
Local Open Scope R_scope.
Local Open Scope val_scope.

(** folded_normal.py:29-32. *)
Definition validate_sigma {A} `{CanRaise A} (sigma : val) (c : A) : A := RIF sigma <=? 0 THEN raise ValueError ELSE c.
(** folded_normal.py:36-45. *)
Definition pdf (x mu sigma : val) : val :=
  validate_sigma sigma (IF x <? 0 THEN 0 ELSE vnpdf x mu sigma + vnpdf (- x) mu sigma).
(** folded_normal.py:49-60. *)
Definition logpdf (x mu sigma : val) : val :=
  validate_sigma sigma (IF x <? 0 THEN NInf ELSE
  bindv (M_normal.logpdf x mu sigma) (fun logp1 => bindv (M_normal.logpdf (- x) mu sigma) (fun logp2 =>
  logsumexp [logp1; logp2] None))).
(** folded_normal.py:64-73. *)
Definition cdf (x mu sigma : val) : val :=
  validate_sigma sigma (IF x <? 0 THEN 0 ELSE vncdf x mu sigma - vncdf (- x) mu sigma).
(** folded_normal.py:77-86. *)
Definition sf (x mu sigma : val) : val :=
  validate_sigma sigma (IF x <? 0 THEN 1 ELSE vncdf (- x) (- mu) sigma + vncdf (- x) mu sigma).
(** folded_normal.py:89-95. *)
Definition support (mu sigma : val) : res (val * val) := validate_sigma sigma (Ok (Fin 0, PInf)).
(** folded_normal.py:99-107. *)
Definition mean (mu sigma : val) : val :=
  validate_sigma sigma (let r := mu / sigma in
  sigma * vsqrt (Fin 2 / vpi) * vexp (- vpown r 2 / 2) + mu * (Fin 1 - Fin 2 * vncdf (- r) 0 1)).
(** folded_normal.py:110-111. *)
Definition mode_eq (t r : val) : val := t - r * vtanh (r * t).
(** folded_normal.py:114-118: halve until the equation is negative. *)
Fixpoint mode_getstart (fuel : nat) (x r : val) : val :=
  match fuel with
  | O => Exc NonTermination
  | S fuel => IF mode_eq x r >=? 0 THEN mode_getstart fuel (x / 2) r ELSE x
  end.
(** folded_normal.py:122-139. *)
Definition mode (findroot : (val -> val) -> val -> val) (fuel : nat) (mu sigma : val) : val :=
  let mu := vabs mu in
  validate_sigma sigma (IF mu <=? sigma THEN 0 ELSE
  let r := mu / sigma in
  bindv (IF r <? (5 / 4)%R THEN mode_getstart fuel r r ELSE r) (fun t0 =>
  sigma * findroot (fun s => s - r * vtanh (r * s)) t0)).
(** folded_normal.py:143-149. *)
Definition var (mu sigma : val) : val :=
  validate_sigma sigma (vpown mu 2 + vpown sigma 2 - vpown (mean mu sigma) 2).
