(** Model of /repo/mpsci/distributions/logseries.py. *)
From Coq Require Import Reals List Bool ZArith.
From Verif Require Import Values SpecDisc SFun M_common M_disc.
From Verif Require M_basic.
Import ListNotations.
Local Open Scope R_scope.
Local Open Scope val_scope.

(** mpmath.betainc(a, 0, 0, x): the integral of t^(a-1)/(1-t) over (0, x), for a > 0 and
    0 <= x <= 1.  The integral diverges at x = 1. *)
Definition vbetainc0 (a x : val) : val :=
  match a, x with
  | Exc e, _ | _, Exc e => Exc e
  | Fin k, Fin t => if Rltb 0 k then
       if Reqb t 0 then Fin 0 else if Reqb t 1 then PInf else
       if Rltb 0 t then if Rltb t 1 then Fin (lower_beta k 0 t) else Exc NonReal else Exc NonReal
     else Exc NonReal
  | NaN, _ | _, NaN => NaN
  | _, _ => Exc NonReal
  end.
(** logseries.py:22-39. *)
Definition support (p : val) : isupport := Count 1.
(** logseries.py:53-61. *)
Definition logpmf (k p : val) : val :=
  validate_p p (IF k <? 1 THEN NInf ELSE k * vlog p - vlog k - vlog (- vlog1p (- p))).
(** logseries.py:42-50. *)
Definition pmf (k p : val) : val := validate_p p (IF k <? 1 THEN 0 ELSE vexp (logpmf k p)).
(** logseries.py:64-72. *)
Definition cdf (k p : val) : val :=
  validate_p p (IF k <? 1 THEN 0 ELSE Fin 1 + vbetainc0 (k + 1) p / vlog1p (- p)).
(** logseries.py:75-83. *)
Definition sf (k p : val) : val :=
  validate_p p (IF k <? 1 THEN 1 ELSE - vbetainc0 (k + 1) p / vlog1p (- p)).
(** logseries.py:86-92. *)
Definition mean (p : val) : val := validate_p p (p / (p - 1) / vlog1p (- p)).
(** logseries.py:95-102. *)
Definition var (p : val) : val :=
  validate_p p (let l1p := vlog1p (- p) in - (p * (p + l1p)) / vpown (Fin 1 - p) 2 / vpown l1p 2).
(** logseries.py:105-110. *)
Definition mode (p : val) : val := validate_p p (Fin 1).
(** logseries.py:113-123. *)
Definition skewness (p : val) : val :=
  validate_p p
  (let r := vlog1p (- p) in let s := p + r in
   let num := p * (Fin 2 * p + Fin 3 * r) + (Fin 1 + p) * vpown r 2 in
   let den := - vsqrt (- p * s) * s in num / den).
(** logseries.py:126-137. *)
Definition kurtosis (p : val) : val :=
  validate_p p
  (let r := vlog1p (- p) in let r2 := r * r in let r3 := r2 * r in
   let num := p * (p * (Fin (-6) * p + r * (r * (- r - 4) - 12)) + r2 * (Fin (-4) * r - 7)) - r3 in
   let den := p * vpown (p + r) 2 in num / den).
(** logseries.py:140-151. *)
Definition nll (x : list val) (p : val) (counts : option (list val)) : val :=
  validate_p p
  (IF cnot (call (fun t => visint t && (t >=? 1)) x) THEN Exc ValueError ELSE
   validate_counts x counts true (fun counts =>
   - vfsum (map (fun '(t, c) => c * logpmf t p) (zip_counts x counts)))).
(** logseries.py:164-165 [_mle_func]. *)
Definition mle_func (p : val) : val := - p / ((Fin 1 - p) * vlog1p (- p)).
(** logseries.py:168-209.  Simplified: the starting point computed by [_approx_inv_mle_func]
    (lines 153-161, Lambert W on the branch -1) is the parameter [guess]; the two calls of
    findroot are [findroot1] (one starting point) and [findroot2] (two). *)
Definition mle (findroot1 : (val -> val) -> val -> val) (findroot2 : (val -> val) -> val * val -> val) (guess : val -> val)
    (x : list val) (counts : option (list val)) : val :=
  bindv (M_basic.mean x counts) (fun m =>
  IF m =? 1 THEN 0 ELSE
  IF m >? Fin (exp 1) THEN findroot1 (fun t => mle_func t - m) (guess m) ELSE
  let pnumer := Fin (826 / 1000) in
  let slope := pnumer / (Fin (exp 1) - 1) in
  let low := slope * (m - 1) in
  let pmax := Fin (8264 / 10000) in
  let high := vminl [Fin 2 * (m - 1); pmax] in
  findroot2 (fun t => mle_func t - m) (low, high)).
