(** Model of /repo/mpsci/distributions/studentt.py.  [findroot] is mpmath.findroot with solver
    'anderson'; [fuel] bounds the loops of the bracket search. *)
From Coq Require Import Reals List ZArith.
From Coquelicot Require Import Coquelicot.
From Verif Require Import Values M_common SFun M_sfun M_hyp M_bracket.
Local Open Scope R_scope.
Local Open Scope val_scope.

(** studentt.py:14-18. *)
Definition validate_df {A} `{CanRaise A} (df : val) (c : A) : A := RIF df <=? 0 THEN raise ValueError ELSE c.
(** studentt.py:21-33. *)
Definition logpdf (x df : val) : val :=
  validate_df df
  (let h := (df + 1) / 2 in
   vloggamma h - vlog (df * vpi) / 2 - vloggamma (df / 2) - h * vlog1p (vpown x 2 / df)).
(** studentt.py:36-41. *)
Definition pdf (x df : val) : val := validate_df df (vexp (logpdf x df)).
(** studentt.py:44-60. *)
Definition cdf (x df : val) : val :=
  validate_df df
  (IF x =? NInf THEN 0 ELSE
   IF x =? PInf THEN 1 ELSE
   let half := Fin 1 / 2 in
   let h := (df + 1) / 2 in
   let p1 := x * vgamma h in
   let p2 := vhyp2f1 half h (3 * half) (- vpown x 2 / df) in
   half + p1 * p2 / vsqrt (vpi * df) / vgamma (df / 2)).
(** studentt.py:63-79. *)
Definition sf (x df : val) : val :=
  validate_df df
  (IF x =? NInf THEN 1 ELSE
   IF x =? PInf THEN 0 ELSE
   let half := Fin 1 / 2 in
   let h := (df + 1) / 2 in
   let p1 := x * vgamma h in
   let p2 := vhyp2f1 half h (3 * half) (- vpown x 2 / df) in
   half - p1 * p2 / vsqrt (vpi * df) / vgamma (df / 2)).
(** studentt.py:82-120. *)
Definition invcdf (findroot : (val -> val) -> val * val -> val) (fuel : nat) (p df : val) : val :=
  validate_df df (validate_p p
  (IF p =? 0 THEN NInf ELSE
   IF p =? 1 THEN PInf ELSE
   let p0 := IF p >? Fin (1/2) THEN Fin 1 - p ELSE p in
   match find_bracket fuel (fun x => cdf x df) p0 NInf PInf None with
   | Err e => Exc e
   | Ok x01 =>
       IF fst x01 =? snd x01 THEN fst x01 ELSE
       let x := findroot (fun x => cdf x df - p0) x01 in
       IF p >? Fin (1/2) THEN - x ELSE x
   end)).
(** studentt.py:123-137. *)
Definition invsf (findroot : (val -> val) -> val * val -> val) (fuel : nat) (p df : val) : val :=
  validate_df df (validate_p p (- invcdf findroot fuel p df)).
(** studentt.py:140-146. *)
Definition support (df : val) : res (val * val) := validate_df df (Ok (NInf, PInf)).
(** studentt.py:149-156. *)
Definition mean (df : val) : val := validate_df df (Fin 0).
(** studentt.py:159-166. *)
Definition mode (df : val) : val := validate_df df (Fin 0).
(** studentt.py:169-178. *)
Definition entropy (df : val) : val :=
  validate_df df
  (let h := df / 2 in
   let h1 := (df + 1) / 2 in
   h1 * (vdigamma h1 - vdigamma h) + vlog (vsqrt df * vbeta h (Fin (1/2)))).
