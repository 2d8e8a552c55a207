(** Model of /repo/mpsci/distributions/multivariate_hypergeometric.py. *)
From Coq Require Import Reals List Bool ZArith.
From Verif Require Import Values SpecDisc M_common M_sfun M_disc M_fun.
Import ListNotations.
Local Open Scope R_scope.
Local Open Scope val_scope.

(** Python evaluates the elements of a list from left to right; the first exception wins. *)
Fixpoint vlist (l : list val) : res (list val) :=
  match l with [] => Ok [] | a :: l => bindv a (fun a => bind (vlist l) (fun l => Ok (a :: l))) end.
Fixpoint rconcat {A} (l : list (res (list A))) : res (list A) :=
  match l with [] => Ok [] | a :: l => bind a (fun a => bind (rconcat l) (fun l => Ok (a ++ l))) end.

(** multivariate_hypergeometric.py:17-21 [_validate_params]. *)
Definition validate {A} `{CanRaise A} (colors : list val) (nsample : val) (cont : A) : A :=
  RIF cany (fun color => color <? 0) colors THEN raise ValueError ELSE
  RIF nsample >? vfsum colors THEN raise ValueError ELSE cont.

(** Python ints as values. *)
Definition vZ (z : Z) : val := Fin (IZR z).
Definition vZs (l : list Z) : list val := map vZ l.

(** multivariate_hypergeometric.py:60-69 [_support_gen]: the list of everything the generator yields, on
    Python ints ([range] accepts nothing else).  On an empty list [colors[0]] raises IndexError. *)
Fixpoint support_gen (colors : list Z) (nsample : Z) : res (list (list Z)) :=
  match colors with
  | [] => Err IndexError
  | [_] => Ok [[nsample]]
  | c0 :: rest =>
      let c1 := fold_right Z.add 0%Z rest in
      let first := Z.max (nsample - c1) 0 in
      let last := Z.min c0 nsample in
      rconcat (map (fun k => bind (support_gen rest (nsample - k)) (fun ts => Ok (map (cons k) ts))) (zrange first (last + 1)))
  end.
(** multivariate_hypergeometric.py:24-57. *)
Definition support (colors : list Z) (nsample : Z) : res (list (list Z)) :=
  validate (vZs colors) (vZ nsample) (support_gen colors nsample).
(** multivariate_hypergeometric.py:72-93 (the sum over zip(colors, point) stops at the shorter list). *)
Definition logpmf (point colors : list val) (nsample : val) : val :=
  validate colors nsample
  (let total := vfsum colors in
   bindv (logbinomial vloggamma total nsample) (fun logdenom =>
   fold_left (fun lognumer '(color, k) => lognumer + logbinomial vloggamma color k) (combine colors point) (Fin 0) - logdenom)).
(** multivariate_hypergeometric.py:96-109. *)
Definition pmf (point colors : list val) (nsample : val) : val := vexp (logpmf point colors nsample).
(** multivariate_hypergeometric.py:112-143. *)
Definition mean (colors : list val) (nsample : val) : res (list val) :=
  validate colors nsample
  (let s := vfsum colors in
   RIF nsample =? s THEN vlist (map (fun k => Fin 1 * k) colors) ELSE
   vlist (map (fun k => nsample * (k / s)) colors)).
(** multivariate_hypergeometric.py:146-211. *)
Definition cov (colors : list val) (nsample : val) : res (list (list val)) :=
  validate colors nsample
  (let n := length colors in
   let s := vfsum colors in
   RIF nsample =? s THEN Ok (repeat (repeat (Fin 0) n) n) ELSE
   bind (vlist (map (fun k => k / s) colors)) (fun u =>
   bindv (nsample * (s - nsample) / (s - 1)) (fun f =>
   Ok (map (fun i => map (fun j =>
         if Nat.eqb i j then f * nth i u NaN * (Fin 1 - nth i u NaN)
         else - f * nth i u NaN * nth j u NaN) (seq 0 n)) (seq 0 n))))).
(** multivariate_hypergeometric.py:214-242. *)
Definition entropy (colors : list Z) (nsample : Z) : val :=
  validate (vZs colors) (vZ nsample)
  (bindr (support_gen colors nsample) (fun pts =>
   - vfsum (map (fun x => let logp := logpmf (vZs x) (vZs colors) (vZ nsample) in vexp logp * logp) pts))).
