(** Model of /repo/mpsci/distributions/gompertz.py ([var], which uses a 3F3, is not modelled). *)
From Coq Require Import Reals List.
From Verif Require Import Values M_common M_basic M_sfun2.
Import ListNotations.
Local Open Scope R_scope.
Local Open Scope val_scope.

(** gompertz.py:27-32. *)
Definition validate {A} `{CanRaise A} (c scale : val) (k : A) : A :=
  validate_positive c (validate_positive scale k).
(** gompertz.py:36-50. *)
Definition pdf (x c scale : val) : val :=
  validate c scale
  (IF x <? 0 THEN 0 ELSE IF visinf x THEN 0
   ELSE let z := x / scale in c * vexp (c + z - c * vexp z) / scale).
(** gompertz.py:54-68. *)
Definition logpdf (x c scale : val) : val :=
  validate c scale
  (IF x <? 0 THEN NInf ELSE IF visinf x THEN NInf
   ELSE let z := x / scale in vlog c + c + z - c * vexp z - vlog scale).
(** gompertz.py:72-84. *)
Definition cdf (x c scale : val) : val :=
  validate c scale
  (IF x <=? 0 THEN 0 ELSE let z := x / scale in - vexpm1 (- c * vexpm1 z)).
(** gompertz.py:88-101. *)
Definition invcdf (p c scale : val) : val :=
  validate_p p (validate c scale
  (IF p =? 0 THEN 0 ELSE IF p =? 1 THEN PInf ELSE scale * vlog1p (- vlog1p (- p) / c))).
(** gompertz.py:105-117. *)
Definition sf (x c scale : val) : val :=
  validate c scale
  (IF x <=? 0 THEN 1 ELSE let z := x / scale in vexp (- c * vexpm1 z)).
(** gompertz.py:121-134. *)
Definition invsf (p c scale : val) : val :=
  validate_p p (validate c scale
  (IF p =? 0 THEN PInf ELSE IF p =? 1 THEN 0 ELSE scale * vlog1p (- vlog p / c))).
(** gompertz.py:138-143. *)
Definition support (c scale : val) : res (val * val) := validate c scale (Ok (Fin 0, PInf)).
(** gompertz.py:147-155. *)
Definition mean (c scale : val) : val := validate c scale (scale * vexp c * ve1 c).
(** gompertz.py:159-168. *)
Definition mode (c scale : val) : val :=
  validate c scale (IF c >=? 1 THEN 0 ELSE - scale * vlog c).
(** gompertz.py:188-196. *)
Definition entropy (c scale : val) : val :=
  validate c scale (Fin 1 - vlog c - vexp c * ve1 c + vlog scale).
(** gompertz.py:200-209. *)
Definition nll (x : list val) (c scale : val) : val :=
  validate c scale
  (validate_x_bounds x (Some (Fin 0)) (Some PInf) false true
   (- vfsum (map (fun xi => logpdf xi c scale) x))).
(** gompertz.py:237-240 and 257-259: the equations for the scale, with c free and c given. *)
Definition mle_scale_eqn (x : list val) (scale : val) : val :=
  let meanx := M_basic.mean x None in
  let meanexpx := M_basic.mean (map (fun xi => vexp (xi / scale)) x) None in
  let meanxexpx := M_basic.mean (map (fun xi => xi * vexp (xi / scale)) x) None in
  - scale - meanx + meanxexpx / (meanexpx - 1).
Definition mle_scale_eqn_c (x : list val) (c scale : val) : val :=
  let meanx := M_basic.mean x None in
  let meanxexpx := M_basic.mean (map (fun xi => xi * vexp (xi / scale)) x) None in
  - scale - meanx + c * meanxexpx.
(** gompertz.py:213-262 [mle].  [c], [scale]: [Some] when given; [scale0] is the starting point of
    the search (1, or the value wrapped in [Initial]). *)
Definition mle (findroot : (val -> val) -> val -> val) (scale0 : val) (x : list val) (c scale : option val) : res (val * val) :=
  validate_x_bounds x (Some (Fin 0)) (Some PInf) false true
  (match c, scale with
   | None, Some s => validate_positive s
       (bindv (Fin 1 / (M_basic.mean (map (fun xi => vexp (xi / s)) x) None - 1)) (fun chat => Ok (chat, s)))
   | None, None =>
       bindv (findroot (mle_scale_eqn x) scale0) (fun s =>
       bindv (Fin 1 / (M_basic.mean (map (fun xi => vexp (xi / s)) x) None - 1)) (fun chat => Ok (chat, s)))
   | Some c, Some s => validate c s (Ok (c, s))
   | Some c, None => validate_positive c
       (bindv (findroot (mle_scale_eqn_c x c) scale0) (fun s => Ok (c, s)))
   end).
