(** Model of /repo/mpsci/fun/_inv_reg_inc_beta.py.
    The bracket ends are multiprecision floating-point numbers: the sum in the midpoint is rounded to [prec]
    bits, to nearest even, with unbounded exponent (mpmath's default; Flocq's FLX format), and the division
    by 2 is exact.  The function is arbitrary, so its values may or may not be rounded.
    The [while True] loop runs with fuel; running out is the outcome [NonTermination]. *)
From Coq Require Import Reals ZArith.
From Flocq Require Import Core.
From Verif Require Import Values M_sfun.
Local Open Scope R_scope.
Local Open Scope val_scope.

Definition fl (prec : positive) (x : R) : R := round radix2 (FLX_exp (Zpos prec)) ZnearestE x.
Definition vfl (prec : positive) (x : val) : val := match x with Fin r => Fin (fl prec r) | v => v end.

(** _inv_reg_inc_beta.py:14-25. *)
Fixpoint bisect_loop (fuel : nat) (prec : positive) (func : val -> val) (x0 x1 y0 : val) : val :=
  match fuel with
  | O => Exc NonTermination
  | S n =>
      let xmid := vfl prec (x0 + x1) / Fin 2 in
      let ymid := func xmid in
      IF (ymid =? Fin 0) || ((xmid =? x0) || (xmid =? x1)) THEN xmid ELSE
      IF vsign ymid =? vsign y0 THEN bisect_loop n prec func xmid x1 ymid
      ELSE bisect_loop n prec func x0 xmid y0
  end.

(** _inv_reg_inc_beta.py:4-25 [mp_bisect]; [mp.mpf(x0)] rounds its argument. *)
Definition mp_bisect (fuel : nat) (prec : positive) (func : val -> val) (x0 x1 : val) : val :=
  let x0 := vfl prec x0 in
  let x1 := vfl prec x1 in
  let y0 := func x0 in
  IF y0 =? Fin 0 THEN x0 ELSE
  let y1 := func x1 in
  IF y1 =? Fin 0 THEN x1 ELSE
  IF ((y0 >? Fin 0) && (y1 >? Fin 0)) || ((y0 <? Fin 0) && (y1 <? Fin 0)) THEN Exc ValueError ELSE
  bisect_loop fuel prec func x0 x1 y0.

(** The values of the [method] argument: "findroot", ("findroot", x0), "bisect", ("bisect", [xa, xb]),
    anything else. *)
Inductive method := Findroot | FindrootAt (x0 : val) | Bisect | BisectFrom (xa xb : val) | OtherMethod.

(** _inv_reg_inc_beta.py:93-99: the function whose root is sought. *)
Definition betainc_func (a b y : val) (complement : bool) (t : val) : val :=
  if complement then vbetainc_upper a b t - y else vbetainc_lower a b t - y.

(** [try: ... except Exception: raise RuntimeError]. *)
Definition catch (v : val) : val :=
  match v with Exc NonTermination => v | Exc _ => Exc RuntimeError | v => v end.

(** _inv_reg_inc_beta.py:28-127 [betaincinv]; mpmath.findroot is a parameter, which gets the function and the
    initial guess; a complex root is the outcome [Exc NonReal].  The rounding of y is not modelled. *)
Definition betaincinv (fuel : nat) (prec : positive) (findroot : (val -> val) -> val -> val)
    (a b y : val) (m : method) (complement : bool) : val :=
  IF (y <? Fin 0) || (y >? Fin 1) THEN NaN ELSE
  IF y =? Fin 0 THEN (if complement then Fin 1 else Fin 0) ELSE
  IF y =? Fin 1 THEN (if complement then Fin 0 else Fin 1) ELSE
  let func := betainc_func a b y complement in
  let root x0 :=
    let y := catch (findroot func x0) in
    match y with Exc _ => y | _ => IF y <? Fin 0 THEN Exc RuntimeError ELSE y end in
  match m with
  | OtherMethod => Exc ValueError
  | Bisect => catch (mp_bisect fuel prec func (Fin 0) (Fin 1))
  | BisectFrom xa xb => catch (mp_bisect fuel prec func (vfl prec xa) (vfl prec xb))
  | Findroot => root (Fin (1/2))
  | FindrootAt x0 => root (vfl prec x0)
  end.
