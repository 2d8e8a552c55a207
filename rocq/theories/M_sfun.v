(** The mpmath special functions used by /repo, on values.  mpmath itself is outside /repo:
    each definition is the documented mathematical function (SFun.v), with mpmath's results
    at infinities.  Arguments for which mpmath returns a complex number give [NonReal], as
    in Values.v. *)
From Coq Require Import Reals ZArith.
From Coquelicot Require Import Coquelicot.
From Verif Require Import Values Spec SFun.
Local Open Scope R_scope.
Local Open Scope val_scope.

(** mpmath.erf, mpmath.erfc. *)
Definition verf (a : val) : val :=
  match a with Fin x => Fin (erf x) | PInf => Fin 1 | NInf => Fin (-1) | _ => a end.
Definition verfc (a : val) : val :=
  match a with Fin x => Fin (erfc x) | PInf => Fin 0 | NInf => Fin 2 | _ => a end.
(** mpmath.erfinv: ValueError outside [-1, 1], infinite at the ends. *)
Definition verfinv (a : val) : val :=
  match a with
  | Fin y => if Rltb y (-1) then Exc ValueError else if Rltb 1 y then Exc ValueError
             else if Reqb y 1 then PInf else if Reqb y (-1) then NInf
             else Fin (inverse_fn m_infty p_infty erf y)
  | PInf | NInf => Exc ValueError
  | _ => a
  end.
(** mpmath.npdf(x, mu, sigma) = exp(-(x-mu)**2/(2*sigma**2)) / (sigma*sqrt(2*pi)). *)
Definition vnpdf (x mu sigma : val) : val :=
  vexp (- vpown (x - mu) 2 / (2 * vpown sigma 2)) / (sigma * vsqrt (2 * vpi)).
(** mpmath.ncdf(x, mu, sigma): a = (x-mu)/(sigma*sqrt(2)); erfc(-a)/2 if a < 0 else (1+erf(a))/2. *)
Definition vncdf (x mu sigma : val) : val :=
  let a := (x - mu) / (sigma * vsqrt 2) in
  IF a <? 0 THEN verfc (- a) / 2 ELSE (1 + verf a) / 2.
(** mpmath.gamma for every real: Euler's integral for x > 0, continued to the left by
    gamma(x) = gamma(x+n) / (x (x+1) ... (x+n-1)); ValueError at the poles 0, -1, -2, ... *)
Fixpoint rising (x : R) (n : nat) : R := match n with O => 1%R | S n => (x * rising (x + 1) n)%R end.
Definition vgamma (a : val) : val :=
  match a with
  | Fin x => if Rltb 0 x then Fin (Gamma x)
             else if is_intb x then Exc ValueError
             else let n := Z.to_nat (up (- x)) in Fin (Gamma (x + INR n) / rising x n)
  | PInf => PInf | NInf => NaN | _ => a
  end.
(** mpmath.loggamma on positive reals; +inf at 0; complex on the negative axis (its poles,
    where mpmath returns +inf, are not used by the code). *)
Definition vloggamma (a : val) : val :=
  match a with
  | Fin x => if Rltb 0 x then Fin (loggamma x) else if Reqb x 0 then PInf else Exc NonReal
  | PInf => PInf | NInf => Exc NonReal | _ => a
  end.
(** mpmath.digamma = psi(0, .) and psi(1, .) on positive reals; the rest of the real line is
    not modelled (no function of the model calls it there). *)
Definition vdigamma (a : val) : val :=
  match a with Fin x => if Rltb 0 x then Fin (digamma x) else Exc NonReal | PInf => PInf | NInf => Exc NonReal | _ => a end.
Definition vtrigamma (a : val) : val :=
  match a with Fin x => if Rltb 0 x then Fin (trigamma x) else Exc NonReal | PInf => Fin 0 | NInf => Exc NonReal | _ => a end.
(** The poles 0, -1, -2, ... of gamma. *)
Definition polb (x : R) : bool := if is_intb x then Rleb x 0 else false.
(** mpmath.beta(a, b) = gammaprod([a, b], [a+b]): Euler's integral for positive a, b, and +inf
    when the numerator has a pole and the denominator none (not modelled elsewhere). *)
Definition vbeta (a b : val) : val :=
  match a, b with
  | Exc e, _ | _, Exc e => Exc e
  | Fin x, Fin y =>
      if Rltb 0 x then
        if Rltb 0 y then Fin (Beta x y)
        else if polb y then if polb (x + y) then Exc NonReal else PInf else Exc NonReal
      else if polb x then if polb (x + y) then Exc NonReal else PInf
      else if polb y then if polb (x + y) then Exc NonReal else PInf else Exc NonReal
  | NaN, _ | _, NaN => NaN
  | _, _ => Exc NonReal
  end.
(** mpmath.gammainc(a, 0, x, regularized=True) and gammainc(a, x, inf, regularized=True), for a > 0. *)
Definition vgammainc_lower (a x : val) : val :=
  match a, x with
  | Exc e, _ | _, Exc e => Exc e
  | Fin k, Fin t => if Rltb 0 k then
       if Reqb t 0 then Fin 0 else if Rltb 0 t then Fin (lower_gamma k t / Gamma k) else Exc NonReal
     else Exc NonReal
  | Fin k, PInf => if Rltb 0 k then Fin 1 else Exc NonReal
  | NaN, _ | _, NaN => NaN
  | _, _ => Exc NonReal
  end.
Definition vgammainc_upper (a x : val) : val :=
  match a, x with
  | Exc e, _ | _, Exc e => Exc e
  | Fin k, Fin t => if Rltb 0 k then
       if Reqb t 0 then Fin 1 else if Rltb 0 t then Fin (upper_gamma k t / Gamma k) else Exc NonReal
     else Exc NonReal
  | Fin k, PInf => if Rltb 0 k then Fin 0 else Exc NonReal
  | NaN, _ | _, NaN => NaN
  | _, _ => Exc NonReal
  end.
(** mpmath.betainc(a, b, 0, x, regularized=True) and betainc(a, b, x, 1, regularized=True), for
    a, b > 0 and 0 <= x <= 1. *)
Definition vbetainc_lower (a b x : val) : val :=
  match a, b, x with
  | Exc e, _, _ | _, Exc e, _ | _, _, Exc e => Exc e
  | Fin k, Fin l, Fin t => if Rltb 0 k then if Rltb 0 l then
       if Reqb t 0 then Fin 0 else if Reqb t 1 then Fin 1 else
       if Rltb 0 t then if Rltb t 1 then Fin (lower_beta k l t / Beta k l) else Exc NonReal else Exc NonReal
     else Exc NonReal else Exc NonReal
  | NaN, _, _ | _, NaN, _ | _, _, NaN => NaN
  | _, _, _ => Exc NonReal
  end.
Definition vbetainc_upper (a b x : val) : val :=
  match a, b, x with
  | Exc e, _, _ | _, Exc e, _ | _, _, Exc e => Exc e
  | Fin k, Fin l, Fin t => if Rltb 0 k then if Rltb 0 l then
       if Reqb t 0 then Fin 1 else if Reqb t 1 then Fin 0 else
       if Rltb 0 t then if Rltb t 1 then Fin (upper_beta k l t / Beta k l) else Exc NonReal else Exc NonReal
     else Exc NonReal else Exc NonReal
  | NaN, _, _ | _, NaN, _ | _, _, NaN => NaN
  | _, _, _ => Exc NonReal
  end.
