(** Model of /repo/mpsci/fun/_wright_bessel.py, _debye.py, _hermite_e.py, _legendre.py and _spherical_bessel.py
    (spherical_besseli only), with the mpmath functions nsum, hermite and legendre they rest on. *)
From Coq Require Import Reals ZArith List.
From Coquelicot Require Import Coquelicot.
From Verif Require Import Values SFun SFun4 SpecFun2 M_sfun M_marcumq M_power_mle.
Import ListNotations.
Local Open Scope R_scope.
Local Open Scope val_scope.

(** mpmath.nsum(f, [0, inf]): the exact sum of the series (the error of the convergence acceleration is not
    modelled). *)
Definition vnsum (f : nat -> val) : val := Fin (Series (fun k => real_of (f k))).
(** _wright_bessel.py:5-12 [_wright_bessel_term]: the except clause turns a pole of gamma into a zero term. *)
Definition wright_bessel_term (k : nat) (z rho beta : val) : val :=
  let numer := vpown z k in
  match vgamma (Fin (INR k) * rho + beta) with
  | Exc ValueError => Fin 0
  | g => let denom := g * Fin (INR (fact k)) in numer / denom
  end.
(** _wright_bessel.py:15-65 [wright_bessel], real arguments. *)
Definition wright_bessel (z rho beta : val) : val :=
  IF rho <=? -1 THEN Exc ValueError ELSE
  let g := match vgamma beta with Exc ValueError => PInf | g => g end in
  IF z =? 0 THEN 1 / g
  ELSE IF rho =? 0 THEN vexp z / g
  ELSE IF rho =? 1 THEN
    (let rootz := vsqrt z in vpow rootz (1 - beta) * vbesseli (beta - 1) (2 * rootz))
  ELSE vnsum (fun k => wright_bessel_term k z rho beta).

(** _debye.py:39-44 [integrand]. *)
Definition debye_integrand (n : Z) (t : val) : val :=
  IF t =? 0 THEN (if Z.eqb n 1 then Fin 1 else Fin 0) ELSE vpown t (Z.to_nat n) / vexpm1 t.
(** _debye.py:5-54 [debye], with n an integer (line 24's TypeError for a non-integer is not modelled) and
    method='quad' (the branch method='nsum', a series in Bernoulli numbers, is not modelled). *)
Definition debye (x : val) (n : Z) : val :=
  if Z.ltb n 1 then Exc ValueError else
  IF x =? 0 THEN Fin 1
  ELSE Fin (IZR n) * vquad (debye_integrand n) (Fin 0) x / vpown x (Z.to_nat n).

(** mpmath.hermite(n, x) for a natural number n: the physicists' polynomials,
    H_(n+2) = 2 x H_(n+1) - 2 (n+1) H_n. *)
Fixpoint hermite (n : nat) (x : R) : R :=
  match n with
  | O => 1
  | S m => match m with O => 2 * x | S k => 2 * x * hermite m x - 2 * INR m * hermite k x end
  end%R.
Definition vhermite (n : nat) (x : val) : val := match x with Fin x => Fin (hermite n x) | Exc e => Exc e | _ => NaN end.
(** _hermite_e.py:8-15 [hermite_e], for a natural number n. *)
Definition hermite_e (n : nat) (x : val) : val :=
  vpow 2 (- Fin (INR n) / 2) * vhermite n (x / vsqrt 2).

(** mpmath.legendre(n, x). *)
Definition vlegendre (n : nat) (x : val) : val := match x with Fin x => Fin (legendre n x) | Exc e => Exc e | _ => NaN end.
(** _legendre.py:5-12 [_root_approx]. *)
Definition root_approx (n k : nat) : val :=
  let c := 1 + 1 / (8 * vpown (Fin (INR n)) 2) * (-1 + 1 / Fin (INR n)) in
  let a := Fin PI * (4 * Fin (INR k) - 1) / (4 * Fin (INR n) + 2) in
  match a with Fin r => c * Fin (cos r) | _ => a end.
(** _legendre.py:15-92 [roots_legendre]; [findroot] is mpmath.findroot. *)
Definition roots_legendre (findroot : (val -> val) -> val -> val) (n : nat) : res (list val * list val) :=
  match n with
  | 0%nat => Err ValueError
  | 1%nat => Ok ([Fin 0], [Fin 2])
  | 2%nat => let x := 1 / vsqrt 3 in let w := Fin 1 in Ok ([- x; x], [w; w])
  | 3%nat => let x := vsqrt (Fin (6 / 10)) in let wx := Fin (5 / 9) in let w0 := Fin (8 / 9) in
      Ok ([- x; Fin 0; x], [wx; w0; wx])
  | _ =>
    let approx_roots := map (root_approx n) (seq 1 (Nat.div n 2)) in
    let roots := map (findroot (vlegendre n)) approx_roots in
    let weights := map (fun root => let deriv := vdiff (vlegendre n) root in
                                    2 / ((1 - vpown root 2) * vpown deriv 2)) roots in
    let '(root0, weight0) :=
      if Nat.odd n then ([Fin 0], [2 / vpown (vdiff (vlegendre n) (Fin 0)) 2]) else ([], []) in
    Ok (map vneg roots ++ root0 ++ rev roots, weights ++ weight0 ++ rev weights)
  end.

(** _spherical_bessel.py:29-38 [spherical_besseli]. *)
Definition spherical_besseli (n z : val) : val := vbesseli (n + Fin (1 / 2)) z * vsqrt (Fin PI / (2 * z)).
