(** mpmath numbers as seen by mpsci, with exact real arithmetic for finite
    values, mpmath's rules for infinities and nan, and Python exceptions.

    This file models the part of mpmath that mpsci uses ([from mpmath import mp]
    in every module of /repo/mpsci).  mpmath is not in /repo; the rules below are
    those of mpmath 1.3 ([libmp/libmpf.py], [libmp/libelefun.py]).  Rounding is not
    modelled: a finite value is a real number and every operation is exact. *)
From Coq Require Import Reals Lra List Bool ZArith.
Import ListNotations.
Local Open Scope R_scope.

(** Python exceptions.  [NonReal] is not an exception: it marks the place where
    mpmath would switch to a complex result ([mpc]); the model stops there. *)
Inductive exn := ValueError | ZeroDivisionError | TypeError | AttributeError
               | IndexError | RuntimeError | NameError | NonReal | NonTermination.

Inductive val := Fin (r : R) | PInf | NInf | NaN | Exc (e : exn).

Coercion Fin : R >-> val.
Declare Scope val_scope.
Delimit Scope val_scope with V.
Bind Scope val_scope with val.

(** Results that are not numbers (pairs, lists, ...). *)
Inductive res (A : Type) := Ok (a : A) | Err (e : exn).
Arguments Ok {A} a.
Arguments Err {A} e.

Class CanRaise (A : Type) := raise : exn -> A.
#[global] Instance CanRaise_val : CanRaise val := Exc.
#[global] Instance CanRaise_res A : CanRaise (res A) := @Err A.

Definition bind {A B} (m : res A) (f : A -> res B) : res B :=
  match m with Ok a => f a | Err e => Err e end.

(** [Exc] as a [res]: what a Python statement [x = expr] does. *)
Definition bindv {B} `{CanRaise B} (m : val) (f : val -> B) : B :=
  match m with Exc e => raise e | v => f v end.

Definition bindr {A B} `{CanRaise B} (m : res A) (f : A -> B) : B :=
  match m with Ok a => f a | Err e => raise e end.

(** Boolean comparisons of reals. *)
Definition Rltb (x y : R) : bool := if Rlt_dec x y then true else false.
Definition Rleb (x y : R) : bool := if Rle_dec x y then true else false.
Definition Reqb (x y : R) : bool := if Req_EM_T x y then true else false.

(** Conditions of [if] statements: a boolean, or an exception raised while
    evaluating it. *)
Inductive cond := CB (b : bool) | CE (e : exn).

Definition ltb (a b : val) : bool :=
  match a, b with
  | Fin x, Fin y => Rltb x y
  | NInf, Fin _ | NInf, PInf | Fin _, PInf => true
  | _, _ => false
  end.
Definition leb (a b : val) : bool :=
  match a, b with
  | Fin x, Fin y => Rleb x y
  | NInf, Fin _ | NInf, PInf | Fin _, PInf | NInf, NInf | PInf, PInf => true
  | _, _ => false
  end.
Definition eqb (a b : val) : bool :=
  match a, b with
  | Fin x, Fin y => Reqb x y
  | NInf, NInf | PInf, PInf => true
  | _, _ => false
  end.

Definition cmp (f : val -> val -> bool) (a b : val) : cond :=
  match a, b with
  | Exc e, _ => CE e
  | _, Exc e => CE e
  | _, _ => CB (f a b)
  end.
(** Python's [a < b], [a <= b], [a > b], [a >= b], [a == b], [a != b];
    every comparison with nan is False except [!=]. *)
Definition clt := cmp ltb.
Definition cle := cmp leb.
Definition cgt a b := cmp (fun a b => ltb b a) a b.
Definition cge a b := cmp (fun a b => leb b a) a b.
Definition ceq := cmp eqb.
Definition cne := cmp (fun a b => negb (eqb a b)).

(** Short-circuit [or], [and], [not]. *)
Definition cor (c d : cond) : cond :=
  match c with CE e => CE e | CB true => CB true | CB false => d end.
Definition cand (c d : cond) : cond :=
  match c with CE e => CE e | CB true => d | CB false => CB false end.
Definition cnot (c : cond) : cond :=
  match c with CE e => CE e | CB b => CB (negb b) end.

Definition cif {A} `{CanRaise A} (c : cond) (t e : A) : A :=
  match c with CE x => raise x | CB true => t | CB false => e end.

(** [IF]: both branches are numbers.  [RIF]: any type that can raise. *)
Notation "'IF' c 'THEN' t 'ELSE' e" := (@cif val CanRaise_val c%V t%V e%V)
  (at level 200, right associativity, c at level 200, t at level 200,
   format "'[v' 'IF'  c  'THEN' '/  ' t '/' 'ELSE'  e ']'").
Notation "'RIF' c 'THEN' t 'ELSE' e" := (cif c%V t e)
  (at level 200, right associativity, c at level 200, t at level 200).
Notation "a <? b" := (clt a b) (at level 70, no associativity) : val_scope.
Notation "a <=? b" := (cle a b) (at level 70, no associativity) : val_scope.
Notation "a >? b" := (cgt a b) (at level 70, no associativity) : val_scope.
Notation "a >=? b" := (cge a b) (at level 70, no associativity) : val_scope.
Notation "a =? b" := (ceq a b) (at level 70, no associativity) : val_scope.
Notation "a <>? b" := (cne a b) (at level 70, no associativity) : val_scope.
Notation "a || b" := (cor a b) (at level 50, left associativity) : val_scope.
Notation "a && b" := (cand a b) (at level 40, left associativity) : val_scope.

(** Unary and binary operations, absorbing in [Exc], nan-propagating. *)
Definition vneg (a : val) : val :=
  match a with Fin x => Fin (- x) | PInf => NInf | NInf => PInf | v => v end.

Definition vadd (a b : val) : val :=
  match a, b with
  | Exc e, _ => Exc e
  | _, Exc e => Exc e
  | NaN, _ => NaN
  | _, NaN => NaN
  | Fin x, Fin y => Fin (x + y)
  | PInf, NInf => NaN
  | NInf, PInf => NaN
  | PInf, _ => PInf
  | _, PInf => PInf
  | NInf, _ => NInf
  | _, NInf => NInf
  end.
Definition vsub (a b : val) : val := vadd a (vneg b).

Definition scale_inf (x : R) (v : val) : val :=   (* x * (+-inf) *)
  if Reqb x 0 then NaN else if Rltb 0 x then v else vneg v.
Definition vmul (a b : val) : val :=
  match a, b with
  | Exc e, _ => Exc e
  | _, Exc e => Exc e
  | NaN, _ => NaN
  | _, NaN => NaN
  | Fin x, Fin y => Fin (x * y)
  | Fin x, v => scale_inf x v
  | v, Fin x => scale_inf x v
  | PInf, v => v
  | NInf, v => vneg v
  end.
(** [mpf_div]: a zero divisor raises whatever the dividend. *)
Definition vdiv (a b : val) : val :=
  match a, b with
  | Exc e, _ => Exc e
  | _, Exc e => Exc e
  | Fin x, Fin y => if Reqb y 0 then Exc ZeroDivisionError else Fin (x / y)
  | NaN, Fin y => if Reqb y 0 then Exc ZeroDivisionError else NaN
  | NaN, _ => NaN
  | _, NaN => NaN
  | Fin _, _ => Fin 0
  | v, Fin y => if Reqb y 0 then Exc ZeroDivisionError else scale_inf y v
  | _, _ => NaN
  end.

Notation "a + b" := (vadd a b) : val_scope.
Notation "a - b" := (vsub a b) : val_scope.
Notation "a * b" := (vmul a b) : val_scope.
Notation "a / b" := (vdiv a b) : val_scope.
Notation "- a" := (vneg a) : val_scope.

Definition is_intb (y : R) : bool := Reqb y (IZR (Int_part y)).

(** [x ** n] for a literal non-negative integer exponent. *)
Fixpoint vpown (a : val) (n : nat) : val :=
  match n with
  | O => Fin 1
  | 1%nat => a
  | S k => vmul a (vpown a k)
  end.

(** [mp.power(x, y)], [x ** y].  [0**y] for negative [y]: [mpf_pow_int] divides
    (ZeroDivisionError) when [y] is an integer or a half-integer, the general
    formula [exp(y*log 0)] gives [+inf]. *)
Definition vpow (a b : val) : val :=
  match a, b with
  | Exc e, _ => Exc e
  | _, Exc e => Exc e
  | NaN, _ => NaN
  | _, NaN => NaN
  | Fin x, Fin y =>
      if Rltb 0 x then Fin (Rpower x y)
      else if Reqb x 0 then
        if Reqb y 0 then Fin 1
        else if Rltb 0 y then Fin 0
        else if is_intb (2 * y) then Exc ZeroDivisionError else PInf
      else if is_intb y then Fin (powerRZ x (Int_part y)) else Exc NonReal
  | Fin x, PInf =>
      if Rltb x 0 then Exc NonReal
      else if Rltb x 1 then Fin 0 else if Reqb x 1 then NaN else PInf
  | Fin x, NInf =>
      if Rltb x 0 then Exc NonReal
      else if Rltb x 1 then PInf else if Reqb x 1 then NaN else Fin 0
  | PInf, Fin y => if Rltb 0 y then PInf else if Reqb y 0 then NaN else Fin 0
  | PInf, PInf => PInf
  | PInf, NInf => Fin 0
  | NInf, Fin y =>
      if is_intb y then
        if Reqb y 0 then NaN
        else if Rltb y 0 then Fin 0
        else if Z.even (Int_part y) then PInf else NInf
      else Exc NonReal
  | NInf, _ => Exc NonReal
  end.

Definition vexp (a : val) : val :=
  match a with Fin x => Fin (exp x) | NInf => Fin 0 | v => v end.
Definition vexpm1 (a : val) : val :=
  match a with Fin x => Fin (exp x - 1) | NInf => Fin (-1) | v => v end.
Definition vlog (a : val) : val :=
  match a with
  | Fin x => if Rltb 0 x then Fin (ln x) else if Reqb x 0 then NInf else Exc NonReal
  | NInf => Exc NonReal
  | v => v
  end.
Definition vlog1p (a : val) : val := vlog (vadd 1 a).
(** [mp.powm1(x, y)] = [x**y - 1]. *)
Definition vpowm1 (a b : val) : val := vsub (vpow a b) 1.
Definition vsqrt (a : val) : val :=
  match a with
  | Fin x => if Rltb x 0 then Exc NonReal else Fin (sqrt x)
  | NInf => Exc NonReal
  | v => v
  end.
Definition vabs (a : val) : val :=
  match a with Fin x => Fin (Rabs x) | NInf => PInf | v => v end.
Definition vsign (a : val) : val :=
  match a with
  | Fin x => if Rltb 0 x then Fin 1 else if Rltb x 0 then Fin (-1) else Fin 0
  | PInf => Fin 1 | NInf => Fin (-1) | v => v
  end.
Definition vtanh (a : val) : val :=
  match a with Fin x => Fin (tanh x) | PInf => Fin 1 | NInf => Fin (-1) | v => v end.
Definition vsinh (a : val) : val :=
  match a with Fin x => Fin (sinh x) | v => v end.
Definition vcosh (a : val) : val :=
  match a with Fin x => Fin (cosh x) | NInf => PInf | v => v end.
Definition vsin (a : val) : val :=
  match a with Fin x => Fin (sin x) | Exc e => Exc e | _ => NaN end.
Definition vcos (a : val) : val :=
  match a with Fin x => Fin (cos x) | Exc e => Exc e | _ => NaN end.
Definition vtan (a : val) : val :=
  match a with Fin x => Fin (tan x) | Exc e => Exc e | _ => NaN end.
Definition vatan (a : val) : val :=
  match a with Fin x => Fin (atan x) | PInf => Fin (PI/2) | NInf => Fin (-(PI/2)) | v => v end.
(** [mp.atanh] on the reals; [atanh(+-1) = +-inf]. *)
Definition vatanh (a : val) : val :=
  match a with
  | Fin x => if Rltb x (-1) then Exc NonReal
             else if Reqb x (-1) then NInf
             else if Rltb x 1 then Fin (/2 * ln ((1 + x) / (1 - x)))
             else if Reqb x 1 then PInf else Exc NonReal
  | PInf | NInf => Exc NonReal
  | v => v
  end.
Definition vceil (a : val) : val :=
  match a with Fin x => Fin (IZR (- Int_part (- x))) | v => v end.
Definition vfloor (a : val) : val :=
  match a with Fin x => Fin (IZR (Int_part x)) | v => v end.
Definition visnan (a : val) : cond :=
  match a with NaN => CB true | Exc e => CE e | _ => CB false end.
Definition visinf (a : val) : cond :=
  match a with PInf | NInf => CB true | Exc e => CE e | _ => CB false end.

Definition vpi : val := Fin PI.

(** [mp.fsum], [sum]. *)
Fixpoint vfsum (l : list val) : val :=
  match l with [] => Fin 0 | a :: l' => vadd a (vfsum l') end.

(** Python's [max(seq)], [min(seq)]: ValueError on an empty sequence. *)
Definition vmax2 (a b : val) : val := cif (cgt b a) b a.
Definition vmin2 (a b : val) : val := cif (clt b a) b a.
Definition vmaxl (l : list val) : val :=
  match l with [] => Exc ValueError | a :: l' => fold_left vmax2 l' a end.
Definition vminl (l : list val) : val :=
  match l with [] => Exc ValueError | a :: l' => fold_left vmin2 l' a end.

(** [any(t < c for t in x)] and friends. *)
Fixpoint cany {A} (f : A -> cond) (l : list A) : cond :=
  match l with [] => CB false | a :: l' => cor (f a) (cany f l') end.
Fixpoint call {A} (f : A -> cond) (l : list A) : cond :=
  match l with [] => CB true | a :: l' => cand (f a) (call f l') end.

Definition vlen {A} (l : list A) : val := Fin (INR (length l)).

(** [mp.sech] is 1/cosh; mp.sech(+-inf) is 0. *)
Definition vsech (a : val) : val :=
  match a with PInf | NInf => Fin 0 | _ => vdiv (Fin 1) (vcosh a) end.
