(** Model of the bracket searches of /repo/mpsci/distributions/_common.py:129-299.
    A [while] loop is run with a given number of iterations of fuel; running out is the outcome
    [NonTermination].  A theorem about the loop says that some amount of fuel, and every larger one, gives
    one and the same result.  Arithmetic on the bracket ends is exact. *)
From Coq Require Import Reals List Bool ZArith.
From Verif Require Import Values.
Import ListNotations.
Local Open Scope R_scope.
Local Open Scope val_scope.

(** Python's [while c: s = f(s)]. *)
Fixpoint while {T} (fuel : nat) (c : T -> cond) (f : T -> T) (s : T) : res T :=
  match fuel with
  | O => Err NonTermination
  | S n => match c s with CE e => Err e | CB false => Ok s | CB true => while n c f (f s) end
  end.

(** _common.py:186-195: the [for _k in range(nbisect)] refinement. *)
Fixpoint refine (nbisect : nat) (func : val -> val) (p sign x0 x1 : val) : res (val * val) :=
  match nbisect with
  | O => Ok (x0, x1)
  | S n =>
      let mid := (x0 + x1) / Fin 2 in
      bindv (func mid) (fun pmid =>
      RIF pmid =? p THEN Ok (mid, mid) ELSE
      RIF vsign (p - pmid) =? sign THEN refine n func p sign mid x1 ELSE refine n func p sign x0 mid)
  end.

(** _common.py:152-179: the expansion of an unbounded interval to a finite one. *)
Definition expand_bracket (fuel : nat) (func : val -> val) (p sign a b : val) : res (val * val) :=
  RIF (a =? NInf) && (b =? PInf) THEN
    bind (while fuel (fun s => vsign (p - func (fst s)) <>? sign)
                     (fun s => (Fin 2 * fst s, fst s)) (- Fin 1, Fin 1)) (fun s =>
    bind (while fuel (fun x1 => vsign (p - func x1) =? sign) (fun x1 => Fin 2 * x1) (snd s)) (fun x1 =>
    Ok (fst s, x1)))
  ELSE RIF a =? NInf THEN
    bind (while fuel (fun s => vsign (p - func (fst (fst s))) <>? sign)
                     (fun s => (b - Fin 2 * snd s, fst (fst s), Fin 2 * snd s))
                     (b - Fin 1, b, Fin 1)) (fun s => Ok (fst s))
  ELSE RIF b =? PInf THEN
    bind (while fuel (fun s => vsign (p - func (snd (fst s))) =? sign)
                     (fun s => (snd (fst s), a + Fin 2 * snd s, Fin 2 * snd s))
                     (a, a + Fin 1, Fin 1)) (fun s => Ok (fst s))
  ELSE Ok (a, b).

(** _common.py:129-196 [_find_bracket]; [nbisect] defaults to 8. *)
Definition find_bracket (fuel : nat) (func : val -> val) (p a b : val) (nbisect : option nat) : res (val * val) :=
  bindv (func a) (fun pa =>
  RIF p =? pa THEN Ok (a, a) ELSE
  bindv (func b) (fun pb =>
  RIF p =? pb THEN Ok (b, b) ELSE
  let sign := vsign (pb - pa) in
  bind (expand_bracket fuel func p sign a b) (fun s =>
  refine (match nbisect with None => 8%nat | Some n => n end) func p sign (fst s) (snd s)))).

(** _common.py:212-219 and 245-252: [direction], [not_high_enough], [not_low_enough]. *)
Definition not_high_enough (func : val -> val) (p : val) (direction : Z) (x : val) : cond :=
  if Z.eqb direction 1 then func x <? p else func x >? p.
Definition not_low_enough (func : val -> val) (p : val) (direction : Z) (x : val) : cond :=
  if Z.eqb direction 1 then func x >? p else func x <? p.
Definition bad_direction (direction : Z) : bool := negb (Z.eqb direction (-1) || Z.eqb direction 1).

(** _common.py:199-233 [_find_bracket_by_expansion_neginf_inf]. *)
Definition find_bracket_neginf_inf (fuel : nat) (func : val -> val) (p : val) (direction : Z) : res (val * val) :=
  if bad_direction direction then Err ValueError else
  let high := not_high_enough func p direction in
  let low := not_low_enough func p direction in
  bind (RIF high (Fin 0) THEN while fuel high (fun x => x * Fin (3/2)) (Fin 1) ELSE Ok (Fin 0)) (fun x_high =>
  bind (RIF low (Fin 0) THEN while fuel low (fun x => x * Fin (3/2)) (- Fin 1) ELSE Ok (Fin 0)) (fun x_low =>
  Ok (x_low, x_high))).

(** _common.py:236-261 [_find_bracket_by_expansion_0_inf]. *)
Definition find_bracket_0_inf (fuel : nat) (func : val -> val) (p : val) (direction : Z) : res (val * val) :=
  if bad_direction direction then Err ValueError else
  let high := not_high_enough func p direction in
  let low := not_low_enough func p direction in
  bind (while fuel high (fun x => x * Fin (3/2)) (Fin 1)) (fun x_high =>
  bind (while fuel (fun x => (x >? Fin 0) && low x) (fun x => x * Fin (1/2)) (Fin 1)) (fun x_low =>
  Ok (x_low, x_high))).

(** _common.py:264-299 [_generic_inv] with one of the bisection-type solvers: mpmath.findroot is a
    parameter that gets the function [func(k) - p] and the bracket.  Other solvers get the midpoint. *)
Definition generic_inv (fuel : nat) (findroot : (val -> val) -> val * val -> val)
    (func : val -> val) (p : val) (direction : Z) : val :=
  match find_bracket_0_inf fuel func p direction with
  | Err e => Exc e
  | Ok k0 => findroot (fun k => func k - p) k0
  end.
Definition generic_inv_mid (fuel : nat) (findroot : (val -> val) -> val -> val)
    (func : val -> val) (p : val) (direction : Z) : val :=
  match find_bracket_0_inf fuel func p direction with
  | Err e => Exc e
  | Ok k0 => findroot (fun k => func k - p) ((fst k0 + snd k0) / Fin 2)
  end.
