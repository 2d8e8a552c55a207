(** Shared by the discrete distributions: the integer and count validators of
    /repo/mpsci/distributions/_common.py, and the combinatorial functions of mpmath. *)
From Coq Require Import Reals List Bool ZArith Factorial.
From Coquelicot Require Import Coquelicot.
From Verif Require Import Values SFun M_sfun SpecDisc.
Import ListNotations.
Local Open Scope R_scope.
Local Open Scope val_scope.

(** Python's int(x) of an mpmath number: truncation towards zero; ValueError for nan and
    infinities. *)
Definition vint (a : val) : val :=
  match a with
  | Fin x => if Rltb x 0 then Fin (IZR (- Int_part (- x))) else Fin (IZR (Int_part x))
  | Exc e => Exc e
  | _ => Exc ValueError
  end.
(** mpmath.isint. *)
Definition visint (a : val) : cond :=
  match a with Fin x => CB (is_intb x) | Exc e => CE e | _ => CB false end.

(** _common.py:36-42 [_validate_int]. *)
Definition validate_int {A} `{CanRaise A} (k : val) (cont : A) : A :=
  RIF k <>? vint k THEN raise ValueError ELSE cont.

(** _common.py:114-126 [_validate_counts]; [None] stays [None] unless [expand_none]. *)
Definition validate_counts {A B} `{CanRaise B} (x : list A) (counts : option (list val)) (expand_none : bool)
    (cont : option (list val) -> B) : B :=
  match counts with
  | None => cont (if expand_none then Some (repeat (Fin 1) (length x)) else None)
  | Some c =>
      if negb (Nat.eqb (length c) (length x)) then raise ValueError
      else RIF cany (fun t => cor (t <>? vint t) (t <? 0)) c THEN raise ValueError
      ELSE cont (Some c)
  end.
(** [zip(x, counts)] with the result of [_validate_counts]. *)
Definition zip_counts {A} (x : list A) (counts : option (list val)) : list (A * val) :=
  match counts with Some c => combine x c | None => [] end.

(** [range(a, b)] on Python integers; anything else raises TypeError. *)
Definition vrange (a b : val) : res isupport :=
  match a, b with
  | Exc e, _ => Err e
  | _, Exc e => Err e
  | Fin x, Fin y => if is_intb x then if is_intb y then Ok (Range (Int_part x) (Int_part y)) else Err TypeError else Err TypeError
  | _, _ => Err TypeError
  end.

(** mpmath.factorial(k) = gamma(k + 1). *)
Definition vfactorial (k : val) : val := vgamma (k + 1).

(** mpmath.binomial(n, k) = gammaprod([n+1], [k+1, n-k+1]): zero where only the denominator has
    a pole; for integers n < 0 <= k both have one and the limit is taken.  Not modelled for
    other n <= -1, or for negative non-integer k or n - k. *)
Definition binomR (n k : R) : R := (Gamma (n + 1) / (Gamma (k + 1) * Gamma (n - k + 1)))%R.
Definition vbinomial (a b : val) : val :=
  match a, b with
  | Exc e, _ | _, Exc e => Exc e
  | Fin n, Fin k =>
      if Rltb 0 (n + 1) then
        if polb (k + 1) then Fin 0
        else if polb (n - k + 1) then Fin 0
        else if Rltb 0 (k + 1) then if Rltb 0 (n - k + 1) then Fin (binomR n k) else Exc NonReal else Exc NonReal
      else if is_intb n then
        if is_intb k then
          if Rltb 0 (k + 1) then Fin (powerRZ (-1) (Int_part k) * binomR (k - n - 1) k)%R else Exc NonReal
        else Exc NonReal
      else Exc NonReal
  | NaN, _ | _, NaN => NaN
  | _, _ => Exc NonReal
  end.

(** mpmath.hyp3f2(a1, a2, a3, b1, b2, 1): the sum of the generalised hypergeometric series.
    It terminates when one of the upper parameters is 0, -1, -2, ...; otherwise it converges
    when b1 + b2 > a1 + a2 + a3 (not modelled when it does not). *)
Definition hyp_term (a1 a2 a3 b1 b2 : R) (j : nat) : R :=
  (rising a1 j * rising a2 j * rising a3 j / (rising b1 j * rising b2 j * INR (fact j)))%R.
Definition degree (a1 a2 a3 : R) : option nat :=
  let d x := if polb x then Some (Z.to_nat (Int_part (- x)%R)) else None in
  let m p q := match p, q with Some i, Some j => Some (Nat.min i j) | Some i, None => Some i | None, q => q end in
  m (d a1) (m (d a2) (d a3)).
Definition vhyp3f2_1 (a1 a2 a3 b1 b2 : val) : val :=
  bindv a1 (fun a1 => bindv a2 (fun a2 => bindv a3 (fun a3 => bindv b1 (fun b1 => bindv b2 (fun b2 =>
  match a1, a2, a3, b1, b2 with
  | Fin a1, Fin a2, Fin a3, Fin b1, Fin b2 =>
      match degree a1 a2 a3 with
      | Some m =>
          if Reqb (rising b1 m) 0 then Exc ZeroDivisionError
          else if Reqb (rising b2 m) 0 then Exc ZeroDivisionError
          else Fin (sum_n (hyp_term a1 a2 a3 b1 b2) m)
      | None =>
          if polb b1 then Exc ZeroDivisionError
          else if polb b2 then Exc ZeroDivisionError
          else if Rltb (a1 + a2 + a3) (b1 + b2) then Fin (Series (hyp_term a1 a2 a3 b1 b2)) else Exc NonReal
      end
  | _, _, _, _, _ => Exc NonReal
  end))))).
