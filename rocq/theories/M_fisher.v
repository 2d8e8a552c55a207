(** Model of /repo/mpsci/stats/_fisher_exact.py (exact integer arithmetic). *)
From Coq Require Import List ZArith QArith String Bool.
From Verif Require Import Values.
Import ListNotations.
Local Open Scope Z_scope.

(** Python's [range(a, b)]. *)
Definition zrange (a b : Z) : list Z :=
  map (fun i => a + Z.of_nat i) (seq 0 (Z.to_nat (b - a))).
(** Python's [range(a, b, -1)]: a, a-1, ..., b+1. *)
Definition zrange_down (a b : Z) : list Z := rev (zrange (b + 1) (a + 1)).

(** _fisher_exact.py:8-21 [_comb]; the loop state is (ntok, ktok, n). *)
Definition comb (n k : Z) : Z :=
  if (0 <=? k) && (k <=? n) then
    let '(ntok, ktok, _) :=
      fold_left (fun '(ntok, ktok, n) t => (ntok * n, ktok * t, n - 1))
                (zrange 1 (Z.min k (n - k) + 1)) (1, 1, n) in
    ntok / ktok
  else 0.

(** _fisher_exact.py:24-29 [_num_combs]. *)
Definition num_combs (a row0sum col0sum n : Z) : Z :=
  let m01 := row0sum - a in
  let m10 := col0sum - a in
  let m11 := n - (a + m01 + m10) in
  comb (a + m01) a * comb (m10 + m11) m10.

(** [Fraction(p, q)]: normalised, ZeroDivisionError for q = 0. *)
Definition fraction (p q : Z) : res Q :=
  if q =? 0 then Err ZeroDivisionError else Ok (Qred (inject_Z p / inject_Z q)).

(** The first result: a Fraction, math.inf or math.nan. *)
Inductive oddsr := ORfrac (q : Q) | ORinf | ORnan.

(** _fisher_exact.py:107-111 and 113-117: a [for] loop with [break].  Returns the
    count and the value of the loop variable afterwards ([None]: never bound). *)
Fixpoint count_loop (num : Z -> Z) (tcount : Z) (l : list Z) (count : Z) (var : option Z)
  : Z * option Z :=
  match l with
  | [] => (count, var)
  | m :: l' =>
      if num m >? tcount then (count, Some m)
      else count_loop num tcount l' (count + num m) (Some m)
  end.

(** _fisher_exact.py:85-91. *)
Definition odds (a b c d : Z) : res oddsr :=
  if negb (b * c =? 0) then bind (fraction (a * d) (b * c)) (fun q => Ok (ORfrac q))
  else if negb (a * d =? 0) then Ok ORinf else Ok ORnan.

(** _fisher_exact.py:32-135; [table = [[a, b], [c, d]]].  Reading the unbound loop
    variable at line 113 is a NameError (UnboundLocalError). *)
Definition fisher_exact (a b c d : Z) (alternative : string) : res (oddsr * Q) :=
  bind (odds a b c d) (fun oddsratio =>
  let row0sum := a + b in
  let row1sum := c + d in
  let col0sum := a + c in
  let n := row0sum + row1sum in
  let total_possible_tables := comb n col0sum in
  let a_max := Z.min row0sum col0sum in
  let a_min := Z.max 0 (col0sum - row1sum) in
  if String.eqb alternative "two-sided" then
    let tcount := comb row0sum a * comb row1sum c in
    let num m00 := num_combs m00 row0sum col0sum n in
    let '(count, m00) := count_loop num tcount (zrange a_min (a_max + 1)) 0 None in
    match m00 with
    | None => Err NameError
    | Some m00 =>
        let '(count, _) := count_loop num tcount (zrange_down a_max m00) count None in
        bind (fraction count total_possible_tables) (fun p => Ok (oddsratio, p))
    end
  else
    let finish start stop :=
      let count := fold_left (fun count m00 => count + num_combs m00 row0sum col0sum n)
                             (zrange start (stop + 1)) 0 in
      bind (fraction count total_possible_tables) (fun p => Ok (oddsratio, p)) in
    if String.eqb alternative "greater" then finish a a_max
    else if String.eqb alternative "less" then finish a_min a
    else Err ValueError).
