(** Model of unique_counts (/repo/mpsci/stats/_basic.py) and of _median
    (/repo/mpsci/distributions/_common.py) on sequences of finite numbers. *)
From Coq Require Import Reals List Arith Bool.
From Verif Require Import Values.
Import ListNotations.
Local Open Scope R_scope.

(** Python's [sorted]: a stable sort; for a total order every stable sort gives the
    same list, so insertion sort stands for Timsort. *)
Fixpoint insert (x : R) (l : list R) : list R :=
  match l with
  | [] => [x]
  | y :: l' => if Rleb x y then x :: l else y :: insert x l'
  end.
Fixpoint sorted (l : list R) : list R :=
  match l with [] => [] | x :: l' => insert x (sorted l') end.

(** [[(k, len(list(g))) for k, g in groupby(seq)]]: maximal runs of equal elements
    (computed from the right instead of from the left). *)
Fixpoint groupby (l : list R) : list (R * nat) :=
  match l with
  | [] => []
  | x :: l' =>
      match groupby l' with
      | (k, n) :: r => if Reqb x k then (x, S n) :: r else (x, 1%nat) :: (k, n) :: r
      | [] => [(x, 1%nat)]
      end
  end.

(** _basic.py:293-314 [unique_counts].  [zip] of no pairs cannot be unpacked into
    two names: ValueError. *)
Definition unique_counts (x : list R) : res (list R * list nat) :=
  match groupby (sorted x) with
  | [] => Err ValueError
  | g => Ok (map fst g, map snd g)
  end.

(** _common.py:100-111 [_median].  For an even number of values the slice
    [xs[m-1:m+1]] holds two values; for no values at all it is empty. *)
Definition median (x : list R) : val :=
  let xs := sorted x in
  let n := length xs in
  let m := Nat.div2 n in
  if Nat.odd n then Fin (nth m xs 0)
  else vdiv (vfsum (map Fin (firstn 2 (skipn (m - 1) xs)))) (Fin 2).
