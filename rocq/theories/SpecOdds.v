(** Vocabulary for odds_ratio.  Independent of the model. *)
From Coq Require Import Reals List ZArith String.
From Verif Require Import Values.
Import ListNotations.
Local Open Scope R_scope.

Definition zt (a b c d : nat) : list (list Z) := [[Z.of_nat a; Z.of_nat b]; [Z.of_nat c; Z.of_nat d]].
(** A row or a column is zero. *)
Definition degenerate (a b c d : nat) : Prop := (a + b = 0 \/ c + d = 0 \/ a + c = 0 \/ b + d = 0)%nat.
Definition good_alt (s : string) : Prop := s = "two-sided"%string \/ s = "less"%string \/ s = "greater"%string.
Definition good_kind (s : string) : Prop := s = "conditional"%string \/ s = "sample"%string.
(** The interval returned contains th. *)
Definition covers (ci : res (val * val)) (th : R) : Prop :=
  exists l h, ci = Ok (l, h) /\
    (match l with Fin x => x <= th | _ => False end) /\
    (match h with Fin x => th <= x | PInf => True | _ => False end).

(** The lower (upper) confidence limit at level [al] for the table a b c d, given the upper tail
    [sf] and lower tail [cdf] of the first entry as functions of the count and the odds ratio:
    the odds ratio at which a count of [a] or more (of [a] or less) has probability [al]; zero
    (infinity) if no table with the same margins has a smaller (larger) first entry. *)
Definition lower_limit (sf : val -> val -> val) (a d : nat) (al : R) (l : val) : Prop :=
  ((a = 0 \/ d = 0)%nat -> l = Fin 0) /\
  ((0 < a)%nat -> (0 < d)%nat -> exists t, l = Fin t /\ 0 < t /\ sf (Fin (INR a - 1)) (Fin t) = Fin al).
Definition upper_limit (cdf : val -> val -> val) (a b c : nat) (al : R) (h : val) : Prop :=
  ((b = 0 \/ c = 0)%nat -> h = PInf) /\
  ((0 < b)%nat -> (0 < c)%nat -> exists t, h = Fin t /\ 0 < t /\ cdf (Fin (INR a)) (Fin t) = Fin al).
