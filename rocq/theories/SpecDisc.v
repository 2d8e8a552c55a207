(** Specification vocabulary for the discrete distributions.  Independent of the model. *)
From Coq Require Import Reals List ZArith.
From Coquelicot Require Import Coquelicot.
From Verif Require Import Values Spec SpecStat.
Import ListNotations.
Local Open Scope R_scope.

(** Supports: Python's range(a, b) and itertools.count(a). *)
Inductive isupport := Range (a b : Z) | Count (a : Z).
Definition in_support (s : isupport) (k : Z) : Prop :=
  match s with Range a b => (a <= k < b)%Z | Count a => (a <= k)%Z end.

(** The integers a, a+1, ..., b-1. *)
Definition zrange (a b : Z) : list Z := map (fun i => (a + Z.of_nat i)%Z) (seq 0 (Z.to_nat (b - a))).
Definition zsum (g : Z -> R) (a b : Z) : R := sum (map g (zrange a b)).

(** The sum of [g] over the support is [v]. *)
Definition sums_to (g : Z -> R) (s : isupport) (v : R) : Prop :=
  match s with
  | Range a b => zsum g a b = v
  | Count a => is_series (fun i => g (a + Z.of_nat i)%Z) v
  end.

(** Values of a probability mass function at the integers. *)
Definition at_int (pmf : val -> val) (k : Z) : R := toR (pmf (Fin (IZR k))).

(** [pmf] is a probability mass function on [s]. *)
Definition mass_function (pmf : val -> val) (s : isupport) : Prop :=
  (forall k, in_support s k -> exists p, pmf (Fin (IZR k)) = Fin p /\ 0 <= p) /\
  sums_to (at_int pmf) s 1.
Definition zero_outside (pmf : val -> val) (s : isupport) : Prop :=
  forall k, ~ in_support s k -> pmf (Fin (IZR k)) = Fin 0.

(** [cdf k] is the sum of [pmf] over the points of the support up to [k], and [sf] the rest. *)
Definition sum_upto (g : Z -> R) (s : isupport) (k : Z) : R :=
  match s with Range a b => zsum g a (Z.min (k + 1) b) | Count a => zsum g a (k + 1) end.
Definition cumulative (pmf cdf sf : val -> val) (s : isupport) (k : Z) : Prop :=
  cdf (Fin (IZR k)) = Fin (sum_upto (at_int pmf) s k) /\
  sf (Fin (IZR k)) = Fin (1 - sum_upto (at_int pmf) s k).

(** [m] maximises [pmf] over [s]; ties go to the smallest (largest) maximiser. *)
Definition smallest_mode (pmf : val -> val) (s : isupport) (m : val) : Prop :=
  exists j q, m = Fin (IZR j) /\ in_support s j /\ pmf (Fin (IZR j)) = Fin q /\
    forall k, in_support s k -> exists p, pmf (Fin (IZR k)) = Fin p /\ p <= q /\ ((k < j)%Z -> p < q).
Definition largest_mode (pmf : val -> val) (s : isupport) (m : val) : Prop :=
  exists j q, m = Fin (IZR j) /\ in_support s j /\ pmf (Fin (IZR j)) = Fin q /\
    forall k, in_support s k -> exists p, pmf (Fin (IZR k)) = Fin p /\ p <= q /\ ((j < k)%Z -> p < q).

(** Moments as sums against [pmf]. *)
Definition dmoment (pmf : val -> val) (s : isupport) (c : R) (n : nat) (v : R) : Prop :=
  sums_to (fun k => (IZR k - c) ^ n * at_int pmf k) s v.
Definition dmean_is (pmf : val -> val) (s : isupport) (m : val) : Prop :=
  exists r, m = Fin r /\ dmoment pmf s 0 1 r.
Definition dvar_is (pmf : val -> val) (s : isupport) (v : val) : Prop :=
  exists m q, dmoment pmf s 0 1 m /\ dmoment pmf s m 2 q /\ v = Fin q.
Definition dskewness_is (pmf : val -> val) (s : isupport) (v : val) : Prop :=
  exists m q c, dmoment pmf s 0 1 m /\ 0 < q /\ dmoment pmf s m 2 q /\ dmoment pmf s m 3 c /\
    v = Fin (c / (q * sqrt q)).
Definition dkurtosis_is (pmf : val -> val) (s : isupport) (v : val) : Prop :=
  exists m q c, dmoment pmf s 0 1 m /\ 0 < q /\ dmoment pmf s m 2 q /\ dmoment pmf s m 4 c /\
    v = Fin (c / q ^ 2 - 3).
(** Entropy of a finite distribution. *)
Definition dentropy_is (pmf : val -> val) (s : isupport) (h : val) : Prop :=
  exists r, h = Fin r /\ sums_to (fun k => - (at_int pmf k * ln (at_int pmf k))) s r.

(** Agreement of logpmf with pmf at the integers of [s]. *)
Definition log_law (pmf logpmf : val -> val) (P : Z -> Prop) : Prop :=
  forall k, P k -> log_of pmf logpmf (Fin (IZR k)).

(** Integer data and repetition counts as Python numbers; [None] means each value once. *)
Definition vN (n : nat) : val := Fin (INR n).
Definition vNs (xs : list nat) : list val := map vN xs.
Definition vcounts (cs : option (list nat)) : option (list val) := option_map vNs cs.
Definition counts_for (xs : list nat) (cs : option (list nat)) : list nat :=
  match cs with None => repeat 1%nat (length xs) | Some c => c end.
Definition good_counts (xs : list nat) (cs : option (list nat)) : Prop := length (counts_for xs cs) = length xs.
(** Some invalid count: a negative or non-integer number, or a list of the wrong length. *)
Definition bad_counts {A} (xs : list A) (cs : list R) : Prop :=
  length cs <> length xs \/ exists c, In c cs /\ (c < 0 \/ ~ exists z, c = IZR z).
