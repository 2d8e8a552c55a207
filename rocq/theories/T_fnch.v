(** Properties of mpsci.distributions.fnch (generated by tools/mkthm.py). *)
From Coq Require Import Reals Lra List.
From Coquelicot Require Import Coquelicot.
From Verif Require Import Values Spec SpecStat SpecEst VTac TTac DistLib.
From Verif Require Import SpecDisc SpecInt SpecMulti.
From Verif Require Import M_fnch.
From Verif Require P_fnch.
Import ListNotations.
Local Open Scope R_scope.

(** C40: the mode is the largest maximiser. *)
Theorem C40_fnch : forall (N K n : nat) (t : R), (K <= N)%nat -> (n <= N)%nat -> 0 < t -> largest_mode (fun k => pmf k (Fin t) (Fin (INR N)) (Fin (INR K)) (Fin (INR n))) (Range (Z.max 0 (Z.of_nat n - Z.of_nat (N - K))) (Z.min (Z.of_nat n) (Z.of_nat K) + 1)) (mode (Fin t) (Fin (INR N)) (Fin (INR K)) (Fin (INR n))).
Proof. first [exact P_fnch.mode_ok | intros; apply P_fnch.mode_ok; assumption]. Qed.
Print Assumptions C40_fnch.
Example C40_fnch_instance := C40_fnch (20%nat) (7%nat) (12%nat) (2) ltac:(inst) ltac:(inst) ltac:(inst) .

(** C41: the support and the probabilities: non-negative, sum 1, zero at every other integer. *)
Theorem C41_fnch : forall (N K n : nat) (t : R), (K <= N)%nat -> (n <= N)%nat -> 0 < t -> support (Fin t) (Fin (INR N)) (Fin (INR K)) (Fin (INR n)) = Ok (Range (Z.max 0 (Z.of_nat n - Z.of_nat (N - K))) (Z.min (Z.of_nat n) (Z.of_nat K) + 1)) /\
  mass_function (fun k => pmf k (Fin t) (Fin (INR N)) (Fin (INR K)) (Fin (INR n))) (Range (Z.max 0 (Z.of_nat n - Z.of_nat (N - K))) (Z.min (Z.of_nat n) (Z.of_nat K) + 1)) /\
  zero_outside (fun k => pmf k (Fin t) (Fin (INR N)) (Fin (INR K)) (Fin (INR n))) (Range (Z.max 0 (Z.of_nat n - Z.of_nat (N - K))) (Z.min (Z.of_nat n) (Z.of_nat K) + 1)).
Proof. first [exact P_fnch.mass_ok | intros; apply P_fnch.mass_ok; assumption]. Qed.
Print Assumptions C41_fnch.
Example C41_fnch_instance := C41_fnch (20%nat) (7%nat) (12%nat) (2) ltac:(inst) ltac:(inst) ltac:(inst) .

(** C41: the probabilities are those of the documentation. *)
Theorem C41_fnch_formula : forall (N K n : nat) (t : R), (K <= N)%nat -> (n <= N)%nat -> 0 < t -> forall i,
  (Z.max 0 (Z.of_nat n - Z.of_nat (N - K)) <= Z.of_nat i <= Z.min (Z.of_nat n) (Z.of_nat K))%Z ->
  pmf (Fin (INR i)) (Fin t) (Fin (INR N)) (Fin (INR K)) (Fin (INR n)) = Fin (Binomial.C K i * Binomial.C (N - K) (n - i) * t ^ i /
    zsum (fun k => Binomial.C K (Z.to_nat k) * Binomial.C (N - K) (n - Z.to_nat k) * t ^ Z.to_nat k) (Z.max 0 (Z.of_nat n - Z.of_nat (N - K))) (Z.min (Z.of_nat n) (Z.of_nat K) + 1)).
Proof. first [exact P_fnch.pmf_formula | intros; apply P_fnch.pmf_formula; assumption]. Qed.
Print Assumptions C41_fnch_formula.
Example C41_fnch_formula_instance := C41_fnch_formula (20%nat) (7%nat) (12%nat) (2) ltac:(inst) ltac:(inst) ltac:(inst) 5%nat ltac:(inst).

(** C41: support_pmf returns the support and the values of pmf on it. *)
Theorem C41_fnch_support_pmf : forall (N K n : nat) (t : R), (K <= N)%nat -> (n <= N)%nat -> 0 < t -> support_pmf (Fin t) (Fin (INR N)) (Fin (INR K)) (Fin (INR n)) = Ok (Range (Z.max 0 (Z.of_nat n - Z.of_nat (N - K))) (Z.min (Z.of_nat n) (Z.of_nat K) + 1),
  map (fun k => pmf (Fin (IZR k)) (Fin t) (Fin (INR N)) (Fin (INR K)) (Fin (INR n))) (zrange (Z.max 0 (Z.of_nat n - Z.of_nat (N - K))) (Z.min (Z.of_nat n) (Z.of_nat K) + 1))).
Proof. first [exact P_fnch.spmf_ok | intros; apply P_fnch.spmf_ok; assumption]. Qed.
Print Assumptions C41_fnch_support_pmf.
Example C41_fnch_support_pmf_instance := C41_fnch_support_pmf (20%nat) (7%nat) (12%nat) (2) ltac:(inst) ltac:(inst) ltac:(inst) .

(** C42: cdf and sf at every integer. *)
Theorem C42_fnch : forall (N K n : nat) (t : R), (K <= N)%nat -> (n <= N)%nat -> 0 < t -> forall (k : Z),
  cumulative (fun k => pmf k (Fin t) (Fin (INR N)) (Fin (INR K)) (Fin (INR n))) (fun k => cdf k (Fin t) (Fin (INR N)) (Fin (INR K)) (Fin (INR n))) (fun k => sf k (Fin t) (Fin (INR N)) (Fin (INR K)) (Fin (INR n))) (Range (Z.max 0 (Z.of_nat n - Z.of_nat (N - K))) (Z.min (Z.of_nat n) (Z.of_nat K) + 1)) k.
Proof. first [exact P_fnch.cdf_ok | intros; apply P_fnch.cdf_ok; assumption]. Qed.
Print Assumptions C42_fnch.
Example C42_fnch_instance := C42_fnch (20%nat) (7%nat) (12%nat) (2) ltac:(inst) ltac:(inst) ltac:(inst) 3%Z.

(** C43: mean. *)
Theorem C43_fnch : forall (N K n : nat) (t : R), (K <= N)%nat -> (n <= N)%nat -> 0 < t -> dmean_is (fun k => pmf k (Fin t) (Fin (INR N)) (Fin (INR K)) (Fin (INR n))) (Range (Z.max 0 (Z.of_nat n - Z.of_nat (N - K))) (Z.min (Z.of_nat n) (Z.of_nat K) + 1)) (mean (Fin t) (Fin (INR N)) (Fin (INR K)) (Fin (INR n))).
Proof. first [exact P_fnch.mean_ok | intros; apply P_fnch.mean_ok; assumption]. Qed.
Print Assumptions C43_fnch.
Example C43_fnch_instance := C43_fnch (20%nat) (7%nat) (12%nat) (2) ltac:(inst) ltac:(inst) ltac:(inst) .

(** C38: invalid parameters raise ValueError (the other arguments are numbers). *)
Theorem C38_fnch : forall (nc : val) (N K n : R) (k : val),
  N < 0 \/ K < 0 \/ n < 0 \/ N < K \/ N < n ->
  pmf k nc (Fin N) (Fin K) (Fin n) = Exc ValueError /\ cdf k nc (Fin N) (Fin K) (Fin n) = Exc ValueError /\ sf k nc (Fin N) (Fin K) (Fin n) = Exc ValueError /\
  support nc (Fin N) (Fin K) (Fin n) = Err ValueError /\ support_pmf nc (Fin N) (Fin K) (Fin n) = Err ValueError /\ mean nc (Fin N) (Fin K) (Fin n) = Exc ValueError /\ mode nc (Fin N) (Fin K) (Fin n) = Exc ValueError.
Proof. first [exact P_fnch.bad_params | intros; apply P_fnch.bad_params; assumption]. Qed.
Print Assumptions C38_fnch.
Example C38_fnch_instance := C38_fnch  (Fin 2) (5) (6) (3) (Fin 2) ltac:(inst).

