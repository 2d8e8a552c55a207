(** Properties of mpsci.distributions.hypergeometric (generated by tools/mkthm.py). *)
From Coq Require Import Reals Lra List.
From Coquelicot Require Import Coquelicot.
From Verif Require Import Values Spec SpecStat SpecEst VTac TTac DistLib.
From Verif Require Import SpecDisc SpecInt SpecMulti.
From Verif Require Import M_hypergeometric.
From Verif Require P_hypergeometric.
Import ListNotations.
Local Open Scope R_scope.

(** C40: the mode is the smallest maximiser. *)
Theorem C40_hypergeometric : forall (N K n : nat), (K <= N)%nat -> (n <= N)%nat -> smallest_mode (fun k => pmf k (Fin (INR N)) (Fin (INR K)) (Fin (INR n))) (Range (Z.max 0 (Z.of_nat n - Z.of_nat (N - K))) (Z.min (Z.of_nat n) (Z.of_nat K) + 1)) (mode (Fin (INR N)) (Fin (INR K)) (Fin (INR n))).
Proof. first [exact P_hypergeometric.mode_small | intros; apply P_hypergeometric.mode_small; assumption]. Qed.
Print Assumptions C40_hypergeometric.
Example C40_hypergeometric_instance := C40_hypergeometric (20%nat) (7%nat) (12%nat) ltac:(inst) ltac:(inst) .

(** C41: the support, the probabilities (non-negative, sum 1, zero at every other integer), and their closed form. *)
Theorem C41_hypergeometric : forall (N K n : nat), (K <= N)%nat -> (n <= N)%nat -> support (Fin (INR N)) (Fin (INR K)) (Fin (INR n)) = Ok (Range (Z.max 0 (Z.of_nat n - Z.of_nat (N - K))) (Z.min (Z.of_nat n) (Z.of_nat K) + 1)) /\
  mass_function (fun k => pmf k (Fin (INR N)) (Fin (INR K)) (Fin (INR n))) (Range (Z.max 0 (Z.of_nat n - Z.of_nat (N - K))) (Z.min (Z.of_nat n) (Z.of_nat K) + 1)) /\
  zero_outside (fun k => pmf k (Fin (INR N)) (Fin (INR K)) (Fin (INR n))) (Range (Z.max 0 (Z.of_nat n - Z.of_nat (N - K))) (Z.min (Z.of_nat n) (Z.of_nat K) + 1)) /\
  (forall i, (i <= n)%nat -> pmf (Fin (INR i)) (Fin (INR N)) (Fin (INR K)) (Fin (INR n)) = Fin (INR (choose K i) * INR (choose (N - K) (n - i)) / INR (choose N n))).
Proof. first [exact P_hypergeometric.mass_ok | intros; apply P_hypergeometric.mass_ok; assumption]. Qed.
Print Assumptions C41_hypergeometric.
Example C41_hypergeometric_instance := C41_hypergeometric (20%nat) (7%nat) (12%nat) ltac:(inst) ltac:(inst) .

(** C34: logpmf is the logarithm of pmf on the support. *)
Theorem C34_hypergeometric_partial : forall (N K n : nat), (K <= N)%nat -> (n <= N)%nat -> log_law (fun k => pmf k (Fin (INR N)) (Fin (INR K)) (Fin (INR n))) (fun k => logpmf k (Fin (INR N)) (Fin (INR K)) (Fin (INR n)))
  (fun k => Z.max 0 (Z.of_nat n - Z.of_nat (N - K)) <= k <= Z.min (Z.of_nat n) (Z.of_nat K))%Z.
Proof. first [exact P_hypergeometric.log_ok | intros; apply P_hypergeometric.log_ok; assumption]. Qed.
Print Assumptions C34_hypergeometric_partial.
Example C34_hypergeometric_partial_instance := C34_hypergeometric_partial (20%nat) (7%nat) (12%nat) ltac:(inst) ltac:(inst) .

(** C42: cdf and sf from one below the support upwards. *)
Theorem C42_hypergeometric_partial : forall (N K n : nat), (K <= N)%nat -> (n <= N)%nat -> forall (k : Z),
  (Z.max 0 (Z.of_nat n - Z.of_nat (N - K)) - 1 <= k)%Z ->
  cumulative (fun k => pmf k (Fin (INR N)) (Fin (INR K)) (Fin (INR n))) (fun k => cdf k (Fin (INR N)) (Fin (INR K)) (Fin (INR n))) (fun k => sf k (Fin (INR N)) (Fin (INR K)) (Fin (INR n)))
    (Range (Z.max 0 (Z.of_nat n - Z.of_nat (N - K))) (Z.min (Z.of_nat n) (Z.of_nat K) + 1)) k.
Proof. first [exact P_hypergeometric.cdf_ok | intros; apply P_hypergeometric.cdf_ok; assumption]. Qed.
Print Assumptions C42_hypergeometric_partial.
Example C42_hypergeometric_partial_instance := C42_hypergeometric_partial (20%nat) (7%nat) (12%nat) ltac:(inst) ltac:(inst) 3%Z ltac:(inst).

(** C42: further below the support both raise ZeroDivisionError (a pole of the hypergeometric series). *)
Theorem C42_hypergeometric_refuted : forall (N K n : nat), (K <= N)%nat -> (n <= N)%nat -> forall (k : Z),
  (k < Z.max 0 (Z.of_nat n - Z.of_nat (N - K)) - 1)%Z ->
  sf (Fin (IZR k)) (Fin (INR N)) (Fin (INR K)) (Fin (INR n)) = Exc ZeroDivisionError /\ cdf (Fin (IZR k)) (Fin (INR N)) (Fin (INR K)) (Fin (INR n)) = Exc ZeroDivisionError.
Proof. first [exact P_hypergeometric.sf_low | intros; apply P_hypergeometric.sf_low; assumption]. Qed.
Print Assumptions C42_hypergeometric_refuted.
Example C42_hypergeometric_refuted_instance := C42_hypergeometric_refuted (20%nat) (7%nat) (12%nat) ltac:(inst) ltac:(inst) (-2)%Z ltac:(inst).

(** C43: mean and variance for populations of at least two. *)
Theorem C43_hypergeometric_partial : forall (N K n : nat), (K <= N)%nat -> (n <= N)%nat -> (1 < N)%nat ->
  dmean_is (fun k => pmf k (Fin (INR N)) (Fin (INR K)) (Fin (INR n))) (Range (Z.max 0 (Z.of_nat n - Z.of_nat (N - K))) (Z.min (Z.of_nat n) (Z.of_nat K) + 1)) (mean (Fin (INR N)) (Fin (INR K)) (Fin (INR n))) /\
  dvar_is (fun k => pmf k (Fin (INR N)) (Fin (INR K)) (Fin (INR n))) (Range (Z.max 0 (Z.of_nat n - Z.of_nat (N - K))) (Z.min (Z.of_nat n) (Z.of_nat K) + 1)) (var (Fin (INR N)) (Fin (INR K)) (Fin (INR n))).
Proof. first [exact P_hypergeometric.moments_ok | intros; apply P_hypergeometric.moments_ok; assumption]. Qed.
Print Assumptions C43_hypergeometric_partial.
Example C43_hypergeometric_partial_instance := C43_hypergeometric_partial (20%nat) (7%nat) (12%nat) ltac:(inst) ltac:(inst) ltac:(inst).

(** C63: var raises ZeroDivisionError for every valid parameter with ntotal <= 1. *)
Theorem C63_hypergeometric_refuted : forall (N K n : nat),
  (K <= N)%nat -> (n <= N)%nat -> (N <= 1)%nat -> var (Fin (INR N)) (Fin (INR K)) (Fin (INR n)) = Exc ZeroDivisionError.
Proof. first [exact P_hypergeometric.var_div | intros; apply P_hypergeometric.var_div; assumption]. Qed.
Print Assumptions C63_hypergeometric_refuted.
Example C63_hypergeometric_refuted_instance := C63_hypergeometric_refuted  1%nat 1%nat 0%nat ltac:(inst) ltac:(inst) ltac:(inst).

(** C38: invalid parameters raise ValueError (the other arguments are numbers). *)
Theorem C38_hypergeometric : forall (N K n : R) (k : val),
  N < 0 \/ K < 0 \/ n < 0 \/ N < K \/ N < n ->
  pmf k (Fin N) (Fin K) (Fin n) = Exc ValueError /\ logpmf k (Fin N) (Fin K) (Fin n) = Exc ValueError /\ cdf k (Fin N) (Fin K) (Fin n) = Exc ValueError /\ sf k (Fin N) (Fin K) (Fin n) = Exc ValueError /\
  support (Fin N) (Fin K) (Fin n) = Err ValueError /\ support_pmf (Fin N) (Fin K) (Fin n) = Err ValueError /\ mean (Fin N) (Fin K) (Fin n) = Exc ValueError /\ mode (Fin N) (Fin K) (Fin n) = Exc ValueError /\ var (Fin N) (Fin K) (Fin n) = Exc ValueError.
Proof. first [exact P_hypergeometric.bad_params | intros; apply P_hypergeometric.bad_params; assumption]. Qed.
Print Assumptions C38_hypergeometric.
Example C38_hypergeometric_instance := C38_hypergeometric  (5) (6) (3) (Fin 2) ltac:(inst).

