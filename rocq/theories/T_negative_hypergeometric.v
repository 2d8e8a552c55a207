(** Properties of mpsci.distributions.negative_hypergeometric (generated by tools/mkthm.py). *)
From Coq Require Import Reals Lra List.
From Coquelicot Require Import Coquelicot.
From Verif Require Import Values Spec SpecStat SpecEst VTac TTac DistLib.
From Verif Require Import SpecDisc SpecInt SpecMulti.
From Verif Require Import M_negative_hypergeometric.
From Verif Require P_negative_hypergeometric.
Import ListNotations.
Local Open Scope R_scope.

(** C40: the mode is the smallest maximiser (with untilnbad = 0 the support is {0}), except where the code divides by zero. *)
Theorem C40_negative_hypergeometric_partial : forall (N K r : nat), (K + r <= N)%nat -> ~ (N = K + 1 /\ 1 <= K /\ r = 1)%nat ->
  smallest_mode (fun k => pmf k (Fin (INR N)) (Fin (INR K)) (Fin (INR r))) (Range 0 (if Nat.eqb r 0 then 1 else Z.of_nat K + 1)) (mode (Fin (INR N)) (Fin (INR K)) (Fin (INR r))).
Proof. first [exact P_negative_hypergeometric.mode_small | intros; apply P_negative_hypergeometric.mode_small; assumption]. Qed.
Print Assumptions C40_negative_hypergeometric_partial.
Example C40_negative_hypergeometric_partial_instance := C40_negative_hypergeometric_partial (20%nat) (7%nat) (4%nat) ltac:(inst) ltac:(inst).

(** C60: mode returns a maximiser for all valid parameters except ntotal = ngood + 1, untilnbad = 1, ngood >= 1. *)
Theorem C60_negative_hypergeometric_partial : forall (N K r : nat), (K + r <= N)%nat -> ~ (N = K + 1 /\ 1 <= K /\ r = 1)%nat ->
  smallest_mode (fun k => pmf k (Fin (INR N)) (Fin (INR K)) (Fin (INR r))) (Range 0 (if Nat.eqb r 0 then 1 else Z.of_nat K + 1)) (mode (Fin (INR N)) (Fin (INR K)) (Fin (INR r))).
Proof. first [exact P_negative_hypergeometric.mode_small | intros; apply P_negative_hypergeometric.mode_small; assumption]. Qed.
Print Assumptions C60_negative_hypergeometric_partial.
Example C60_negative_hypergeometric_partial_instance := C60_negative_hypergeometric_partial (20%nat) (7%nat) (4%nat) ltac:(inst) ltac:(inst).

(** C60: for those parameters mode raises ZeroDivisionError. *)
Theorem C60_negative_hypergeometric_refuted : forall K,
  (1 <= K)%nat -> mode (Fin (INR (K + 1))) (Fin (INR K)) (Fin (INR 1)) = Exc ZeroDivisionError.
Proof. first [exact P_negative_hypergeometric.mode_div | intros; apply P_negative_hypergeometric.mode_div; assumption]. Qed.
Print Assumptions C60_negative_hypergeometric_refuted.
Example C60_negative_hypergeometric_refuted_instance := C60_negative_hypergeometric_refuted  3%nat ltac:(inst).

(** C41: the support and the probabilities: non-negative, sum 1, zero at every other integer. *)
Theorem C41_negative_hypergeometric : forall (N K r : nat), (K + r <= N)%nat -> support (Fin (INR N)) (Fin (INR K)) (Fin (INR r)) = Ok (Range 0 (if Nat.eqb r 0 then 1 else Z.of_nat K + 1)) /\
  mass_function (fun k => pmf k (Fin (INR N)) (Fin (INR K)) (Fin (INR r))) (Range 0 (if Nat.eqb r 0 then 1 else Z.of_nat K + 1)) /\
  zero_outside (fun k => pmf k (Fin (INR N)) (Fin (INR K)) (Fin (INR r))) (Range 0 (if Nat.eqb r 0 then 1 else Z.of_nat K + 1)).
Proof. first [exact P_negative_hypergeometric.mass_ok | intros; apply P_negative_hypergeometric.mass_ok; assumption]. Qed.
Print Assumptions C41_negative_hypergeometric.
Example C41_negative_hypergeometric_instance := C41_negative_hypergeometric (20%nat) (7%nat) (4%nat) ltac:(inst) .

(** C34: logpmf is the logarithm of pmf at every integer when untilnbad >= 1. *)
Theorem C34_negative_hypergeometric_partial : forall (N K r : nat), (K + r <= N)%nat -> (1 <= r)%nat -> log_law (fun k => pmf k (Fin (INR N)) (Fin (INR K)) (Fin (INR r))) (fun k => logpmf k (Fin (INR N)) (Fin (INR K)) (Fin (INR r))) (fun _ => True).
Proof. first [exact P_negative_hypergeometric.log_ok | intros; apply P_negative_hypergeometric.log_ok; assumption]. Qed.
Print Assumptions C34_negative_hypergeometric_partial.
Example C34_negative_hypergeometric_partial_instance := C34_negative_hypergeometric_partial (20%nat) (7%nat) (4%nat) ltac:(inst) ltac:(inst).

(** C34: with untilnbad = 0, logpmf raises ValueError at 0, where pmf is 1. *)
Theorem C34_negative_hypergeometric_refuted : forall N K,
  (K <= N)%nat -> pmf (Fin 0) (Fin (INR N)) (Fin (INR K)) (Fin 0) = Fin 1 /\ logpmf (Fin 0) (Fin (INR N)) (Fin (INR K)) (Fin 0) = Exc ValueError.
Proof. first [exact P_negative_hypergeometric.logpmf_zero | intros; apply P_negative_hypergeometric.logpmf_zero; assumption]. Qed.
Print Assumptions C34_negative_hypergeometric_refuted.
Example C34_negative_hypergeometric_refuted_instance := C34_negative_hypergeometric_refuted  5%nat 3%nat ltac:(inst).

(** C42: cdf and sf at every integer. *)
Theorem C42_negative_hypergeometric : forall (N K r : nat), (K + r <= N)%nat -> forall (k : Z),
  cumulative (fun k => pmf k (Fin (INR N)) (Fin (INR K)) (Fin (INR r))) (fun k => cdf k (Fin (INR N)) (Fin (INR K)) (Fin (INR r))) (fun k => sf k (Fin (INR N)) (Fin (INR K)) (Fin (INR r)))
    (Range 0 (if Nat.eqb r 0 then 1 else Z.of_nat K + 1)) k.
Proof. first [exact P_negative_hypergeometric.cdf_ok | intros; apply P_negative_hypergeometric.cdf_ok; assumption]. Qed.
Print Assumptions C42_negative_hypergeometric.
Example C42_negative_hypergeometric_instance := C42_negative_hypergeometric (20%nat) (7%nat) (4%nat) ltac:(inst) 3%Z.

(** C43: mean and variance. *)
Theorem C43_negative_hypergeometric : forall (N K r : nat), (K + r <= N)%nat -> dmean_is (fun k => pmf k (Fin (INR N)) (Fin (INR K)) (Fin (INR r))) (Range 0 (if Nat.eqb r 0 then 1 else Z.of_nat K + 1)) (mean (Fin (INR N)) (Fin (INR K)) (Fin (INR r))) /\
  dvar_is (fun k => pmf k (Fin (INR N)) (Fin (INR K)) (Fin (INR r))) (Range 0 (if Nat.eqb r 0 then 1 else Z.of_nat K + 1)) (var (Fin (INR N)) (Fin (INR K)) (Fin (INR r))).
Proof. first [exact P_negative_hypergeometric.moments_ok | intros; apply P_negative_hypergeometric.moments_ok; assumption]. Qed.
Print Assumptions C43_negative_hypergeometric.
Example C43_negative_hypergeometric_instance := C43_negative_hypergeometric (20%nat) (7%nat) (4%nat) ltac:(inst) .

(** C38: invalid parameters raise ValueError (the other arguments are numbers). *)
Theorem C38_negative_hypergeometric : forall N K r k,
  N < 0 \/ K < 0 \/ r < 0 \/ N < K \/ N - K < r ->
  pmf k (Fin N) (Fin K) (Fin r) = Exc ValueError /\ logpmf k (Fin N) (Fin K) (Fin r) = Exc ValueError /\ cdf k (Fin N) (Fin K) (Fin r) = Exc ValueError /\ sf k (Fin N) (Fin K) (Fin r) = Exc ValueError /\
  support (Fin N) (Fin K) (Fin r) = Err ValueError /\ support_pmf (Fin N) (Fin K) (Fin r) = Err ValueError /\ mean (Fin N) (Fin K) (Fin r) = Exc ValueError /\ mode (Fin N) (Fin K) (Fin r) = Exc ValueError /\ var (Fin N) (Fin K) (Fin r) = Exc ValueError.
Proof. first [exact P_negative_hypergeometric.bad_params | intros; apply P_negative_hypergeometric.bad_params; assumption]. Qed.
Print Assumptions C38_negative_hypergeometric.
Example C38_negative_hypergeometric_instance := C38_negative_hypergeometric  (5) (6) (3) (Fin 2) ltac:(inst).

