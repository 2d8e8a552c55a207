(** Properties of mpsci.distributions.trunc_discrete_exp (generated by tools/mkthm.py). *)
From Coq Require Import Reals Lra List.
From Coquelicot Require Import Coquelicot.
From Verif Require Import Values Spec SpecStat SpecEst VTac TTac DistLib.
From Verif Require Import SpecDisc SpecInt SpecMulti.
From Verif Require Import M_trunc_discrete_exp.
From Verif Require P_trunc_discrete_exp.
Import ListNotations.
Local Open Scope R_scope.

(** C40: the mode is the smallest maximiser. *)
Theorem C40_trunc_discrete_exp : forall (lam : R) (n : nat), 0 <= lam -> (0 < n)%nat -> smallest_mode (fun k => pmf k (Fin lam) (Fin (INR n))) (Range 0 (Z.of_nat n)) (mode (Fin lam) (Fin (INR n))).
Proof. first [exact P_trunc_discrete_exp.mode_ok | intros; apply P_trunc_discrete_exp.mode_ok; assumption]. Qed.
Print Assumptions C40_trunc_discrete_exp.
Example C40_trunc_discrete_exp_instance := C40_trunc_discrete_exp ((1/2)) (5%nat) ltac:(inst) ltac:(inst) .

(** C41: the support, and the probabilities: non-negative, sum 1, zero at every other integer. *)
Theorem C41_trunc_discrete_exp : forall (lam : R) (n : nat), 0 <= lam -> (0 < n)%nat -> support (Fin lam) (Fin (INR n)) = Ok (Range 0 (Z.of_nat n)) /\ mass_function (fun k => pmf k (Fin lam) (Fin (INR n))) (Range 0 (Z.of_nat n)) /\
  zero_outside (fun k => pmf k (Fin lam) (Fin (INR n))) (Range 0 (Z.of_nat n)).
Proof. first [exact P_trunc_discrete_exp.mass_ok | intros; apply P_trunc_discrete_exp.mass_ok; assumption]. Qed.
Print Assumptions C41_trunc_discrete_exp.
Example C41_trunc_discrete_exp_instance := C41_trunc_discrete_exp ((1/2)) (5%nat) ltac:(inst) ltac:(inst) .

(** C41: n = 0 passes validation: the support is empty, no integer has positive probability, and the mean of the uniform case is -1/2; mode accepts any parameters. *)
Theorem C41_trunc_discrete_exp_refuted : support (Fin 1) (Fin 0) = Ok (Range 0 0) /\ (forall k : Z, pmf (Fin (IZR k)) (Fin 1) (Fin 0) = Fin 0) /\ mean (Fin 0) (Fin 0) = Fin (- / 2) /\ mode (Fin (-1)) (Fin (-1)) = Fin 0.
Proof. first [exact P_trunc_discrete_exp.zero_n | intros; apply P_trunc_discrete_exp.zero_n; assumption]. Qed.
Print Assumptions C41_trunc_discrete_exp_refuted.
Example C41_trunc_discrete_exp_refuted_instance := C41_trunc_discrete_exp_refuted  .

(** C42: cdf and sf are partial sums, for every integer k. *)
Theorem C42_trunc_discrete_exp : forall (lam : R) (n : nat), 0 <= lam -> (0 < n)%nat -> forall (k : Z),
  cumulative (fun k => pmf k (Fin lam) (Fin (INR n))) (fun k => cdf k (Fin lam) (Fin (INR n))) (fun k => sf k (Fin lam) (Fin (INR n))) (Range 0 (Z.of_nat n)) k.
Proof. first [exact P_trunc_discrete_exp.cdf_ok | intros; apply P_trunc_discrete_exp.cdf_ok; assumption]. Qed.
Print Assumptions C42_trunc_discrete_exp.
Example C42_trunc_discrete_exp_instance := C42_trunc_discrete_exp ((1/2)) (5%nat) ltac:(inst) ltac:(inst) 3%Z.

(** C34: logpmf is the logarithm of pmf at every integer. *)
Theorem C34_trunc_discrete_exp : forall (lam : R) (n : nat), 0 <= lam -> (0 < n)%nat -> log_law (fun k => pmf k (Fin lam) (Fin (INR n))) (fun k => logpmf k (Fin lam) (Fin (INR n))) (fun _ => True).
Proof. first [exact P_trunc_discrete_exp.log_ok | intros; apply P_trunc_discrete_exp.log_ok; assumption]. Qed.
Print Assumptions C34_trunc_discrete_exp.
Example C34_trunc_discrete_exp_instance := C34_trunc_discrete_exp ((1/2)) (5%nat) ltac:(inst) ltac:(inst) .

(** C38: invalid parameters raise ValueError (the other arguments are numbers). *)
Theorem C38_trunc_discrete_exp_partial : forall (lam m : R) (k : Z),
  lam < 0 \/ m < 0 \/ (forall z, m <> IZR z) ->
  pmf (Fin (IZR k)) (Fin lam) (Fin m) = Exc ValueError /\ logpmf (Fin (IZR k)) (Fin lam) (Fin m) = Exc ValueError /\ cdf (Fin (IZR k)) (Fin lam) (Fin m) = Exc ValueError /\ sf (Fin (IZR k)) (Fin lam) (Fin m) = Exc ValueError /\
  support (Fin lam) (Fin m) = Err ValueError /\ mean (Fin lam) (Fin m) = Exc ValueError /\ var (Fin lam) (Fin m) = Exc ValueError /\ entropy (Fin lam) (Fin m) = Exc ValueError.
Proof. first [exact P_trunc_discrete_exp.bad_params | intros; apply P_trunc_discrete_exp.bad_params; assumption]. Qed.
Print Assumptions C38_trunc_discrete_exp_partial.
Example C38_trunc_discrete_exp_partial_instance := C38_trunc_discrete_exp_partial  (-1) 3 2%Z ltac:(left; lra).

(** C38: a k that is not an integer is rejected. *)
Theorem C38_trunc_discrete_exp_k : forall (x : R) (lam n : val),
  (forall z, x <> IZR z) ->
  pmf (Fin x) lam n = Exc ValueError /\ logpmf (Fin x) lam n = Exc ValueError /\ cdf (Fin x) lam n = Exc ValueError /\ sf (Fin x) lam n = Exc ValueError.
Proof. first [exact P_trunc_discrete_exp.bad_k | intros; apply P_trunc_discrete_exp.bad_k; assumption]. Qed.
Print Assumptions C38_trunc_discrete_exp_k.
Example C38_trunc_discrete_exp_k_instance := C38_trunc_discrete_exp_k  (1/2) (Fin 1) (Fin 5) P_trunc_discrete_exp.half_not_int.

(** C43: the mean. *)
Theorem C43_trunc_discrete_exp : forall (lam : R) (n : nat), 0 <= lam -> (0 < n)%nat -> dmean_is (fun k => pmf k (Fin lam) (Fin (INR n))) (Range 0 (Z.of_nat n)) (mean (Fin lam) (Fin (INR n))).
Proof. first [exact P_trunc_discrete_exp.mean_ok | intros; apply P_trunc_discrete_exp.mean_ok; assumption]. Qed.
Print Assumptions C43_trunc_discrete_exp.
Example C43_trunc_discrete_exp_instance := C43_trunc_discrete_exp ((1/2)) (5%nat) ltac:(inst) ltac:(inst) .

(** C43: the variance. *)
Theorem C43_trunc_discrete_exp_var : forall (lam : R) (n : nat), 0 <= lam -> (0 < n)%nat -> dvar_is (fun k => pmf k (Fin lam) (Fin (INR n))) (Range 0 (Z.of_nat n)) (var (Fin lam) (Fin (INR n))).
Proof. first [exact P_trunc_discrete_exp.var_ok | intros; apply P_trunc_discrete_exp.var_ok; assumption]. Qed.
Print Assumptions C43_trunc_discrete_exp_var.
Example C43_trunc_discrete_exp_var_instance := C43_trunc_discrete_exp_var ((1/2)) (5%nat) ltac:(inst) ltac:(inst) .

(** C43: the entropy. *)
Theorem C43_trunc_discrete_exp_entropy : forall (lam : R) (n : nat), 0 <= lam -> (0 < n)%nat -> dentropy_is (fun k => pmf k (Fin lam) (Fin (INR n))) (Range 0 (Z.of_nat n)) (entropy (Fin lam) (Fin (INR n))).
Proof. first [exact P_trunc_discrete_exp.entropy_ok | intros; apply P_trunc_discrete_exp.entropy_ok; assumption]. Qed.
Print Assumptions C43_trunc_discrete_exp_entropy.
Example C43_trunc_discrete_exp_entropy_instance := C43_trunc_discrete_exp_entropy ((1/2)) (5%nat) ltac:(inst) ltac:(inst) .

