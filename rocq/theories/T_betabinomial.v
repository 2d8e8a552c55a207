(** Properties of mpsci.distributions.betabinomial (generated by tools/mkthm.py). *)
From Coq Require Import Reals Lra List.
From Coquelicot Require Import Coquelicot.
From Verif Require Import Values Spec SpecStat SpecEst VTac TTac DistLib.
From Verif Require Import SpecDisc SpecInt SpecMulti.
From Verif Require Import SpecInv.
From Verif Require Import M_betabinomial.
From Verif Require P_betabinomial.
Import ListNotations.
Local Open Scope R_scope.

(** C40: the mode is the smallest maximiser. *)
Theorem C40_betabinomial : forall (n : nat) (a b : R), 0 < a -> 0 < b -> smallest_mode (fun k => pmf k (Fin (INR n)) (Fin a) (Fin b)) (Range 0 (Z.of_nat n + 1)) (mode (Fin (INR n)) (Fin a) (Fin b)).
Proof. first [exact P_betabinomial.mode_small | intros; apply P_betabinomial.mode_small; assumption]. Qed.
Print Assumptions C40_betabinomial.
Example C40_betabinomial_instance := C40_betabinomial (5%nat) ((1/2)) (2) ltac:(inst) ltac:(inst) .

(** C41: the support, and the probabilities: non-negative, sum 1, zero at every other integer. *)
Theorem C41_betabinomial : forall (n : nat) (a b : R), 0 < a -> 0 < b -> support (Fin (INR n)) (Fin a) (Fin b) = Ok (Range 0 (Z.of_nat n + 1)) /\ mass_function (fun k => pmf k (Fin (INR n)) (Fin a) (Fin b)) (Range 0 (Z.of_nat n + 1)) /\
  zero_outside (fun k => pmf k (Fin (INR n)) (Fin a) (Fin b)) (Range 0 (Z.of_nat n + 1)).
Proof. first [exact P_betabinomial.mass_ok | intros; apply P_betabinomial.mass_ok; assumption]. Qed.
Print Assumptions C41_betabinomial.
Example C41_betabinomial_instance := C41_betabinomial (5%nat) ((1/2)) (2) ltac:(inst) ltac:(inst) .

(** C42: cdf and sf are partial sums, for every integer k (hyp3f2 at 1 is its terminating series). *)
Theorem C42_betabinomial : forall (n : nat) (a b : R), 0 < a -> 0 < b -> forall (k : Z),
  cumulative (fun k => pmf k (Fin (INR n)) (Fin a) (Fin b)) (fun k => cdf k (Fin (INR n)) (Fin a) (Fin b)) (fun k => sf k (Fin (INR n)) (Fin a) (Fin b)) (Range 0 (Z.of_nat n + 1)) k.
Proof. first [exact P_betabinomial.cdf_ok | intros; apply P_betabinomial.cdf_ok; assumption]. Qed.
Print Assumptions C42_betabinomial.
Example C42_betabinomial_instance := C42_betabinomial (5%nat) ((1/2)) (2) ltac:(inst) ltac:(inst) 3%Z.

(** C34: logpmf is the logarithm of pmf at every integer. *)
Theorem C34_betabinomial : forall (n : nat) (a b : R), 0 < a -> 0 < b -> log_law (fun k => pmf k (Fin (INR n)) (Fin a) (Fin b)) (fun k => logpmf k (Fin (INR n)) (Fin a) (Fin b)) (fun _ => True).
Proof. first [exact P_betabinomial.log_ok | intros; apply P_betabinomial.log_ok; assumption]. Qed.
Print Assumptions C34_betabinomial.
Example C34_betabinomial_instance := C34_betabinomial (5%nat) ((1/2)) (2) ltac:(inst) ltac:(inst) .

(** C38: invalid parameters raise ValueError (the other arguments are numbers). *)
Theorem C38_betabinomial_partial : forall (m a b : R) (xs : list val),
  m < 0 \/ (forall z, m <> IZR z) \/ a <= 0 \/ b <= 0 ->
  always_ValueError [fun k => pmf k (Fin m) (Fin a) (Fin b); fun k => logpmf k (Fin m) (Fin a) (Fin b); fun k => cdf k (Fin m) (Fin a) (Fin b); fun k => sf k (Fin m) (Fin a) (Fin b);
    fun _ => mean (Fin m) (Fin a) (Fin b); fun _ => mode (Fin m) (Fin a) (Fin b); fun _ => var (Fin m) (Fin a) (Fin b); fun _ => skewness (Fin m) (Fin a) (Fin b); fun _ => kurtosis (Fin m) (Fin a) (Fin b);
    fun _ => nll xs (Fin m) (Fin a) (Fin b) None] /\ support (Fin m) (Fin a) (Fin b) = Err ValueError.
Proof. first [exact P_betabinomial.bad_params | intros; apply P_betabinomial.bad_params; assumption]. Qed.
Print Assumptions C38_betabinomial_partial.
Example C38_betabinomial_partial_instance := C38_betabinomial_partial  (-1) 1 2 [Fin 0] ltac:(left; lra).

(** C43: mean and variance. *)
Theorem C43_betabinomial : forall (n : nat) (a b : R), 0 < a -> 0 < b -> dmean_is (fun k => pmf k (Fin (INR n)) (Fin a) (Fin b)) (Range 0 (Z.of_nat n + 1)) (mean (Fin (INR n)) (Fin a) (Fin b)) /\
  dvar_is (fun k => pmf k (Fin (INR n)) (Fin a) (Fin b)) (Range 0 (Z.of_nat n + 1)) (var (Fin (INR n)) (Fin a) (Fin b)).
Proof. first [exact P_betabinomial.moments_ok | intros; apply P_betabinomial.moments_ok; assumption]. Qed.
Print Assumptions C43_betabinomial.
Example C43_betabinomial_instance := C43_betabinomial (5%nat) ((1/2)) (2) ltac:(inst) ltac:(inst) .

(** C43: skewness and excess kurtosis, for n > 0. *)
Theorem C43_betabinomial_shape : forall (n : nat) (a b : R), 0 < a -> 0 < b -> (0 < n)%nat -> dskewness_is (fun k => pmf k (Fin (INR n)) (Fin a) (Fin b)) (Range 0 (Z.of_nat n + 1)) (skewness (Fin (INR n)) (Fin a) (Fin b)) /\
  dkurtosis_is (fun k => pmf k (Fin (INR n)) (Fin a) (Fin b)) (Range 0 (Z.of_nat n + 1)) (kurtosis (Fin (INR n)) (Fin a) (Fin b)).
Proof. first [exact P_betabinomial.shape_ok | intros; apply P_betabinomial.shape_ok; assumption]. Qed.
Print Assumptions C43_betabinomial_shape.
Example C43_betabinomial_shape_instance := C43_betabinomial_shape (5%nat) ((1/2)) (2) ltac:(inst) ltac:(inst) ltac:(inst).

(** C49: counts repeat the observations, and bad counts raise ValueError. *)
Theorem C49_betabinomial : forall (n : nat) (a b : R) (xs cs : list nat),
  0 < a -> 0 < b -> (forall x, In x xs -> (x <= n)%nat) ->
  nll (vNs xs) (Fin (INR n)) (Fin a) (Fin b) None = vneg (loglik (fun t => logpmf t (Fin (INR n)) (Fin a) (Fin b)) (map INR xs)) /\
  (length cs = length xs -> nll (vNs xs) (Fin (INR n)) (Fin a) (Fin b) (Some (vNs cs)) = nll (vNs (expand xs cs)) (Fin (INR n)) (Fin a) (Fin b) None) /\
  (forall bad, bad_counts xs bad -> nll (vNs xs) (Fin (INR n)) (Fin a) (Fin b) (Some (map Fin bad)) = Exc ValueError).
Proof. first [exact P_betabinomial.nll_laws | intros; apply P_betabinomial.nll_laws; assumption]. Qed.
Print Assumptions C49_betabinomial.
Example C49_betabinomial_instance := C49_betabinomial  5%nat (1/3) 2 [1;0;3]%nat [2;0;5]%nat ltac:(inst) ltac:(inst) ltac:(inst).

(** C47: mle with both shape parameters free returns a stationary point of nll in each of them.  Missing: that the stationary point is the minimum. *)
Theorem C47_betabinomial_partial : forall (n : nat) (xs : list nat) (cs : option (list nat)) fr1 fr2 a0 b0 a b,
  (0 < n)%nat -> (forall x, In x xs -> (x <= n)%nat) -> good_counts xs cs ->
  checked_solver2 fr2 -> 0 < a -> 0 < b -> mle fr1 fr2 (vNs xs) (vcounts cs) (Fin (INR n)) (inr a0) (inr b0) = Ok (Fin a, Fin b) ->
  is_derive (fun u => toR (nll (vNs xs) (Fin (INR n)) (Fin u) (Fin b) (vcounts cs))) a 0 /\ is_derive (fun u => toR (nll (vNs xs) (Fin (INR n)) (Fin a) (Fin u) (vcounts cs))) b 0.
Proof. first [exact P_betabinomial.stat_both | intros; apply P_betabinomial.stat_both; assumption]. Qed.
Print Assumptions C47_betabinomial_partial.
Example C47_betabinomial_partial_instance : exists fr, checked_solver2 fr /\ mle (fun _ _ => NaN) fr (vNs [0; 1]%nat) None (Fin (INR 1)) (inr (Fin 1)) (inr (Fin 1)) = Ok (Fin 1, Fin 1). Proof. exact P_betabinomial.case_both. Qed.

(** C47: mle with b given returns that b and a stationary point of nll in a.  Missing: that it is the minimum. *)
Theorem C47_betabinomial_a_partial : forall (n : nat) (xs : list nat) (cs : option (list nat)) fr1 fr2 a0 a b b',
  (0 < n)%nat -> (forall x, In x xs -> (x <= n)%nat) -> good_counts xs cs ->
  checked_solver1 fr1 -> 0 < a -> 0 < b -> mle fr1 fr2 (vNs xs) (vcounts cs) (Fin (INR n)) (inr a0) (inl (Fin b)) = Ok (Fin a, b') ->
  b' = Fin b /\ is_derive (fun u => toR (nll (vNs xs) (Fin (INR n)) (Fin u) (Fin b) (vcounts cs))) a 0.
Proof. first [exact P_betabinomial.stat_a | intros; apply P_betabinomial.stat_a; assumption]. Qed.
Print Assumptions C47_betabinomial_a_partial.
Example C47_betabinomial_a_partial_instance : exists fr, checked_solver1 fr /\ mle fr (fun _ _ => Err ValueError) (vNs [0; 1]%nat) None (Fin (INR 1)) (inr (Fin 1)) (inl (Fin 1)) = Ok (Fin 1, Fin 1). Proof. exact P_betabinomial.case_a. Qed.

(** C47: mle with a given returns that a and a stationary point of nll in b.  Missing: that it is the minimum. *)
Theorem C47_betabinomial_b_partial : forall (n : nat) (xs : list nat) (cs : option (list nat)) fr1 fr2 b0 a b a',
  (0 < n)%nat -> (forall x, In x xs -> (x <= n)%nat) -> good_counts xs cs ->
  checked_solver1 fr1 -> 0 < a -> 0 < b -> mle fr1 fr2 (vNs xs) (vcounts cs) (Fin (INR n)) (inl (Fin a)) (inr b0) = Ok (a', Fin b) ->
  a' = Fin a /\ is_derive (fun u => toR (nll (vNs xs) (Fin (INR n)) (Fin a) (Fin u) (vcounts cs))) b 0.
Proof. first [exact P_betabinomial.stat_b | intros; apply P_betabinomial.stat_b; assumption]. Qed.
Print Assumptions C47_betabinomial_b_partial.
Example C47_betabinomial_b_partial_instance : exists fr, checked_solver1 fr /\ mle fr (fun _ _ => Err ValueError) (vNs [0; 1]%nat) None (Fin (INR 1)) (inl (Fin 1)) (inr (Fin 1)) = Ok (Fin 1, Fin 1). Proof. exact P_betabinomial.case_b. Qed.

(** C47: mle with both shape parameters given returns them. *)
Theorem C47_betabinomial_given : forall (n : nat) (xs : list nat) (cs : option (list nat)) (NP : (0 < n)%nat) (X : forall x, In x xs -> (x <= n)%nat) (G : good_counts xs cs) fr1 fr2 (a b : R),
  0 < a -> 0 < b ->
  mle fr1 fr2 (vNs xs) (vcounts cs) (Fin (INR n)) (inl (Fin a)) (inl (Fin b)) = Ok (Fin a, Fin b).
Proof. first [exact P_betabinomial.mle_given | intros; apply P_betabinomial.mle_given; assumption]. Qed.
Print Assumptions C47_betabinomial_given.
Example C47_betabinomial_given_instance := C47_betabinomial_given  1%nat [0;1]%nat None (le_n 1) (P_betabinomial.dat 1 (le_n 1)) eq_refl (fun _ _ => NaN) (fun _ _ => Err ValueError) 1 2 ltac:(inst) ltac:(inst).

