(** Properties of mpsci.distributions.multivariate_hypergeometric (generated by tools/mkthm.py). *)
From Coq Require Import Reals Lra List.
From Coquelicot Require Import Coquelicot.
From Verif Require Import Values Spec SpecStat SpecEst VTac TTac DistLib.
From Verif Require Import SpecDisc SpecInt SpecMulti.
From Verif Require Import M_multivariate_hypergeometric.
From Verif Require P_multivariate_hypergeometric.
Import ListNotations.
Local Open Scope R_scope.

(** C51: for every non-empty list of colours and 0 <= nsample <= sum(colors), support yields exactly the possible outcomes, in increasing lexicographic order (so each once). *)
Theorem C51_multivariate_hypergeometric_partial : forall (cs : list nat) (n : nat),
  cs <> [] -> (n <= list_sum cs)%nat ->
  exists L, support (map Z.of_nat cs) (Z.of_nat n) = Ok L /\ (forall k, In k L <-> outcome cs n k) /\ increasing lex_lt L.
Proof. first [exact P_multivariate_hypergeometric.support_ok | intros; apply P_multivariate_hypergeometric.support_ok; assumption]. Qed.
Print Assumptions C51_multivariate_hypergeometric_partial.
Example C51_multivariate_hypergeometric_partial_instance := C51_multivariate_hypergeometric_partial  [2;0;3;1]%nat 4%nat ltac:(inst) ltac:(inst).

(** C51: a negative nsample is accepted: with one colour the vector with that negative entry is yielded. *)
Theorem C51_multivariate_hypergeometric_refuted : forall (c : nat) (z : Z),
  (z < 0)%Z -> support [Z.of_nat c] z = Ok [[z]].
Proof. first [exact P_multivariate_hypergeometric.support_negative | intros; apply P_multivariate_hypergeometric.support_negative; assumption]. Qed.
Print Assumptions C51_multivariate_hypergeometric_refuted.
Example C51_multivariate_hypergeometric_refuted_instance := C51_multivariate_hypergeometric_refuted  3%nat (-2)%Z ltac:(inst).

(** C51: with no colours the generator raises IndexError instead of yielding the empty vector. *)
Theorem C51_multivariate_hypergeometric_empty_refuted : support [] 0 = Err IndexError.
Proof. first [exact P_multivariate_hypergeometric.support_empty | intros; apply P_multivariate_hypergeometric.support_empty; assumption]. Qed.
Print Assumptions C51_multivariate_hypergeometric_empty_refuted.
Example C51_multivariate_hypergeometric_empty_refuted_instance := C51_multivariate_hypergeometric_empty_refuted  .

(** C52: pmf is positive on the support and sums to 1; logpmf is its logarithm. *)
Theorem C52_multivariate_hypergeometric_pmf : forall (cs : list nat) (n : nat), cs <> [] -> (n <= list_sum cs)%nat -> exists L, support (map Z.of_nat cs) (Z.of_nat n) = Ok L /\
  (forall k, In k L -> exists p, pmf (vZs k) (vZs (map Z.of_nat cs)) (vZ (Z.of_nat n)) = Fin p /\ 0 < p /\ logpmf (vZs k) (vZs (map Z.of_nat cs)) (vZ (Z.of_nat n)) = Fin (ln p)) /\
  expectation (fun k => pmf (vZs k) (vZs (map Z.of_nat cs)) (vZ (Z.of_nat n))) L (fun _ => 1) = 1.
Proof. first [exact P_multivariate_hypergeometric.mass_ok | intros; apply P_multivariate_hypergeometric.mass_ok; assumption]. Qed.
Print Assumptions C52_multivariate_hypergeometric_pmf.
Example C52_multivariate_hypergeometric_pmf_instance := C52_multivariate_hypergeometric_pmf ([2;0;3;1]%nat) (4%nat) ltac:(inst) ltac:(inst) .

(** C52: mean is the vector of expectations and sums to nsample. *)
Theorem C52_multivariate_hypergeometric_mean : forall (cs : list nat) (n : nat), cs <> [] -> (n <= list_sum cs)%nat -> exists L m, support (map Z.of_nat cs) (Z.of_nat n) = Ok L /\ mean (vZs (map Z.of_nat cs)) (vZ (Z.of_nat n)) = Ok (vvec m) /\ length m = length cs /\
  (forall i, (i < length cs)%nat -> nth i m 0 = expectation (fun k => pmf (vZs k) (vZs (map Z.of_nat cs)) (vZ (Z.of_nat n))) L (coord i)) /\
  sum m = INR n.
Proof. first [exact P_multivariate_hypergeometric.mean_ok | intros; apply P_multivariate_hypergeometric.mean_ok; assumption]. Qed.
Print Assumptions C52_multivariate_hypergeometric_mean.
Example C52_multivariate_hypergeometric_mean_instance := C52_multivariate_hypergeometric_mean ([2;0;3;1]%nat) (4%nat) ltac:(inst) ltac:(inst) .

(** C52: cov is the matrix of covariances, is symmetric, and each row sums to 0 (sum(colors) >= 2, or everything drawn). *)
Theorem C52_multivariate_hypergeometric_cov : forall (cs : list nat) (n : nat), cs <> [] -> (n <= list_sum cs)%nat -> n = list_sum cs \/ (2 <= list_sum cs)%nat ->
  exists L c, support (map Z.of_nat cs) (Z.of_nat n) = Ok L /\ cov (vZs (map Z.of_nat cs)) (vZ (Z.of_nat n)) = Ok (vmat c) /\ square c (length cs) /\
  (forall i j, (i < length cs)%nat -> (j < length cs)%nat ->
     let E := expectation (fun k => pmf (vZs k) (vZs (map Z.of_nat cs)) (vZ (Z.of_nat n))) L in
     entry c i j = E (fun k => coord i k * coord j k) - E (coord i) * E (coord j) /\ entry c i j = entry c j i) /\
  (forall r, In r c -> sum r = 0).
Proof. first [exact P_multivariate_hypergeometric.cov_ok | intros; apply P_multivariate_hypergeometric.cov_ok; assumption]. Qed.
Print Assumptions C52_multivariate_hypergeometric_cov.
Example C52_multivariate_hypergeometric_cov_instance := C52_multivariate_hypergeometric_cov ([2;0;3;1]%nat) (4%nat) ltac:(inst) ltac:(inst) ltac:(inst).

(** C63: cov returns for sum(colors) >= 2, and whenever nsample = sum(colors). *)
Theorem C63_multivariate_hypergeometric_partial : forall (cs : list nat) (n : nat), cs <> [] -> (n <= list_sum cs)%nat -> n = list_sum cs \/ (2 <= list_sum cs)%nat ->
  exists L c, support (map Z.of_nat cs) (Z.of_nat n) = Ok L /\ cov (vZs (map Z.of_nat cs)) (vZ (Z.of_nat n)) = Ok (vmat c) /\ square c (length cs) /\
  (forall i j, (i < length cs)%nat -> (j < length cs)%nat ->
     let E := expectation (fun k => pmf (vZs k) (vZs (map Z.of_nat cs)) (vZ (Z.of_nat n))) L in
     entry c i j = E (fun k => coord i k * coord j k) - E (coord i) * E (coord j) /\ entry c i j = entry c j i) /\
  (forall r, In r c -> sum r = 0).
Proof. first [exact P_multivariate_hypergeometric.cov_ok | intros; apply P_multivariate_hypergeometric.cov_ok; assumption]. Qed.
Print Assumptions C63_multivariate_hypergeometric_partial.
Example C63_multivariate_hypergeometric_partial_instance := C63_multivariate_hypergeometric_partial ([2;0;3;1]%nat) (4%nat) ltac:(inst) ltac:(inst) ltac:(inst).

(** C63: cov raises ZeroDivisionError for nsample = 0 and any colours with sum 1. *)
Theorem C63_multivariate_hypergeometric_refuted : forall (cs : list nat),
  list_sum cs = 1%nat -> cov (vZs (map Z.of_nat cs)) (Fin 0) = Err ZeroDivisionError.
Proof. first [exact P_multivariate_hypergeometric.cov_div | intros; apply P_multivariate_hypergeometric.cov_div; assumption]. Qed.
Print Assumptions C63_multivariate_hypergeometric_refuted.
Example C63_multivariate_hypergeometric_refuted_instance := C63_multivariate_hypergeometric_refuted  [0;1;0]%nat ltac:(inst).

(** C43: entropy. *)
Theorem C43_multivariate_hypergeometric_entropy : forall (cs : list nat) (n : nat), cs <> [] -> (n <= list_sum cs)%nat -> exists L, support (map Z.of_nat cs) (Z.of_nat n) = Ok L /\
  entropy (map Z.of_nat cs) (Z.of_nat n) = Fin (- sum (map (fun k => let p := toR (pmf (vZs k) (vZs (map Z.of_nat cs)) (vZ (Z.of_nat n))) in p * ln p) L)).
Proof. first [exact P_multivariate_hypergeometric.entropy_ok | intros; apply P_multivariate_hypergeometric.entropy_ok; assumption]. Qed.
Print Assumptions C43_multivariate_hypergeometric_entropy.
Example C43_multivariate_hypergeometric_entropy_instance := C43_multivariate_hypergeometric_entropy ([2;0;3;1]%nat) (4%nat) ltac:(inst) ltac:(inst) .

(** C41: pmf does not check the total of the point: at (1, 1), which is no outcome of drawing one item from (2, 2), it is 1. *)
Theorem C41_multivariate_hypergeometric_refuted : ~ outcome [2; 2]%nat 1 [1; 1]%Z /\ pmf [Fin 1; Fin 1] [Fin 2; Fin 2] (Fin 1) = Fin 1.
Proof. first [exact P_multivariate_hypergeometric.pmf_outside | intros; apply P_multivariate_hypergeometric.pmf_outside; assumption]. Qed.
Print Assumptions C41_multivariate_hypergeometric_refuted.
Example C41_multivariate_hypergeometric_refuted_instance := C41_multivariate_hypergeometric_refuted  .

(** C38: a negative colour count, or nsample > sum(colors), raises ValueError. *)
Theorem C38_multivariate_hypergeometric_partial : forall (cs : list R) (n : R),
  (exists c, In c cs /\ c < 0) \/ sum cs < n ->
  (forall x, pmf x (vvec cs) (Fin n) = Exc ValueError /\ logpmf x (vvec cs) (Fin n) = Exc ValueError) /\ mean (vvec cs) (Fin n) = Err ValueError /\ cov (vvec cs) (Fin n) = Err ValueError.
Proof. first [exact P_multivariate_hypergeometric.bad_params | intros; apply P_multivariate_hypergeometric.bad_params; assumption]. Qed.
Print Assumptions C38_multivariate_hypergeometric_partial.
Example C38_multivariate_hypergeometric_partial_instance := C38_multivariate_hypergeometric_partial  [2;-1] 1 ltac:(inst).

