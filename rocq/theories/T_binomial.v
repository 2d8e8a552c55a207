(** Properties of mpsci.distributions.binomial (generated by tools/mkthm.py). *)
From Coq Require Import Reals Lra List.
From Coquelicot Require Import Coquelicot.
From Verif Require Import Values Spec SpecStat SpecEst VTac TTac DistLib.
From Verif Require Import SpecDisc SpecInt SpecMulti.
From Verif Require Import M_binomial.
From Verif Require P_binomial.
Import ListNotations.
Local Open Scope R_scope.

(** C40: the mode is the smallest maximiser. *)
Theorem C40_binomial : forall (n : nat) (p : R), 0 <= p <= 1 -> smallest_mode (fun k => pmf k (Fin (INR n)) (Fin p)) (Range 0 (Z.of_nat n + 1)) (mode (Fin (INR n)) (Fin p)).
Proof. first [exact P_binomial.mode_small | intros; apply P_binomial.mode_small; assumption]. Qed.
Print Assumptions C40_binomial.
Example C40_binomial_instance := C40_binomial (5%nat) ((1/3)) ltac:(inst) .

(** C41: the probabilities are non-negative, sum to 1 over the support, and vanish outside when 0 < p < 1. *)
Theorem C41_binomial_partial : forall (n : nat) (p : R), 0 <= p <= 1 -> support (Fin (INR n)) (Fin p) = Ok (Range 0 (Z.of_nat n + 1)) /\
  mass_function (fun k => pmf k (Fin (INR n)) (Fin p)) (Range 0 (Z.of_nat n + 1)) /\
  (0 < p < 1 -> zero_outside (fun k => pmf k (Fin (INR n)) (Fin p)) (Range 0 (Z.of_nat n + 1))).
Proof. first [exact P_binomial.mass_ok | intros; apply P_binomial.mass_ok; assumption]. Qed.
Print Assumptions C41_binomial_partial.
Example C41_binomial_partial_instance := C41_binomial_partial (5%nat) ((1/3)) ltac:(inst) .

(** C41: outside the support pmf raises ZeroDivisionError for p = 0 and p = 1. *)
Theorem C41_binomial_refuted : forall (n k : nat),
  pmf (Fin (- INR (S k))) (Fin (INR n)) (Fin 0) = Exc ZeroDivisionError /\
  pmf (Fin (INR (n + S k))) (Fin (INR n)) (Fin 1) = Exc ZeroDivisionError.
Proof. first [exact P_binomial.pmf_outside_raises | intros; apply P_binomial.pmf_outside_raises; assumption]. Qed.
Print Assumptions C41_binomial_refuted.
Example C41_binomial_refuted_instance := C41_binomial_refuted  5%nat 2%nat.

(** C42: the default method: cdf on the support, sf below n (elsewhere the code calls betainc with a non-positive parameter). *)
Theorem C42_binomial_partial : forall (n : nat) (p : R), 0 <= p <= 1 -> forall (k : Z),
  (0 <= k <= Z.of_nat n)%Z ->
  (cdf_incbeta (Fin (IZR k)) (Fin (INR n)) (Fin p) = Fin (sum_upto (at_int (fun k => pmf k (Fin (INR n)) (Fin p))) (Range 0 (Z.of_nat n + 1)) k)) /\
  ((k < Z.of_nat n)%Z -> sf_incbeta (Fin (IZR k)) (Fin (INR n)) (Fin p) = Fin (1 - sum_upto (at_int (fun k => pmf k (Fin (INR n)) (Fin p))) (Range 0 (Z.of_nat n + 1)) k)).
Proof. first [exact P_binomial.cdf_ok | intros; apply P_binomial.cdf_ok; assumption]. Qed.
Print Assumptions C42_binomial_partial.
Example C42_binomial_partial_instance := C42_binomial_partial (5%nat) ((1/3)) ltac:(inst) 3%Z ltac:(inst).

(** C42: the method "sumpmf". *)
Theorem C42_binomial_sumpmf : forall (n : nat) (p : R), 0 <= p <= 1 -> forall (k : Z),
  0 < p < 1 -> (-1 <= k <= Z.of_nat n)%Z ->
  cumulative (fun k => pmf k (Fin (INR n)) (Fin p)) (fun k => cdf_sumpmf k (Fin (INR n)) (Fin p)) (fun k => sf_sumpmf k (Fin (INR n)) (Fin p)) (Range 0 (Z.of_nat n + 1)) k.
Proof. first [exact P_binomial.sumpmf_ok | intros; apply P_binomial.sumpmf_ok; assumption]. Qed.
Print Assumptions C42_binomial_sumpmf.
Example C42_binomial_sumpmf_instance := C42_binomial_sumpmf (5%nat) ((1/3)) ltac:(inst) 3%Z ltac:(inst) ltac:(inst).

(** C62: logpmf is the logarithm of pmf for 0 < p < 1. *)
Theorem C62_binomial_partial : forall (n : nat) (p : R), 0 <= p <= 1 -> 0 < p < 1 -> log_law (fun k => pmf k (Fin (INR n)) (Fin p)) (fun k => logpmf k (Fin (INR n)) (Fin p)) (fun k => 0 <= k <= Z.of_nat n)%Z.
Proof. first [exact P_binomial.log_ok | intros; apply P_binomial.log_ok; assumption]. Qed.
Print Assumptions C62_binomial_partial.
Example C62_binomial_partial_instance := C62_binomial_partial (5%nat) ((1/3)) ltac:(inst) ltac:(inst).

(** C62: at p = 0 and p = 1 logpmf is nan at the point of probability 1. *)
Theorem C62_binomial_refuted : forall (n : nat),
  pmf (Fin 0) (Fin (INR n)) (Fin 0) = Fin 1 /\ logpmf (Fin 0) (Fin (INR n)) (Fin 0) = NaN /\
  pmf (Fin (INR n)) (Fin (INR n)) (Fin 1) = Fin 1 /\ logpmf (Fin (INR n)) (Fin (INR n)) (Fin 1) = NaN.
Proof. first [exact P_binomial.logpmf_nan | intros; apply P_binomial.logpmf_nan; assumption]. Qed.
Print Assumptions C62_binomial_refuted.
Example C62_binomial_refuted_instance := C62_binomial_refuted  5%nat.

(** C38: invalid parameters raise ValueError (the other arguments are numbers). *)
Theorem C38_binomial_partial : forall (n p : val),
  isnum n -> (exists r, p = Fin r /\ (r < 0 \/ 1 < r)) \/ (exists q r, p = Fin q /\ 0 <= q <= 1 /\ n = Fin r /\ (r < 0 \/ r <> IZR (Int_part r))) ->
  support n p = Err ValueError /\
  always_ValueError [(fun x => pmf x n p); (fun x => logpmf x n p); (fun x => cdf_incbeta x n p); (fun x => sf_incbeta x n p); (fun x => cdf_sumpmf x n p); (fun x => sf_sumpmf x n p)] /\
  mean n p = Exc ValueError /\ mode n p = Exc ValueError /\ var n p = Exc ValueError.
Proof. first [exact P_binomial.bad_params | intros; apply P_binomial.bad_params; assumption]. Qed.
Print Assumptions C38_binomial_partial.
Example C38_binomial_partial_instance := C38_binomial_partial  (Fin 3) (Fin 2) ltac:(inst) ltac:(inst).

(** C43: mean and variance. *)
Theorem C43_binomial : forall (n : nat) (p : R), 0 <= p <= 1 -> dmean_is (fun k => pmf k (Fin (INR n)) (Fin p)) (Range 0 (Z.of_nat n + 1)) (mean (Fin (INR n)) (Fin p)) /\
  dvar_is (fun k => pmf k (Fin (INR n)) (Fin p)) (Range 0 (Z.of_nat n + 1)) (var (Fin (INR n)) (Fin p)).
Proof. first [exact P_binomial.moments_ok | intros; apply P_binomial.moments_ok; assumption]. Qed.
Print Assumptions C43_binomial.
Example C43_binomial_instance := C43_binomial (5%nat) ((1/3)) ltac:(inst) .

(** C47: mle with n given minimises nll over p, with or without counts. *)
Theorem C47_binomial_partial : forall (xs : list nat) (cs : option (list nat)) (n : nat),
  good_counts xs cs -> (forall x, In x xs -> (x <= n)%nat) ->
  0 < sum (map INR (expand xs (counts_for xs cs))) < INR n * INR (length (expand xs (counts_for xs cs))) ->
  exists p, mle_fixed_n (vNs xs) (vcounts cs) (Fin (INR n)) = Ok (Fin (INR n), Fin p) /\
    minimises (fun q => 0 < q < 1) (fun q => nll (vNs xs) (Fin (INR n)) (Fin q) (vcounts cs)) p.
Proof. first [exact P_binomial.mle_n | intros; apply P_binomial.mle_n; assumption]. Qed.
Print Assumptions C47_binomial_partial.
Example C47_binomial_partial_instance := C47_binomial_partial  [1;0;3]%nat (Some [2;0;5]%nat) 4%nat eq_refl ltac:(inst) ltac:(inst).

(** C49: counts repeat the observations, and bad counts raise ValueError. *)
Theorem C49_binomial : forall (n : nat) (p : R) (xs cs : list nat),
  0 < p < 1 -> (forall x, In x xs -> (x <= n)%nat) ->
  nll (vNs xs) (Fin (INR n)) (Fin p) None = vneg (loglik (fun t => logpmf t (Fin (INR n)) (Fin p)) (map INR xs)) /\
  (length cs = length xs -> nll (vNs xs) (Fin (INR n)) (Fin p) (Some (vNs cs)) = nll (vNs (expand xs cs)) (Fin (INR n)) (Fin p) None) /\
  (forall bad, bad_counts xs bad -> nll (vNs xs) (Fin (INR n)) (Fin p) (Some (map Fin bad)) = Exc ValueError).
Proof. first [exact P_binomial.nll_laws | intros; apply P_binomial.nll_laws; assumption]. Qed.
Print Assumptions C49_binomial.
Example C49_binomial_instance := C49_binomial  5%nat (1/3) [1;0;3]%nat [2;0;5]%nat ltac:(inst) ltac:(inst).

(** C68: mle with p given minimises nll over n when there are no counts, or p is below the threshold the code computes.  [findroot] is any solver that returns a root or raises. *)
Theorem C68_binomial_partial : forall (findroot : (val -> val) -> val -> val) (xs : list nat) (cs : option (list nat)) (p : R) (nhat phat : val),
  0 < p < 1 -> good_counts xs cs -> expand xs (counts_for xs cs) <> [] ->
  (forall f x0, (exists e, findroot f x0 = Exc e) \/ (exists r, findroot f x0 = Fin r /\ f (Fin r) = Fin 0)) ->
  (cs = None \/ exists pt, p_threshold (vNs xs) = Fin pt /\ p < pt) ->
  mle_fixed_p findroot (vNs xs) (vcounts cs) (Fin p) = Ok (nhat, phat) ->
  phat = Fin p /\ exists m : nat, nhat = Fin (INR m) /\ minimises (fun k => forall x, In x xs -> (x <= k)%nat) (fun k => nll (vNs xs) (Fin (INR k)) (Fin p) (vcounts cs)) m.
Proof. first [exact P_binomial.mle_p | intros; apply P_binomial.mle_p; assumption]. Qed.
Print Assumptions C68_binomial_partial.
Example C68_binomial_partial_instance := C68_binomial_partial (fun _ _ => Exc RuntimeError) [1;1]%nat None (3/4) (Fin 1) (Fin (3/4)) ltac:(lra) ltac:(reflexivity) ltac:(discriminate) (fun f x0 => or_introl (ex_intro _ RuntimeError eq_refl)) (or_introl eq_refl) P_binomial.mle_p_case.

(** C68: the threshold ignores counts: for x = [0, 1], counts = [0, 1], p = 9/20 the code returns n = 1 although n = 2 has smaller nll. *)
Theorem C68_binomial_refuted : forall (findroot : (val -> val) -> val -> val),
  mle_fixed_p findroot (vNs [0; 1]%nat) (Some (vNs [0; 1]%nat)) (Fin (9/20)) = Ok (Fin 1, Fin (9/20)) /\
  exists a b, nll (vNs [0; 1]%nat) (Fin 2) (Fin (9/20)) (Some (vNs [0; 1]%nat)) = Fin a /\
    nll (vNs [0; 1]%nat) (Fin 1) (Fin (9/20)) (Some (vNs [0; 1]%nat)) = Fin b /\ a < b.
Proof. first [exact P_binomial.mle_counts_wrong | intros; apply P_binomial.mle_counts_wrong; assumption]. Qed.
Print Assumptions C68_binomial_refuted.
Example C68_binomial_refuted_instance := C68_binomial_refuted  (fun f x => x).

