(** Properties of mpsci.distributions.negative_binomial (generated by tools/mkthm.py). *)
From Coq Require Import Reals Lra List.
From Coquelicot Require Import Coquelicot.
From Verif Require Import Values Spec SpecStat SpecEst VTac TTac DistLib.
From Verif Require Import SpecDisc SpecInt SpecMulti.
From Verif Require Import M_negative_binomial.
From Verif Require P_negative_binomial.
Import ListNotations.
Local Open Scope R_scope.

(** C40: the mode is the smallest maximiser (r = 1, or p > 0). *)
Theorem C40_negative_binomial_partial : forall (r p : R), 1 <= r -> 0 <= p < 1 -> r = 1 \/ 0 < p -> smallest_mode (fun k => pmf k (Fin r) (Fin p)) (Count 0) (mode (Fin r) (Fin p)).
Proof. first [exact P_negative_binomial.mode_small | intros; apply P_negative_binomial.mode_small; assumption]. Qed.
Print Assumptions C40_negative_binomial_partial.
Example C40_negative_binomial_partial_instance := C40_negative_binomial_partial ((5/2)) ((1/4)) ltac:(inst) ltac:(inst) ltac:(right; lra).

(** C59: mode is a non-negative integer for every r > 0 and 0 < p < 1. *)
Theorem C59_negative_binomial_partial : forall r p,
  0 < r -> 0 < p < 1 -> exists j : Z, (0 <= j)%Z /\ mode (Fin r) (Fin p) = Fin (IZR j).
Proof. first [exact P_negative_binomial.mode_nonneg | intros; apply P_negative_binomial.mode_nonneg; assumption]. Qed.
Print Assumptions C59_negative_binomial_partial.
Example C59_negative_binomial_partial_instance := C59_negative_binomial_partial  (5/2) (1/4) ltac:(inst) ltac:(inst).

(** C59: for r > 1, mode is -1 at p = 0 and raises ZeroDivisionError at p = 1; both parameters pass validation. *)
Theorem C59_negative_binomial_refuted : forall r,
  1 < r -> mode (Fin r) (Fin 0) = Fin (-1) /\ mode (Fin r) (Fin 1) = Exc ZeroDivisionError.
Proof. first [exact P_negative_binomial.mode_neg | intros; apply P_negative_binomial.mode_neg; assumption]. Qed.
Print Assumptions C59_negative_binomial_refuted.
Example C59_negative_binomial_refuted_instance := C59_negative_binomial_refuted  2 ltac:(inst).

(** C41: the support and the probabilities (non-negative, sum 1, zero at every other integer) for r >= 1, p < 1. *)
Theorem C41_negative_binomial_partial : forall (r p : R), 1 <= r -> 0 <= p < 1 -> support (Fin r) (Fin p) = Ok (Count 0) /\ mass_function (fun k => pmf k (Fin r) (Fin p)) (Count 0) /\ zero_outside (fun k => pmf k (Fin r) (Fin p)) (Count 0).
Proof. first [exact P_negative_binomial.mass_ok | intros; apply P_negative_binomial.mass_ok; assumption]. Qed.
Print Assumptions C41_negative_binomial_partial.
Example C41_negative_binomial_partial_instance := C41_negative_binomial_partial ((5/2)) ((1/4)) ltac:(inst) ltac:(inst) .

(** C41: for 0 < r < 1 pmf and logpmf raise ValueError at every point of the support, while cdf is a probability strictly between 0 and 1. *)
Theorem C41_negative_binomial_refuted : forall (r p : R) (k : nat),
  0 < r < 1 -> 0 <= p <= 1 -> pmf (Fin (INR k)) (Fin r) (Fin p) = Exc ValueError /\ logpmf (Fin (INR k)) (Fin r) (Fin p) = Exc ValueError /\
  (0 < p < 1 -> exists q, cdf (Fin (INR k)) (Fin r) (Fin p) = Fin q /\ 0 < q < 1).
Proof. first [exact P_negative_binomial.small_r | intros; apply P_negative_binomial.small_r; assumption]. Qed.
Print Assumptions C41_negative_binomial_refuted.
Example C41_negative_binomial_refuted_instance := C41_negative_binomial_refuted  (1/2) (1/4) 3%nat ltac:(inst) ltac:(inst).

(** C41: p = 1 passes validation: all probabilities are zero, mean and var raise ZeroDivisionError. *)
Theorem C41_negative_binomial_one_refuted : forall (r : R) (k : nat),
  1 <= r -> pmf (Fin (INR k)) (Fin r) (Fin 1) = Fin 0 /\ mean (Fin r) (Fin 1) = Exc ZeroDivisionError /\ var (Fin r) (Fin 1) = Exc ZeroDivisionError.
Proof. first [exact P_negative_binomial.at_one | intros; apply P_negative_binomial.at_one; assumption]. Qed.
Print Assumptions C41_negative_binomial_one_refuted.
Example C41_negative_binomial_one_refuted_instance := C41_negative_binomial_one_refuted  2 3%nat ltac:(inst).

(** C34: logpmf is the logarithm of pmf at every integer for r >= 1, p < 1 (p = 0 included). *)
Theorem C34_negative_binomial_partial : forall (r p : R), 1 <= r -> 0 <= p < 1 -> log_law (fun k => pmf k (Fin r) (Fin p)) (fun k => logpmf k (Fin r) (Fin p)) (fun _ => True).
Proof. first [exact P_negative_binomial.log_ok | intros; apply P_negative_binomial.log_ok; assumption]. Qed.
Print Assumptions C34_negative_binomial_partial.
Example C34_negative_binomial_partial_instance := C34_negative_binomial_partial ((5/2)) ((1/4)) ltac:(inst) ltac:(inst) .

(** C42: cdf and sf at every integer. *)
Theorem C42_negative_binomial_partial : forall (r p : R), 1 <= r -> 0 <= p < 1 -> forall (k : Z),
  cumulative (fun k => pmf k (Fin r) (Fin p)) (fun k => cdf k (Fin r) (Fin p)) (fun k => sf k (Fin r) (Fin p)) (Count 0) k.
Proof. first [exact P_negative_binomial.cdf_ok | intros; apply P_negative_binomial.cdf_ok; assumption]. Qed.
Print Assumptions C42_negative_binomial_partial.
Example C42_negative_binomial_partial_instance := C42_negative_binomial_partial ((5/2)) ((1/4)) ltac:(inst) ltac:(inst) 3%Z.

(** C43: mean and variance. *)
Theorem C43_negative_binomial_partial : forall (r p : R), 1 <= r -> 0 <= p < 1 -> dmean_is (fun k => pmf k (Fin r) (Fin p)) (Count 0) (mean (Fin r) (Fin p)) /\ dvar_is (fun k => pmf k (Fin r) (Fin p)) (Count 0) (var (Fin r) (Fin p)).
Proof. first [exact P_negative_binomial.moments_ok | intros; apply P_negative_binomial.moments_ok; assumption]. Qed.
Print Assumptions C43_negative_binomial_partial.
Example C43_negative_binomial_partial_instance := C43_negative_binomial_partial ((5/2)) ((1/4)) ltac:(inst) ltac:(inst) .

(** C38: invalid parameters raise ValueError (the other arguments are numbers). *)
Theorem C38_negative_binomial_partial : forall (r p : R) (k : val),
  r <= 0 \/ p < 0 \/ 1 < p ->
  pmf k (Fin r) (Fin p) = Exc ValueError /\ logpmf k (Fin r) (Fin p) = Exc ValueError /\ cdf k (Fin r) (Fin p) = Exc ValueError /\ sf k (Fin r) (Fin p) = Exc ValueError /\
  mean (Fin r) (Fin p) = Exc ValueError /\ mode (Fin r) (Fin p) = Exc ValueError /\ var (Fin r) (Fin p) = Exc ValueError.
Proof. first [exact P_negative_binomial.bad_params | intros; apply P_negative_binomial.bad_params; assumption]. Qed.
Print Assumptions C38_negative_binomial_partial.
Example C38_negative_binomial_partial_instance := C38_negative_binomial_partial  (-1) (1/4) (Fin 2) ltac:(left; lra).

(** C38: support accepts every parameter. *)
Theorem C38_negative_binomial_refuted : forall (r p : val),
  support r p = Ok (Count 0).
Proof. first [exact P_negative_binomial.support_any | intros; apply P_negative_binomial.support_any; assumption]. Qed.
Print Assumptions C38_negative_binomial_refuted.
Example C38_negative_binomial_refuted_instance := C38_negative_binomial_refuted  (Fin (-1)) NaN.

(** C49: counts repeat the observations, and bad counts raise ValueError. *)
Theorem C49_negative_binomial : forall (r p : R) (xs cs : list nat),
  1 <= r -> 0 < p < 1 ->
  nll (vNs xs) (Fin r) (Fin p) None = vneg (loglik (fun t => logpmf t (Fin r) (Fin p)) (map INR xs)) /\
  (length cs = length xs -> nll (vNs xs) (Fin r) (Fin p) (Some (vNs cs)) = nll (vNs (expand xs cs)) (Fin r) (Fin p) None) /\
  (forall bad, bad_counts xs bad -> nll (vNs xs) (Fin r) (Fin p) (Some (map Fin bad)) = Exc ValueError).
Proof. first [exact P_negative_binomial.nll_laws | intros; apply P_negative_binomial.nll_laws; assumption]. Qed.
Print Assumptions C49_negative_binomial.
Example C49_negative_binomial_instance := C49_negative_binomial  (5/2) (1/4) [1;0;3]%nat [2;0;5]%nat ltac:(inst) ltac:(inst).

(** C47: mle with r given minimises nll over p, with or without counts. *)
Theorem C47_negative_binomial_r_given : forall (xs : list nat) (cs : option (list nat)) (r : R) (allow : bool),
  1 <= r -> (allow = true \/ exists k : nat, r = INR k) -> good_counts xs cs ->
  0 < sum (map INR (expand xs (counts_for xs cs))) ->
  exists p, mle_r (vNs xs) (vcounts cs) (Fin r) allow = Ok (Fin r, Fin p) /\ minimises (fun q => 0 < q < 1) (fun q => nll (vNs xs) (Fin r) (Fin q) (vcounts cs)) p.
Proof. first [exact P_negative_binomial.mle_r_opt | intros; apply P_negative_binomial.mle_r_opt; assumption]. Qed.
Print Assumptions C47_negative_binomial_r_given.
Example C47_negative_binomial_r_given_instance := C47_negative_binomial_r_given  [1;0;3]%nat (Some [2;0;5]%nat) (5/2) true ltac:(inst) (or_introl eq_refl) eq_refl ltac:(inst).

(** C47: mle with p given: if the solver returns a root not below 1 it minimises nll over r >= 1.  [findroot] is any solver that returns a root or raises. *)
Theorem C47_negative_binomial_p_given_partial : forall (findroot : (val -> val) -> val -> val) (xs : list nat) (cs : option (list nat)) (p : R) (r0 rhat phat : val),
  0 < p < 1 -> good_counts xs cs -> expand xs (counts_for xs cs) <> [] ->
  (forall f x0, (exists e, findroot f x0 = Exc e) \/ (exists r, findroot f x0 = Fin r /\ f (Fin r) = Fin 0)) ->
  mle_p findroot (vNs xs) (vcounts cs) (Fin p) r0 true = Ok (rhat, phat) ->
  phat = Fin p /\ exists r, rhat = Fin r /\ 0 < r /\ (1 <= r -> minimises (fun r => 1 <= r) (fun r => nll (vNs xs) (Fin r) (Fin p) (vcounts cs)) r).
Proof. first [exact P_negative_binomial.mle_p_opt | intros; apply P_negative_binomial.mle_p_opt; assumption]. Qed.
Print Assumptions C47_negative_binomial_p_given_partial.
Example C47_negative_binomial_p_given_partial_instance := C47_negative_binomial_p_given_partial P_negative_binomial.check_root [1%nat] None (1 - exp (- (1 / 2))) (Fin 2) (Fin 2) _ (proj1 (P_negative_binomial.check_p true)) eq_refl ltac:(discriminate) P_negative_binomial.check_root_ok (proj2 (P_negative_binomial.check_p true)).

(** C47: mle with p given and integer r required minimises nll over the positive integers. *)
Theorem C47_negative_binomial_p_given_integer : forall (findroot : (val -> val) -> val -> val) (xs : list nat) (cs : option (list nat)) (p : R) (r0 rhat phat : val),
  0 < p < 1 -> good_counts xs cs -> expand xs (counts_for xs cs) <> [] ->
  (forall f x0, (exists e, findroot f x0 = Exc e) \/ (exists r, findroot f x0 = Fin r /\ f (Fin r) = Fin 0)) ->
  mle_p findroot (vNs xs) (vcounts cs) (Fin p) r0 false = Ok (rhat, phat) ->
  phat = Fin p /\ exists m : nat, rhat = Fin (INR m) /\ minimises (fun k => (1 <= k)%nat) (fun k => nll (vNs xs) (Fin (INR k)) (Fin p) (vcounts cs)) m.
Proof. first [exact P_negative_binomial.mle_p_int | intros; apply P_negative_binomial.mle_p_int; assumption]. Qed.
Print Assumptions C47_negative_binomial_p_given_integer.
Example C47_negative_binomial_p_given_integer_instance := C47_negative_binomial_p_given_integer P_negative_binomial.check_root [1%nat] None (1 - exp (- (1 / 2))) (Fin 2) (Fin 2) _ (proj1 (P_negative_binomial.check_p false)) eq_refl ltac:(discriminate) P_negative_binomial.check_root_ok (proj2 (P_negative_binomial.check_p false)).

(** C47: mle with neither given: the pair is optimal in each coordinate separately (joint optimality is not proved). *)
Theorem C47_negative_binomial_free_partial : forall (findroot : (val -> val) -> val -> val) (xs : list nat) (cs : option (list nat)) (r0 rhat phat : val),
  good_counts xs cs -> 0 < sum (map INR (expand xs (counts_for xs cs))) ->
  (forall f x0, (exists e, findroot f x0 = Exc e) \/ (exists r, findroot f x0 = Fin r /\ f (Fin r) = Fin 0)) ->
  mle_free findroot (vNs xs) (vcounts cs) r0 true = Ok (rhat, phat) ->
  exists r p, rhat = Fin r /\ phat = Fin p /\ (1 <= r ->
    minimises (fun q => 0 < q < 1) (fun q => nll (vNs xs) (Fin r) (Fin q) (vcounts cs)) p /\ minimises (fun s => 1 <= s) (fun s => nll (vNs xs) (Fin s) (Fin p) (vcounts cs)) r).
Proof. first [exact P_negative_binomial.mle_free_coord | intros; apply P_negative_binomial.mle_free_coord; assumption]. Qed.
Print Assumptions C47_negative_binomial_free_partial.
Example C47_negative_binomial_free_partial_instance : exists r p, 1 <= r /\ mle_free P_negative_binomial.check_root (vNs [1; 5]%nat) (vcounts None) (Fin r) true = Ok (Fin r, Fin p) := P_negative_binomial.free_case.

