(** Properties of mpsci.distributions.logseries (generated by tools/mkthm.py). *)
From Coq Require Import Reals Lra List.
From Coquelicot Require Import Coquelicot.
From Verif Require Import Values Spec SpecStat SpecEst VTac TTac DistLib.
From Verif Require Import SpecDisc SpecInt SpecMulti.
From Verif Require Import SpecInv.
From Verif Require Import M_logseries.
From Verif Require P_logseries.
Import ListNotations.
Local Open Scope R_scope.

(** C40: the mode is the smallest maximiser. *)
Theorem C40_logseries : forall (p : R), 0 < p < 1 -> smallest_mode (fun k => pmf k (Fin p)) (Count 1) (mode (Fin p)).
Proof. first [exact P_logseries.mode_ok | intros; apply P_logseries.mode_ok; assumption]. Qed.
Print Assumptions C40_logseries.
Example C40_logseries_instance := C40_logseries ((1/3)) ltac:(inst) .

(** C41: the support, and the probabilities: non-negative, sum 1, zero at every other integer (0 < p < 1). *)
Theorem C41_logseries_partial : forall (p : R), 0 < p < 1 -> support (Fin p) = Count 1 /\ mass_function (fun k => pmf k (Fin p)) (Count 1) /\ zero_outside (fun k => pmf k (Fin p)) (Count 1).
Proof. first [exact P_logseries.mass_ok | intros; apply P_logseries.mass_ok; assumption]. Qed.
Print Assumptions C41_logseries_partial.
Example C41_logseries_partial_instance := C41_logseries_partial ((1/3)) ltac:(inst) .

(** C41: p = 0 and p = 1 pass validation: pmf is nan or 0 at every point of the support, cdf and mean raise ZeroDivisionError. *)
Theorem C41_logseries_refuted : forall (k : nat),
  (0 < k)%nat -> logpmf (Fin (INR k)) (Fin 0) = NaN /\ pmf (Fin (INR k)) (Fin 0) = NaN /\ pmf (Fin (INR k)) (Fin 1) = Fin 0 /\
  cdf (Fin (INR k)) (Fin 0) = Exc ZeroDivisionError /\ mean (Fin 0) = Exc ZeroDivisionError /\ mean (Fin 1) = Exc ZeroDivisionError.
Proof. first [exact P_logseries.ends_bad | intros; apply P_logseries.ends_bad; assumption]. Qed.
Print Assumptions C41_logseries_refuted.
Example C41_logseries_refuted_instance := C41_logseries_refuted  2%nat ltac:(auto with arith).

(** C42: cdf and sf are partial sums, for every integer k. *)
Theorem C42_logseries : forall (p : R), 0 < p < 1 -> forall (k : Z),
  cumulative (fun k => pmf k (Fin p)) (fun k => cdf k (Fin p)) (fun k => sf k (Fin p)) (Count 1) k.
Proof. first [exact P_logseries.cdf_ok | intros; apply P_logseries.cdf_ok; assumption]. Qed.
Print Assumptions C42_logseries.
Example C42_logseries_instance := C42_logseries ((1/3)) ltac:(inst) 3%Z.

(** C34: logpmf is the logarithm of pmf at every integer. *)
Theorem C34_logseries : forall (p : R), 0 < p < 1 -> log_law (fun k => pmf k (Fin p)) (fun k => logpmf k (Fin p)) (fun _ => True).
Proof. first [exact P_logseries.log_ok | intros; apply P_logseries.log_ok; assumption]. Qed.
Print Assumptions C34_logseries.
Example C34_logseries_instance := C34_logseries ((1/3)) ltac:(inst) .

(** C38: invalid parameters raise ValueError (the other arguments are numbers). *)
Theorem C38_logseries_partial : forall (p : R) (xs : list val),
  p < 0 \/ 1 < p ->
  always_ValueError [fun k => pmf k (Fin p); fun k => logpmf k (Fin p); fun k => cdf k (Fin p); fun k => sf k (Fin p);
    fun _ => mean (Fin p); fun _ => mode (Fin p); fun _ => var (Fin p); fun _ => skewness (Fin p); fun _ => kurtosis (Fin p); fun _ => nll xs (Fin p) None].
Proof. first [exact P_logseries.bad_params | intros; apply P_logseries.bad_params; assumption]. Qed.
Print Assumptions C38_logseries_partial.
Example C38_logseries_partial_instance := C38_logseries_partial  2 [Fin 1] ltac:(right; lra).

(** C43: mean and variance. *)
Theorem C43_logseries : forall (p : R), 0 < p < 1 -> dmean_is (fun k => pmf k (Fin p)) (Count 1) (mean (Fin p)) /\ dvar_is (fun k => pmf k (Fin p)) (Count 1) (var (Fin p)).
Proof. first [exact P_logseries.moments_ok | intros; apply P_logseries.moments_ok; assumption]. Qed.
Print Assumptions C43_logseries.
Example C43_logseries_instance := C43_logseries ((1/3)) ltac:(inst) .

(** C43: skewness and excess kurtosis. *)
Theorem C43_logseries_shape : forall (p : R), 0 < p < 1 -> dskewness_is (fun k => pmf k (Fin p)) (Count 1) (skewness (Fin p)) /\ dkurtosis_is (fun k => pmf k (Fin p)) (Count 1) (kurtosis (Fin p)).
Proof. first [exact P_logseries.shape_ok | intros; apply P_logseries.shape_ok; assumption]. Qed.
Print Assumptions C43_logseries_shape.
Example C43_logseries_shape_instance := C43_logseries_shape ((1/3)) ltac:(inst) .

(** C49: counts repeat the observations, and bad counts raise ValueError. *)
Theorem C49_logseries : forall (p : R), 0 < p < 1 -> forall (xs cs : list nat),
  (forall x, In x xs -> (1 <= x)%nat) ->
  nll (vNs xs) (Fin p) None = vneg (loglik (fun t => logpmf t (Fin p)) (map INR xs)) /\
  (length cs = length xs -> nll (vNs xs) (Fin p) (Some (vNs cs)) = nll (vNs (expand xs cs)) (Fin p) None) /\
  (forall bad, bad_counts xs bad -> nll (vNs xs) (Fin p) (Some (map Fin bad)) = Exc ValueError).
Proof. first [exact P_logseries.nll_laws | intros; apply P_logseries.nll_laws; assumption]. Qed.
Print Assumptions C49_logseries.
Example C49_logseries_instance := C49_logseries ((1/3)) ltac:(inst) [1;2;3]%nat [2;0;5]%nat ltac:(inst).

(** C47: mle minimises nll over 0 < p < 1, whatever checked root finders and starting point are used, when the data are not all 1. *)
Theorem C47_logseries : forall (fr1 : (val -> val) -> val -> val) (fr2 : (val -> val) -> val * val -> val) (guess : val -> val) (xs : list nat) (cs : option (list nat)) (p : R),
  checked_solver1 fr1 -> checked_solver fr2 ->
  (forall x, In x xs -> (1 <= x)%nat) -> good_counts xs cs -> (exists x, In x (expand xs (counts_for xs cs)) /\ x <> 1%nat) ->
  mle fr1 fr2 guess (vNs xs) (vcounts cs) = Fin p -> minimises (fun t => 0 < t < 1) (fun t => nll (vNs xs) (Fin t) (vcounts cs)) p.
Proof. first [exact P_logseries.mle_ok | intros; apply P_logseries.mle_ok; assumption]. Qed.
Print Assumptions C47_logseries.
Example C47_logseries_instance : exists fr1 fr2 p, checked_solver1 fr1 /\ checked_solver fr2 /\ mle fr1 fr2 (fun m => m) (vNs [1; 1; 2]%nat) None = Fin p. Proof. exact P_logseries.mle_case. Qed.

(** C47: when all data are 1 mle returns 0: nll is positive and decreases towards p = 0. *)
Theorem C47_logseries_ones : forall (fr1 : (val -> val) -> val -> val) (fr2 : (val -> val) -> val * val -> val) (guess : val -> val) (n : nat),
  (0 < n)%nat ->
  mle fr1 fr2 guess (vNs (repeat 1%nat n)) None = Fin 0 /\
  (forall s t, 0 < s < t -> t < 1 -> exists u v, nll (vNs (repeat 1%nat n)) (Fin s) None = Fin u /\ nll (vNs (repeat 1%nat n)) (Fin t) None = Fin v /\ 0 < u < v).
Proof. first [exact P_logseries.all_one | intros; apply P_logseries.all_one; assumption]. Qed.
Print Assumptions C47_logseries_ones.
Example C47_logseries_ones_instance := C47_logseries_ones  (fun _ _ => NaN) (fun _ _ => NaN) (fun m => m) 3%nat ltac:(auto with arith).

