(** Properties of mpsci.distributions.poisson (generated by tools/mkthm.py). *)
From Coq Require Import Reals Lra List.
From Coquelicot Require Import Coquelicot.
From Verif Require Import Values Spec SpecStat SpecEst VTac TTac DistLib.
From Verif Require Import SpecDisc SpecInt SpecMulti.
From Verif Require Import M_poisson.
From Verif Require P_poisson.
Import ListNotations.
Local Open Scope R_scope.

(** C40: the mode is the smallest maximiser. *)
Theorem C40_poisson : forall (lam : R), 0 < lam -> smallest_mode (fun k => pmf k (Fin lam)) (Count 0) (mode (Fin lam)).
Proof. first [exact P_poisson.mode_small | intros; apply P_poisson.mode_small; assumption]. Qed.
Print Assumptions C40_poisson.
Example C40_poisson_instance := C40_poisson (5/2) ltac:(inst) .

(** C41: the probabilities are non-negative, sum to 1 over the support, and vanish outside. *)
Theorem C41_poisson : forall (lam : R), 0 < lam -> support (Fin lam) = Ok (Count 0) /\ mass_function (fun k => pmf k (Fin lam)) (Count 0) /\ zero_outside (fun k => pmf k (Fin lam)) (Count 0).
Proof. first [exact P_poisson.mass_ok | intros; apply P_poisson.mass_ok; assumption]. Qed.
Print Assumptions C41_poisson.
Example C41_poisson_instance := C41_poisson (5/2) ltac:(inst) .

(** C42: cdf and sf are partial sums, for every integer k. *)
Theorem C42_poisson : forall (lam : R), 0 < lam -> forall (k : Z),
  cumulative (fun k => pmf k (Fin lam)) (fun k => cdf k (Fin lam)) (fun k => sf k (Fin lam)) (Count 0) k.
Proof. first [exact P_poisson.cdf_ok | intros; apply P_poisson.cdf_ok; assumption]. Qed.
Print Assumptions C42_poisson.
Example C42_poisson_instance := C42_poisson (5/2) ltac:(inst) 3%Z.

(** C34: logpmf is the logarithm of pmf at every integer. *)
Theorem C34_poisson : forall (lam : R), 0 < lam -> log_law (fun k => pmf k (Fin lam)) (fun k => logpmf k (Fin lam)) (fun _ => True).
Proof. first [exact P_poisson.log_ok | intros; apply P_poisson.log_ok; assumption]. Qed.
Print Assumptions C34_poisson.
Example C34_poisson_instance := C34_poisson (5/2) ltac:(inst) .

(** C38: invalid parameters raise ValueError (the other arguments are numbers). *)
Theorem C38_poisson_partial : forall (lam : val),
  nonpositive lam -> support lam = Err ValueError /\ always_ValueError [(fun x => pmf x lam); (fun x => logpmf x lam); (fun x => cdf x lam); (fun x => sf x lam)] /\
  mean lam = Exc ValueError /\ mode lam = Exc ValueError /\ var lam = Exc ValueError /\ skewness lam = Exc ValueError /\ kurtosis lam = Exc ValueError.
Proof. first [exact P_poisson.bad_lam | intros; apply P_poisson.bad_lam; assumption]. Qed.
Print Assumptions C38_poisson_partial.
Example C38_poisson_partial_instance := C38_poisson_partial  (Fin 0) ltac:(inst).

(** C43: mean, variance, skewness and excess kurtosis. *)
Theorem C43_poisson : forall (lam : R), 0 < lam -> dmean_is (fun k => pmf k (Fin lam)) (Count 0) (mean (Fin lam)) /\
  dvar_is (fun k => pmf k (Fin lam)) (Count 0) (var (Fin lam)) /\
  dskewness_is (fun k => pmf k (Fin lam)) (Count 0) (skewness (Fin lam)) /\
  dkurtosis_is (fun k => pmf k (Fin lam)) (Count 0) (kurtosis (Fin lam)).
Proof. first [exact P_poisson.moments_ok | intros; apply P_poisson.moments_ok; assumption]. Qed.
Print Assumptions C43_poisson.
Example C43_poisson_instance := C43_poisson (5/2) ltac:(inst) .

(** C47: mle minimises nll, with or without counts. *)
Theorem C47_poisson_partial : forall (xs : list nat) (cs : option (list nat)),
  good_counts xs cs -> 0 < sum (map INR (expand xs (counts_for xs cs))) ->
  exists l, mle (vNs xs) (vcounts cs) = Fin l /\ minimises (fun l => 0 < l) (fun l => nll (vNs xs) (Fin l) (vcounts cs)) l.
Proof. first [exact P_poisson.mle_opt | intros; apply P_poisson.mle_opt; assumption]. Qed.
Print Assumptions C47_poisson_partial.
Example C47_poisson_partial_instance := C47_poisson_partial  [1;0;3]%nat (Some [2;0;5]%nat) eq_refl ltac:(inst).

(** C49: counts repeat the observations, and bad counts raise ValueError. *)
Theorem C49_poisson : forall (lam : R) (xs cs : list nat),
  0 < lam ->
  nll (vNs xs) (Fin lam) None = vneg (loglik (fun t => logpmf t (Fin lam)) (map INR xs)) /\
  (length cs = length xs -> nll (vNs xs) (Fin lam) (Some (vNs cs)) = nll (vNs (expand xs cs)) (Fin lam) None) /\
  (forall bad, bad_counts xs bad -> nll (vNs xs) (Fin lam) (Some (map Fin bad)) = Exc ValueError).
Proof. first [exact P_poisson.nll_laws | intros; apply P_poisson.nll_laws; assumption]. Qed.
Print Assumptions C49_poisson.
Example C49_poisson_instance := C49_poisson  (5/2) [1;0;3]%nat [2;0;5]%nat ltac:(inst).

