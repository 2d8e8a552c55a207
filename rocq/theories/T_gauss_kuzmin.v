(** Properties of mpsci.distributions.gauss_kuzmin (generated by tools/mkthm.py). *)
From Coq Require Import Reals Lra List.
From Coquelicot Require Import Coquelicot.
From Verif Require Import Values Spec SpecStat SpecEst VTac TTac DistLib.
From Verif Require Import SpecDisc SpecInt SpecMulti.
From Verif Require Import M_gauss_kuzmin.
From Verif Require P_gauss_kuzmin.
Import ListNotations.
Local Open Scope R_scope.

(** C40: the mode is the smallest maximiser. *)
Theorem C40_gauss_kuzmin : smallest_mode pmf (Count 1) mode.
Proof. first [exact P_gauss_kuzmin.mode_ok | intros; apply P_gauss_kuzmin.mode_ok; assumption]. Qed.
Print Assumptions C40_gauss_kuzmin.
Example C40_gauss_kuzmin_instance := C40_gauss_kuzmin  .

(** C41: the support, and the probabilities: non-negative, sum 1, zero at every other integer. *)
Theorem C41_gauss_kuzmin : support = Count 1 /\ mass_function pmf (Count 1) /\ zero_outside pmf (Count 1).
Proof. first [exact P_gauss_kuzmin.mass_ok | intros; apply P_gauss_kuzmin.mass_ok; assumption]. Qed.
Print Assumptions C41_gauss_kuzmin.
Example C41_gauss_kuzmin_instance := C41_gauss_kuzmin  .

(** C42: cdf and sf are partial sums, for every integer k. *)
Theorem C42_gauss_kuzmin : forall (k : Z),
  cumulative pmf cdf sf (Count 1) k.
Proof. first [exact P_gauss_kuzmin.cdf_ok | intros; apply P_gauss_kuzmin.cdf_ok; assumption]. Qed.
Print Assumptions C42_gauss_kuzmin.
Example C42_gauss_kuzmin_instance := C42_gauss_kuzmin  3%Z.

(** C42: at the ends of the real line. *)
Theorem C42_gauss_kuzmin_inf : cdf NInf = Fin 0 /\ sf NInf = Fin 1 /\ cdf PInf = Fin 1 /\ sf PInf = Fin 0.
Proof. first [exact P_gauss_kuzmin.cdf_inf | intros; apply P_gauss_kuzmin.cdf_inf; assumption]. Qed.
Print Assumptions C42_gauss_kuzmin_inf.
Example C42_gauss_kuzmin_inf_instance := C42_gauss_kuzmin_inf  .

(** C34: logpmf is the logarithm of pmf at every integer. *)
Theorem C34_gauss_kuzmin : log_law pmf logpmf (fun _ => True).
Proof. first [exact P_gauss_kuzmin.log_ok | intros; apply P_gauss_kuzmin.log_ok; assumption]. Qed.
Print Assumptions C34_gauss_kuzmin.
Example C34_gauss_kuzmin_instance := C34_gauss_kuzmin  .

(** C35: invcdf solves cdf(x) = p on [0, 1); the integers whose cdf reaches p are those not below invcdf(p); invcdf undoes cdf on the support. *)
Theorem C35_gauss_kuzmin : forall (p : R),
  0 <= p < 1 ->
  (exists x, 0 <= x /\ invcdf (Fin p) = Fin x /\ cdf (Fin x) = Fin p /\
     forall k : Z, (1 <= k)%Z -> exists F, cdf (Fin (IZR k)) = Fin F /\ (p <= F <-> x <= IZR k)) /\
  forall k : Z, (1 <= k)%Z -> invcdf (cdf (Fin (IZR k))) = Fin (IZR k).
Proof. first [exact P_gauss_kuzmin.invcdf_ok | intros; apply P_gauss_kuzmin.invcdf_ok; assumption]. Qed.
Print Assumptions C35_gauss_kuzmin.
Example C35_gauss_kuzmin_instance := C35_gauss_kuzmin  (1/3) ltac:(inst).

(** C36: invsf solves sf(x) = p on (0, 1]; the integers whose sf is at most p are those not below invsf(p); invsf undoes sf on the support. *)
Theorem C36_gauss_kuzmin : forall (p : R),
  0 < p <= 1 ->
  (exists x, 0 <= x /\ invsf (Fin p) = Fin x /\ sf (Fin x) = Fin p /\
     forall k : Z, (1 <= k)%Z -> exists F, sf (Fin (IZR k)) = Fin F /\ (F <= p <-> x <= IZR k)) /\
  forall k : Z, (1 <= k)%Z -> invsf (sf (Fin (IZR k))) = Fin (IZR k).
Proof. first [exact P_gauss_kuzmin.invsf_ok | intros; apply P_gauss_kuzmin.invsf_ok; assumption]. Qed.
Print Assumptions C36_gauss_kuzmin.
Example C36_gauss_kuzmin_instance := C36_gauss_kuzmin  (1/3) ltac:(inst).

(** C37: p outside [0, 1] is rejected, and the upper end is infinity. *)
Theorem C37_gauss_kuzmin : forall (p : R),
  p < 0 \/ 1 < p -> invcdf (Fin p) = Exc ValueError /\ invsf (Fin p) = Exc ValueError /\ invcdf (Fin 1) = PInf /\ invsf (Fin 0) = PInf.
Proof. first [exact P_gauss_kuzmin.ends_ok | intros; apply P_gauss_kuzmin.ends_ok; assumption]. Qed.
Print Assumptions C37_gauss_kuzmin.
Example C37_gauss_kuzmin_instance := C37_gauss_kuzmin  (2) ltac:(inst).

(** C37: invcdf(0) and invsf(1) are 0, which is not in the support. *)
Theorem C37_gauss_kuzmin_refuted : invcdf (Fin 0) = Fin 0 /\ invsf (Fin 1) = Fin 0 /\ ~ in_support support 0.
Proof. first [exact P_gauss_kuzmin.lower_end | intros; apply P_gauss_kuzmin.lower_end; assumption]. Qed.
Print Assumptions C37_gauss_kuzmin_refuted.
Example C37_gauss_kuzmin_refuted_instance := C37_gauss_kuzmin_refuted  .

(** C43: mean and var are infinite: the partial sums of k pmf(k), and of (k - c)^2 pmf(k) for every c, diverge. *)
Theorem C43_gauss_kuzmin : forall (c : R),
  mean = PInf /\ var = PInf /\
  is_lim_seq (fun n => zsum (fun k => IZR k * at_int pmf k) 1 (Z.of_nat n + 1)) p_infty /\
  is_lim_seq (fun n => zsum (fun k => (IZR k - c) ^ 2 * at_int pmf k) 1 (Z.of_nat n + 1)) p_infty.
Proof. first [exact P_gauss_kuzmin.infinite | intros; apply P_gauss_kuzmin.infinite; assumption]. Qed.
Print Assumptions C43_gauss_kuzmin.
Example C43_gauss_kuzmin_instance := C43_gauss_kuzmin  3.

(** C43: the median is 2: P(X < 2) and P(X > 2) are both below 1/2. *)
Theorem C43_gauss_kuzmin_median : median = Fin 2 /\ (exists F, cdf (Fin 1) = Fin F /\ F < 1 / 2) /\ (exists G, sf (Fin 2) = Fin G /\ G < 1 / 2).
Proof. first [exact P_gauss_kuzmin.median_ok | intros; apply P_gauss_kuzmin.median_ok; assumption]. Qed.
Print Assumptions C43_gauss_kuzmin_median.
Example C43_gauss_kuzmin_median_instance := C43_gauss_kuzmin_median  .

