(** Properties of mpsci.distributions.chi2 (generated by tools/mkthm.py). *)
From Coq Require Import Reals Lra List.
From Coquelicot Require Import Coquelicot.
From Verif Require Import Values Spec SpecStat SpecEst VTac TTac DistLib.
From Verif Require Import SpecInv.
From Verif Require M_gamma.
From Verif Require Import M_chi2.
From Verif Require P_chi2.
Import ListNotations.
Local Open Scope R_scope.

Theorem C30_chi2 : forall k : R, 0 < k -> 
  complementary (fun x => M_chi2.cdf x k) (fun x => M_chi2.sf x k).
Proof. exact (fun k H0 => cert_complementary (P_chi2.CERT k H0)). Qed.
Print Assumptions C30_chi2.
Example C30_chi2_instance : complementary (fun x => M_chi2.cdf x (3)) (fun x => M_chi2.sf x (3)).
Proof. exact (C30_chi2 (3) ltac:(side)). Qed.

Theorem C31_chi2 : forall k : R, 0 < k -> 
  nondecreasing (fun x => M_chi2.cdf x k) /\ supported_on (fun x => M_chi2.cdf x k) (Fin (0)) PInf /\
  M_chi2.support k = Ok ((Fin (0)), PInf).
Proof. intros k H0. split; [exact (cert_nondecreasing (P_chi2.CERT k H0))|split; [exact (cert_supported (P_chi2.CERT k H0))|unfold M_chi2.support, M_chi2.validate_k; supp]]. Qed.
Print Assumptions C31_chi2.
Example C31_chi2_instance : nondecreasing (fun x => M_chi2.cdf x (3)) /\ supported_on (fun x => M_chi2.cdf x (3)) (Fin (0)) PInf /\
  M_chi2.support (3) = Ok ((Fin (0)), PInf).
Proof. exact (C31_chi2 (3) ltac:(side)). Qed.

Theorem C32_chi2 : forall k : R, 0 < k -> 
  density_of (fun x => M_chi2.cdf x k) (fun x => M_chi2.pdf x k) 0 p_infty.
Proof. exact (fun k H0 => cert_density (P_chi2.CERT k H0)). Qed.
Print Assumptions C32_chi2.
Example C32_chi2_instance : density_of (fun x => M_chi2.cdf x (3)) (fun x => M_chi2.pdf x (3)) 0 p_infty.
Proof. exact (C32_chi2 (3) ltac:(side)). Qed.

Theorem C33_chi2 : forall k : R, 0 < k -> 
  total_mass_one (fun x => M_chi2.pdf x k) 0 p_infty.
Proof. exact (fun k H0 => cert_total_mass (P_chi2.CERT k H0)). Qed.
Print Assumptions C33_chi2.
Example C33_chi2_instance : total_mass_one (fun x => M_chi2.pdf x (3)) 0 p_infty.
Proof. exact (C33_chi2 (3) ltac:(side)). Qed.

Theorem C34_chi2 : forall k : R, 0 < k -> 
  forall x : R, Finite (0) <> Finite x -> p_infty <> Finite x -> log_of (fun x => M_chi2.pdf x k) (fun x => M_chi2.logpdf x k) (Fin x).
Proof. exact (fun k H0 => cert_log (P_chi2.CERT k H0)). Qed.
Print Assumptions C34_chi2.
Example C34_chi2_instance : forall x : R, Finite (0) <> Finite x -> p_infty <> Finite x -> log_of (fun x => M_chi2.pdf x (3)) (fun x => M_chi2.logpdf x (3)) (Fin x).
Proof. exact (C34_chi2 (3) ltac:(side)). Qed.

(** C35: solved numerically; the bracket and the root finder are specified in SpecInv. *)
Theorem C35_chi2 : forall k : R, 0 < k -> solves (fun x => cdf x k) (fun fr fuel p => invcdf fr fuel p k) 0 p_infty.
Proof. first [exact P_chi2.invcdf_ok | intros; apply P_chi2.invcdf_ok; assumption]. Qed.
Print Assumptions C35_chi2.
Example C35_chi2_instance := C35_chi2 (3) ltac:(inst) .

(** C36: solved numerically; the bracket and the root finder are specified in SpecInv. *)
Theorem C36_chi2 : forall k : R, 0 < k -> solves (fun x => sf x k) (fun fr fuel p => invsf fr fuel p k) 0 p_infty.
Proof. first [exact P_chi2.invsf_ok | intros; apply P_chi2.invsf_ok; assumption]. Qed.
Print Assumptions C36_chi2.
Example C36_chi2_instance := C36_chi2 (3) ltac:(inst) .

(** C38: invalid degrees of freedom are rejected. *)
Theorem C38_chi2 : forall fr fuel k,
  isnum k -> nonpositive k -> support k = Err ValueError /\
  always_ValueError [ fun x => pdf x k; fun x => logpdf x k; fun x => cdf x k; fun x => sf x k; fun p => invcdf fr (S fuel) p k; fun p => invsf fr (S fuel) p k;
    fun _ => mean k; fun _ => mode k; fun _ => var k; fun _ => entropy k; fun _ => noncentral_moment 2 k ].
Proof. first [exact P_chi2.bad_params | intros; apply P_chi2.bad_params; assumption]. Qed.
Print Assumptions C38_chi2.
Example C38_chi2_instance := C38_chi2  (fun _ _ => NaN) 100%nat (Fin 0) ltac:(inst) ltac:(inst).

(** C39: the mode, when the density is bounded. *)
Theorem C39_chi2 : forall k : R, 0 < k -> 2 <= k -> is_mode (fun x => pdf x k) (mode k).
Proof. first [exact P_chi2.mode_ok | intros; apply P_chi2.mode_ok; assumption]. Qed.
Print Assumptions C39_chi2.
Example C39_chi2_instance := C39_chi2 (3) ltac:(inst) ltac:(inst).

(** C39: for k <= 2 the density decreases on the support and mode is its lower end. *)
Theorem C39_chi2_small : forall k : R, 0 < k -> k <= 2 -> mode k = Fin 0 /\ forall x y : R, 0 < x -> x <= y -> toR (pdf y k) <= toR (pdf x k).
Proof. first [exact P_chi2.mode_small | intros; apply P_chi2.mode_small; assumption]. Qed.
Print Assumptions C39_chi2_small.
Example C39_chi2_small_instance : forall x y : R, 0 < x -> x <= y -> toR (pdf y 1) <= toR (pdf x 1).
Proof. refine (proj2 (C39_chi2_small 1 _ _)); lra. Qed.

(** C43: mean. *)
Theorem C43_chi2_mean : forall k : R, 0 < k -> mean_is (fun x => pdf x k) 0 p_infty (mean k).
Proof. first [exact P_chi2.mean_ok | intros; apply P_chi2.mean_ok; assumption]. Qed.
Print Assumptions C43_chi2_mean.
Example C43_chi2_mean_instance := C43_chi2_mean (3) ltac:(inst) .

(** C43: variance. *)
Theorem C43_chi2_var : forall k : R, 0 < k -> var_is (fun x => pdf x k) 0 p_infty (mean k) (var k).
Proof. first [exact P_chi2.var_ok | intros; apply P_chi2.var_ok; assumption]. Qed.
Print Assumptions C43_chi2_var.
Example C43_chi2_var_instance := C43_chi2_var (3) ltac:(inst) .

(** C43: every non-central moment. *)
Theorem C43_chi2_moments : forall k : R, 0 < k -> forall n,
  moment_is (fun x => pdf x k) 0 p_infty n (noncentral_moment n k).
Proof. first [exact P_chi2.moment_ok | intros; apply P_chi2.moment_ok; assumption]. Qed.
Print Assumptions C43_chi2_moments.
Example C43_chi2_moments_instance := C43_chi2_moments (3) ltac:(inst) 5%nat.

(** C43: entropy. *)
Theorem C43_chi2_entropy : forall k : R, 0 < k -> entropy_is (fun x => pdf x k) 0 p_infty (entropy k).
Proof. first [exact P_chi2.entropy_ok | intros; apply P_chi2.entropy_ok; assumption]. Qed.
Print Assumptions C43_chi2_entropy.
Example C43_chi2_entropy_instance := C43_chi2_entropy (3) ltac:(inst) .

(** C45: chi2 with k degrees of freedom is gamma with shape k/2 and scale 2. *)
Theorem C45_chi2 : forall k : R, 0 < k -> (forall x : R, cdf x k = M_gamma.cdf x (k / 2)%R 2 /\ sf x k = M_gamma.sf x (k / 2)%R 2) /\
  (forall x : R, x <> 0 -> pdf x k = M_gamma.pdf x (k / 2)%R 2 /\ logpdf x k = M_gamma.logpdf x (k / 2)%R 2) /\
  mean k = M_gamma.mean (k / 2)%R 2 /\ var k = M_gamma.var (k / 2)%R 2 /\ mode k = M_gamma.mode (k / 2)%R 2 /\ entropy k = M_gamma.entropy (k / 2)%R 2 /\
  forall n, noncentral_moment n k = M_gamma.noncentral_moment n (k / 2)%R 2.
Proof. first [exact P_chi2.is_gamma | intros; apply P_chi2.is_gamma; assumption]. Qed.
Print Assumptions C45_chi2.
Example C45_chi2_instance := C45_chi2 (3) ltac:(inst) .

(** C65: k > 2: logpdf(0) = log pdf(0). *)
Theorem C65_chi2_partial : forall k : R, 0 < k -> 2 < k -> log_of (fun x => pdf x k) (fun x => logpdf x k) 0.
Proof. first [exact P_chi2.log_end | intros; apply P_chi2.log_end; assumption]. Qed.
Print Assumptions C65_chi2_partial.
Example C65_chi2_partial_instance := C65_chi2_partial (3) ltac:(inst) ltac:(inst).

(** C65: k = 2: pdf(0) = 1/2 but logpdf(0) is nan. *)
Theorem C65_chi2_refuted : forall k : R, 0 < k -> k = 2 -> pdf 0 k = Fin (1 / 2) /\ logpdf 0 k = NaN.
Proof. first [exact P_chi2.log_two | intros; apply P_chi2.log_two; assumption]. Qed.
Print Assumptions C65_chi2_refuted.
Example C65_chi2_refuted_instance : pdf 0 2 = Fin (1 / 2) /\ logpdf 0 2 = NaN.
Proof. apply (C65_chi2_refuted 2); lra. Qed.

(** C72: any k returned is the only solution.  Missing: that there is a solution, and that it is returned. *)
Theorem C72_chi2_partial : forall fr fuel x p k,
  checked_solver fr -> 0 < x ->
  (invcdf_k fr fuel (Fin x) (Fin p) = Fin k -> 0 < k /\ cdf (Fin x) (Fin k) = Fin p /\ forall j, cdf (Fin x) (Fin j) = Fin p -> j = k) /\
  (invsf_k fr fuel (Fin x) (Fin p) = Fin k -> 0 < k /\ sf (Fin x) (Fin k) = Fin p /\ forall j, sf (Fin x) (Fin j) = Fin p -> j = k).
Proof. first [exact P_chi2.inv_k_sound | intros; apply P_chi2.inv_k_sound; assumption]. Qed.
Print Assumptions C72_chi2_partial.
Example C72_chi2_partial_instance : exists fr p, checked_solver fr /\ invcdf_k fr 1 (Fin 1) (Fin p) = Fin 1.
Proof. exact P_chi2.inv_k_case. Qed.

