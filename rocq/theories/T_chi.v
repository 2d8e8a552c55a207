(** Properties of mpsci.distributions.chi (generated by tools/mkthm.py). *)
From Coq Require Import Reals Lra List.
From Coquelicot Require Import Coquelicot.
From Verif Require Import Values Spec SpecStat SpecEst VTac TTac DistLib.
From Verif Require M_chi2.
From Verif Require Import M_chi.
From Verif Require P_chi.
Import ListNotations.
Local Open Scope R_scope.

Theorem C30_chi : forall k : R, 0 < k -> 
  complementary (fun x => M_chi.cdf x k) (fun x => M_chi.sf x k).
Proof. exact (fun k H0 => cert_complementary (P_chi.CERT k H0)). Qed.
Print Assumptions C30_chi.
Example C30_chi_instance : complementary (fun x => M_chi.cdf x (3)) (fun x => M_chi.sf x (3)).
Proof. exact (C30_chi (3) ltac:(side)). Qed.

Theorem C31_chi : forall k : R, 0 < k -> 
  nondecreasing (fun x => M_chi.cdf x k) /\ supported_on (fun x => M_chi.cdf x k) (Fin (0)) PInf /\
  M_chi.support k = Ok ((Fin (0)), PInf).
Proof. intros k H0. split; [exact (cert_nondecreasing (P_chi.CERT k H0))|split; [exact (cert_supported (P_chi.CERT k H0))|unfold M_chi.support, M_chi.validate_k; supp]]. Qed.
Print Assumptions C31_chi.
Example C31_chi_instance : nondecreasing (fun x => M_chi.cdf x (3)) /\ supported_on (fun x => M_chi.cdf x (3)) (Fin (0)) PInf /\
  M_chi.support (3) = Ok ((Fin (0)), PInf).
Proof. exact (C31_chi (3) ltac:(side)). Qed.

Theorem C32_chi : forall k : R, 0 < k -> 
  density_of (fun x => M_chi.cdf x k) (fun x => M_chi.pdf x k) 0 p_infty.
Proof. exact (fun k H0 => cert_density (P_chi.CERT k H0)). Qed.
Print Assumptions C32_chi.
Example C32_chi_instance : density_of (fun x => M_chi.cdf x (3)) (fun x => M_chi.pdf x (3)) 0 p_infty.
Proof. exact (C32_chi (3) ltac:(side)). Qed.

Theorem C33_chi : forall k : R, 0 < k -> 
  total_mass_one (fun x => M_chi.pdf x k) 0 p_infty.
Proof. exact (fun k H0 => cert_total_mass (P_chi.CERT k H0)). Qed.
Print Assumptions C33_chi.
Example C33_chi_instance : total_mass_one (fun x => M_chi.pdf x (3)) 0 p_infty.
Proof. exact (C33_chi (3) ltac:(side)). Qed.

Theorem C34_chi : forall k : R, 0 < k -> 
  forall x : R, Finite (0) <> Finite x -> p_infty <> Finite x -> log_of (fun x => M_chi.pdf x k) (fun x => M_chi.logpdf x k) (Fin x).
Proof. exact (fun k H0 => cert_log (P_chi.CERT k H0)). Qed.
Print Assumptions C34_chi.
Example C34_chi_instance : forall x : R, Finite (0) <> Finite x -> p_infty <> Finite x -> log_of (fun x => M_chi.pdf x (3)) (fun x => M_chi.logpdf x (3)) (Fin x).
Proof. exact (C34_chi (3) ltac:(side)). Qed.

(** C38: invalid degrees of freedom are rejected. *)
Theorem C38_chi : forall k,
  isnum k -> nonpositive k -> support k = Err ValueError /\
  always_ValueError [ fun x => pdf x k; fun x => logpdf x k; fun x => cdf x k; fun x => sf x k;
    fun _ => mean k; fun _ => mode k; fun _ => var k; fun _ => entropy k; fun _ => noncentral_moment 2 k ].
Proof. first [exact P_chi.bad_params | intros; apply P_chi.bad_params; assumption]. Qed.
Print Assumptions C38_chi.
Example C38_chi_instance := C38_chi  (Fin 0) ltac:(inst) ltac:(inst).

(** C39: the mode, when the density is bounded. *)
Theorem C39_chi : forall k : R, 0 < k -> 1 < k -> is_mode (fun x => pdf x k) (mode k).
Proof. first [exact P_chi.mode_ok | intros; apply P_chi.mode_ok; assumption]. Qed.
Print Assumptions C39_chi.
Example C39_chi_instance := C39_chi (3) ltac:(inst) ltac:(inst).

(** C39: for k <= 1 the density decreases on the support and mode is its lower end. *)
Theorem C39_chi_small : forall k : R, 0 < k -> k <= 1 -> mode k = Fin 0 /\ forall x y : R, 0 < x -> x <= y -> toR (pdf y k) <= toR (pdf x k).
Proof. first [exact P_chi.mode_small | intros; apply P_chi.mode_small; assumption]. Qed.
Print Assumptions C39_chi_small.
Example C39_chi_small_instance : forall x y : R, 0 < x -> x <= y -> toR (pdf y (1/2)%R) <= toR (pdf x (1/2)%R).
Proof. refine (proj2 (C39_chi_small (1/2) _ _)); lra. Qed.

(** C43: mean. *)
Theorem C43_chi_mean : forall k : R, 0 < k -> mean_is (fun x => pdf x k) 0 p_infty (mean k).
Proof. first [exact P_chi.mean_ok | intros; apply P_chi.mean_ok; assumption]. Qed.
Print Assumptions C43_chi_mean.
Example C43_chi_mean_instance := C43_chi_mean (3) ltac:(inst) .

(** C43: variance. *)
Theorem C43_chi_var : forall k : R, 0 < k -> var_is (fun x => pdf x k) 0 p_infty (mean k) (var k).
Proof. first [exact P_chi.var_ok | intros; apply P_chi.var_ok; assumption]. Qed.
Print Assumptions C43_chi_var.
Example C43_chi_var_instance := C43_chi_var (3) ltac:(inst) .

(** C43: every non-central moment. *)
Theorem C43_chi_moments : forall k : R, 0 < k -> forall n,
  moment_is (fun x => pdf x k) 0 p_infty n (noncentral_moment n k).
Proof. first [exact P_chi.moment_ok | intros; apply P_chi.moment_ok; assumption]. Qed.
Print Assumptions C43_chi_moments.
Example C43_chi_moments_instance := C43_chi_moments (3) ltac:(inst) 5%nat.

(** C43: entropy. *)
Theorem C43_chi_entropy : forall k : R, 0 < k -> entropy_is (fun x => pdf x k) 0 p_infty (entropy k).
Proof. first [exact P_chi.entropy_ok | intros; apply P_chi.entropy_ok; assumption]. Qed.
Print Assumptions C43_chi_entropy.
Example C43_chi_entropy_instance := C43_chi_entropy (3) ltac:(inst) .

(** C45: the square of a chi variable is chi2. *)
Theorem C45_chi : forall k : R, 0 < k -> forall x : R, 0 <= x -> cdf x k = M_chi2.cdf (Fin (x ^ 2)) k /\ sf x k = M_chi2.sf (Fin (x ^ 2)) k.
Proof. first [exact P_chi.is_chi2 | intros; apply P_chi.is_chi2; assumption]. Qed.
Print Assumptions C45_chi.
Example C45_chi_instance := C45_chi (3) ltac:(inst) 2 ltac:(inst).

(** C65: k > 1: logpdf(0) = log pdf(0). *)
Theorem C65_chi_partial : forall k : R, 0 < k -> 1 < k -> log_of (fun x => pdf x k) (fun x => logpdf x k) 0.
Proof. first [exact P_chi.log_end | intros; apply P_chi.log_end; assumption]. Qed.
Print Assumptions C65_chi_partial.
Example C65_chi_partial_instance := C65_chi_partial (3) ltac:(inst) ltac:(inst).

(** C65: k = 1: the density at 0 is sqrt(2/pi) but both functions return nan. *)
Theorem C65_chi_refuted : forall k : R, 0 < k -> k = 1 -> pdf 0 k = NaN /\ logpdf 0 k = NaN.
Proof. first [exact P_chi.log_one | intros; apply P_chi.log_one; assumption]. Qed.
Print Assumptions C65_chi_refuted.
Example C65_chi_refuted_instance : pdf 0 1 = NaN /\ logpdf 0 1 = NaN.
Proof. apply (C65_chi_refuted 1); lra. Qed.

