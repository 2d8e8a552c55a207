(** Properties of mpsci.distributions.invchi2 (generated by tools/mkthm.py). *)
From Coq Require Import Reals Lra List.
From Coquelicot Require Import Coquelicot.
From Verif Require Import Values Spec SpecStat SpecEst VTac TTac DistLib.
From Verif Require M_invgamma M_chi2.
From Verif Require Import M_invchi2.
From Verif Require P_invchi2.
Import ListNotations.
Local Open Scope R_scope.

Theorem C30_invchi2 : forall n : R, 0 < n -> 
  complementary (fun x => M_invchi2.cdf x n) (fun x => M_invchi2.sf x n).
Proof. exact (fun n H0 => cert_complementary (P_invchi2.CERT n H0)). Qed.
Print Assumptions C30_invchi2.
Example C30_invchi2_instance : complementary (fun x => M_invchi2.cdf x (5)) (fun x => M_invchi2.sf x (5)).
Proof. exact (C30_invchi2 (5) ltac:(side)). Qed.

Theorem C31_invchi2 : forall n : R, 0 < n -> 
  nondecreasing (fun x => M_invchi2.cdf x n) /\ supported_on (fun x => M_invchi2.cdf x n) (Fin (0)) PInf /\
  M_invchi2.support n = Ok ((Fin (0)), PInf).
Proof. intros n H0. split; [exact (cert_nondecreasing (P_invchi2.CERT n H0))|split; [exact (cert_supported (P_invchi2.CERT n H0))|unfold M_invchi2.support, M_invchi2.validate_nu; supp]]. Qed.
Print Assumptions C31_invchi2.
Example C31_invchi2_instance : nondecreasing (fun x => M_invchi2.cdf x (5)) /\ supported_on (fun x => M_invchi2.cdf x (5)) (Fin (0)) PInf /\
  M_invchi2.support (5) = Ok ((Fin (0)), PInf).
Proof. exact (C31_invchi2 (5) ltac:(side)). Qed.

Theorem C32_invchi2 : forall n : R, 0 < n -> 
  density_of (fun x => M_invchi2.cdf x n) (fun x => M_invchi2.pdf x n) 0 p_infty.
Proof. exact (fun n H0 => cert_density (P_invchi2.CERT n H0)). Qed.
Print Assumptions C32_invchi2.
Example C32_invchi2_instance : density_of (fun x => M_invchi2.cdf x (5)) (fun x => M_invchi2.pdf x (5)) 0 p_infty.
Proof. exact (C32_invchi2 (5) ltac:(side)). Qed.

Theorem C33_invchi2 : forall n : R, 0 < n -> 
  total_mass_one (fun x => M_invchi2.pdf x n) 0 p_infty.
Proof. exact (fun n H0 => cert_total_mass (P_invchi2.CERT n H0)). Qed.
Print Assumptions C33_invchi2.
Example C33_invchi2_instance : total_mass_one (fun x => M_invchi2.pdf x (5)) 0 p_infty.
Proof. exact (C33_invchi2 (5) ltac:(side)). Qed.

Theorem C34_invchi2 : forall n : R, 0 < n -> 
  forall x : R, log_of (fun x => M_invchi2.pdf x n) (fun x => M_invchi2.logpdf x n) (Fin x).
Proof. exact (fun n H0 => P_invchi2.log_all n H0). Qed.
Print Assumptions C34_invchi2.
Example C34_invchi2_instance : forall x : R, log_of (fun x => M_invchi2.pdf x (5)) (fun x => M_invchi2.logpdf x (5)) (Fin x).
Proof. exact (C34_invchi2 (5) ltac:(side)). Qed.

Theorem C39_invchi2 : forall n : R, 0 < n -> 
  is_mode (fun x => M_invchi2.pdf x n) (M_invchi2.mode n).
Proof. exact (fun n H0 => P_invchi2.mode_ok n H0). Qed.
Print Assumptions C39_invchi2.
Example C39_invchi2_instance : is_mode (fun x => M_invchi2.pdf x (5)) (M_invchi2.mode (5)).
Proof. exact (C39_invchi2 (5) ltac:(side)). Qed.

(** C38: degrees of freedom that are not positive are rejected. *)
Theorem C38_invchi2 : forall (n : val),
  nonpositive n -> support n = Err ValueError /\
  always_ValueError [ fun x => pdf x n; fun x => logpdf x n; fun x => cdf x n; fun x => sf x n; fun _ => mean n; fun _ => mode n; fun _ => var n ].
Proof. first [exact P_invchi2.bad_params | intros; apply P_invchi2.bad_params; assumption]. Qed.
Print Assumptions C38_invchi2.
Example C38_invchi2_instance := C38_invchi2  (Fin 0) ltac:(inst).

(** C43: mean ... *)
Theorem C43_invchi2_mean : forall n : R, 0 < n -> 2 < n -> mean_is (fun x => pdf x n) 0 p_infty (mean n).
Proof. first [exact P_invchi2.mean_ok | intros; apply P_invchi2.mean_ok; assumption]. Qed.
Print Assumptions C43_invchi2_mean.
Example C43_invchi2_mean_instance := C43_invchi2_mean (5) ltac:(inst) ltac:(inst).

(** C43: ... and variance ... *)
Theorem C43_invchi2_var : forall n : R, 0 < n -> 4 < n -> var_is (fun x => pdf x n) 0 p_infty (mean n) (var n).
Proof. first [exact P_invchi2.var_ok | intros; apply P_invchi2.var_ok; assumption]. Qed.
Print Assumptions C43_invchi2_var.
Example C43_invchi2_var_instance := C43_invchi2_var (5) ltac:(inst) ltac:(inst).

(** C43: ... with nan where they do not exist. *)
Theorem C43_invchi2_nan : forall n : R, 0 < n -> (n <= 2 -> mean n = NaN) /\ (n <= 4 -> var n = NaN).
Proof. first [exact P_invchi2.moments_nan | intros; apply P_invchi2.moments_nan; assumption]. Qed.
Print Assumptions C43_invchi2_nan.
Example C43_invchi2_nan_instance := C43_invchi2_nan (5) ltac:(inst) .

(** C45: the law of 1/X for a chi-square X ... *)
Theorem C45_invchi2_chi2 : forall n : R, 0 < n -> forall (x : R),
  0 < x -> cdf x n = M_chi2.sf (/ x)%R n /\ sf x n = M_chi2.cdf (/ x)%R n.
Proof. first [exact P_invchi2.recip | intros; apply P_invchi2.recip; assumption]. Qed.
Print Assumptions C45_invchi2_chi2.
Example C45_invchi2_chi2_instance := C45_invchi2_chi2 (5) ltac:(inst) 2 ltac:(inst).

(** C45: ... which is the inverse gamma law with shape nu/2 and scale 1/2. *)
Theorem C45_invchi2_invgamma : forall n : R, 0 < n -> forall (x : R),
  pdf x n = M_invgamma.pdf x (n / 2)%R 0 (1 / 2)%R /\ logpdf x n = M_invgamma.logpdf x (n / 2)%R 0 (1 / 2)%R.
Proof. first [exact P_invchi2.pdf_same | intros; apply P_invchi2.pdf_same; assumption]. Qed.
Print Assumptions C45_invchi2_invgamma.
Example C45_invchi2_invgamma_instance := C45_invchi2_invgamma (5) ltac:(inst) 2.

