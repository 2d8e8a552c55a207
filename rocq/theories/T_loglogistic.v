(** Properties of mpsci.distributions.loglogistic (generated by tools/mkthm.py). *)
From Coq Require Import Reals Lra List.
From Coquelicot Require Import Coquelicot.
From Verif Require Import Values Spec SpecStat SpecEst VTac TTac DistLib.
From Verif Require M_burr12.
From Verif Require Import M_loglogistic.
From Verif Require P_loglogistic.
Import ListNotations.
Local Open Scope R_scope.

Theorem C30_loglogistic : forall b s : R, 0 < b -> 0 < s -> 
  complementary (fun x => M_loglogistic.cdf x b s) (fun x => M_loglogistic.sf x b s).
Proof. exact (fun b s H0 H1 => cert_complementary (P_loglogistic.CERT b s H0 H1)). Qed.
Print Assumptions C30_loglogistic.
Example C30_loglogistic_instance : complementary (fun x => M_loglogistic.cdf x (3) (2)) (fun x => M_loglogistic.sf x (3) (2)).
Proof. exact (C30_loglogistic (3) (2) ltac:(side) ltac:(side)). Qed.

Theorem C31_loglogistic : forall b s : R, 0 < b -> 0 < s -> 
  nondecreasing (fun x => M_loglogistic.cdf x b s) /\ supported_on (fun x => M_loglogistic.cdf x b s) (Fin (0)) PInf /\
  M_loglogistic.support b s = Ok ((Fin (0)), PInf).
Proof. intros b s H0 H1. split; [exact (cert_nondecreasing (P_loglogistic.CERT b s H0 H1))|split; [exact (cert_supported (P_loglogistic.CERT b s H0 H1))|unfold M_loglogistic.support, M_loglogistic.validate; supp]]. Qed.
Print Assumptions C31_loglogistic.
Example C31_loglogistic_instance : nondecreasing (fun x => M_loglogistic.cdf x (3) (2)) /\ supported_on (fun x => M_loglogistic.cdf x (3) (2)) (Fin (0)) PInf /\
  M_loglogistic.support (3) (2) = Ok ((Fin (0)), PInf).
Proof. exact (C31_loglogistic (3) (2) ltac:(side) ltac:(side)). Qed.

Theorem C32_loglogistic : forall b s : R, 0 < b -> 0 < s -> 
  density_of (fun x => M_loglogistic.cdf x b s) (fun x => M_loglogistic.pdf x b s) 0 p_infty.
Proof. exact (fun b s H0 H1 => cert_density (P_loglogistic.CERT b s H0 H1)). Qed.
Print Assumptions C32_loglogistic.
Example C32_loglogistic_instance : density_of (fun x => M_loglogistic.cdf x (3) (2)) (fun x => M_loglogistic.pdf x (3) (2)) 0 p_infty.
Proof. exact (C32_loglogistic (3) (2) ltac:(side) ltac:(side)). Qed.

Theorem C33_loglogistic : forall b s : R, 0 < b -> 0 < s -> 
  total_mass_one (fun x => M_loglogistic.pdf x b s) 0 p_infty.
Proof. exact (fun b s H0 H1 => cert_total_mass (P_loglogistic.CERT b s H0 H1)). Qed.
Print Assumptions C33_loglogistic.
Example C33_loglogistic_instance : total_mass_one (fun x => M_loglogistic.pdf x (3) (2)) 0 p_infty.
Proof. exact (C33_loglogistic (3) (2) ltac:(side) ltac:(side)). Qed.

Theorem C34_loglogistic : forall b s : R, 0 < b -> 0 < s -> 
  forall x : R, log_of (fun x => M_loglogistic.pdf x b s) (fun x => M_loglogistic.logpdf x b s) (Fin x).
Proof. exact (fun b s H0 H1 => P_loglogistic.log_all b s H0 H1). Qed.
Print Assumptions C34_loglogistic.
Example C34_loglogistic_instance : forall x : R, log_of (fun x => M_loglogistic.pdf x (3) (2)) (fun x => M_loglogistic.logpdf x (3) (2)) (Fin x).
Proof. exact (C34_loglogistic (3) (2) ltac:(side) ltac:(side)). Qed.

Theorem C35_loglogistic : forall b s : R, 0 < b -> 0 < s -> 
  inverse_of (fun x => M_loglogistic.cdf x b s) (fun x => M_loglogistic.invcdf x b s) 0 p_infty.
Proof. exact (fun b s H0 H1 => cert_inverse (P_loglogistic.CERT b s H0 H1)). Qed.
Print Assumptions C35_loglogistic.
Example C35_loglogistic_instance : inverse_of (fun x => M_loglogistic.cdf x (3) (2)) (fun x => M_loglogistic.invcdf x (3) (2)) 0 p_infty.
Proof. exact (C35_loglogistic (3) (2) ltac:(side) ltac:(side)). Qed.

Theorem C36_loglogistic : forall b s : R, 0 < b -> 0 < s -> 
  inverse_of (fun x => M_loglogistic.sf x b s) (fun x => M_loglogistic.invsf x b s) 0 p_infty /\
  (forall p, 0 < p < 1 -> M_loglogistic.invsf (Fin p) b s = M_loglogistic.invcdf (Fin (1 - p)) b s).
Proof. exact (fun b s H0 H1 => conj (cert_inverse_sf (P_loglogistic.CERT b s H0 H1)) (cert_invsf_invcdf (P_loglogistic.CERT b s H0 H1))). Qed.
Print Assumptions C36_loglogistic.
Example C36_loglogistic_instance : inverse_of (fun x => M_loglogistic.sf x (3) (2)) (fun x => M_loglogistic.invsf x (3) (2)) 0 p_infty /\
  (forall p, 0 < p < 1 -> M_loglogistic.invsf (Fin p) (3) (2) = M_loglogistic.invcdf (Fin (1 - p)) (3) (2)).
Proof. exact (C36_loglogistic (3) (2) ltac:(side) ltac:(side)). Qed.

Theorem C37_loglogistic : forall b s : R, 0 < b -> 0 < s -> 
  rejects_bad_p (fun x => M_loglogistic.invcdf x b s) /\ rejects_bad_p (fun x => M_loglogistic.invsf x b s) /\
  at_ends (fun x => M_loglogistic.invcdf x b s) (Fin 0) PInf /\ at_ends (fun x => M_loglogistic.invsf x b s) PInf (Fin 0).
Proof. exact (fun b s H0 H1 => P_loglogistic.ends b s H0 H1). Qed.
Print Assumptions C37_loglogistic.
Example C37_loglogistic_instance : rejects_bad_p (fun x => M_loglogistic.invcdf x (3) (2)) /\ rejects_bad_p (fun x => M_loglogistic.invsf x (3) (2)) /\
  at_ends (fun x => M_loglogistic.invcdf x (3) (2)) (Fin 0) PInf /\ at_ends (fun x => M_loglogistic.invsf x (3) (2)) PInf (Fin 0).
Proof. exact (C37_loglogistic (3) (2) ltac:(side) ltac:(side)). Qed.

(** C38: a shape or scale that is not positive is rejected by every function. *)
Theorem C38_loglogistic : forall sincpi sinc b s,
  isnum b -> isnum s -> nonpositive b \/ nonpositive s ->
  support b s = Err ValueError /\
  always_ValueError [ fun x => pdf x b s; fun x => logpdf x b s; fun x => cdf x b s; fun x => sf x b s;
    fun p => invcdf p b s; fun p => invsf p b s; fun _ => mean sincpi b s; fun _ => var sincpi b s ] /\
  forall n, noncentral_moment sinc n b s = Exc ValueError.
Proof. first [exact P_loglogistic.bad_params | intros; apply P_loglogistic.bad_params; assumption]. Qed.
Print Assumptions C38_loglogistic.
Example C38_loglogistic_instance := C38_loglogistic  (fun v => v) (fun v => v) (Fin 0) (Fin 1) ltac:(inst) ltac:(inst) ltac:(inst).

(** C43: mean for beta > 1. *)
Theorem C43_loglogistic_mean : forall b s : R, 0 < b -> 0 < s -> 1 < b -> mean_is (fun x => pdf x b s) 0 p_infty (mean vsincpi b s).
Proof. first [exact P_loglogistic.mean_ok | intros; apply P_loglogistic.mean_ok; assumption]. Qed.
Print Assumptions C43_loglogistic_mean.
Example C43_loglogistic_mean_instance := C43_loglogistic_mean (3) (2) ltac:(inst) ltac:(inst) ltac:(inst).

(** C43: variance for beta > 2. *)
Theorem C43_loglogistic_var : forall b s : R, 0 < b -> 0 < s -> 2 < b -> var_is (fun x => pdf x b s) 0 p_infty (mean vsincpi b s) (var vsincpi b s).
Proof. first [exact P_loglogistic.var_ok | intros; apply P_loglogistic.var_ok; assumption]. Qed.
Print Assumptions C43_loglogistic_var.
Example C43_loglogistic_var_instance := C43_loglogistic_var (3) (2) ltac:(inst) ltac:(inst) ltac:(inst).

(** C43: every raw moment of order n < beta ... *)
Theorem C43_loglogistic_moments : forall b s : R, 0 < b -> 0 < s -> forall n,
  INR n < b -> moment_is (fun x => pdf x b s) 0 p_infty n (noncentral_moment vsinc n b s).
Proof. first [exact P_loglogistic.moment_ok | intros; apply P_loglogistic.moment_ok; assumption]. Qed.
Print Assumptions C43_loglogistic_moments.
Example C43_loglogistic_moments_instance := C43_loglogistic_moments (3) (2) ltac:(inst) ltac:(inst) 2%nat ltac:(simpl; lra).

(** C43: ... and nan is returned where the moment does not exist. *)
Theorem C43_loglogistic_nan : forall b s : R, 0 < b -> 0 < s -> forall sp sc n,
  (b <= 1 -> mean sp b s = NaN) /\ (b <= 2 -> var sp b s = NaN) /\ (b <= INR n -> noncentral_moment sc n b s = NaN).
Proof. first [exact P_loglogistic.moment_nan | intros; apply P_loglogistic.moment_nan; assumption]. Qed.
Print Assumptions C43_loglogistic_nan.
Example C43_loglogistic_nan_instance := C43_loglogistic_nan (3) (2) ltac:(inst) ltac:(inst) vsincpi vsinc 5%nat.

(** C44: scale. *)
Theorem C44_loglogistic : forall (b : R),
  0 < b ->
  scale_law (fun x s => pdf x b s) (fun x s => cdf x b s) (fun x s => sf x b s)
    (fun p s => invcdf p b s) (fun p s => invsf p b s) 0 p_infty.
Proof. first [exact P_loglogistic.scale_ok | intros; apply P_loglogistic.scale_ok; assumption]. Qed.
Print Assumptions C44_loglogistic.
Example C44_loglogistic_instance := C44_loglogistic  1 ltac:(inst).

(** C45: the log-logistic law is the Burr XII law with d = 1. *)
Theorem C45_loglogistic : forall b s : R, 0 < b -> 0 < s -> forall (x : R),
  cdf x b s = M_burr12.cdf x b 1 s /\ sf x b s = M_burr12.sf x b 1 s /\
  pdf x b s = M_burr12.pdf x b 1 s /\ logpdf x b s = M_burr12.logpdf x b 1 s.
Proof. first [exact P_loglogistic.as_burr | intros; apply P_loglogistic.as_burr; assumption]. Qed.
Print Assumptions C45_loglogistic.
Example C45_loglogistic_instance := C45_loglogistic (3) (2) ltac:(inst) ltac:(inst) 4.

(** C45: quantiles. *)
Theorem C45_loglogistic_quantile : forall b s : R, 0 < b -> 0 < s -> forall p,
  0 < p < 1 -> invcdf p b s = M_burr12.invcdf p b 1 s /\ invsf p b s = M_burr12.invsf p b 1 s.
Proof. first [exact P_loglogistic.as_burr_inv | intros; apply P_loglogistic.as_burr_inv; assumption]. Qed.
Print Assumptions C45_loglogistic_quantile.
Example C45_loglogistic_quantile_instance := C45_loglogistic_quantile (3) (2) ltac:(inst) ltac:(inst) (1/3) ltac:(inst).

