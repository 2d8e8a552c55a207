(** Properties of mpsci.distributions.invgamma (generated by tools/mkthm.py). *)
From Coq Require Import Reals Lra List.
From Coquelicot Require Import Coquelicot.
From Verif Require Import Values Spec SpecStat SpecEst VTac TTac DistLib.
From Coq Require Import ZArith.
From Verif Require Import SpecNewton SpecLS.
From Verif Require Import M_invgamma.
From Verif Require P_invgamma.
Import ListNotations.
Local Open Scope R_scope.

Theorem C30_invgamma : forall a l s : R, 0 < a -> 0 < s -> 
  complementary (fun x => M_invgamma.cdf x a l s) (fun x => M_invgamma.sf x a l s).
Proof. exact (fun a l s H0 H1 => cert_complementary (P_invgamma.CERT a l s H0 H1)). Qed.
Print Assumptions C30_invgamma.
Example C30_invgamma_instance : complementary (fun x => M_invgamma.cdf x (2) (1) (3)) (fun x => M_invgamma.sf x (2) (1) (3)).
Proof. exact (C30_invgamma (2) (1) (3) ltac:(side) ltac:(side)). Qed.

Theorem C31_invgamma : forall a l s : R, 0 < a -> 0 < s -> 
  nondecreasing (fun x => M_invgamma.cdf x a l s) /\ supported_on (fun x => M_invgamma.cdf x a l s) (Fin (l)) PInf /\
  M_invgamma.support a l s = Ok ((Fin (l)), PInf).
Proof. intros a l s H0 H1. split; [exact (cert_nondecreasing (P_invgamma.CERT a l s H0 H1))|split; [exact (cert_supported (P_invgamma.CERT a l s H0 H1))|unfold M_invgamma.support, M_invgamma.validate_params; supp]]. Qed.
Print Assumptions C31_invgamma.
Example C31_invgamma_instance : nondecreasing (fun x => M_invgamma.cdf x (2) (1) (3)) /\ supported_on (fun x => M_invgamma.cdf x (2) (1) (3)) (Fin ((1))) PInf /\
  M_invgamma.support (2) (1) (3) = Ok ((Fin ((1))), PInf).
Proof. exact (C31_invgamma (2) (1) (3) ltac:(side) ltac:(side)). Qed.

Theorem C32_invgamma : forall a l s : R, 0 < a -> 0 < s -> 
  density_of (fun x => M_invgamma.cdf x a l s) (fun x => M_invgamma.pdf x a l s) l p_infty.
Proof. exact (fun a l s H0 H1 => cert_density (P_invgamma.CERT a l s H0 H1)). Qed.
Print Assumptions C32_invgamma.
Example C32_invgamma_instance : density_of (fun x => M_invgamma.cdf x (2) (1) (3)) (fun x => M_invgamma.pdf x (2) (1) (3)) (1) p_infty.
Proof. exact (C32_invgamma (2) (1) (3) ltac:(side) ltac:(side)). Qed.

Theorem C33_invgamma : forall a l s : R, 0 < a -> 0 < s -> 
  total_mass_one (fun x => M_invgamma.pdf x a l s) l p_infty.
Proof. exact (fun a l s H0 H1 => cert_total_mass (P_invgamma.CERT a l s H0 H1)). Qed.
Print Assumptions C33_invgamma.
Example C33_invgamma_instance : total_mass_one (fun x => M_invgamma.pdf x (2) (1) (3)) (1) p_infty.
Proof. exact (C33_invgamma (2) (1) (3) ltac:(side) ltac:(side)). Qed.

Theorem C34_invgamma : forall a l s : R, 0 < a -> 0 < s -> 
  forall x : R, log_of (fun x => M_invgamma.pdf x a l s) (fun x => M_invgamma.logpdf x a l s) (Fin x).
Proof. exact (fun a l s H0 H1 => P_invgamma.log_all a l s H0 H1). Qed.
Print Assumptions C34_invgamma.
Example C34_invgamma_instance : forall x : R, log_of (fun x => M_invgamma.pdf x (2) (1) (3)) (fun x => M_invgamma.logpdf x (2) (1) (3)) (Fin x).
Proof. exact (C34_invgamma (2) (1) (3) ltac:(side) ltac:(side)). Qed.

Theorem C39_invgamma : forall a l s : R, 0 < a -> 0 < s -> 
  is_mode (fun x => M_invgamma.pdf x a l s) (M_invgamma.mode a l s).
Proof. exact (fun a l s H0 H1 => P_invgamma.mode_ok a l s H0 H1). Qed.
Print Assumptions C39_invgamma.
Example C39_invgamma_instance : is_mode (fun x => M_invgamma.pdf x (2) (1) (3)) (M_invgamma.mode (2) (1) (3)).
Proof. exact (C39_invgamma (2) (1) (3) ltac:(side) ltac:(side)). Qed.

(** C26: for 0 < p < 1 the iterates of invcdf (and of invsf, for 1 - p) stay inside the support, move monotonically to the quantile after the first step, and the loop stops with a value within the tolerance. *)
Theorem C26_invgamma : forall a l s : R, 0 < a -> 0 < s -> forall (p : R) (prec : Z),
  0 < p < 1 -> exists m, mode a l s = Fin m /\
  newton_monotone (fun x => cdf x a l s) (fun x => pdf x a l s) l m p prec (fun fuel => invcdf prec fuel p a l s) /\
  newton_monotone (fun x => cdf x a l s) (fun x => pdf x a l s) l m (1 - p) prec (fun fuel => invsf prec fuel p a l s).
Proof. first [exact P_invgamma.newton_ok | intros; apply P_invgamma.newton_ok; assumption]. Qed.
Print Assumptions C26_invgamma.
Example C26_invgamma_instance := C26_invgamma (2) (1) (3) ltac:(inst) ltac:(inst) (1/3) 53%Z ltac:(inst).

(** C37: p outside [0,1] is rejected; 0 and 1 go to the ends of the support. *)
Theorem C37_invgamma : forall a l s : R, 0 < a -> 0 < s -> forall prec fuel,
  rejects_bad_p (fun p => invcdf prec fuel p a l s) /\ rejects_bad_p (fun p => invsf prec fuel p a l s) /\
  at_ends (fun p => invcdf prec fuel p a l s) (Fin l) PInf /\ at_ends (fun p => invsf prec fuel p a l s) PInf (Fin l).
Proof. first [exact P_invgamma.ends | intros; apply P_invgamma.ends; assumption]. Qed.
Print Assumptions C37_invgamma.
Example C37_invgamma_instance := C37_invgamma (2) (1) (3) ltac:(inst) ltac:(inst) 53%Z 100%nat.

(** C38: invalid shape or scale is rejected. *)
Theorem C38_invgamma : forall prec fuel a l s,
  isnum a -> isnum s -> nonpositive a \/ nonpositive s ->
  support a l s = Err ValueError /\
  always_ValueError [ fun x => pdf x a l s; fun x => logpdf x a l s; fun x => cdf x a l s; fun x => sf x a l s;
    fun p => invcdf prec fuel p a l s; fun p => invsf prec fuel p a l s; fun _ => mean a l s; fun _ => mode a l s; fun _ => var a l s;
    fun _ => skewness a l s; fun _ => kurtosis a l s; fun _ => entropy a l s; fun _ => noncentral_moment 2 a l s ].
Proof. first [exact P_invgamma.bad_params | intros; apply P_invgamma.bad_params; assumption]. Qed.
Print Assumptions C38_invgamma.
Example C38_invgamma_instance := C38_invgamma  53%Z 100%nat (Fin 1) (Fin 0) (Fin 0) ltac:(inst) ltac:(inst) ltac:(inst).

(** C43: mean. *)
Theorem C43_invgamma_mean : forall a l s : R, 0 < a -> 0 < s -> 1 < a -> mean_is (fun x => pdf x a l s) l p_infty (mean a l s).
Proof. first [exact P_invgamma.mean_ok | intros; apply P_invgamma.mean_ok; assumption]. Qed.
Print Assumptions C43_invgamma_mean.
Example C43_invgamma_mean_instance := C43_invgamma_mean (2) (1) (3) ltac:(inst) ltac:(inst) ltac:(inst).

(** C43: variance. *)
Theorem C43_invgamma_var : forall a l s : R, 0 < a -> 0 < s -> 2 < a -> var_is (fun x => pdf x a l s) l p_infty (mean a l s) (var a l s).
Proof. first [exact P_invgamma.var_ok | intros; apply P_invgamma.var_ok; assumption]. Qed.
Print Assumptions C43_invgamma_var.
Example C43_invgamma_var_instance : var_is (fun x => M_invgamma.pdf x 5 1 3) 1 p_infty (M_invgamma.mean 5 1 3) (M_invgamma.var 5 1 3).
Proof. apply C43_invgamma_var; lra. Qed.

(** C43: skewness. *)
Theorem C43_invgamma_skewness : forall a l s : R, 0 < a -> 0 < s -> 3 < a -> skewness_is (fun x => pdf x a l s) l p_infty (skewness a l s).
Proof. first [exact P_invgamma.skew_ok | intros; apply P_invgamma.skew_ok; assumption]. Qed.
Print Assumptions C43_invgamma_skewness.
Example C43_invgamma_skewness_instance : skewness_is (fun x => M_invgamma.pdf x 5 1 3) 1 p_infty (M_invgamma.skewness 5 1 3).
Proof. apply C43_invgamma_skewness; lra. Qed.

(** C43: excess kurtosis. *)
Theorem C43_invgamma_kurtosis : forall a l s : R, 0 < a -> 0 < s -> 4 < a -> kurtosis_is (fun x => pdf x a l s) l p_infty (kurtosis a l s).
Proof. first [exact P_invgamma.kurt_ok | intros; apply P_invgamma.kurt_ok; assumption]. Qed.
Print Assumptions C43_invgamma_kurtosis.
Example C43_invgamma_kurtosis_instance : kurtosis_is (fun x => M_invgamma.pdf x 5 1 3) 1 p_infty (M_invgamma.kurtosis 5 1 3).
Proof. apply C43_invgamma_kurtosis; lra. Qed.

(** C43: every non-central moment that exists. *)
Theorem C43_invgamma_moments : forall a l s : R, 0 < a -> 0 < s -> forall n,
  INR n < a -> moment_is (fun x => pdf x a l s) l p_infty n (noncentral_moment n a l s).
Proof. first [exact P_invgamma.moment_ok | intros; apply P_invgamma.moment_ok; assumption]. Qed.
Print Assumptions C43_invgamma_moments.
Example C43_invgamma_moments_instance := C43_invgamma_moments (2) (1) (3) ltac:(inst) ltac:(inst) 1%nat ltac:(inst).

(** C43: nan where the moment does not exist. *)
Theorem C43_invgamma_nan : forall a l s : R, 0 < a -> 0 < s -> (a <= 1 -> mean a l s = NaN) /\ (a <= 2 -> var a l s = NaN) /\ (a <= 3 -> skewness a l s = NaN) /\ (a <= 4 -> kurtosis a l s = NaN).
Proof. first [exact P_invgamma.moments_nan | intros; apply P_invgamma.moments_nan; assumption]. Qed.
Print Assumptions C43_invgamma_nan.
Example C43_invgamma_nan_instance := C43_invgamma_nan (2) (1) (3) ltac:(inst) ltac:(inst) .

(** C43: entropy. *)
Theorem C43_invgamma_entropy : forall a l s : R, 0 < a -> 0 < s -> entropy_is (fun x => pdf x a l s) l p_infty (entropy a l s).
Proof. first [exact P_invgamma.entropy_ok | intros; apply P_invgamma.entropy_ok; assumption]. Qed.
Print Assumptions C43_invgamma_entropy.
Example C43_invgamma_entropy_instance := C43_invgamma_entropy (2) (1) (3) ltac:(inst) ltac:(inst) .

(** C44: location and scale. *)
Theorem C44_invgamma : forall (a : R),
  0 < a ->
  loc_scale_law3 (fun x => pdf x a) (fun x => cdf x a) (fun x => sf x a) 0 p_infty.
Proof. first [exact P_invgamma.loc_scale | intros; apply P_invgamma.loc_scale; assumption]. Qed.
Print Assumptions C44_invgamma.
Example C44_invgamma_instance := C44_invgamma  (2) ltac:(inst).

