(** Properties of mpsci.distributions.lognormal (generated by tools/mkthm.py). *)
From Coq Require Import Reals Lra List.
From Coquelicot Require Import Coquelicot.
From Verif Require Import Values Spec SpecStat SpecEst VTac TTac DistLib.
From Verif Require M_normal.
From Verif Require Import M_lognormal.
From Verif Require P_lognormal.
Import ListNotations.
Local Open Scope R_scope.

Theorem C31_lognormal : forall l s : R, 0 < s -> 
  nondecreasing (fun x => M_lognormal.cdf x l s) /\ supported_on (fun x => M_lognormal.cdf x l s) (Fin (0)) PInf /\
  M_lognormal.support l s = Ok ((Fin (0)), PInf).
Proof. intros l s H0. split; [exact (cert_nondecreasing (P_lognormal.CERT l s H0))|split; [exact (cert_supported (P_lognormal.CERT l s H0))|unfold M_lognormal.support, M_lognormal.validate; supp]]. Qed.
Print Assumptions C31_lognormal.
Example C31_lognormal_instance : nondecreasing (fun x => M_lognormal.cdf x (1) (2)) /\ supported_on (fun x => M_lognormal.cdf x (1) (2)) (Fin (0)) PInf /\
  M_lognormal.support (1) (2) = Ok ((Fin (0)), PInf).
Proof. exact (C31_lognormal (1) (2) ltac:(side)). Qed.

Theorem C32_lognormal : forall l s : R, 0 < s -> 
  density_of (fun x => M_lognormal.cdf x l s) (fun x => M_lognormal.pdf x l s) 0 p_infty.
Proof. exact (fun l s H0 => cert_density (P_lognormal.CERT l s H0)). Qed.
Print Assumptions C32_lognormal.
Example C32_lognormal_instance : density_of (fun x => M_lognormal.cdf x (1) (2)) (fun x => M_lognormal.pdf x (1) (2)) 0 p_infty.
Proof. exact (C32_lognormal (1) (2) ltac:(side)). Qed.

Theorem C33_lognormal : forall l s : R, 0 < s -> 
  total_mass_one (fun x => M_lognormal.pdf x l s) 0 p_infty.
Proof. exact (fun l s H0 => cert_total_mass (P_lognormal.CERT l s H0)). Qed.
Print Assumptions C33_lognormal.
Example C33_lognormal_instance : total_mass_one (fun x => M_lognormal.pdf x (1) (2)) 0 p_infty.
Proof. exact (C33_lognormal (1) (2) ltac:(side)). Qed.

Theorem C34_lognormal : forall l s : R, 0 < s -> 
  forall x : R, log_of (fun x => M_lognormal.pdf x l s) (fun x => M_lognormal.logpdf x l s) (Fin x).
Proof. exact (fun l s H0 => P_lognormal.log_all l s H0). Qed.
Print Assumptions C34_lognormal.
Example C34_lognormal_instance : forall x : R, log_of (fun x => M_lognormal.pdf x (1) (2)) (fun x => M_lognormal.logpdf x (1) (2)) (Fin x).
Proof. exact (C34_lognormal (1) (2) ltac:(side)). Qed.

Theorem C35_lognormal : forall l s : R, 0 < s -> 
  inverse_of (fun x => M_lognormal.cdf x l s) (fun x => M_lognormal.invcdf x l s) 0 p_infty.
Proof. exact (fun l s H0 => cert_inverse (P_lognormal.CERT l s H0)). Qed.
Print Assumptions C35_lognormal.
Example C35_lognormal_instance : inverse_of (fun x => M_lognormal.cdf x (1) (2)) (fun x => M_lognormal.invcdf x (1) (2)) 0 p_infty.
Proof. exact (C35_lognormal (1) (2) ltac:(side)). Qed.

Theorem C37_lognormal : forall l s : R, 0 < s -> 
  rejects_bad_p (fun x => M_lognormal.invcdf x l s) /\ rejects_bad_p (fun x => M_lognormal.invsf x l s) /\
  at_ends (fun x => M_lognormal.invcdf x l s) (Fin 0) PInf /\ at_ends (fun x => M_lognormal.invsf x l s) PInf (Fin 0).
Proof. exact (fun l s H0 => P_lognormal.ends l s H0). Qed.
Print Assumptions C37_lognormal.
Example C37_lognormal_instance : rejects_bad_p (fun x => M_lognormal.invcdf x (1) (2)) /\ rejects_bad_p (fun x => M_lognormal.invsf x (1) (2)) /\
  at_ends (fun x => M_lognormal.invcdf x (1) (2)) (Fin 0) PInf /\ at_ends (fun x => M_lognormal.invsf x (1) (2)) PInf (Fin 0).
Proof. exact (C37_lognormal (1) (2) ltac:(side)). Qed.

Theorem C39_lognormal : forall l s : R, 0 < s -> 
  is_mode (fun x => M_lognormal.pdf x l s) (M_lognormal.mode l s).
Proof. exact (fun l s H0 => P_lognormal.mode_ok l s H0). Qed.
Print Assumptions C39_lognormal.
Example C39_lognormal_instance : is_mode (fun x => M_lognormal.pdf x (1) (2)) (M_lognormal.mode (1) (2)).
Proof. exact (C39_lognormal (1) (2) ltac:(side)). Qed.

(** C30: cdf and sf are complementary on the support; see C66 for x <= 0. *)
Theorem C30_lognormal_partial : forall l s : R, 0 < s -> forall x : R, 0 < x -> exists c, 0 <= c <= 1 /\ cdf x l s = Fin c /\ sf x l s = Fin (1 - c).
Proof. first [exact P_lognormal.compl_pos | intros; apply P_lognormal.compl_pos; assumption]. Qed.
Print Assumptions C30_lognormal_partial.
Example C30_lognormal_partial_instance := C30_lognormal_partial (1) (2) ltac:(inst) 3 ltac:(inst).

(** C36: invsf inverts sf. *)
Theorem C36_lognormal : forall l s : R, 0 < s -> inverse_of (fun x => sf x l s) (fun p => invsf p l s) 0 p_infty /\
  (forall p, 0 < p < 1 -> invsf (Fin p) l s = invcdf (Fin (1 - p)) l s).
Proof. first [exact P_lognormal.inv_sf | intros; apply P_lognormal.inv_sf; assumption]. Qed.
Print Assumptions C36_lognormal.
Example C36_lognormal_instance := C36_lognormal (1) (2) ltac:(inst) .

(** C38: a scale that is not positive is rejected by every function. *)
Theorem C38_lognormal : forall l s,
  nonpositive s ->
  support l s = Err ValueError /\
  always_ValueError [ fun x => pdf x l s; fun x => logpdf x l s; fun x => cdf x l s; fun x => sf x l s;
    fun p => invcdf p l s; fun p => invsf p l s; fun _ => mean l s; fun _ => mode l s; fun _ => var l s;
    fun _ => skewness l s; fun _ => kurtosis l s; fun _ => entropy l s; fun _ => noncentral_moment 2 l s; fun x => nll [x] l s ].
Proof. first [exact P_lognormal.bad_params | intros; apply P_lognormal.bad_params; assumption]. Qed.
Print Assumptions C38_lognormal.
Example C38_lognormal_instance := C38_lognormal  (Fin 1) (Fin 0) ltac:(inst).

(** C43: mean. *)
Theorem C43_lognormal_mean : forall l s : R, 0 < s -> mean_is (fun x => pdf x l s) 0 p_infty (mean l s).
Proof. first [exact P_lognormal.mean_ok | intros; apply P_lognormal.mean_ok; assumption]. Qed.
Print Assumptions C43_lognormal_mean.
Example C43_lognormal_mean_instance := C43_lognormal_mean (1) (2) ltac:(inst) .

(** C43: variance. *)
Theorem C43_lognormal_var : forall l s : R, 0 < s -> var_is (fun x => pdf x l s) 0 p_infty (mean l s) (var l s).
Proof. first [exact P_lognormal.var_ok | intros; apply P_lognormal.var_ok; assumption]. Qed.
Print Assumptions C43_lognormal_var.
Example C43_lognormal_var_instance := C43_lognormal_var (1) (2) ltac:(inst) .

(** C43: skewness. *)
Theorem C43_lognormal_skewness : forall l s : R, 0 < s -> skewness_is (fun x => pdf x l s) 0 p_infty (skewness l s).
Proof. first [exact P_lognormal.skew_ok | intros; apply P_lognormal.skew_ok; assumption]. Qed.
Print Assumptions C43_lognormal_skewness.
Example C43_lognormal_skewness_instance := C43_lognormal_skewness (1) (2) ltac:(inst) .

(** C43: excess kurtosis. *)
Theorem C43_lognormal_kurtosis : forall l s : R, 0 < s -> kurtosis_is (fun x => pdf x l s) 0 p_infty (kurtosis l s).
Proof. first [exact P_lognormal.kurt_ok | intros; apply P_lognormal.kurt_ok; assumption]. Qed.
Print Assumptions C43_lognormal_kurtosis.
Example C43_lognormal_kurtosis_instance := C43_lognormal_kurtosis (1) (2) ltac:(inst) .

(** C43: every non-central moment. *)
Theorem C43_lognormal_moments : forall l s : R, 0 < s -> forall n,
  moment_is (fun x => pdf x l s) 0 p_infty n (noncentral_moment n l s).
Proof. first [exact P_lognormal.moment_ok | intros; apply P_lognormal.moment_ok; assumption]. Qed.
Print Assumptions C43_lognormal_moments.
Example C43_lognormal_moments_instance := C43_lognormal_moments (1) (2) ltac:(inst) 3.

(** C43: entropy. *)
Theorem C43_lognormal_entropy : forall l s : R, 0 < s -> entropy_is (fun x => pdf x l s) 0 p_infty (entropy l s).
Proof. first [exact P_lognormal.entropy_ok | intros; apply P_lognormal.entropy_ok; assumption]. Qed.
Print Assumptions C43_lognormal_entropy.
Example C43_lognormal_entropy_instance := C43_lognormal_entropy (1) (2) ltac:(inst) .

(** C45: the logarithm of a lognormal variable is normal. *)
Theorem C45_lognormal : forall (l s y : R),
  0 < s -> cdf (exp y) l s = M_normal.cdf y l s /\ sf (exp y) l s = M_normal.sf y l s.
Proof. first [exact P_lognormal.as_normal | intros; apply P_lognormal.as_normal; assumption]. Qed.
Print Assumptions C45_lognormal.
Example C45_lognormal_instance := C45_lognormal  1 2 3 ltac:(inst).

(** C47: the maximum likelihood estimate, for positive data that is not constant. *)
Theorem C47_lognormal : forall xs,
  (forall x, In x xs -> 0 < x) -> ~ constant xs -> exists l s, mle (map Fin xs) = Ok (Fin l, Fin s) /\
  maximises (fun '(l, s) => 0 < s) (fun '(l, s) => loglik (fun x => logpdf x (Fin l) (Fin s)) xs) (l, s).
Proof. first [exact P_lognormal.mle_ok | intros; apply P_lognormal.mle_ok; assumption]. Qed.
Print Assumptions C47_lognormal.
Example C47_lognormal_instance := C47_lognormal  [1; 2; 5] ltac:(inst) ltac:(inst).

(** C48: mom reproduces the sample mean and variance. *)
Theorem C48_lognormal : forall xs,
  (forall x, In x xs -> 0 < x) -> ~ constant xs -> exists l s, mom (map Fin xs) = Ok (Fin l, Fin s) /\ 0 < s /\
  reproduces (mean (Fin l) (Fin s)) (var (Fin l) (Fin s)) xs.
Proof. first [exact P_lognormal.mom_ok | intros; apply P_lognormal.mom_ok; assumption]. Qed.
Print Assumptions C48_lognormal.
Example C48_lognormal_instance := C48_lognormal  [1; 2; 5] ltac:(inst) ltac:(inst).

(** C49: nll is minus the sum of logpdf. *)
Theorem C49_lognormal : forall l s : R, 0 < s -> forall xs,
  (forall x, In x xs -> 0 < x) -> nll (map Fin xs) l s = vneg (loglik (fun x => logpdf x l s) xs).
Proof. first [exact P_lognormal.nll_ok | intros; apply P_lognormal.nll_ok; assumption]. Qed.
Print Assumptions C49_lognormal.
Example C49_lognormal_instance := C49_lognormal (1) (2) ltac:(inst) [1; 2; 5] ltac:(inst).

(** C49: data outside the support is rejected. *)
Theorem C49_lognormal_outside : forall l s : R, 0 < s -> forall xs,
  (exists x, In x xs /\ x <= 0) -> nll (map Fin xs) l s = Exc ValueError.
Proof. first [exact P_lognormal.nll_bad | intros; apply P_lognormal.nll_bad; assumption]. Qed.
Print Assumptions C49_lognormal_outside.
Example C49_lognormal_outside_instance := C49_lognormal_outside (1) (2) ltac:(inst) [1; 0; 5] ltac:(inst).

(** C49: data outside the support is rejected by the estimators. *)
Theorem C49_lognormal_estimators : forall xs,
  (exists x, In x xs /\ x <= 0) -> mle (map Fin xs) = Err ValueError /\ mom (map Fin xs) = Err ValueError.
Proof. first [exact P_lognormal.mle_bad | intros; apply P_lognormal.mle_bad; assumption]. Qed.
Print Assumptions C49_lognormal_estimators.
Example C49_lognormal_estimators_instance := C49_lognormal_estimators  [1; 0; 5] ltac:(inst).

(** C66: sf raises AttributeError for every x <= 0, where cdf is 0. *)
Theorem C66_lognormal_refuted : forall l s : R, 0 < s -> forall (x : R),
  x <= 0 -> cdf x l s = Fin 0 /\ sf x l s = Exc AttributeError.
Proof. first [exact P_lognormal.sf_bad | intros; apply P_lognormal.sf_bad; assumption]. Qed.
Print Assumptions C66_lognormal_refuted.
Example C66_lognormal_refuted_instance := C66_lognormal_refuted (1) (2) ltac:(inst) (-1) ltac:(inst).

