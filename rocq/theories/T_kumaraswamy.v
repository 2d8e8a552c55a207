(** Properties of mpsci.distributions.kumaraswamy (generated by tools/mkthm.py). *)
From Coq Require Import Reals Lra List.
From Coquelicot Require Import Coquelicot.
From Verif Require Import Values Spec SpecStat SpecEst VTac TTac DistLib.
From Verif Require SFun EulerLib.
From Verif Require Import M_sfun SpecEuler.
From Verif Require Import M_kumaraswamy.
From Verif Require P_kumaraswamy.
Import ListNotations.
Local Open Scope R_scope.

Theorem C30_kumaraswamy : forall a b : R, 0 < a -> 0 < b -> 
  complementary (fun x => M_kumaraswamy.cdf x a b) (fun x => M_kumaraswamy.sf x a b).
Proof. exact (fun a b H0 H1 => cert_complementary (P_kumaraswamy.CERT a b H0 H1)). Qed.
Print Assumptions C30_kumaraswamy.
Example C30_kumaraswamy_instance : complementary (fun x => M_kumaraswamy.cdf x (3) (2)) (fun x => M_kumaraswamy.sf x (3) (2)).
Proof. exact (C30_kumaraswamy (3) (2) ltac:(side) ltac:(side)). Qed.

Theorem C31_kumaraswamy : forall a b : R, 0 < a -> 0 < b -> 
  nondecreasing (fun x => M_kumaraswamy.cdf x a b) /\ supported_on (fun x => M_kumaraswamy.cdf x a b) (Fin (0)) (Fin (1)) /\
  M_kumaraswamy.support a b = Ok ((Fin (0)), (Fin (1))).
Proof. intros a b H0 H1. split; [exact (cert_nondecreasing (P_kumaraswamy.CERT a b H0 H1))|split; [exact (cert_supported (P_kumaraswamy.CERT a b H0 H1))|unfold M_kumaraswamy.support; supp]]. Qed.
Print Assumptions C31_kumaraswamy.
Example C31_kumaraswamy_instance : nondecreasing (fun x => M_kumaraswamy.cdf x (3) (2)) /\ supported_on (fun x => M_kumaraswamy.cdf x (3) (2)) (Fin (0)) (Fin (1)) /\
  M_kumaraswamy.support (3) (2) = Ok ((Fin (0)), (Fin (1))).
Proof. exact (C31_kumaraswamy (3) (2) ltac:(side) ltac:(side)). Qed.

Theorem C32_kumaraswamy : forall a b : R, 0 < a -> 0 < b -> 
  density_of (fun x => M_kumaraswamy.cdf x a b) (fun x => M_kumaraswamy.pdf x a b) 0 1.
Proof. exact (fun a b H0 H1 => cert_density (P_kumaraswamy.CERT a b H0 H1)). Qed.
Print Assumptions C32_kumaraswamy.
Example C32_kumaraswamy_instance : density_of (fun x => M_kumaraswamy.cdf x (3) (2)) (fun x => M_kumaraswamy.pdf x (3) (2)) 0 1.
Proof. exact (C32_kumaraswamy (3) (2) ltac:(side) ltac:(side)). Qed.

Theorem C33_kumaraswamy : forall a b : R, 0 < a -> 0 < b -> 
  total_mass_one (fun x => M_kumaraswamy.pdf x a b) 0 1.
Proof. exact (fun a b H0 H1 => cert_total_mass (P_kumaraswamy.CERT a b H0 H1)). Qed.
Print Assumptions C33_kumaraswamy.
Example C33_kumaraswamy_instance : total_mass_one (fun x => M_kumaraswamy.pdf x (3) (2)) 0 1.
Proof. exact (C33_kumaraswamy (3) (2) ltac:(side) ltac:(side)). Qed.

Theorem C35_kumaraswamy : forall a b : R, 0 < a -> 0 < b -> 
  inverse_of (fun x => M_kumaraswamy.cdf x a b) (fun x => M_kumaraswamy.invcdf x a b) 0 1.
Proof. exact (fun a b H0 H1 => cert_inverse (P_kumaraswamy.CERT a b H0 H1)). Qed.
Print Assumptions C35_kumaraswamy.
Example C35_kumaraswamy_instance : inverse_of (fun x => M_kumaraswamy.cdf x (3) (2)) (fun x => M_kumaraswamy.invcdf x (3) (2)) 0 1.
Proof. exact (C35_kumaraswamy (3) (2) ltac:(side) ltac:(side)). Qed.

Theorem C36_kumaraswamy : forall a b : R, 0 < a -> 0 < b -> 
  inverse_of (fun x => M_kumaraswamy.sf x a b) (fun x => M_kumaraswamy.invsf x a b) 0 1 /\
  (forall p, 0 < p < 1 -> M_kumaraswamy.invsf (Fin p) a b = M_kumaraswamy.invcdf (Fin (1 - p)) a b).
Proof. exact (fun a b H0 H1 => conj (cert_inverse_sf (P_kumaraswamy.CERT a b H0 H1)) (cert_invsf_invcdf (P_kumaraswamy.CERT a b H0 H1))). Qed.
Print Assumptions C36_kumaraswamy.
Example C36_kumaraswamy_instance : inverse_of (fun x => M_kumaraswamy.sf x (3) (2)) (fun x => M_kumaraswamy.invsf x (3) (2)) 0 1 /\
  (forall p, 0 < p < 1 -> M_kumaraswamy.invsf (Fin p) (3) (2) = M_kumaraswamy.invcdf (Fin (1 - p)) (3) (2)).
Proof. exact (C36_kumaraswamy (3) (2) ltac:(side) ltac:(side)). Qed.

Theorem C37_kumaraswamy : forall a b : R, 0 < a -> 0 < b -> 
  rejects_bad_p (fun x => M_kumaraswamy.invcdf x a b) /\ rejects_bad_p (fun x => M_kumaraswamy.invsf x a b) /\
  at_ends (fun x => M_kumaraswamy.invcdf x a b) (Fin 0) (Fin 1) /\ at_ends (fun x => M_kumaraswamy.invsf x a b) (Fin 1) (Fin 0).
Proof. exact (fun a b H0 H1 => P_kumaraswamy.ends a b H0 H1). Qed.
Print Assumptions C37_kumaraswamy.
Example C37_kumaraswamy_instance : rejects_bad_p (fun x => M_kumaraswamy.invcdf x (3) (2)) /\ rejects_bad_p (fun x => M_kumaraswamy.invsf x (3) (2)) /\
  at_ends (fun x => M_kumaraswamy.invcdf x (3) (2)) (Fin 0) (Fin 1) /\ at_ends (fun x => M_kumaraswamy.invsf x (3) (2)) (Fin 1) (Fin 0).
Proof. exact (C37_kumaraswamy (3) (2) ltac:(side) ltac:(side)). Qed.

(** C34: logpdf is the logarithm of pdf, except at an end of the support where the shape is 1 ... *)
Theorem C34_kumaraswamy_partial : forall a b : R, 0 < a -> 0 < b -> forall (x : R),
  (x = 0 -> a <> 1) -> (x = 1 -> b <> 1) -> log_of (fun x => pdf x a b) (fun x => logpdf x a b) x.
Proof. first [exact P_kumaraswamy.log_in | intros; apply P_kumaraswamy.log_in; assumption]. Qed.
Print Assumptions C34_kumaraswamy_partial.
Example C34_kumaraswamy_partial_instance := C34_kumaraswamy_partial (3) (2) ltac:(inst) ltac:(inst) 0 ltac:(inst) ltac:(inst).

(** C34: ... where logpdf is nan although pdf is positive: lower end. *)
Theorem C34_kumaraswamy_refuted : forall b,
  0 < b -> pdf 0 1 b = Fin b /\ logpdf 0 1 b = NaN.
Proof. first [exact P_kumaraswamy.log_end0 | intros; apply P_kumaraswamy.log_end0; assumption]. Qed.
Print Assumptions C34_kumaraswamy_refuted.
Example C34_kumaraswamy_refuted_instance := C34_kumaraswamy_refuted  2 ltac:(inst).

(** C34: upper end. *)
Theorem C34_kumaraswamy_refuted_upper : forall a,
  0 < a -> pdf 1 a 1 = Fin a /\ logpdf 1 a 1 = NaN.
Proof. first [exact P_kumaraswamy.log_end1 | intros; apply P_kumaraswamy.log_end1; assumption]. Qed.
Print Assumptions C34_kumaraswamy_refuted_upper.
Example C34_kumaraswamy_refuted_upper_instance := C34_kumaraswamy_refuted_upper  2 ltac:(inst).

(** C38: a shape that is not positive is rejected by every function but support. *)
Theorem C38_kumaraswamy_partial : forall beta digamma euler a b,
  isnum a -> isnum b -> nonpositive a \/ nonpositive b ->
  always_ValueError [ fun x => pdf x a b; fun x => logpdf x a b; fun x => cdf x a b; fun x => sf x a b;
    fun p => invcdf p a b; fun p => invsf p a b; fun _ => median a b; fun _ => mode a b; fun _ => mean beta a b; fun _ => var beta a b;
    fun _ => skewness beta a b; fun _ => entropy digamma euler a b ] /\
  (forall n, noncentral_moment beta n a b = Exc ValueError) /\ forall xs, (forall x, In x xs -> 0 < x < 1) -> nll (map Fin xs) a b = Exc ValueError.
Proof. first [exact P_kumaraswamy.bad_params | intros; apply P_kumaraswamy.bad_params; assumption]. Qed.
Print Assumptions C38_kumaraswamy_partial.
Example C38_kumaraswamy_partial_instance := C38_kumaraswamy_partial  (fun u v => v) (fun v => v) NaN (Fin 0) (Fin 1) ltac:(inst) ltac:(inst) ltac:(inst).

(** C39: the mode maximises the density, which may be infinite there. *)
Theorem C39_kumaraswamy : forall a b : R, 0 < a -> 0 < b -> is_mode_ext (fun x => pdf x a b) (mode a b).
Proof. first [exact P_kumaraswamy.mode_ok | intros; apply P_kumaraswamy.mode_ok; assumption]. Qed.
Print Assumptions C39_kumaraswamy.
Example C39_kumaraswamy_instance := C39_kumaraswamy (3) (2) ltac:(inst) ltac:(inst) .

(** C43: the median halves the distribution. *)
Theorem C43_kumaraswamy_median : forall a b : R, 0 < a -> 0 < b -> median_is (fun x => cdf x a b) (median a b).
Proof. first [exact P_kumaraswamy.median_ok | intros; apply P_kumaraswamy.median_ok; assumption]. Qed.
Print Assumptions C43_kumaraswamy_median.
Example C43_kumaraswamy_median_instance := C43_kumaraswamy_median (3) (2) ltac:(inst) ltac:(inst) .

(** C43: mean. *)
Theorem C43_kumaraswamy_mean : forall a b : R, 0 < a -> 0 < b -> mean_is (fun x => pdf x a b) 0 1 (mean vbeta a b).
Proof. first [exact P_kumaraswamy.mean_ok | intros; apply P_kumaraswamy.mean_ok; assumption]. Qed.
Print Assumptions C43_kumaraswamy_mean.
Example C43_kumaraswamy_mean_instance := C43_kumaraswamy_mean (3) (2) ltac:(inst) ltac:(inst) .

(** C43: variance. *)
Theorem C43_kumaraswamy_var : forall a b : R, 0 < a -> 0 < b -> var_is (fun x => pdf x a b) 0 1 (mean vbeta a b) (var vbeta a b).
Proof. first [exact P_kumaraswamy.var_ok | intros; apply P_kumaraswamy.var_ok; assumption]. Qed.
Print Assumptions C43_kumaraswamy_var.
Example C43_kumaraswamy_var_instance := C43_kumaraswamy_var (3) (2) ltac:(inst) ltac:(inst) .

(** C43: every non-central moment. *)
Theorem C43_kumaraswamy_moments : forall a b : R, 0 < a -> 0 < b -> forall n,
  moment_is (fun x => pdf x a b) 0 1 n (noncentral_moment vbeta n a b).
Proof. first [exact P_kumaraswamy.moment_ok | intros; apply P_kumaraswamy.moment_ok; assumption]. Qed.
Print Assumptions C43_kumaraswamy_moments.
Example C43_kumaraswamy_moments_instance := C43_kumaraswamy_moments (3) (2) ltac:(inst) ltac:(inst) 5%nat.

(** C43: skewness. *)
Theorem C43_kumaraswamy_skewness : forall a b : R, 0 < a -> 0 < b -> skewness_is (fun x => pdf x a b) 0 1 (skewness vbeta a b).
Proof. first [exact P_kumaraswamy.skew_ok | intros; apply P_kumaraswamy.skew_ok; assumption]. Qed.
Print Assumptions C43_kumaraswamy_skewness.
Example C43_kumaraswamy_skewness_instance := C43_kumaraswamy_skewness (3) (2) ltac:(inst) ltac:(inst) .

(** C43: entropy; g is the Euler-Mascheroni constant. *)
Theorem C43_kumaraswamy_entropy : forall a b : R, 0 < a -> 0 < b -> forall g,
  euler_constant g -> entropy_is (fun x => pdf x a b) 0 1 (entropy vdigamma (Fin g) a b).
Proof. first [exact P_kumaraswamy.entropy_ok | intros; apply P_kumaraswamy.entropy_ok; assumption]. Qed.
Print Assumptions C43_kumaraswamy_entropy.
Example C43_kumaraswamy_entropy_instance : exists g, euler_constant g /\ entropy_is (fun x => pdf x 3 2) 0 1 (entropy vdigamma (Fin g) 3 2).
Proof. exists (- SFun.digamma 1). assert (G := EulerLib.euler_digamma). split; auto. apply C43_kumaraswamy_entropy; auto; lra. Qed.

(** C47: a given: the returned b minimises nll. *)
Theorem C47_kumaraswamy_partial : forall xs (a : R),
  xs <> [] -> 0 < a -> (forall x, In x xs -> 0 < x < 1) ->
  exists b, mle_b (map Fin xs) a = Ok (Fin a, Fin b) /\
  minimises (fun b => 0 < b) (fun b => nll (map Fin xs) a (Fin b)) b.
Proof. first [exact P_kumaraswamy.mle_b_opt | intros; apply P_kumaraswamy.mle_b_opt; assumption]. Qed.
Print Assumptions C47_kumaraswamy_partial.
Example C47_kumaraswamy_partial_instance := C47_kumaraswamy_partial  [1/2; 1/3] 3 ltac:(inst) ltac:(inst) ltac:(inst).

(** C49: nll is minus the sum of logpdf. *)
Theorem C49_kumaraswamy : forall a b : R, 0 < a -> 0 < b -> forall xs,
  (forall x, In x xs -> 0 < x < 1) -> nll (map Fin xs) a b = vneg (loglik (fun x => logpdf x a b) xs).
Proof. first [exact P_kumaraswamy.nll_ok | intros; apply P_kumaraswamy.nll_ok; assumption]. Qed.
Print Assumptions C49_kumaraswamy.
Example C49_kumaraswamy_instance := C49_kumaraswamy (3) (2) ltac:(inst) ltac:(inst) [1/2; 1/3] ltac:(inst).

(** C49: data outside the open support is rejected. *)
Theorem C49_kumaraswamy_outside : forall a b : R, 0 < a -> 0 < b -> forall xs,
  (exists x, In x xs /\ (x <= 0 \/ 1 <= x)) -> nll (map Fin xs) a b = Exc ValueError.
Proof. first [exact P_kumaraswamy.nll_bad | intros; apply P_kumaraswamy.nll_bad; assumption]. Qed.
Print Assumptions C49_kumaraswamy_outside.
Example C49_kumaraswamy_outside_instance := C49_kumaraswamy_outside (3) (2) ltac:(inst) ltac:(inst) [1/2; 1] ltac:(inst).

