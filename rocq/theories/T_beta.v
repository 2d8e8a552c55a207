(** Properties of mpsci.distributions.beta (generated by tools/mkthm.py). *)
From Coq Require Import Reals Lra List.
From Coquelicot Require Import Coquelicot.
From Verif Require Import Values Spec SpecStat SpecEst VTac TTac DistLib.
From Verif Require Import SpecInv.
From Verif Require Import SpecGrid SpecBis.
From Verif Require Import M_beta.
From Verif Require P_beta.
Import ListNotations.
Local Open Scope R_scope.

Theorem C30_beta : forall a b : R, 0 < a -> 0 < b -> 
  complementary (fun x => M_beta.cdf x a b) (fun x => M_beta.sf x a b).
Proof. exact (fun a b H0 H1 => cert_complementary (P_beta.CERT a b H0 H1)). Qed.
Print Assumptions C30_beta.
Example C30_beta_instance : complementary (fun x => M_beta.cdf x (2) (3)) (fun x => M_beta.sf x (2) (3)).
Proof. exact (C30_beta (2) (3) ltac:(side) ltac:(side)). Qed.

Theorem C31_beta : forall a b : R, 0 < a -> 0 < b -> 
  nondecreasing (fun x => M_beta.cdf x a b) /\ supported_on (fun x => M_beta.cdf x a b) (Fin (0)) (Fin (1)) /\
  M_beta.support a b = Ok ((Fin (0)), (Fin (1))).
Proof. intros a b H0 H1. split; [exact (cert_nondecreasing (P_beta.CERT a b H0 H1))|split; [exact (cert_supported (P_beta.CERT a b H0 H1))|unfold M_beta.support, M_beta.validate_a_b; supp]]. Qed.
Print Assumptions C31_beta.
Example C31_beta_instance : nondecreasing (fun x => M_beta.cdf x (2) (3)) /\ supported_on (fun x => M_beta.cdf x (2) (3)) (Fin (0)) (Fin (1)) /\
  M_beta.support (2) (3) = Ok ((Fin (0)), (Fin (1))).
Proof. exact (C31_beta (2) (3) ltac:(side) ltac:(side)). Qed.

Theorem C32_beta : forall a b : R, 0 < a -> 0 < b -> 
  density_of (fun x => M_beta.cdf x a b) (fun x => M_beta.pdf x a b) 0 1.
Proof. exact (fun a b H0 H1 => cert_density (P_beta.CERT a b H0 H1)). Qed.
Print Assumptions C32_beta.
Example C32_beta_instance : density_of (fun x => M_beta.cdf x (2) (3)) (fun x => M_beta.pdf x (2) (3)) 0 1.
Proof. exact (C32_beta (2) (3) ltac:(side) ltac:(side)). Qed.

Theorem C33_beta : forall a b : R, 0 < a -> 0 < b -> 
  total_mass_one (fun x => M_beta.pdf x a b) 0 1.
Proof. exact (fun a b H0 H1 => cert_total_mass (P_beta.CERT a b H0 H1)). Qed.
Print Assumptions C33_beta.
Example C33_beta_instance : total_mass_one (fun x => M_beta.pdf x (2) (3)) 0 1.
Proof. exact (C33_beta (2) (3) ltac:(side) ltac:(side)). Qed.

Theorem C34_beta : forall a b : R, 0 < a -> 0 < b -> 
  forall x : R, log_of (fun x => M_beta.pdf x a b) (fun x => M_beta.logpdf x a b) (Fin x).
Proof. exact (fun a b H0 H1 => P_beta.log_all a b H0 H1). Qed.
Print Assumptions C34_beta.
Example C34_beta_instance : forall x : R, log_of (fun x => M_beta.pdf x (2) (3)) (fun x => M_beta.logpdf x (2) (3)) (Fin x).
Proof. exact (C34_beta (2) (3) ltac:(side) ltac:(side)). Qed.

(** C35: solved numerically by bisection in floating point; SpecBis says what that means. *)
Theorem C35_beta : forall a b : R, 0 < a -> 0 < b -> solves_bisect (fun x => cdf x a b) (fun fuel prec p => invcdf fuel prec p a b).
Proof. first [exact P_beta.invcdf_ok | intros; apply P_beta.invcdf_ok; assumption]. Qed.
Print Assumptions C35_beta.
Example C35_beta_instance := C35_beta (2) (3) ltac:(inst) ltac:(inst) .

(** C36: solved numerically by bisection in floating point; SpecBis says what that means. *)
Theorem C36_beta : forall a b : R, 0 < a -> 0 < b -> solves_bisect (fun x => sf x a b) (fun fuel prec p => invsf fuel prec p a b).
Proof. first [exact P_beta.invsf_ok | intros; apply P_beta.invsf_ok; assumption]. Qed.
Print Assumptions C36_beta.
Example C36_beta_instance := C36_beta (2) (3) ltac:(inst) ltac:(inst) .

(** C37: p outside [0,1] is rejected; 0 and 1 go to the ends of the support. *)
Theorem C37_beta : forall a b : R, 0 < a -> 0 < b -> forall fuel prec,
  rejects_bad_p (fun p => invcdf fuel prec p a b) /\ rejects_bad_p (fun p => invsf fuel prec p a b) /\
  at_ends (fun p => invcdf fuel prec p a b) (Fin 0) (Fin 1) /\ at_ends (fun p => invsf fuel prec p a b) (Fin 1) (Fin 0).
Proof. first [exact P_beta.ends | intros; apply P_beta.ends; assumption]. Qed.
Print Assumptions C37_beta.
Example C37_beta_instance := C37_beta (2) (3) ltac:(inst) ltac:(inst) 100%nat 53%positive.

(** C38: a shape parameter that is not positive is rejected. *)
Theorem C38_beta : forall fuel prec a b,
  isnum a -> isnum b -> nonpositive a \/ nonpositive b ->
  support a b = Err ValueError /\
  always_ValueError [ fun x => pdf x a b; fun x => logpdf x a b; fun x => cdf x a b; fun x => sf x a b;
    fun p => invcdf fuel prec p a b; fun p => invsf fuel prec p a b; fun x => interval_prob x x a b; fun _ => mean a b; fun _ => mode a b; fun _ => var a b;
    fun _ => skewness a b; fun _ => kurtosis a b; fun _ => entropy a b; fun _ => noncentral_moment 2 a b; fun x => nll [x] a b ].
Proof. first [exact P_beta.bad_params | intros; apply P_beta.bad_params; assumption]. Qed.
Print Assumptions C38_beta.
Example C38_beta_instance := C38_beta  100%nat 53%positive (Fin 0) (Fin 1) ltac:(inst) ltac:(inst) ltac:(inst).

(** C39: the mode; the density may be infinite at an end of the support. *)
Theorem C39_beta : forall a b : R, 0 < a -> 0 < b -> is_mode_ext (fun x => pdf x a b) (mode a b).
Proof. first [exact P_beta.mode_ok | intros; apply P_beta.mode_ok; assumption]. Qed.
Print Assumptions C39_beta.
Example C39_beta_instance := C39_beta (2) (3) ltac:(inst) ltac:(inst) .

(** C43: mean. *)
Theorem C43_beta_mean : forall a b : R, 0 < a -> 0 < b -> mean_is (fun x => pdf x a b) 0 1 (mean a b).
Proof. first [exact P_beta.mean_ok | intros; apply P_beta.mean_ok; assumption]. Qed.
Print Assumptions C43_beta_mean.
Example C43_beta_mean_instance := C43_beta_mean (2) (3) ltac:(inst) ltac:(inst) .

(** C43: variance. *)
Theorem C43_beta_var : forall a b : R, 0 < a -> 0 < b -> var_is (fun x => pdf x a b) 0 1 (mean a b) (var a b).
Proof. first [exact P_beta.var_ok | intros; apply P_beta.var_ok; assumption]. Qed.
Print Assumptions C43_beta_var.
Example C43_beta_var_instance := C43_beta_var (2) (3) ltac:(inst) ltac:(inst) .

(** C43: skewness. *)
Theorem C43_beta_skewness : forall a b : R, 0 < a -> 0 < b -> skewness_is (fun x => pdf x a b) 0 1 (skewness a b).
Proof. first [exact P_beta.skew_ok | intros; apply P_beta.skew_ok; assumption]. Qed.
Print Assumptions C43_beta_skewness.
Example C43_beta_skewness_instance := C43_beta_skewness (2) (3) ltac:(inst) ltac:(inst) .

(** C43: excess kurtosis. *)
Theorem C43_beta_kurtosis : forall a b : R, 0 < a -> 0 < b -> kurtosis_is (fun x => pdf x a b) 0 1 (kurtosis a b).
Proof. first [exact P_beta.kurt_ok | intros; apply P_beta.kurt_ok; assumption]. Qed.
Print Assumptions C43_beta_kurtosis.
Example C43_beta_kurtosis_instance := C43_beta_kurtosis (2) (3) ltac:(inst) ltac:(inst) .

(** C43: every non-central moment. *)
Theorem C43_beta_moments : forall a b : R, 0 < a -> 0 < b -> forall n,
  moment_is (fun x => pdf x a b) 0 1 n (noncentral_moment n a b).
Proof. first [exact P_beta.moment_ok | intros; apply P_beta.moment_ok; assumption]. Qed.
Print Assumptions C43_beta_moments.
Example C43_beta_moments_instance := C43_beta_moments (2) (3) ltac:(inst) ltac:(inst) 5%nat.

(** C43: entropy. *)
Theorem C43_beta_entropy : forall a b : R, 0 < a -> 0 < b -> entropy_is (fun x => pdf x a b) 0 1 (entropy a b).
Proof. first [exact P_beta.entropy_ok | intros; apply P_beta.entropy_ok; assumption]. Qed.
Print Assumptions C43_beta_entropy.
Example C43_beta_entropy_instance := C43_beta_entropy (2) (3) ltac:(inst) ltac:(inst) .

(** C45: if X is beta(a, b) then 1 - X is beta(b, a). *)
Theorem C45_beta : forall (a b x : R),
  0 < a -> 0 < b -> cdf (Fin (1 - x)) b a = sf x a b /\ (0 < x < 1 -> pdf (Fin (1 - x)) b a = pdf x a b).
Proof. first [exact P_beta.reflect | intros; apply P_beta.reflect; assumption]. Qed.
Print Assumptions C45_beta.
Example C45_beta_instance := C45_beta  2 3 (1/3) ltac:(inst) ltac:(inst).

(** C46: intervals inside the support ... *)
Theorem C46_beta_partial : forall (a b x y : R),
  0 < a -> 0 < b -> 0 <= x <= y -> y <= 1 -> exists c d, cdf x a b = Fin c /\ cdf y a b = Fin d /\ interval_prob x y a b = Fin (d - c).
Proof. first [exact P_beta.interval_ok | intros; apply P_beta.interval_ok; assumption]. Qed.
Print Assumptions C46_beta_partial.
Example C46_beta_partial_instance := C46_beta_partial  2 3 (1/4) (1/2) ltac:(inst) ltac:(inst) ltac:(inst) ltac:(inst).

(** C46: ... x1 > x2 is rejected ... *)
Theorem C46_beta_order_partial : forall (a b x y : R),
  0 < a -> 0 < b -> y < x -> interval_prob x y a b = Exc ValueError.
Proof. first [exact P_beta.interval_order | intros; apply P_beta.interval_order; assumption]. Qed.
Print Assumptions C46_beta_order_partial.
Example C46_beta_order_partial_instance := C46_beta_order_partial  2 3 (1/2) (1/4) ltac:(inst) ltac:(inst) ltac:(inst).

(** C46: ... but the limits are not clipped to the support: the interval (-1, 2) gets probability 3. *)
Theorem C46_beta_refuted : interval_prob (Fin (-1)) (Fin 2) (Fin 1) (Fin 1) = Fin 3 /\ cdf (Fin (-1)) (Fin 1) (Fin 1) = Fin 0 /\ cdf (Fin 2) (Fin 1) (Fin 1) = Fin 1.
Proof. first [exact P_beta.interval_wide | intros; apply P_beta.interval_wide; assumption]. Qed.
Print Assumptions C46_beta_refuted.
Example C46_beta_refuted_instance := C46_beta_refuted  .

(** C47: b given: a positive a returned minimises nll. *)
Theorem C47_beta_a : forall fr1 fr2 a0 b0 xs a b,
  xs <> [] -> (forall x, In x xs -> 0 < x < 1) -> checked_solver1 fr1 -> 0 < a -> 0 < b -> mle fr1 fr2 a0 b0 (map Fin xs) None (Some (Fin b)) = Ok (Fin a, Fin b) ->
  minimises (fun a => 0 < a) (fun a => nll (map Fin xs) (Fin a) (Fin b)) a.
Proof. first [exact P_beta.c47_a | intros; apply P_beta.c47_a; assumption]. Qed.
Print Assumptions C47_beta_a.
Example C47_beta_a_instance : exists fr, checked_solver1 fr /\ mle fr (fun _ _ => Err ValueError) None None (map Fin [exp (-1); exp (-1)]) None (Some (Fin 1)) = Ok (Fin 1, Fin 1).
Proof. exact P_beta.case_a. Qed.

(** C47: a given: a positive b returned minimises nll. *)
Theorem C47_beta_b : forall fr1 fr2 a0 b0 xs a b,
  xs <> [] -> (forall x, In x xs -> 0 < x < 1) -> checked_solver1 fr1 -> 0 < a -> 0 < b -> mle fr1 fr2 a0 b0 (map Fin xs) (Some (Fin a)) None = Ok (Fin a, Fin b) ->
  minimises (fun b => 0 < b) (fun b => nll (map Fin xs) (Fin a) (Fin b)) b.
Proof. first [exact P_beta.c47_b | intros; apply P_beta.c47_b; assumption]. Qed.
Print Assumptions C47_beta_b.
Example C47_beta_b_instance : exists fr, checked_solver1 fr /\ mle fr (fun _ _ => Err ValueError) None None (map Fin [1 - exp (-1); 1 - exp (-1)]) (Some (Fin 1)) None = Ok (Fin 1, Fin 1).
Proof. exact P_beta.case_b. Qed.

(** C47: both free: a pair of positive numbers returned minimises nll. *)
Theorem C47_beta_both : forall fr1 fr2 a0 b0 xs a b,
  xs <> [] -> (forall x, In x xs -> 0 < x < 1) -> checked_solver2 fr2 -> 0 < a -> 0 < b -> mle fr1 fr2 a0 b0 (map Fin xs) None None = Ok (Fin a, Fin b) ->
  minimises (fun '(a, b) => 0 < a /\ 0 < b) (fun '(a, b) => nll (map Fin xs) (Fin a) (Fin b)) (a, b).
Proof. first [exact P_beta.c47_both | intros; apply P_beta.c47_both; assumption]. Qed.
Print Assumptions C47_beta_both.
Example C47_beta_both_instance : exists fr t, checked_solver2 fr /\ 0 < t < 1 /\ mle (fun _ _ => NaN) fr (Some (Fin 1)) (Some (Fin 1)) (map Fin [t; 1 - t]) None None = Ok (Fin 1, Fin 1).
Proof. exact P_beta.case_both. Qed.

(** C47: both given: they are returned. *)
Theorem C47_beta_given : forall fr1 fr2 a0 b0 xs a b,
  xs <> [] -> (forall x, In x xs -> 0 < x < 1) -> 0 < a -> 0 < b -> mle fr1 fr2 a0 b0 (map Fin xs) (Some (Fin a)) (Some (Fin b)) = Ok (Fin a, Fin b).
Proof. first [exact P_beta.c47_given | intros; apply P_beta.c47_given; assumption]. Qed.
Print Assumptions C47_beta_given.
Example C47_beta_given_instance := C47_beta_given  (fun _ _ => NaN) (fun _ _ => Err ValueError) None None [1/3; 1/2] 1 2 ltac:(inst) ltac:(inst) ltac:(inst) ltac:(inst).

(** C47: both free and all data equal: the default starting point divides by the sample variance, which is 0. *)
Theorem C47_beta_refuted : forall fr1 fr2 x n,
  0 < x < 1 -> mle fr1 fr2 None None (map Fin (repeat x (S n))) None None = Err ZeroDivisionError.
Proof. first [exact P_beta.mle_const | intros; apply P_beta.mle_const; assumption]. Qed.
Print Assumptions C47_beta_refuted.
Example C47_beta_refuted_instance := C47_beta_refuted  (fun _ _ => NaN) (fun _ _ => Err ValueError) (1/3) 4%nat ltac:(inst).

(** C48: mom reproduces the sample mean and variance. *)
Theorem C48_beta : forall xs,
  (forall x, In x xs -> 0 < x < 1) -> ~ constant xs -> exists a b, mom (map Fin xs) = Ok (Fin a, Fin b) /\ 0 < a /\ 0 < b /\
  reproduces (mean (Fin a) (Fin b)) (var (Fin a) (Fin b)) xs.
Proof. first [exact P_beta.mom_ok | intros; apply P_beta.mom_ok; assumption]. Qed.
Print Assumptions C48_beta.
Example C48_beta_instance := C48_beta  [1/4; 1/3; 1/2] ltac:(inst) ltac:(inst).

(** C49: nll is minus the sum of logpdf. *)
Theorem C49_beta : forall a b : R, 0 < a -> 0 < b -> forall xs,
  (forall x, In x xs -> 0 < x < 1) -> nll (map Fin xs) a b = vneg (loglik (fun x => logpdf x a b) xs).
Proof. first [exact P_beta.nll_ok | intros; apply P_beta.nll_ok; assumption]. Qed.
Print Assumptions C49_beta.
Example C49_beta_instance := C49_beta (2) (3) ltac:(inst) ltac:(inst) [1/4; 1/2] ltac:(inst).

(** C49: data outside the support is rejected. *)
Theorem C49_beta_outside : forall a b : R, 0 < a -> 0 < b -> forall xs,
  (exists x, In x xs /\ (x <= 0 \/ 1 <= x)) -> nll (map Fin xs) a b = Exc ValueError.
Proof. first [exact P_beta.nll_bad | intros; apply P_beta.nll_bad; assumption]. Qed.
Print Assumptions C49_beta_outside.
Example C49_beta_outside_instance := C49_beta_outside (2) (3) ltac:(inst) ltac:(inst) [1/4; 1; 1/2] ltac:(inst).

