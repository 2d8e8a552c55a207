(** Properties of mpsci.distributions.gamma (generated by tools/mkthm.py). *)
From Coq Require Import Reals Lra List.
From Coquelicot Require Import Coquelicot.
From Verif Require Import Values Spec SpecStat SpecEst VTac TTac DistLib.
From Verif Require Import SpecInv.
From Verif Require Import M_gamma.
From Verif Require P_gamma.
Import ListNotations.
Local Open Scope R_scope.

Theorem C30_gamma : forall k s : R, 0 < k -> 0 < s -> 
  complementary (fun x => M_gamma.cdf x k s) (fun x => M_gamma.sf x k s).
Proof. exact (fun k s H0 H1 => cert_complementary (P_gamma.CERT k s H0 H1)). Qed.
Print Assumptions C30_gamma.
Example C30_gamma_instance : complementary (fun x => M_gamma.cdf x (2) (3)) (fun x => M_gamma.sf x (2) (3)).
Proof. exact (C30_gamma (2) (3) ltac:(side) ltac:(side)). Qed.

Theorem C31_gamma : forall k s : R, 0 < k -> 0 < s -> 
  nondecreasing (fun x => M_gamma.cdf x k s) /\ supported_on (fun x => M_gamma.cdf x k s) (Fin (0)) PInf /\
  M_gamma.support k s = Ok ((Fin (0)), PInf).
Proof. intros k s H0 H1. split; [exact (cert_nondecreasing (P_gamma.CERT k s H0 H1))|split; [exact (cert_supported (P_gamma.CERT k s H0 H1))|unfold M_gamma.support, M_gamma.validate_k_scale; supp]]. Qed.
Print Assumptions C31_gamma.
Example C31_gamma_instance : nondecreasing (fun x => M_gamma.cdf x (2) (3)) /\ supported_on (fun x => M_gamma.cdf x (2) (3)) (Fin (0)) PInf /\
  M_gamma.support (2) (3) = Ok ((Fin (0)), PInf).
Proof. exact (C31_gamma (2) (3) ltac:(side) ltac:(side)). Qed.

Theorem C32_gamma : forall k s : R, 0 < k -> 0 < s -> 
  density_of (fun x => M_gamma.cdf x k s) (fun x => M_gamma.pdf x k s) 0 p_infty.
Proof. exact (fun k s H0 H1 => cert_density (P_gamma.CERT k s H0 H1)). Qed.
Print Assumptions C32_gamma.
Example C32_gamma_instance : density_of (fun x => M_gamma.cdf x (2) (3)) (fun x => M_gamma.pdf x (2) (3)) 0 p_infty.
Proof. exact (C32_gamma (2) (3) ltac:(side) ltac:(side)). Qed.

Theorem C33_gamma : forall k s : R, 0 < k -> 0 < s -> 
  total_mass_one (fun x => M_gamma.pdf x k s) 0 p_infty.
Proof. exact (fun k s H0 H1 => cert_total_mass (P_gamma.CERT k s H0 H1)). Qed.
Print Assumptions C33_gamma.
Example C33_gamma_instance : total_mass_one (fun x => M_gamma.pdf x (2) (3)) 0 p_infty.
Proof. exact (C33_gamma (2) (3) ltac:(side) ltac:(side)). Qed.

Theorem C34_gamma : forall k s : R, 0 < k -> 0 < s -> 
  forall x : R, Finite (0) <> Finite x -> p_infty <> Finite x -> log_of (fun x => M_gamma.pdf x k s) (fun x => M_gamma.logpdf x k s) (Fin x).
Proof. exact (fun k s H0 H1 => cert_log (P_gamma.CERT k s H0 H1)). Qed.
Print Assumptions C34_gamma.
Example C34_gamma_instance : forall x : R, Finite (0) <> Finite x -> p_infty <> Finite x -> log_of (fun x => M_gamma.pdf x (2) (3)) (fun x => M_gamma.logpdf x (2) (3)) (Fin x).
Proof. exact (C34_gamma (2) (3) ltac:(side) ltac:(side)). Qed.

(** C35: solved numerically; the bracket and the root finder are specified in SpecInv. *)
Theorem C35_gamma : forall k s : R, 0 < k -> 0 < s -> solves (fun x => cdf x k s) (fun fr fuel p => invcdf fr fuel p k s) 0 p_infty.
Proof. first [exact P_gamma.invcdf_ok | intros; apply P_gamma.invcdf_ok; assumption]. Qed.
Print Assumptions C35_gamma.
Example C35_gamma_instance := C35_gamma (2) (3) ltac:(inst) ltac:(inst) .

(** C36: solved numerically; the bracket and the root finder are specified in SpecInv. *)
Theorem C36_gamma : forall k s : R, 0 < k -> 0 < s -> solves (fun x => sf x k s) (fun fr fuel p => invsf fr fuel p k s) 0 p_infty.
Proof. first [exact P_gamma.invsf_ok | intros; apply P_gamma.invsf_ok; assumption]. Qed.
Print Assumptions C36_gamma.
Example C36_gamma_instance := C36_gamma (2) (3) ltac:(inst) ltac:(inst) .

(** C37: p outside [0,1] is rejected; 0 and 1 go to the ends of the support. *)
Theorem C37_gamma : forall k s : R, 0 < k -> 0 < s -> forall fr fuel,
  rejects_bad_p (fun p => invcdf fr fuel p k s) /\ rejects_bad_p (fun p => invsf fr fuel p k s) /\
  at_ends (fun p => invcdf fr fuel p k s) (Fin 0) PInf /\ at_ends (fun p => invsf fr fuel p k s) PInf (Fin 0).
Proof. first [exact P_gamma.ends | intros; apply P_gamma.ends; assumption]. Qed.
Print Assumptions C37_gamma.
Example C37_gamma_instance := C37_gamma (2) (3) ltac:(inst) ltac:(inst) (fun _ _ => NaN) 100%nat.

(** C38: invalid shape or scale is rejected. *)
Theorem C38_gamma : forall fr fuel k s,
  isnum k -> isnum s -> nonpositive k \/ nonpositive s ->
  support k s = Err ValueError /\
  always_ValueError [ fun x => pdf x k s; fun x => logpdf x k s; fun x => cdf x k s; fun x => sf x k s;
    fun p => invcdf fr fuel p k s; fun p => invsf fr fuel p k s; fun x => interval_prob x x k s; fun _ => mean k s; fun _ => mode k s; fun _ => var k s;
    fun _ => skewness k s; fun _ => kurtosis k s; fun _ => entropy k s; fun _ => noncentral_moment 2 k s; fun x => nll [x] k s;
    fun x => nll_grad_k [x] k s; fun x => nll_grad_scale [x] k s ].
Proof. first [exact P_gamma.bad_params | intros; apply P_gamma.bad_params; assumption]. Qed.
Print Assumptions C38_gamma.
Example C38_gamma_instance := C38_gamma  (fun _ _ => NaN) 100%nat (Fin 0) (Fin 1) ltac:(inst) ltac:(inst) ltac:(inst).

(** C39: the mode, when the density is bounded. *)
Theorem C39_gamma : forall k s : R, 0 < k -> 0 < s -> 1 <= k -> is_mode (fun x => pdf x k s) (mode k s).
Proof. first [exact P_gamma.mode_ok | intros; apply P_gamma.mode_ok; assumption]. Qed.
Print Assumptions C39_gamma.
Example C39_gamma_instance := C39_gamma (2) (3) ltac:(inst) ltac:(inst) ltac:(inst).

(** C39: for k <= 1 the density decreases on the support and mode is its lower end. *)
Theorem C39_gamma_small : forall k s : R, 0 < k -> 0 < s -> k <= 1 -> mode k s = Fin 0 /\ forall x y : R, 0 < x -> x <= y -> toR (pdf y k s) <= toR (pdf x k s).
Proof. first [exact P_gamma.mode_small | intros; apply P_gamma.mode_small; assumption]. Qed.
Print Assumptions C39_gamma_small.
Example C39_gamma_small_instance : forall x y : R, 0 < x -> x <= y -> toR (pdf y (1/2)%R 3) <= toR (pdf x (1/2)%R 3).
Proof. refine (proj2 (C39_gamma_small (1/2) 3 _ _ _)); lra. Qed.

(** C43: mean. *)
Theorem C43_gamma_mean : forall k s : R, 0 < k -> 0 < s -> mean_is (fun x => pdf x k s) 0 p_infty (mean k s).
Proof. first [exact P_gamma.mean_ok | intros; apply P_gamma.mean_ok; assumption]. Qed.
Print Assumptions C43_gamma_mean.
Example C43_gamma_mean_instance := C43_gamma_mean (2) (3) ltac:(inst) ltac:(inst) .

(** C43: variance. *)
Theorem C43_gamma_var : forall k s : R, 0 < k -> 0 < s -> var_is (fun x => pdf x k s) 0 p_infty (mean k s) (var k s).
Proof. first [exact P_gamma.var_ok | intros; apply P_gamma.var_ok; assumption]. Qed.
Print Assumptions C43_gamma_var.
Example C43_gamma_var_instance := C43_gamma_var (2) (3) ltac:(inst) ltac:(inst) .

(** C43: skewness. *)
Theorem C43_gamma_skewness : forall k s : R, 0 < k -> 0 < s -> skewness_is (fun x => pdf x k s) 0 p_infty (skewness k s).
Proof. first [exact P_gamma.skew_ok | intros; apply P_gamma.skew_ok; assumption]. Qed.
Print Assumptions C43_gamma_skewness.
Example C43_gamma_skewness_instance := C43_gamma_skewness (2) (3) ltac:(inst) ltac:(inst) .

(** C43: excess kurtosis. *)
Theorem C43_gamma_kurtosis : forall k s : R, 0 < k -> 0 < s -> kurtosis_is (fun x => pdf x k s) 0 p_infty (kurtosis k s).
Proof. first [exact P_gamma.kurt_ok | intros; apply P_gamma.kurt_ok; assumption]. Qed.
Print Assumptions C43_gamma_kurtosis.
Example C43_gamma_kurtosis_instance := C43_gamma_kurtosis (2) (3) ltac:(inst) ltac:(inst) .

(** C43: every non-central moment. *)
Theorem C43_gamma_moments : forall k s : R, 0 < k -> 0 < s -> forall n,
  moment_is (fun x => pdf x k s) 0 p_infty n (noncentral_moment n k s).
Proof. first [exact P_gamma.moment_ok | intros; apply P_gamma.moment_ok; assumption]. Qed.
Print Assumptions C43_gamma_moments.
Example C43_gamma_moments_instance := C43_gamma_moments (2) (3) ltac:(inst) ltac:(inst) 5%nat.

(** C43: entropy. *)
Theorem C43_gamma_entropy : forall k s : R, 0 < k -> 0 < s -> entropy_is (fun x => pdf x k s) 0 p_infty (entropy k s).
Proof. first [exact P_gamma.entropy_ok | intros; apply P_gamma.entropy_ok; assumption]. Qed.
Print Assumptions C43_gamma_entropy.
Example C43_gamma_entropy_instance := C43_gamma_entropy (2) (3) ltac:(inst) ltac:(inst) .

(** C46: intervals inside the support ... *)
Theorem C46_gamma_partial : forall (k s x y : R),
  0 < k -> 0 < s -> 0 <= x <= y -> exists c d, cdf x k s = Fin c /\ cdf y k s = Fin d /\ interval_prob x y k s = Fin (d - c).
Proof. first [exact P_gamma.interval_ok | intros; apply P_gamma.interval_ok; assumption]. Qed.
Print Assumptions C46_gamma_partial.
Example C46_gamma_partial_instance := C46_gamma_partial  2 3 1 4 ltac:(inst) ltac:(inst) ltac:(inst).

(** C46: ... also unbounded ones ... *)
Theorem C46_gamma_tail_partial : forall (k s x : R),
  0 < k -> 0 < s -> 0 <= x -> exists c, cdf x k s = Fin c /\ interval_prob x PInf k s = Fin (1 - c).
Proof. first [exact P_gamma.interval_inf | intros; apply P_gamma.interval_inf; assumption]. Qed.
Print Assumptions C46_gamma_tail_partial.
Example C46_gamma_tail_partial_instance := C46_gamma_tail_partial  2 3 1 ltac:(inst) ltac:(inst) ltac:(inst).

(** C46: ... but a negative x1 is not replaced by 0: the result exceeds 1. *)
Theorem C46_gamma_refuted : cdf (Fin (-1)) (Fin 1) (Fin 1) = Fin 0 /\ exists r, interval_prob (Fin (-1)) (Fin 1) (Fin 1) (Fin 1) = Fin r /\ 2 < r.
Proof. first [exact P_gamma.interval_neg | intros; apply P_gamma.interval_neg; assumption]. Qed.
Print Assumptions C46_gamma_refuted.
Example C46_gamma_refuted_instance := C46_gamma_refuted  .

(** C47: k given: the scale minimises nll. *)
Theorem C47_gamma_scale : forall euler fr xs k,
  xs <> [] -> (forall x, In x xs -> 0 < x) -> 0 < k -> exists s, mle euler fr (map Fin xs) (Some (Fin k)) None = Ok (Fin k, Fin s) /\
  minimises (fun s => 0 < s) (fun s => nll (map Fin xs) (Fin k) (Fin s)) s.
Proof. first [exact P_gamma.c47_scale | intros; apply P_gamma.c47_scale; assumption]. Qed.
Print Assumptions C47_gamma_scale.
Example C47_gamma_scale_instance := C47_gamma_scale  (Fin 1) (fun _ _ => NaN) [1; 2; 5] 3 ltac:(inst) ltac:(inst) ltac:(inst).

(** C47: scale given: k minimises nll. *)
Theorem C47_gamma_shape : forall euler fr xs k s,
  xs <> [] -> (forall x, In x xs -> 0 < x) -> checked_solver fr -> 0 < s ->
  mle euler fr (map Fin xs) None (Some (Fin s)) = Ok (Fin k, Fin s) ->
  minimises (fun k => 0 < k) (fun k => nll (map Fin xs) (Fin k) (Fin s)) k.
Proof. first [exact P_gamma.c47_k | intros; apply P_gamma.c47_k; assumption]. Qed.
Print Assumptions C47_gamma_shape.
Example C47_gamma_shape_instance : exists fr k, checked_solver fr /\ 0 < k /\ mle (Fin 1) fr (map Fin [1; 1]) None (Some (Fin 1)) = Ok (Fin k, Fin 1).
Proof. exact P_gamma.mle_k_case. Qed.

(** C47: both free: the Newton step has exactly one fixed point k, (k, mean/k) is the global minimum, and the scale returned is mean/k.  Missing: the ten steps taken reach the fixed point. *)
Theorem C47_gamma_both_partial : forall xs,
  (forall x, In x xs -> 0 < x) -> ~ constant xs -> exists k, 0 < k /\
  minimises (fun '(k, s) => 0 < k /\ 0 < s) (fun '(k, s) => nll (map Fin xs) (Fin k) (Fin s)) (k, average xs / k) /\
  (forall k', 0 < k' -> (mle_step (Fin (ln (average xs) - average (map ln xs))) (Fin k') = Fin k' <-> k' = k)) /\
  (forall euler fr k' s, mle euler fr (map Fin xs) None None = Ok (Fin k', Fin s) -> s = average xs / k').
Proof. first [exact P_gamma.c47_both | intros; apply P_gamma.c47_both; assumption]. Qed.
Print Assumptions C47_gamma_both_partial.
Example C47_gamma_both_partial_instance := C47_gamma_both_partial  [1; 2; 5] ltac:(inst) ltac:(inst).

(** C48: mom reproduces the sample mean and variance. *)
Theorem C48_gamma : forall xs,
  (forall x, In x xs -> 0 < x) -> ~ constant xs -> exists k s, mom (map Fin xs) = Ok (Fin k, Fin s) /\ 0 < k /\ 0 < s /\
  reproduces (mean (Fin k) (Fin s)) (var (Fin k) (Fin s)) xs.
Proof. first [exact P_gamma.mom_ok | intros; apply P_gamma.mom_ok; assumption]. Qed.
Print Assumptions C48_gamma.
Example C48_gamma_instance := C48_gamma  [1; 2; 5] ltac:(inst) ltac:(inst).

(** C49: nll is minus the sum of logpdf. *)
Theorem C49_gamma : forall k s xs,
  0 < k -> 0 < s -> (forall x, In x xs -> 0 < x) -> nll (map Fin xs) (Fin k) (Fin s) = vneg (loglik (fun x => logpdf x (Fin k) (Fin s)) xs).
Proof. first [exact P_gamma.nll_ok | intros; apply P_gamma.nll_ok; assumption]. Qed.
Print Assumptions C49_gamma.
Example C49_gamma_instance := C49_gamma  2 3 [1; 2; 5] ltac:(inst) ltac:(inst) ltac:(inst).

(** C49: data outside the support is rejected. *)
Theorem C49_gamma_outside : forall k s xs,
  0 < k -> 0 < s -> (exists x, In x xs /\ x < 0) -> nll (map Fin xs) (Fin k) (Fin s) = Exc ValueError.
Proof. first [exact P_gamma.nll_bad | intros; apply P_gamma.nll_bad; assumption]. Qed.
Print Assumptions C49_gamma_outside.
Example C49_gamma_outside_instance := C49_gamma_outside  2 3 [1; -2; 5] ltac:(inst) ltac:(inst) ltac:(inst).

(** C50: nll_grad is the gradient. *)
Theorem C50_gamma_grad : forall xs k s,
  0 < k -> 0 < s -> (forall x, In x xs -> 0 < x) ->
  exists g1 g2, nll_grad_k (map Fin xs) (Fin k) (Fin s) = Fin g1 /\ nll_grad_scale (map Fin xs) (Fin k) (Fin s) = Fin g2 /\
  is_derive (fun t => toR (nll (map Fin xs) (Fin t) (Fin s))) k g1 /\ is_derive (fun t => toR (nll (map Fin xs) (Fin k) (Fin t))) s g2.
Proof. first [exact P_gamma.c50_grad | intros; apply P_gamma.c50_grad; assumption]. Qed.
Print Assumptions C50_gamma_grad.
Example C50_gamma_grad_instance := C50_gamma_grad  [1; 2; 5] 2 3 ltac:(inst) ltac:(inst) ltac:(inst).

(** C50: nll_hess is the Hessian. *)
Theorem C50_gamma_hess : forall xs k s,
  0 < k -> 0 < s -> (forall x, In x xs -> 0 < x) ->
  exists h11 h12 h22, nll_hess (map Fin xs) (Fin k) (Fin s) = Ok ((Fin h11, Fin h12), (Fin h12, Fin h22)) /\
  is_derive (fun t => toR (nll_grad_k (map Fin xs) (Fin t) (Fin s))) k h11 /\ is_derive (fun t => toR (nll_grad_k (map Fin xs) (Fin k) (Fin t))) s h12 /\
  is_derive (fun t => toR (nll_grad_scale (map Fin xs) (Fin t) (Fin s))) k h12 /\ is_derive (fun t => toR (nll_grad_scale (map Fin xs) (Fin k) (Fin t))) s h22.
Proof. first [exact P_gamma.c50_hess | intros; apply P_gamma.c50_hess; assumption]. Qed.
Print Assumptions C50_gamma_hess.
Example C50_gamma_hess_instance := C50_gamma_hess  [1; 2; 5] 2 3 ltac:(inst) ltac:(inst) ltac:(inst).

(** C50: nll_invhess is the inverse of nll_hess unless that is singular, which it is not where k*scale is the sample mean. *)
Theorem C50_gamma_invhess : forall xs k s,
  0 < k -> 0 < s ->
  exists h11 h12 h22, nll_hess (map Fin xs) (Fin k) (Fin s) = Ok ((Fin h11, Fin h12), (Fin h12, Fin h22)) /\
  (h11 * h22 - h12 ^ 2 = 0 -> nll_invhess (map Fin xs) (Fin k) (Fin s) = Err ZeroDivisionError) /\
  (h11 * h22 - h12 ^ 2 <> 0 -> exists i11 i12 i22, nll_invhess (map Fin xs) (Fin k) (Fin s) = Ok ((Fin i11, Fin i12), (Fin i12, Fin i22)) /\
    i11 * h11 + i12 * h12 = 1 /\ i11 * h12 + i12 * h22 = 0 /\ i12 * h11 + i22 * h12 = 0 /\ i12 * h12 + i22 * h22 = 1) /\
  (xs <> [] -> k * s = average xs -> 0 < h11 * h22 - h12 ^ 2).
Proof. first [exact P_gamma.c50_invhess | intros; apply P_gamma.c50_invhess; assumption]. Qed.
Print Assumptions C50_gamma_invhess.
Example C50_gamma_invhess_instance := C50_gamma_invhess  [1; 2; 5] 2 3 ltac:(inst) ltac:(inst).

(** C65: k > 1: logpdf(0) = log pdf(0). *)
Theorem C65_gamma_partial : forall k s : R, 0 < k -> 0 < s -> 1 < k -> log_of (fun x => pdf x k s) (fun x => logpdf x k s) 0.
Proof. first [exact P_gamma.log_end | intros; apply P_gamma.log_end; assumption]. Qed.
Print Assumptions C65_gamma_partial.
Example C65_gamma_partial_instance := C65_gamma_partial (2) (3) ltac:(inst) ltac:(inst) ltac:(inst).

(** C65: k = 1: pdf(0) = 1/scale but logpdf(0) is nan. *)
Theorem C65_gamma_refuted : forall k s : R, 0 < k -> 0 < s -> k = 1 -> pdf 0 k s = Fin (/ s) /\ logpdf 0 k s = NaN.
Proof. first [exact P_gamma.log_one | intros; apply P_gamma.log_one; assumption]. Qed.
Print Assumptions C65_gamma_refuted.
Example C65_gamma_refuted_instance : pdf 0 1 3 = Fin (/ 3) /\ logpdf 0 1 3 = NaN.
Proof. apply (C65_gamma_refuted 1 3); lra. Qed.

