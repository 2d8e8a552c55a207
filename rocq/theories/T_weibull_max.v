(** Properties of mpsci.distributions.weibull_max (generated by tools/mkthm.py). *)
From Coq Require Import Reals Lra List.
From Coquelicot Require Import Coquelicot.
From Verif Require Import Values Spec SpecStat SpecEst VTac TTac DistLib.
From Verif Require M_weibull_min SFun EulerLib.
From Verif Require Import M_sfun SpecEuler.
From Verif Require Import M_weibull_max.
From Verif Require P_weibull_max.
Import ListNotations.
Local Open Scope R_scope.

Theorem C30_weibull_max : forall k l s : R, 0 < k -> 0 < s -> 
  complementary (fun x => M_weibull_max.cdf x k l s) (fun x => M_weibull_max.sf x k l s).
Proof. exact (fun k l s H0 H1 => cert_complementary (P_weibull_max.CERT k l s H0 H1)). Qed.
Print Assumptions C30_weibull_max.
Example C30_weibull_max_instance : complementary (fun x => M_weibull_max.cdf x (3) (1) (2)) (fun x => M_weibull_max.sf x (3) (1) (2)).
Proof. exact (C30_weibull_max (3) (1) (2) ltac:(side) ltac:(side)). Qed.

Theorem C31_weibull_max : forall k l s : R, 0 < k -> 0 < s -> 
  nondecreasing (fun x => M_weibull_max.cdf x k l s) /\ supported_on (fun x => M_weibull_max.cdf x k l s) NInf (Fin (l)) /\
  M_weibull_max.support k l s = Ok (NInf, (Fin (l))).
Proof. intros k l s H0 H1. split; [exact (cert_nondecreasing (P_weibull_max.CERT k l s H0 H1))|split; [exact (cert_supported (P_weibull_max.CERT k l s H0 H1))|unfold M_weibull_max.support, M_weibull_common.validate_params; supp]]. Qed.
Print Assumptions C31_weibull_max.
Example C31_weibull_max_instance : nondecreasing (fun x => M_weibull_max.cdf x (3) (1) (2)) /\ supported_on (fun x => M_weibull_max.cdf x (3) (1) (2)) NInf (Fin ((1))) /\
  M_weibull_max.support (3) (1) (2) = Ok (NInf, (Fin ((1)))).
Proof. exact (C31_weibull_max (3) (1) (2) ltac:(side) ltac:(side)). Qed.

Theorem C32_weibull_max : forall k l s : R, 0 < k -> 0 < s -> 
  density_of (fun x => M_weibull_max.cdf x k l s) (fun x => M_weibull_max.pdf x k l s) m_infty l.
Proof. exact (fun k l s H0 H1 => cert_density (P_weibull_max.CERT k l s H0 H1)). Qed.
Print Assumptions C32_weibull_max.
Example C32_weibull_max_instance : density_of (fun x => M_weibull_max.cdf x (3) (1) (2)) (fun x => M_weibull_max.pdf x (3) (1) (2)) m_infty (1).
Proof. exact (C32_weibull_max (3) (1) (2) ltac:(side) ltac:(side)). Qed.

Theorem C33_weibull_max : forall k l s : R, 0 < k -> 0 < s -> 
  total_mass_one (fun x => M_weibull_max.pdf x k l s) m_infty l.
Proof. exact (fun k l s H0 H1 => cert_total_mass (P_weibull_max.CERT k l s H0 H1)). Qed.
Print Assumptions C33_weibull_max.
Example C33_weibull_max_instance : total_mass_one (fun x => M_weibull_max.pdf x (3) (1) (2)) m_infty (1).
Proof. exact (C33_weibull_max (3) (1) (2) ltac:(side) ltac:(side)). Qed.

Theorem C34_weibull_max : forall k l s : R, 0 < k -> 0 < s -> 
  forall x : R, log_of (fun x => M_weibull_max.pdf x k l s) (fun x => M_weibull_max.logpdf x k l s) (Fin x).
Proof. exact (fun k l s H0 H1 => P_weibull_max.log_all k l s H0 H1). Qed.
Print Assumptions C34_weibull_max.
Example C34_weibull_max_instance : forall x : R, log_of (fun x => M_weibull_max.pdf x (3) (1) (2)) (fun x => M_weibull_max.logpdf x (3) (1) (2)) (Fin x).
Proof. exact (C34_weibull_max (3) (1) (2) ltac:(side) ltac:(side)). Qed.

Theorem C35_weibull_max : forall k l s : R, 0 < k -> 0 < s -> 
  inverse_of (fun x => M_weibull_max.cdf x k l s) (fun x => M_weibull_max.invcdf x k l s) m_infty l.
Proof. exact (fun k l s H0 H1 => cert_inverse (P_weibull_max.CERT k l s H0 H1)). Qed.
Print Assumptions C35_weibull_max.
Example C35_weibull_max_instance : inverse_of (fun x => M_weibull_max.cdf x (3) (1) (2)) (fun x => M_weibull_max.invcdf x (3) (1) (2)) m_infty (1).
Proof. exact (C35_weibull_max (3) (1) (2) ltac:(side) ltac:(side)). Qed.

Theorem C36_weibull_max : forall k l s : R, 0 < k -> 0 < s -> 
  inverse_of (fun x => M_weibull_max.sf x k l s) (fun x => M_weibull_max.invsf x k l s) m_infty l /\
  (forall p, 0 < p < 1 -> M_weibull_max.invsf (Fin p) k l s = M_weibull_max.invcdf (Fin (1 - p)) k l s).
Proof. exact (fun k l s H0 H1 => conj (cert_inverse_sf (P_weibull_max.CERT k l s H0 H1)) (cert_invsf_invcdf (P_weibull_max.CERT k l s H0 H1))). Qed.
Print Assumptions C36_weibull_max.
Example C36_weibull_max_instance : inverse_of (fun x => M_weibull_max.sf x (3) (1) (2)) (fun x => M_weibull_max.invsf x (3) (1) (2)) m_infty (1) /\
  (forall p, 0 < p < 1 -> M_weibull_max.invsf (Fin p) (3) (1) (2) = M_weibull_max.invcdf (Fin (1 - p)) (3) (1) (2)).
Proof. exact (C36_weibull_max (3) (1) (2) ltac:(side) ltac:(side)). Qed.

Theorem C37_weibull_max : forall k l s : R, 0 < k -> 0 < s -> 
  rejects_bad_p (fun x => M_weibull_max.invcdf x k l s) /\ rejects_bad_p (fun x => M_weibull_max.invsf x k l s) /\
  at_ends (fun x => M_weibull_max.invcdf x k l s) NInf l /\ at_ends (fun x => M_weibull_max.invsf x k l s) l NInf.
Proof. exact (fun k l s H0 H1 => P_weibull_max.ends k l s H0 H1). Qed.
Print Assumptions C37_weibull_max.
Example C37_weibull_max_instance : rejects_bad_p (fun x => M_weibull_max.invcdf x (3) (1) (2)) /\ rejects_bad_p (fun x => M_weibull_max.invsf x (3) (1) (2)) /\
  at_ends (fun x => M_weibull_max.invcdf x (3) (1) (2)) NInf (1) /\ at_ends (fun x => M_weibull_max.invsf x (3) (1) (2)) (1) NInf.
Proof. exact (C37_weibull_max (3) (1) (2) ltac:(side) ltac:(side)). Qed.

(** C38: a shape or scale that is not positive is rejected by every function. *)
Theorem C38_weibull_max : forall g e (k l s : val),
  isnum k -> isnum s -> nonpositive k \/ nonpositive s ->
  support k l s = Err ValueError /\
  always_ValueError [ fun x => pdf x k l s; fun x => logpdf x k l s; fun x => cdf x k l s; fun x => sf x k l s;
    fun p => invcdf p k l s; fun p => invsf p k l s; fun _ => mode k l s; fun _ => mean g k l s; fun _ => var g k l s;
    fun _ => skewness g k l s; fun _ => kurtosis g k l s; fun _ => entropy e k l s;
    fun x => nll [x] k l s ].
Proof. first [exact P_weibull_max.bad_params | intros; apply P_weibull_max.bad_params; assumption]. Qed.
Print Assumptions C38_weibull_max.
Example C38_weibull_max_instance := C38_weibull_max  (fun v => v) (Fin 0) (Fin 1) (Fin 0) (Fin (-1)) ltac:(inst) ltac:(inst) ltac:(inst).

(** C39: the mode maximises the density, which may be infinite there. *)
Theorem C39_weibull_max : forall k l s : R, 0 < k -> 0 < s -> is_mode_ext (fun x => pdf x k l s) (mode k l s).
Proof. first [exact P_weibull_max.mode_ok | intros; apply P_weibull_max.mode_ok; assumption]. Qed.
Print Assumptions C39_weibull_max.
Example C39_weibull_max_instance := C39_weibull_max (3) (1) (2) ltac:(inst) ltac:(inst) .

(** C44: location and scale. *)
Theorem C44_weibull_max : forall k,
  0 < k -> loc_scale_law (fun x => pdf x k) (fun x => cdf x k) (fun x => sf x k)
  (fun p => invcdf p k) (fun p => invsf p k) m_infty 0.
Proof. first [exact P_weibull_max.loc_scale | intros; apply P_weibull_max.loc_scale; assumption]. Qed.
Print Assumptions C44_weibull_max.
Example C44_weibull_max_instance := C44_weibull_max  1 ltac:(inst) 1 2 ltac:(inst).

(** C43: mean (vgamma is mp.gamma). *)
Theorem C43_weibull_max_mean : forall k l s : R, 0 < k -> 0 < s -> mean_is (fun x => pdf x k l s) m_infty l (mean vgamma k l s).
Proof. first [exact P_weibull_max.mean_ok | intros; apply P_weibull_max.mean_ok; assumption]. Qed.
Print Assumptions C43_weibull_max_mean.
Example C43_weibull_max_mean_instance := C43_weibull_max_mean (3) (1) (2) ltac:(inst) ltac:(inst) .

(** C43: variance. *)
Theorem C43_weibull_max_var : forall k l s : R, 0 < k -> 0 < s -> var_is (fun x => pdf x k l s) m_infty l (mean vgamma k l s) (var vgamma k l s).
Proof. first [exact P_weibull_max.var_ok | intros; apply P_weibull_max.var_ok; assumption]. Qed.
Print Assumptions C43_weibull_max_var.
Example C43_weibull_max_var_instance := C43_weibull_max_var (3) (1) (2) ltac:(inst) ltac:(inst) .

(** C43: skewness. *)
Theorem C43_weibull_max_skewness : forall k l s : R, 0 < k -> 0 < s -> skewness_is (fun x => pdf x k l s) m_infty l (skewness vgamma k l s).
Proof. first [exact P_weibull_max.skew_ok | intros; apply P_weibull_max.skew_ok; assumption]. Qed.
Print Assumptions C43_weibull_max_skewness.
Example C43_weibull_max_skewness_instance := C43_weibull_max_skewness (3) (1) (2) ltac:(inst) ltac:(inst) .

(** C43: excess kurtosis. *)
Theorem C43_weibull_max_kurtosis : forall k l s : R, 0 < k -> 0 < s -> kurtosis_is (fun x => pdf x k l s) m_infty l (kurtosis vgamma k l s).
Proof. first [exact P_weibull_max.kurt_ok | intros; apply P_weibull_max.kurt_ok; assumption]. Qed.
Print Assumptions C43_weibull_max_kurtosis.
Example C43_weibull_max_kurtosis_instance := C43_weibull_max_kurtosis (3) (1) (2) ltac:(inst) ltac:(inst) .

(** C43: raw moments of every order. *)
Theorem C43_weibull_max_moments : forall k l s : R, 0 < k -> 0 < s -> forall n,
  moment_is (fun x => pdf x k l s) m_infty l n (noncentral_moment vgamma n k l s).
Proof. first [exact P_weibull_max.moment_ok | intros; apply P_weibull_max.moment_ok; assumption]. Qed.
Print Assumptions C43_weibull_max_moments.
Example C43_weibull_max_moments_instance := C43_weibull_max_moments (3) (1) (2) ltac:(inst) ltac:(inst) 3%nat.

(** C43: entropy; g is the Euler-Mascheroni constant. *)
Theorem C43_weibull_max_entropy : forall k l s : R, 0 < k -> 0 < s -> forall g,
  euler_constant g -> entropy_is (fun x => pdf x k l s) m_infty l (entropy g k l s).
Proof. first [exact P_weibull_max.ent_ok | intros; apply P_weibull_max.ent_ok; assumption]. Qed.
Print Assumptions C43_weibull_max_entropy.
Example C43_weibull_max_entropy_instance : exists g, euler_constant g /\ entropy_is (fun x => pdf x 3 1 2) m_infty 1 (entropy g 3 1 2).
Proof. exists (- SFun.digamma 1). assert (G := EulerLib.euler_digamma). split; auto. apply C43_weibull_max_entropy; auto; lra. Qed.

(** C45: the reflection of weibull_min: densities. *)
Theorem C45_weibull_max : forall k l s : R, 0 < k -> 0 < s -> forall (x : R),
  pdf x k l s = M_weibull_min.pdf (- x)%R k (- l)%R s /\
  logpdf x k l s = M_weibull_min.logpdf (- x)%R k (- l)%R s.
Proof. first [exact P_weibull_max.refl_pdf | intros; apply P_weibull_max.refl_pdf; assumption]. Qed.
Print Assumptions C45_weibull_max.
Example C45_weibull_max_instance := C45_weibull_max (3) (1) (2) ltac:(inst) ltac:(inst) (-1).

(** C45: distribution functions. *)
Theorem C45_weibull_max_cdf : forall k l s : R, 0 < k -> 0 < s -> forall x,
  ext x -> cdf x k l s = M_weibull_min.sf (vneg x) k (- l)%R s /\
  sf x k l s = M_weibull_min.cdf (vneg x) k (- l)%R s.
Proof. first [exact P_weibull_max.refl_cdf | intros; apply P_weibull_max.refl_cdf; assumption]. Qed.
Print Assumptions C45_weibull_max_cdf.
Example C45_weibull_max_cdf_instance := C45_weibull_max_cdf (3) (1) (2) ltac:(inst) ltac:(inst) (Fin (-1)) ltac:(inst).

(** C45: quantiles. *)
Theorem C45_weibull_max_quantile : forall k l s : R, 0 < k -> 0 < s -> forall p,
  0 <= p <= 1 -> invcdf p k l s = vneg (M_weibull_min.invsf p k (- l)%R s) /\
  invsf p k l s = vneg (M_weibull_min.invcdf p k (- l)%R s).
Proof. first [exact P_weibull_max.refl_inv | intros; apply P_weibull_max.refl_inv; assumption]. Qed.
Print Assumptions C45_weibull_max_quantile.
Example C45_weibull_max_quantile_instance := C45_weibull_max_quantile (3) (1) (2) ltac:(inst) ltac:(inst) (1/3) ltac:(inst).

(** C45: mode. *)
Theorem C45_weibull_max_mode : forall k l s : R, 0 < k -> 0 < s -> mode k l s = vneg (M_weibull_min.mode k (- l)%R s).
Proof. first [exact P_weibull_max.refl_mode | intros; apply P_weibull_max.refl_mode; assumption]. Qed.
Print Assumptions C45_weibull_max_mode.
Example C45_weibull_max_mode_instance := C45_weibull_max_mode (3) (1) (2) ltac:(inst) ltac:(inst) .

(** C45: mean and variance, for any numbers taken as the values of the gamma function. *)
Theorem C45_weibull_max_mean : forall g (k l s : R),
  0 < k -> 0 < s -> (forall x : R, 0 < x -> exists y : R, g (Fin x) = Fin y) ->
  mean g k l s = vneg (M_weibull_min.mean g k (- l)%R s) /\ var g k l s = M_weibull_min.var g k (- l)%R s.
Proof. first [exact P_weibull_max.refl_mean | intros; apply P_weibull_max.refl_mean; assumption]. Qed.
Print Assumptions C45_weibull_max_mean.
Example C45_weibull_max_mean_instance := C45_weibull_max_mean  (fun v => v) 3 1 2 ltac:(inst) ltac:(inst) ltac:(intros x _; exists x; reflexivity).

(** C47: shape and location given: the scale minimises nll. *)
Theorem C47_weibull_max_scale_partial : forall solve1 solve2 xs (k l : R),
  xs <> [] -> 0 < k -> (forall x, In x xs -> x < l) ->
  exists s, mle solve1 solve2 (map Fin xs) (Some (Fin k)) (Some (Fin l)) None = Ok (Fin k, Fin l, Fin s) /\
  minimises (fun s => 0 < s) (fun s => nll (map Fin xs) (Fin k) (Fin l) (Fin s)) s.
Proof. first [exact P_weibull_max.mle_scale_opt | intros; apply P_weibull_max.mle_scale_opt; assumption]. Qed.
Print Assumptions C47_weibull_max_scale_partial.
Example C47_weibull_max_scale_partial_instance := C47_weibull_max_scale_partial  (fun _ => NaN) (fun _ _ => NaN) [1; 2; 5] 3 6 ltac:(inst) ltac:(inst) ltac:(inst).

(** C49: nll is minus the sum of logpdf. *)
Theorem C49_weibull_max : forall k l s : R, 0 < k -> 0 < s -> forall xs,
  (forall x, In x xs -> x < l) -> nll (map Fin xs) k l s = vneg (loglik (fun x => logpdf x k l s) xs).
Proof. first [exact P_weibull_max.nll_ok | intros; apply P_weibull_max.nll_ok; assumption]. Qed.
Print Assumptions C49_weibull_max.
Example C49_weibull_max_instance := C49_weibull_max (3) (1) (2) ltac:(inst) ltac:(inst) [-2; 0] ltac:(inst).

(** C49: data outside the support is rejected. *)
Theorem C49_weibull_max_outside : forall k l s : R, 0 < k -> 0 < s -> forall xs,
  (exists x, In x xs /\ l <= x) -> nll (map Fin xs) k l s = Exc ValueError.
Proof. first [exact P_weibull_max.nll_bad | intros; apply P_weibull_max.nll_bad; assumption]. Qed.
Print Assumptions C49_weibull_max_outside.
Example C49_weibull_max_outside_instance := C49_weibull_max_outside (3) (1) (2) ltac:(inst) ltac:(inst) [-2; 1; 0] ltac:(inst).

