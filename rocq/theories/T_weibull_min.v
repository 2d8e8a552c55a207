(** Properties of mpsci.distributions.weibull_min (generated by tools/mkthm.py). *)
From Coq Require Import Reals Lra List.
From Coquelicot Require Import Coquelicot.
From Verif Require Import Values Spec SpecStat SpecEst VTac TTac DistLib.
From Verif Require SFun EulerLib.
From Verif Require Import M_sfun SpecEuler.
From Verif Require Import M_weibull_min.
From Verif Require P_weibull_min.
Import ListNotations.
Local Open Scope R_scope.

Theorem C30_weibull_min : forall k l s : R, 0 < k -> 0 < s -> 
  complementary (fun x => M_weibull_min.cdf x k l s) (fun x => M_weibull_min.sf x k l s).
Proof. exact (fun k l s H0 H1 => cert_complementary (P_weibull_min.CERT k l s H0 H1)). Qed.
Print Assumptions C30_weibull_min.
Example C30_weibull_min_instance : complementary (fun x => M_weibull_min.cdf x (3) (1) (2)) (fun x => M_weibull_min.sf x (3) (1) (2)).
Proof. exact (C30_weibull_min (3) (1) (2) ltac:(side) ltac:(side)). Qed.

Theorem C31_weibull_min : forall k l s : R, 0 < k -> 0 < s -> 
  nondecreasing (fun x => M_weibull_min.cdf x k l s) /\ supported_on (fun x => M_weibull_min.cdf x k l s) (Fin (l)) PInf /\
  M_weibull_min.support k l s = Ok ((Fin (l)), PInf).
Proof. intros k l s H0 H1. split; [exact (cert_nondecreasing (P_weibull_min.CERT k l s H0 H1))|split; [exact (cert_supported (P_weibull_min.CERT k l s H0 H1))|unfold M_weibull_min.support, M_weibull_common.validate_params; supp]]. Qed.
Print Assumptions C31_weibull_min.
Example C31_weibull_min_instance : nondecreasing (fun x => M_weibull_min.cdf x (3) (1) (2)) /\ supported_on (fun x => M_weibull_min.cdf x (3) (1) (2)) (Fin ((1))) PInf /\
  M_weibull_min.support (3) (1) (2) = Ok ((Fin ((1))), PInf).
Proof. exact (C31_weibull_min (3) (1) (2) ltac:(side) ltac:(side)). Qed.

Theorem C32_weibull_min : forall k l s : R, 0 < k -> 0 < s -> 
  density_of (fun x => M_weibull_min.cdf x k l s) (fun x => M_weibull_min.pdf x k l s) l p_infty.
Proof. exact (fun k l s H0 H1 => cert_density (P_weibull_min.CERT k l s H0 H1)). Qed.
Print Assumptions C32_weibull_min.
Example C32_weibull_min_instance : density_of (fun x => M_weibull_min.cdf x (3) (1) (2)) (fun x => M_weibull_min.pdf x (3) (1) (2)) (1) p_infty.
Proof. exact (C32_weibull_min (3) (1) (2) ltac:(side) ltac:(side)). Qed.

Theorem C33_weibull_min : forall k l s : R, 0 < k -> 0 < s -> 
  total_mass_one (fun x => M_weibull_min.pdf x k l s) l p_infty.
Proof. exact (fun k l s H0 H1 => cert_total_mass (P_weibull_min.CERT k l s H0 H1)). Qed.
Print Assumptions C33_weibull_min.
Example C33_weibull_min_instance : total_mass_one (fun x => M_weibull_min.pdf x (3) (1) (2)) (1) p_infty.
Proof. exact (C33_weibull_min (3) (1) (2) ltac:(side) ltac:(side)). Qed.

Theorem C34_weibull_min : forall k l s : R, 0 < k -> 0 < s -> 
  forall x : R, log_of (fun x => M_weibull_min.pdf x k l s) (fun x => M_weibull_min.logpdf x k l s) (Fin x).
Proof. exact (fun k l s H0 H1 => P_weibull_min.log_all k l s H0 H1). Qed.
Print Assumptions C34_weibull_min.
Example C34_weibull_min_instance : forall x : R, log_of (fun x => M_weibull_min.pdf x (3) (1) (2)) (fun x => M_weibull_min.logpdf x (3) (1) (2)) (Fin x).
Proof. exact (C34_weibull_min (3) (1) (2) ltac:(side) ltac:(side)). Qed.

Theorem C35_weibull_min : forall k l s : R, 0 < k -> 0 < s -> 
  inverse_of (fun x => M_weibull_min.cdf x k l s) (fun x => M_weibull_min.invcdf x k l s) l p_infty.
Proof. exact (fun k l s H0 H1 => cert_inverse (P_weibull_min.CERT k l s H0 H1)). Qed.
Print Assumptions C35_weibull_min.
Example C35_weibull_min_instance : inverse_of (fun x => M_weibull_min.cdf x (3) (1) (2)) (fun x => M_weibull_min.invcdf x (3) (1) (2)) (1) p_infty.
Proof. exact (C35_weibull_min (3) (1) (2) ltac:(side) ltac:(side)). Qed.

Theorem C36_weibull_min : forall k l s : R, 0 < k -> 0 < s -> 
  inverse_of (fun x => M_weibull_min.sf x k l s) (fun x => M_weibull_min.invsf x k l s) l p_infty /\
  (forall p, 0 < p < 1 -> M_weibull_min.invsf (Fin p) k l s = M_weibull_min.invcdf (Fin (1 - p)) k l s).
Proof. exact (fun k l s H0 H1 => conj (cert_inverse_sf (P_weibull_min.CERT k l s H0 H1)) (cert_invsf_invcdf (P_weibull_min.CERT k l s H0 H1))). Qed.
Print Assumptions C36_weibull_min.
Example C36_weibull_min_instance : inverse_of (fun x => M_weibull_min.sf x (3) (1) (2)) (fun x => M_weibull_min.invsf x (3) (1) (2)) (1) p_infty /\
  (forall p, 0 < p < 1 -> M_weibull_min.invsf (Fin p) (3) (1) (2) = M_weibull_min.invcdf (Fin (1 - p)) (3) (1) (2)).
Proof. exact (C36_weibull_min (3) (1) (2) ltac:(side) ltac:(side)). Qed.

Theorem C37_weibull_min : forall k l s : R, 0 < k -> 0 < s -> 
  rejects_bad_p (fun x => M_weibull_min.invcdf x k l s) /\ rejects_bad_p (fun x => M_weibull_min.invsf x k l s) /\
  at_ends (fun x => M_weibull_min.invcdf x k l s) l PInf /\ at_ends (fun x => M_weibull_min.invsf x k l s) PInf l.
Proof. exact (fun k l s H0 H1 => P_weibull_min.ends k l s H0 H1). Qed.
Print Assumptions C37_weibull_min.
Example C37_weibull_min_instance : rejects_bad_p (fun x => M_weibull_min.invcdf x (3) (1) (2)) /\ rejects_bad_p (fun x => M_weibull_min.invsf x (3) (1) (2)) /\
  at_ends (fun x => M_weibull_min.invcdf x (3) (1) (2)) (1) PInf /\ at_ends (fun x => M_weibull_min.invsf x (3) (1) (2)) PInf (1).
Proof. exact (C37_weibull_min (3) (1) (2) ltac:(side) ltac:(side)). Qed.

(** C38: a shape or scale that is not positive is rejected by every function. *)
Theorem C38_weibull_min : forall g e (k l s : val),
  isnum k -> isnum s -> nonpositive k \/ nonpositive s ->
  support k l s = Err ValueError /\
  always_ValueError [ fun x => pdf x k l s; fun x => logpdf x k l s; fun x => cdf x k l s; fun x => sf x k l s;
    fun p => invcdf p k l s; fun p => invsf p k l s; fun _ => mode k l s; fun _ => mean g k l s; fun _ => var g k l s;
    fun _ => skewness g k l s; fun _ => kurtosis g k l s; fun _ => entropy e k l s;
    fun x => nll [x] k l s ].
Proof. first [exact P_weibull_min.bad_params | intros; apply P_weibull_min.bad_params; assumption]. Qed.
Print Assumptions C38_weibull_min.
Example C38_weibull_min_instance := C38_weibull_min  (fun v => v) (Fin 0) (Fin 1) (Fin 0) (Fin (-1)) ltac:(inst) ltac:(inst) ltac:(inst).

(** C39: the mode maximises the density, which may be infinite there. *)
Theorem C39_weibull_min : forall k l s : R, 0 < k -> 0 < s -> is_mode_ext (fun x => pdf x k l s) (mode k l s).
Proof. first [exact P_weibull_min.mode_ok | intros; apply P_weibull_min.mode_ok; assumption]. Qed.
Print Assumptions C39_weibull_min.
Example C39_weibull_min_instance := C39_weibull_min (3) (1) (2) ltac:(inst) ltac:(inst) .

(** C44: location and scale. *)
Theorem C44_weibull_min : forall k,
  0 < k -> loc_scale_law (fun x => pdf x k) (fun x => cdf x k) (fun x => sf x k)
  (fun p => invcdf p k) (fun p => invsf p k) 0 p_infty.
Proof. first [exact P_weibull_min.loc_scale | intros; apply P_weibull_min.loc_scale; assumption]. Qed.
Print Assumptions C44_weibull_min.
Example C44_weibull_min_instance := C44_weibull_min  1 ltac:(inst) 1 2 ltac:(inst).

(** C43: mean (vgamma is mp.gamma). *)
Theorem C43_weibull_min_mean : forall k l s : R, 0 < k -> 0 < s -> mean_is (fun x => pdf x k l s) l p_infty (mean vgamma k l s).
Proof. first [exact P_weibull_min.mean_ok | intros; apply P_weibull_min.mean_ok; assumption]. Qed.
Print Assumptions C43_weibull_min_mean.
Example C43_weibull_min_mean_instance := C43_weibull_min_mean (3) (1) (2) ltac:(inst) ltac:(inst) .

(** C43: variance. *)
Theorem C43_weibull_min_var : forall k l s : R, 0 < k -> 0 < s -> var_is (fun x => pdf x k l s) l p_infty (mean vgamma k l s) (var vgamma k l s).
Proof. first [exact P_weibull_min.var_ok | intros; apply P_weibull_min.var_ok; assumption]. Qed.
Print Assumptions C43_weibull_min_var.
Example C43_weibull_min_var_instance := C43_weibull_min_var (3) (1) (2) ltac:(inst) ltac:(inst) .

(** C43: skewness. *)
Theorem C43_weibull_min_skewness : forall k l s : R, 0 < k -> 0 < s -> skewness_is (fun x => pdf x k l s) l p_infty (skewness vgamma k l s).
Proof. first [exact P_weibull_min.skew_ok | intros; apply P_weibull_min.skew_ok; assumption]. Qed.
Print Assumptions C43_weibull_min_skewness.
Example C43_weibull_min_skewness_instance := C43_weibull_min_skewness (3) (1) (2) ltac:(inst) ltac:(inst) .

(** C43: excess kurtosis. *)
Theorem C43_weibull_min_kurtosis : forall k l s : R, 0 < k -> 0 < s -> kurtosis_is (fun x => pdf x k l s) l p_infty (kurtosis vgamma k l s).
Proof. first [exact P_weibull_min.kurt_ok | intros; apply P_weibull_min.kurt_ok; assumption]. Qed.
Print Assumptions C43_weibull_min_kurtosis.
Example C43_weibull_min_kurtosis_instance := C43_weibull_min_kurtosis (3) (1) (2) ltac:(inst) ltac:(inst) .

(** C43: raw moments of every order. *)
Theorem C43_weibull_min_moments : forall k l s : R, 0 < k -> 0 < s -> forall n,
  moment_is (fun x => pdf x k l s) l p_infty n (noncentral_moment vgamma n k l s).
Proof. first [exact P_weibull_min.moment_ok | intros; apply P_weibull_min.moment_ok; assumption]. Qed.
Print Assumptions C43_weibull_min_moments.
Example C43_weibull_min_moments_instance := C43_weibull_min_moments (3) (1) (2) ltac:(inst) ltac:(inst) 3%nat.

(** C43: entropy; g is the Euler-Mascheroni constant. *)
Theorem C43_weibull_min_entropy : forall k l s : R, 0 < k -> 0 < s -> forall g,
  euler_constant g -> entropy_is (fun x => pdf x k l s) l p_infty (entropy g k l s).
Proof. first [exact P_weibull_min.ent_ok | intros; apply P_weibull_min.ent_ok; assumption]. Qed.
Print Assumptions C43_weibull_min_entropy.
Example C43_weibull_min_entropy_instance : exists g, euler_constant g /\ entropy_is (fun x => pdf x 3 1 2) 1 p_infty (entropy g 3 1 2).
Proof. exists (- SFun.digamma 1). assert (G := EulerLib.euler_digamma). split; auto. apply C43_weibull_min_entropy; auto; lra. Qed.

(** C47: shape and location given: the scale minimises nll. *)
Theorem C47_weibull_min_scale_partial : forall solve1 solve2 xs (k l : R),
  xs <> [] -> 0 < k -> (forall x, In x xs -> l < x) ->
  exists s, mle solve1 solve2 (map Fin xs) (Some (Fin k)) (Some (Fin l)) None = Ok (Fin k, Fin l, Fin s) /\
  minimises (fun s => 0 < s) (fun s => nll (map Fin xs) (Fin k) (Fin l) (Fin s)) s.
Proof. first [exact P_weibull_min.mle_scale_opt | intros; apply P_weibull_min.mle_scale_opt; assumption]. Qed.
Print Assumptions C47_weibull_min_scale_partial.
Example C47_weibull_min_scale_partial_instance := C47_weibull_min_scale_partial  (fun _ => NaN) (fun _ _ => NaN) [1; 2; 5] 3 0 ltac:(inst) ltac:(inst) ltac:(inst).

(** C49: nll is minus the sum of logpdf. *)
Theorem C49_weibull_min : forall k l s : R, 0 < k -> 0 < s -> forall xs,
  (forall x, In x xs -> l < x) -> nll (map Fin xs) k l s = vneg (loglik (fun x => logpdf x k l s) xs).
Proof. first [exact P_weibull_min.nll_ok | intros; apply P_weibull_min.nll_ok; assumption]. Qed.
Print Assumptions C49_weibull_min.
Example C49_weibull_min_instance := C49_weibull_min (3) (1) (2) ltac:(inst) ltac:(inst) [2; 4; 5] ltac:(inst).

(** C49: data outside the support is rejected. *)
Theorem C49_weibull_min_outside : forall k l s : R, 0 < k -> 0 < s -> forall xs,
  (exists x, In x xs /\ x <= l) -> nll (map Fin xs) k l s = Exc ValueError.
Proof. first [exact P_weibull_min.nll_bad | intros; apply P_weibull_min.nll_bad; assumption]. Qed.
Print Assumptions C49_weibull_min_outside.
Example C49_weibull_min_outside_instance := C49_weibull_min_outside (3) (1) (2) ltac:(inst) ltac:(inst) [2; 1; 5] ltac:(inst).

