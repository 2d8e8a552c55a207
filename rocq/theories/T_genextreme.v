(** Properties of mpsci.distributions.genextreme (generated by tools/mkthm.py). *)
From Coq Require Import Reals Lra List.
From Coquelicot Require Import Coquelicot.
From Verif Require Import Values Spec SpecStat SpecEst VTac TTac DistLib.
From Verif Require M_gumbel_max SFun EulerLib.
From Verif Require Import SpecTop SpecEuler.
From Verif Require Import M_genextreme.
From Verif Require P_genextreme.
Import ListNotations.
Local Open Scope R_scope.

Theorem C30_genextreme : forall xi l s : R, 0 < s -> 
  complementary (fun x => M_genextreme.cdf x xi l s) (fun x => M_genextreme.sf x xi l s).
Proof. exact (fun xi l s H0 => cert_complementary (P_genextreme.CERT xi l s H0)). Qed.
Print Assumptions C30_genextreme.
Example C30_genextreme_instance : complementary (fun x => M_genextreme.cdf x ((1/3)%R) (1) (2)) (fun x => M_genextreme.sf x ((1/3)%R) (1) (2)).
Proof. exact (C30_genextreme ((1/3)%R) (1) (2) ltac:(side)). Qed.

Theorem C32_genextreme : forall xi l s : R, 0 < s -> 
  density_of (fun x => M_genextreme.cdf x xi l s) (fun x => M_genextreme.pdf x xi l s) (gev_lo xi l s) (gev_hi xi l s).
Proof. exact (fun xi l s H0 => cert_density (P_genextreme.CERT xi l s H0)). Qed.
Print Assumptions C32_genextreme.
Example C32_genextreme_instance : density_of (fun x => M_genextreme.cdf x ((1/3)%R) (1) (2)) (fun x => M_genextreme.pdf x ((1/3)%R) (1) (2)) (gev_lo ((1/3)%R) (1) (2)) (gev_hi ((1/3)%R) (1) (2)).
Proof. exact (C32_genextreme ((1/3)%R) (1) (2) ltac:(side)). Qed.

Theorem C33_genextreme : forall xi l s : R, 0 < s -> 
  total_mass_one (fun x => M_genextreme.pdf x xi l s) (gev_lo xi l s) (gev_hi xi l s).
Proof. exact (fun xi l s H0 => cert_total_mass (P_genextreme.CERT xi l s H0)). Qed.
Print Assumptions C33_genextreme.
Example C33_genextreme_instance : total_mass_one (fun x => M_genextreme.pdf x ((1/3)%R) (1) (2)) (gev_lo ((1/3)%R) (1) (2)) (gev_hi ((1/3)%R) (1) (2)).
Proof. exact (C33_genextreme ((1/3)%R) (1) (2) ltac:(side)). Qed.

Theorem C35_genextreme : forall xi l s : R, 0 < s -> 
  inverse_of (fun x => M_genextreme.cdf x xi l s) (fun x => M_genextreme.invcdf x xi l s) (gev_lo xi l s) (gev_hi xi l s).
Proof. exact (fun xi l s H0 => cert_inverse (P_genextreme.CERT xi l s H0)). Qed.
Print Assumptions C35_genextreme.
Example C35_genextreme_instance : inverse_of (fun x => M_genextreme.cdf x ((1/3)%R) (1) (2)) (fun x => M_genextreme.invcdf x ((1/3)%R) (1) (2)) (gev_lo ((1/3)%R) (1) (2)) (gev_hi ((1/3)%R) (1) (2)).
Proof. exact (C35_genextreme ((1/3)%R) (1) (2) ltac:(side)). Qed.

Theorem C36_genextreme : forall xi l s : R, 0 < s -> 
  inverse_of (fun x => M_genextreme.sf x xi l s) (fun x => M_genextreme.invsf x xi l s) (gev_lo xi l s) (gev_hi xi l s) /\
  (forall p, 0 < p < 1 -> M_genextreme.invsf (Fin p) xi l s = M_genextreme.invcdf (Fin (1 - p)) xi l s).
Proof. exact (fun xi l s H0 => conj (cert_inverse_sf (P_genextreme.CERT xi l s H0)) (cert_invsf_invcdf (P_genextreme.CERT xi l s H0))). Qed.
Print Assumptions C36_genextreme.
Example C36_genextreme_instance : inverse_of (fun x => M_genextreme.sf x ((1/3)%R) (1) (2)) (fun x => M_genextreme.invsf x ((1/3)%R) (1) (2)) (gev_lo ((1/3)%R) (1) (2)) (gev_hi ((1/3)%R) (1) (2)) /\
  (forall p, 0 < p < 1 -> M_genextreme.invsf (Fin p) ((1/3)%R) (1) (2) = M_genextreme.invcdf (Fin (1 - p)) ((1/3)%R) (1) (2)).
Proof. exact (C36_genextreme ((1/3)%R) (1) (2) ltac:(side)). Qed.

(** C31: cdf is non-decreasing and the support starts at loc - scale/xi for xi > 0, ends there for xi < 0. *)
Theorem C31_genextreme : forall xi l s : R, 0 < s -> nondecreasing (fun x => cdf x xi l s) /\ supported_on (fun x => cdf x xi l s) (gev_lo_v xi l s) (gev_hi_v xi l s) /\
  support xi l s = Ok (gev_lo_v xi l s, gev_hi_v xi l s).
Proof. first [exact P_genextreme.mono_supp | intros; apply P_genextreme.mono_supp; assumption]. Qed.
Print Assumptions C31_genextreme.
Example C31_genextreme_instance := C31_genextreme ((1/3)%R) (1) (2) ltac:(inst) .

(** C34: logpdf is the logarithm of pdf for xi > -1. *)
Theorem C34_genextreme_partial : forall xi l s : R, 0 < s -> forall (x : R),
  -1 < xi -> log_of (fun x => pdf x xi l s) (fun x => logpdf x xi l s) x.
Proof. first [exact P_genextreme.log_ok | intros; apply P_genextreme.log_ok; assumption]. Qed.
Print Assumptions C34_genextreme_partial.
Example C34_genextreme_partial_instance := C34_genextreme_partial ((1/3)%R) (1) (2) ltac:(inst) 2 ltac:(inst).

(** C34: logcdf is the logarithm of cdf. *)
Theorem C34_genextreme_logcdf : forall xi l s : R, 0 < s -> forall (x : R),
  log_of (fun x => cdf x xi l s) (fun x => logcdf x xi l s) x.
Proof. first [exact P_genextreme.logcdf_ok | intros; apply P_genextreme.logcdf_ok; assumption]. Qed.
Print Assumptions C34_genextreme_logcdf.
Example C34_genextreme_logcdf_instance := C34_genextreme_logcdf ((1/3)%R) (1) (2) ltac:(inst) 2.

(** C34: logsf is the logarithm of sf. *)
Theorem C34_genextreme_logsf : forall xi l s : R, 0 < s -> forall (x : R),
  log_of (fun x => sf x xi l s) (fun x => logsf x xi l s) x.
Proof. first [exact P_genextreme.logsf_ok | intros; apply P_genextreme.logsf_ok; assumption]. Qed.
Print Assumptions C34_genextreme_logsf.
Example C34_genextreme_logsf_instance := C34_genextreme_logsf ((1/3)%R) (1) (2) ltac:(inst) 2.

(** C37: p outside [0,1] is rejected and the ends are right, unless xi is a positive multiple of 1/2 ... *)
Theorem C37_genextreme_partial : forall xi l s : R, 0 < s -> rejects_bad_p (fun p => invcdf p xi l s) /\ rejects_bad_p (fun p => invsf p xi l s) /\
  invcdf (Fin 0) xi l s = gev_lo_v xi l s /\ invsf (Fin 1) xi l s = gev_lo_v xi l s /\
  ((forall k : positive, xi <> IZR (Zpos k) / 2) -> invcdf (Fin 1) xi l s = gev_hi_v xi l s /\ invsf (Fin 0) xi l s = gev_hi_v xi l s).
Proof. first [exact P_genextreme.ends | intros; apply P_genextreme.ends; assumption]. Qed.
Print Assumptions C37_genextreme_partial.
Example C37_genextreme_partial_instance := C37_genextreme_partial ((1/3)%R) (1) (2) ltac:(inst) .

(** C37: ... where invcdf(1) and invsf(0) raise ZeroDivisionError. *)
Theorem C37_genextreme_refuted : forall xi l s : R, 0 < s -> (exists k : positive, xi = IZR (Zpos k) / 2) -> invcdf (Fin 1) xi l s = Exc ZeroDivisionError /\ invsf (Fin 0) xi l s = Exc ZeroDivisionError.
Proof. first [exact P_genextreme.ends_hi | intros; apply P_genextreme.ends_hi; assumption]. Qed.
Print Assumptions C37_genextreme_refuted.
Example C37_genextreme_refuted_instance : invcdf (Fin 1) (1/2)%R 1 2 = Exc ZeroDivisionError /\ invsf (Fin 0) (1/2)%R 1 2 = Exc ZeroDivisionError.
Proof. apply (C37_genextreme_refuted (1/2) 1 2); [lra|]. exists 1%positive. lra. Qed.

(** C38: invalid scale is rejected. *)
Theorem C38_genextreme : forall (xi l s : val) g z3 n,
  nonpositive s ->
  support xi l s = Err ValueError /\ noncentral_moment n xi l s = Exc ValueError /\
  always_ValueError [ fun x => pdf x xi l s; fun x => logpdf x xi l s; fun x => logcdf x xi l s; fun x => cdf x xi l s; fun x => sf x xi l s;
    fun p => invcdf p xi l s; fun p => invsf p xi l s; fun _ => mode xi l s; fun _ => mean g xi l s; fun _ => var xi l s;
    fun _ => skewness z3 xi l s; fun _ => kurtosis xi l s; fun _ => entropy g xi l s ].
Proof. first [exact P_genextreme.bad_params | intros; apply P_genextreme.bad_params; assumption]. Qed.
Print Assumptions C38_genextreme.
Example C38_genextreme_instance := C38_genextreme  (Fin 1) (Fin 1) (Fin 0) (Fin 1) (Fin 1) 3%nat ltac:(inst).

(** C39: the mode maximises pdf for xi >= -1 ... *)
Theorem C39_genextreme_partial : forall xi l s : R, 0 < s -> -1 <= xi -> is_mode (fun x => pdf x xi l s) (mode xi l s).
Proof. first [exact P_genextreme.mode_ok | intros; apply P_genextreme.mode_ok; assumption]. Qed.
Print Assumptions C39_genextreme_partial.
Example C39_genextreme_partial_instance := C39_genextreme_partial ((1/3)%R) (1) (2) ltac:(inst) ltac:(inst).

(** C39: ... but for xi = -3/2, -2, -5/2, ... pdf(mode()) raises ZeroDivisionError. *)
Theorem C39_genextreme_refuted : forall xi l s : R, 0 < s -> (exists k : positive, xi = -1 - IZR (Zpos k) / 2) -> mode xi l s = Fin (l - s / xi) /\ pdf (mode xi l s) xi l s = Exc ZeroDivisionError.
Proof. first [exact P_genextreme.mode_bad | intros; apply P_genextreme.mode_bad; assumption]. Qed.
Print Assumptions C39_genextreme_refuted.
Example C39_genextreme_refuted_instance : pdf (mode (-2)%R 1 2) (-2)%R 1 2 = Exc ZeroDivisionError.
Proof. apply (C39_genextreme_refuted (-2) 1 2); [lra|]. exists 2%positive. lra. Qed.

(** C43: mean, when there is one (xi < 1); g is the Euler-Mascheroni constant. *)
Theorem C43_genextreme_mean : forall xi l s : R, 0 < s -> forall g,
  euler_constant g -> xi < 1 -> mean_is (fun x => pdf x xi l s) (gev_lo xi l s) (gev_hi xi l s) (mean g xi l s).
Proof. first [exact P_genextreme.mean_ok | intros; apply P_genextreme.mean_ok; assumption]. Qed.
Print Assumptions C43_genextreme_mean.
Example C43_genextreme_mean_instance : exists g, euler_constant g /\ mean_is (fun x => pdf x (1/3)%R 1 2) (gev_lo (1/3) 1 2) (gev_hi (1/3) 1 2) (mean g (1/3)%R 1 2).
Proof. exists (- SFun.digamma 1). assert (G := EulerLib.euler_digamma). split; auto. apply C43_genextreme_mean; auto; lra. Qed.

(** C43: variance, when there is one (xi < 1/2). *)
Theorem C43_genextreme_var : forall xi l s : R, 0 < s -> forall g,
  euler_constant g -> 2 * xi < 1 -> var_is (fun x => pdf x xi l s) (gev_lo xi l s) (gev_hi xi l s) (mean g xi l s) (var xi l s).
Proof. first [exact P_genextreme.var_ok | intros; apply P_genextreme.var_ok; assumption]. Qed.
Print Assumptions C43_genextreme_var.
Example C43_genextreme_var_instance : exists g, euler_constant g /\ var_is (fun x => pdf x (1/3)%R 1 2) (gev_lo (1/3) 1 2) (gev_hi (1/3) 1 2) (mean g (1/3)%R 1 2) (var (1/3)%R 1 2).
Proof. exists (- SFun.digamma 1). assert (G := EulerLib.euler_digamma). split; auto. apply C43_genextreme_var; auto; lra. Qed.

(** C43: entropy. *)
Theorem C43_genextreme_entropy : forall xi l s : R, 0 < s -> forall g,
  euler_constant g -> entropy_is (fun x => pdf x xi l s) (gev_lo xi l s) (gev_hi xi l s) (entropy g xi l s).
Proof. first [exact P_genextreme.ent_ok | intros; apply P_genextreme.ent_ok; assumption]. Qed.
Print Assumptions C43_genextreme_entropy.
Example C43_genextreme_entropy_instance : exists g, euler_constant g /\ entropy_is (fun x => pdf x (1/3)%R 1 2) (gev_lo (1/3) 1 2) (gev_hi (1/3) 1 2) (entropy g (1/3)%R 1 2).
Proof. exists (- SFun.digamma 1). assert (G := EulerLib.euler_digamma). split; auto. apply C43_genextreme_entropy; auto; lra. Qed.

(** C43: skewness for xi < 1/3, xi <> 0. *)
Theorem C43_genextreme_skewness_partial : forall xi l s : R, 0 < s -> forall z3,
  xi <> 0 -> 3 * xi < 1 -> skewness_is (fun x => pdf x xi l s) (gev_lo xi l s) (gev_hi xi l s) (skewness z3 xi l s).
Proof. first [exact P_genextreme.skew_ok | intros; apply P_genextreme.skew_ok; assumption]. Qed.
Print Assumptions C43_genextreme_skewness_partial.
Example C43_genextreme_skewness_partial_instance : skewness_is (fun x => pdf x (1/4)%R 1 2) (gev_lo (1/4) 1 2) (gev_hi (1/4) 1 2) (skewness (Fin 1) (1/4)%R 1 2).
Proof. apply C43_genextreme_skewness_partial; lra. Qed.

(** C43: excess kurtosis for xi < 1/4, xi <> 0. *)
Theorem C43_genextreme_kurtosis_partial : forall xi l s : R, 0 < s -> xi <> 0 -> 4 * xi < 1 -> kurtosis_is (fun x => pdf x xi l s) (gev_lo xi l s) (gev_hi xi l s) (kurtosis xi l s).
Proof. first [exact P_genextreme.kurt_ok | intros; apply P_genextreme.kurt_ok; assumption]. Qed.
Print Assumptions C43_genextreme_kurtosis_partial.
Example C43_genextreme_kurtosis_partial_instance : kurtosis_is (fun x => pdf x (1/5)%R 1 2) (gev_lo (1/5) 1 2) (gev_hi (1/5) 1 2) (kurtosis (1/5)%R 1 2).
Proof. apply C43_genextreme_kurtosis_partial; lra. Qed.

(** C43: raw moments, when they exist (n xi < 1) and xi <> 0 ... *)
Theorem C43_genextreme_moments_partial : forall xi l s : R, 0 < s -> forall n,
  xi <> 0 -> INR n * xi < 1 -> moment_is (fun x => pdf x xi l s) (gev_lo xi l s) (gev_hi xi l s) n (noncentral_moment n xi l s).
Proof. first [exact P_genextreme.moment_ok | intros; apply P_genextreme.moment_ok; assumption]. Qed.
Print Assumptions C43_genextreme_moments_partial.
Example C43_genextreme_moments_partial_instance : moment_is (fun x => pdf x (1/5)%R 1 2) (gev_lo (1/5) 1 2) (gev_hi (1/5) 1 2) 3 (noncentral_moment 3 (1/5)%R 1 2).
Proof. apply C43_genextreme_moments_partial; simpl; lra. Qed.

(** C43: ... for xi = 0 every moment of order 1 or more raises ZeroDivisionError. *)
Theorem C43_genextreme_moments_refuted : forall (l s : R) n,
  0 < s -> (1 <= n)%nat -> noncentral_moment n (Fin 0) l s = Exc ZeroDivisionError.
Proof. first [exact P_genextreme.mom_bad | intros; apply P_genextreme.mom_bad; assumption]. Qed.
Print Assumptions C43_genextreme_moments_refuted.
Example C43_genextreme_moments_refuted_instance : noncentral_moment 2 (Fin 0) 1 2 = Exc ZeroDivisionError.
Proof. apply C43_genextreme_moments_refuted; [lra|auto]. Qed.

(** C44: location and scale. *)
Theorem C44_genextreme : forall (xi : R),
  loc_scale_law (fun x => pdf x xi) (fun x => cdf x xi) (fun x => sf x xi)
  (fun p => invcdf p xi) (fun p => invsf p xi) (gev_lo xi 0 1) (gev_hi xi 0 1).
Proof. first [exact P_genextreme.loc_scale | intros; apply P_genextreme.loc_scale; assumption]. Qed.
Print Assumptions C44_genextreme.
Example C44_genextreme_instance := C44_genextreme  (1/3).

(** C45: xi = 0 is the Gumbel distribution gumbel_max. *)
Theorem C45_genextreme : forall (x l s : R),
  0 < s -> pdf x (Fin 0) l s = M_gumbel_max.pdf x l s /\ cdf x (Fin 0) l s = M_gumbel_max.cdf x l s /\ sf x (Fin 0) l s = M_gumbel_max.sf x l s.
Proof. first [exact P_genextreme.is_gumbel | intros; apply P_genextreme.is_gumbel; assumption]. Qed.
Print Assumptions C45_genextreme.
Example C45_genextreme_instance := C45_genextreme  3 1 2 ltac:(inst).

(** C65: xi = -1: pdf is 1/scale at the upper end of the support but logpdf is -inf there. *)
Theorem C65_genextreme_refuted : forall xi l s : R, 0 < s -> xi = -1 -> pdf (Fin (l + s)) xi l s = Fin (1 / s) /\ logpdf (Fin (l + s)) xi l s = NInf.
Proof. first [exact P_genextreme.log_end | intros; apply P_genextreme.log_end; assumption]. Qed.
Print Assumptions C65_genextreme_refuted.
Example C65_genextreme_refuted_instance : pdf (Fin 3) (-1)%R 1 2 = Fin (1 / 2) /\ logpdf (Fin 3) (-1)%R 1 2 = NInf.
Proof. replace 3 with (1 + 2) by ring. apply (C65_genextreme_refuted (-1) 1 2); lra. Qed.

