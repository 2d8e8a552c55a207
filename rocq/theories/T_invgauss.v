(** Properties of mpsci.distributions.invgauss (generated by tools/mkthm.py). *)
From Coq Require Import Reals Lra List.
From Coquelicot Require Import Coquelicot.
From Verif Require Import Values Spec SpecStat SpecEst VTac TTac DistLib.
From Coq Require Import ZArith.
From Verif Require Import SpecNewton SpecLS.
From Verif Require Import M_invgauss.
From Verif Require P_invgauss.
Import ListNotations.
Local Open Scope R_scope.

Theorem C32_invgauss : forall m l s : R, 0 < m -> 0 < s -> 
  density_of (fun x => M_invgauss.cdf x m l s) (fun x => M_invgauss.pdf x m l s) l p_infty.
Proof. exact (fun m l s H0 H1 => cert_density (P_invgauss.CERT m l s H0 H1)). Qed.
Print Assumptions C32_invgauss.
Example C32_invgauss_instance : density_of (fun x => M_invgauss.cdf x (2) (1) (3)) (fun x => M_invgauss.pdf x (2) (1) (3)) (1) p_infty.
Proof. exact (C32_invgauss (2) (1) (3) ltac:(side) ltac:(side)). Qed.

Theorem C33_invgauss : forall m l s : R, 0 < m -> 0 < s -> 
  total_mass_one (fun x => M_invgauss.pdf x m l s) l p_infty.
Proof. exact (fun m l s H0 H1 => cert_total_mass (P_invgauss.CERT m l s H0 H1)). Qed.
Print Assumptions C33_invgauss.
Example C33_invgauss_instance : total_mass_one (fun x => M_invgauss.pdf x (2) (1) (3)) (1) p_infty.
Proof. exact (C33_invgauss (2) (1) (3) ltac:(side) ltac:(side)). Qed.

Theorem C34_invgauss : forall m l s : R, 0 < m -> 0 < s -> 
  forall x : R, log_of (fun x => M_invgauss.pdf x m l s) (fun x => M_invgauss.logpdf x m l s) (Fin x).
Proof. exact (fun m l s H0 H1 => P_invgauss.log_all m l s H0 H1). Qed.
Print Assumptions C34_invgauss.
Example C34_invgauss_instance : forall x : R, log_of (fun x => M_invgauss.pdf x (2) (1) (3)) (fun x => M_invgauss.logpdf x (2) (1) (3)) (Fin x).
Proof. exact (C34_invgauss (2) (1) (3) ltac:(side) ltac:(side)). Qed.

Theorem C39_invgauss : forall m l s : R, 0 < m -> 0 < s -> 
  is_mode (fun x => M_invgauss.pdf x m l s) (M_invgauss.mode m l s).
Proof. exact (fun m l s H0 H1 => P_invgauss.mode_ok m l s H0 H1). Qed.
Print Assumptions C39_invgauss.
Example C39_invgauss_instance : is_mode (fun x => M_invgauss.pdf x (2) (1) (3)) (M_invgauss.mode (2) (1) (3)).
Proof. exact (C39_invgauss (2) (1) (3) ltac:(side) ltac:(side)). Qed.

(** C26: for 0 < p < 1 the iterates of invcdf (and of invsf, for 1 - p) stay inside the support, move monotonically to the quantile after the first step, and the loop stops with a value within the tolerance. *)
Theorem C26_invgauss : forall m l s : R, 0 < m -> 0 < s -> forall (p : R) (prec : Z),
  0 < p < 1 -> exists x, mode m l s = Fin x /\
  newton_monotone (fun x => cdf x m l s) (fun x => pdf x m l s) l x p prec (fun fuel => invcdf prec fuel p m l s) /\
  newton_monotone (fun x => cdf x m l s) (fun x => pdf x m l s) l x (1 - p) prec (fun fuel => invsf prec fuel p m l s).
Proof. first [exact P_invgauss.newton_ok | intros; apply P_invgauss.newton_ok; assumption]. Qed.
Print Assumptions C26_invgauss.
Example C26_invgauss_instance := C26_invgauss (2) (1) (3) ltac:(inst) ltac:(inst) (1/3) 53%Z ltac:(inst).

(** C30: cdf and sf are complementary at every real number ... *)
Theorem C30_invgauss_partial : forall m l s : R, 0 < m -> 0 < s -> forall (x : R),
  exists c, 0 <= c <= 1 /\ cdf x m l s = Fin c /\ sf x m l s = Fin (1 - c).
Proof. first [exact P_invgauss.compl | intros; apply P_invgauss.compl; assumption]. Qed.
Print Assumptions C30_invgauss_partial.
Example C30_invgauss_partial_instance := C30_invgauss_partial (2) (1) (3) ltac:(inst) ltac:(inst) 5.

(** C30: ... but both are nan at +inf, for all parameters. *)
Theorem C30_invgauss_refuted : forall m l s : R, 0 < m -> 0 < s -> cdf PInf m l s = NaN /\ sf PInf m l s = NaN.
Proof. first [exact P_invgauss.inf_nan | intros; apply P_invgauss.inf_nan; assumption]. Qed.
Print Assumptions C30_invgauss_refuted.
Example C30_invgauss_refuted_instance := C30_invgauss_refuted (2) (1) (3) ltac:(inst) ltac:(inst) .

(** C31: cdf is non-decreasing on the reals, 0 up to loc, and tends to 1; see C30 for the value at +inf. *)
Theorem C31_invgauss_partial : forall m l s : R, 0 < m -> 0 < s -> (forall x y : R, x <= y -> exists c d, cdf x m l s = Fin c /\ cdf y m l s = Fin d /\ c <= d) /\
  (forall x : R, x <= l -> cdf x m l s = Fin 0) /\ cdf NInf m l s = Fin 0 /\
  filterlim (fun x : R => toR (cdf x m l s)) (Rbar_locally p_infty) (locally 1) /\
  support m l s = Ok (Fin l, PInf).
Proof. first [exact P_invgauss.cdf_laws | intros; apply P_invgauss.cdf_laws; assumption]. Qed.
Print Assumptions C31_invgauss_partial.
Example C31_invgauss_partial_instance := C31_invgauss_partial (2) (1) (3) ltac:(inst) ltac:(inst) .

(** C34: logcdf and logsf. *)
Theorem C34_invgauss_tails : forall m l s : R, 0 < m -> 0 < s -> forall (x : R),
  log_of (fun x => cdf x m l s) (fun x => logcdf x m l s) x /\
  log_of (fun x => sf x m l s) (fun x => logsf x m l s) x.
Proof. first [exact P_invgauss.log_cdf_sf | intros; apply P_invgauss.log_cdf_sf; assumption]. Qed.
Print Assumptions C34_invgauss_tails.
Example C34_invgauss_tails_instance := C34_invgauss_tails (2) (1) (3) ltac:(inst) ltac:(inst) 5.

(** C37: p outside [0,1] is rejected; 0 and 1 go to the ends of the support. *)
Theorem C37_invgauss : forall m l s : R, 0 < m -> 0 < s -> forall prec fuel,
  rejects_bad_p (fun p => invcdf prec fuel p m l s) /\ rejects_bad_p (fun p => invsf prec fuel p m l s) /\
  at_ends (fun p => invcdf prec fuel p m l s) (Fin l) PInf /\ at_ends (fun p => invsf prec fuel p m l s) PInf (Fin l).
Proof. first [exact P_invgauss.ends | intros; apply P_invgauss.ends; assumption]. Qed.
Print Assumptions C37_invgauss.
Example C37_invgauss_instance := C37_invgauss (2) (1) (3) ltac:(inst) ltac:(inst) 53%Z 100%nat.

(** C38: invalid shape or scale is rejected. *)
Theorem C38_invgauss : forall prec fuel m l s,
  isnum m -> isnum s -> nonpositive m \/ nonpositive s ->
  support m l s = Err ValueError /\
  always_ValueError [ fun x => pdf x m l s; fun x => logpdf x m l s; fun x => cdf x m l s; fun x => sf x m l s; fun x => logcdf x m l s; fun x => logsf x m l s;
    fun p => invcdf prec fuel p m l s; fun p => invsf prec fuel p m l s; fun _ => mean m l s; fun _ => mode m l s; fun _ => var m l s;
    fun _ => median prec fuel m l s; fun _ => noncentral_moment 2 m l s ].
Proof. first [exact P_invgauss.bad_params | intros; apply P_invgauss.bad_params; assumption]. Qed.
Print Assumptions C38_invgauss.
Example C38_invgauss_instance := C38_invgauss  53%Z 100%nat (Fin 1) (Fin 0) (Fin 0) ltac:(inst) ltac:(inst) ltac:(inst).

(** C43: median is invcdf(1/2). *)
Theorem C43_invgauss_median : forall m l s : R, 0 < m -> 0 < s -> forall prec fuel,
  median prec fuel m l s = invcdf prec fuel (1 / 2) m l s.
Proof. first [exact P_invgauss.median_ok | intros; apply P_invgauss.median_ok; assumption]. Qed.
Print Assumptions C43_invgauss_median.
Example C43_invgauss_median_instance := C43_invgauss_median (2) (1) (3) ltac:(inst) ltac:(inst) 53%Z 100%nat.

(** C43: mean. *)
Theorem C43_invgauss_mean : forall m l s : R, 0 < m -> 0 < s -> mean_is (fun x => pdf x m l s) l p_infty (mean m l s).
Proof. first [exact P_invgauss.mean_ok | intros; apply P_invgauss.mean_ok; assumption]. Qed.
Print Assumptions C43_invgauss_mean.
Example C43_invgauss_mean_instance := C43_invgauss_mean (2) (1) (3) ltac:(inst) ltac:(inst) .

(** C43: variance. *)
Theorem C43_invgauss_var : forall m l s : R, 0 < m -> 0 < s -> var_is (fun x => pdf x m l s) l p_infty (mean m l s) (var m l s).
Proof. first [exact P_invgauss.var_ok | intros; apply P_invgauss.var_ok; assumption]. Qed.
Print Assumptions C43_invgauss_var.
Example C43_invgauss_var_instance := C43_invgauss_var (2) (1) (3) ltac:(inst) ltac:(inst) .

(** C43: every non-central moment. *)
Theorem C43_invgauss_moments : forall m l s : R, 0 < m -> 0 < s -> forall n,
  moment_is (fun x => pdf x m l s) l p_infty n (noncentral_moment n m l s).
Proof. first [exact P_invgauss.moment_ok | intros; apply P_invgauss.moment_ok; assumption]. Qed.
Print Assumptions C43_invgauss_moments.
Example C43_invgauss_moments_instance := C43_invgauss_moments (2) (1) (3) ltac:(inst) ltac:(inst) 4%nat.

(** C44: location and scale. *)
Theorem C44_invgauss : forall (m : R),
  0 < m -> loc_scale_law3 (fun x => pdf x m) (fun x => cdf x m) (fun x => sf x m) 0 p_infty.
Proof. first [exact P_invgauss.loc_scale | intros; apply P_invgauss.loc_scale; assumption]. Qed.
Print Assumptions C44_invgauss.
Example C44_invgauss_instance := C44_invgauss  (2) ltac:(inst).

