(** Properties of mpsci.distributions.truncnorm (generated by tools/mkthm.py). *)
From Coq Require Import Reals Lra List.
From Coquelicot Require Import Coquelicot.
From Verif Require Import Values Spec SpecStat SpecEst VTac TTac DistLib.
From Verif Require M_normal.
From Verif Require Import M_truncnorm.
From Verif Require P_truncnorm.
Import ListNotations.
Local Open Scope R_scope.

Notation V := val_of_Rbar.

(** C30: cdf and sf; the ends a < b of the interval may be infinite. *)
Theorem C30_truncnorm : forall (a b : Rbar), Rbar_lt a b -> complementary (fun x => cdf x (V a) (V b)) (fun x => sf x (V a) (V b)).
Proof. first [exact P_truncnorm.cdf_ok | intros; apply P_truncnorm.cdf_ok; assumption]. Qed.
Print Assumptions C30_truncnorm.
Example C30_truncnorm_instance := C30_truncnorm (Finite 1) (p_infty) ltac:(inst) .

(** C31: monotone, with the support reported. *)
Theorem C31_truncnorm : forall (a b : Rbar), Rbar_lt a b -> nondecreasing (fun x => cdf x (V a) (V b)) /\ supported_on (fun x => cdf x (V a) (V b)) (V a) (V b) /\ support (V a) (V b) = Ok (V a, V b).
Proof. first [exact P_truncnorm.support_ok | intros; apply P_truncnorm.support_ok; assumption]. Qed.
Print Assumptions C31_truncnorm.
Example C31_truncnorm_instance := C31_truncnorm (Finite 1) (p_infty) ltac:(inst) .

(** C32: pdf is the density. *)
Theorem C32_truncnorm : forall (a b : Rbar), Rbar_lt a b -> density_of (fun x => cdf x (V a) (V b)) (fun x => pdf x (V a) (V b)) a b.
Proof. first [exact P_truncnorm.density_ok | intros; apply P_truncnorm.density_ok; assumption]. Qed.
Print Assumptions C32_truncnorm.
Example C32_truncnorm_instance := C32_truncnorm (Finite 1) (p_infty) ltac:(inst) .

(** C33: pdf integrates to 1. *)
Theorem C33_truncnorm : forall (a b : Rbar), Rbar_lt a b -> total_mass_one (fun x => pdf x (V a) (V b)) a b.
Proof. first [exact P_truncnorm.mass_ok | intros; apply P_truncnorm.mass_ok; assumption]. Qed.
Print Assumptions C33_truncnorm.
Example C33_truncnorm_instance := C33_truncnorm (Finite 1) (p_infty) ltac:(inst) .

(** C34: logpdf is the logarithm of pdf at every real. *)
Theorem C34_truncnorm : forall (a b : Rbar), Rbar_lt a b -> forall (x : R),
  log_of (fun x => pdf x (V a) (V b)) (fun x => logpdf x (V a) (V b)) x.
Proof. first [exact P_truncnorm.log_ok | intros; apply P_truncnorm.log_ok; assumption]. Qed.
Print Assumptions C34_truncnorm.
Example C34_truncnorm_instance := C34_truncnorm (Finite 1) (p_infty) ltac:(inst) 2.

(** C35: invcdf inverts cdf. *)
Theorem C35_truncnorm : forall (a b : Rbar), Rbar_lt a b -> inverse_of (fun x => cdf x (V a) (V b)) (fun p => invcdf p (V a) (V b)) a b.
Proof. first [exact P_truncnorm.inverse_ok | intros; apply P_truncnorm.inverse_ok; assumption]. Qed.
Print Assumptions C35_truncnorm.
Example C35_truncnorm_instance := C35_truncnorm (Finite 1) (p_infty) ltac:(inst) .

(** C36: invsf inverts sf. *)
Theorem C36_truncnorm : forall (a b : Rbar), Rbar_lt a b -> inverse_of (fun x => sf x (V a) (V b)) (fun p => invsf p (V a) (V b)) a b /\
  (forall p, 0 < p < 1 -> invsf (Fin p) (V a) (V b) = invcdf (Fin (1 - p)) (V a) (V b)).
Proof. first [exact P_truncnorm.inverse_sf_ok | intros; apply P_truncnorm.inverse_sf_ok; assumption]. Qed.
Print Assumptions C36_truncnorm.
Example C36_truncnorm_instance := C36_truncnorm (Finite 1) (p_infty) ltac:(inst) .

(** C37: p outside [0,1] is rejected; 0 and 1 go to the ends of the support. *)
Theorem C37_truncnorm : forall (a b : Rbar), Rbar_lt a b -> rejects_bad_p (fun p => invcdf p (V a) (V b)) /\ rejects_bad_p (fun p => invsf p (V a) (V b)) /\
  at_ends (fun p => invcdf p (V a) (V b)) (V a) (V b) /\ at_ends (fun p => invsf p (V a) (V b)) (V b) (V a).
Proof. first [exact P_truncnorm.ends | intros; apply P_truncnorm.ends; assumption]. Qed.
Print Assumptions C37_truncnorm.
Example C37_truncnorm_instance := C37_truncnorm (Finite 1) (p_infty) ltac:(inst) .

(** C38: an empty interval is rejected. *)
Theorem C38_truncnorm : forall (a b : Rbar) (n : nat),
  Rbar_le b a ->
  support (V a) (V b) = Err ValueError /\ noncentral_moments n (V a) (V b) = Err ValueError /\
  always_ValueError [ fun x => pdf x (V a) (V b); fun x => logpdf x (V a) (V b); fun x => cdf x (V a) (V b); fun x => sf x (V a) (V b);
    fun p => invcdf p (V a) (V b); fun p => invsf p (V a) (V b); fun _ => mean (V a) (V b); fun _ => median (V a) (V b); fun _ => mode (V a) (V b);
    fun _ => var (V a) (V b); fun _ => skewness (V a) (V b); fun _ => kurtosis (V a) (V b); fun _ => entropy (V a) (V b) ].
Proof. first [exact P_truncnorm.bad_params | intros; apply P_truncnorm.bad_params; assumption]. Qed.
Print Assumptions C38_truncnorm.
Example C38_truncnorm_instance := C38_truncnorm  p_infty (Finite 1) 3%nat I.

(** C39: the mode. *)
Theorem C39_truncnorm : forall (a b : Rbar), Rbar_lt a b -> is_mode (fun x => pdf x (V a) (V b)) (mode (V a) (V b)).
Proof. first [exact P_truncnorm.mode_ok | intros; apply P_truncnorm.mode_ok; assumption]. Qed.
Print Assumptions C39_truncnorm.
Example C39_truncnorm_instance := C39_truncnorm (Finite 1) (p_infty) ltac:(inst) .

(** C43: mean ... *)
Theorem C43_truncnorm_mean : forall (a b : Rbar), Rbar_lt a b -> mean_is (fun x => pdf x (V a) (V b)) a b (mean (V a) (V b)).
Proof. first [exact P_truncnorm.mean_ok | intros; apply P_truncnorm.mean_ok; assumption]. Qed.
Print Assumptions C43_truncnorm_mean.
Example C43_truncnorm_mean_instance := C43_truncnorm_mean (Finite 1) (p_infty) ltac:(inst) .

(** C43: ... variance ... *)
Theorem C43_truncnorm_var : forall (a b : Rbar), Rbar_lt a b -> var_is (fun x => pdf x (V a) (V b)) a b (mean (V a) (V b)) (var (V a) (V b)).
Proof. first [exact P_truncnorm.var_ok | intros; apply P_truncnorm.var_ok; assumption]. Qed.
Print Assumptions C43_truncnorm_var.
Example C43_truncnorm_var_instance := C43_truncnorm_var (Finite 1) (p_infty) ltac:(inst) .

(** C43: ... skewness ... *)
Theorem C43_truncnorm_skewness : forall (a b : Rbar), Rbar_lt a b -> skewness_is (fun x => pdf x (V a) (V b)) a b (skewness (V a) (V b)).
Proof. first [exact P_truncnorm.skewness_ok | intros; apply P_truncnorm.skewness_ok; assumption]. Qed.
Print Assumptions C43_truncnorm_skewness.
Example C43_truncnorm_skewness_instance := C43_truncnorm_skewness (Finite 1) (p_infty) ltac:(inst) .

(** C43: ... excess kurtosis ... *)
Theorem C43_truncnorm_kurtosis : forall (a b : Rbar), Rbar_lt a b -> kurtosis_is (fun x => pdf x (V a) (V b)) a b (kurtosis (V a) (V b)).
Proof. first [exact P_truncnorm.kurtosis_ok | intros; apply P_truncnorm.kurtosis_ok; assumption]. Qed.
Print Assumptions C43_truncnorm_kurtosis.
Example C43_truncnorm_kurtosis_instance := C43_truncnorm_kurtosis (Finite 1) (p_infty) ltac:(inst) .

(** C43: ... median ... *)
Theorem C43_truncnorm_median : forall (a b : Rbar), Rbar_lt a b -> median_is (fun x => cdf x (V a) (V b)) (median (V a) (V b)).
Proof. first [exact P_truncnorm.median_ok | intros; apply P_truncnorm.median_ok; assumption]. Qed.
Print Assumptions C43_truncnorm_median.
Example C43_truncnorm_median_instance := C43_truncnorm_median (Finite 1) (p_infty) ltac:(inst) .

(** C43: ... and entropy. *)
Theorem C43_truncnorm_entropy : forall (a b : Rbar), Rbar_lt a b -> entropy_is (fun x => pdf x (V a) (V b)) a b (entropy (V a) (V b)).
Proof. first [exact P_truncnorm.ent_ok | intros; apply P_truncnorm.ent_ok; assumption]. Qed.
Print Assumptions C43_truncnorm_entropy.
Example C43_truncnorm_entropy_instance := C43_truncnorm_entropy (Finite 1) (p_infty) ltac:(inst) .

(** C55: the law is the normal law conditioned on the interval ... *)
Theorem C55_truncnorm_law : forall (a b : Rbar), Rbar_lt a b -> forall (x : R),
  Rbar_le a x -> Rbar_le x b -> exists na nb nx fx,
  M_normal.cdf (V a) (Fin 0) (Fin 1) = Fin na /\ M_normal.cdf (V b) (Fin 0) (Fin 1) = Fin nb /\
  M_normal.cdf x (Fin 0) (Fin 1) = Fin nx /\ M_normal.pdf x (Fin 0) (Fin 1) = Fin fx /\ na < nb /\
  cdf x (V a) (V b) = Fin ((nx - na) / (nb - na)) /\ sf x (V a) (V b) = Fin ((nb - nx) / (nb - na)) /\
  pdf x (V a) (V b) = Fin (fx / (nb - na)).
Proof. first [exact P_truncnorm.conditioned | intros; apply P_truncnorm.conditioned; assumption]. Qed.
Print Assumptions C55_truncnorm_law.
Example C55_truncnorm_law_instance := C55_truncnorm_law (Finite 1) (p_infty) ltac:(inst) 2 ltac:(inst) ltac:(inst).

(** C55: ... and the recurrence returns the true moments of every order. *)
Theorem C55_truncnorm_moments : forall (a b : Rbar), Rbar_lt a b -> forall (n : nat),
  (1 <= n)%nat -> exists l, noncentral_moments n (V a) (V b) = Ok l /\ length l = n /\
  forall k, (1 <= k <= n)%nat -> moment_is (fun x => pdf x (V a) (V b)) a b k (nth (k - 1) l NaN).
Proof. first [exact P_truncnorm.moments_ok | intros; apply P_truncnorm.moments_ok; assumption]. Qed.
Print Assumptions C55_truncnorm_moments.
Example C55_truncnorm_moments_instance := C55_truncnorm_moments (Finite 1) (p_infty) ltac:(inst) 5%nat ltac:(inst).

