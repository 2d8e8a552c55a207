(** Properties of mpsci.distributions.benini (generated by tools/mkthm.py). *)
From Coq Require Import Reals Lra List.
From Coquelicot Require Import Coquelicot.
From Verif Require Import Values Spec SpecStat SpecEst VTac TTac DistLib.
From Verif Require Import M_benini.
From Verif Require P_benini.
Import ListNotations.
Local Open Scope R_scope.

Theorem C30_benini : forall al be s : R, 0 < al -> 0 < be -> 0 < s -> 
  complementary (fun x => M_benini.cdf x al be s) (fun x => M_benini.sf x al be s).
Proof. exact (fun al be s H0 H1 H2 => cert_complementary (P_benini.CERT al be s H0 H1 H2)). Qed.
Print Assumptions C30_benini.
Example C30_benini_instance : complementary (fun x => M_benini.cdf x (1) (2) (3)) (fun x => M_benini.sf x (1) (2) (3)).
Proof. exact (C30_benini (1) (2) (3) ltac:(side) ltac:(side) ltac:(side)). Qed.

Theorem C31_benini : forall al be s : R, 0 < al -> 0 < be -> 0 < s -> 
  nondecreasing (fun x => M_benini.cdf x al be s) /\ supported_on (fun x => M_benini.cdf x al be s) (Fin (s)) PInf /\
  M_benini.support al be s = Ok ((Fin (s)), PInf).
Proof. intros al be s H0 H1 H2. split; [exact (cert_nondecreasing (P_benini.CERT al be s H0 H1 H2))|split; [exact (cert_supported (P_benini.CERT al be s H0 H1 H2))|unfold M_benini.support, M_benini.validate; supp]]. Qed.
Print Assumptions C31_benini.
Example C31_benini_instance : nondecreasing (fun x => M_benini.cdf x (1) (2) (3)) /\ supported_on (fun x => M_benini.cdf x (1) (2) (3)) (Fin ((3))) PInf /\
  M_benini.support (1) (2) (3) = Ok ((Fin ((3))), PInf).
Proof. exact (C31_benini (1) (2) (3) ltac:(side) ltac:(side) ltac:(side)). Qed.

Theorem C32_benini : forall al be s : R, 0 < al -> 0 < be -> 0 < s -> 
  density_of (fun x => M_benini.cdf x al be s) (fun x => M_benini.pdf x al be s) s p_infty.
Proof. exact (fun al be s H0 H1 H2 => cert_density (P_benini.CERT al be s H0 H1 H2)). Qed.
Print Assumptions C32_benini.
Example C32_benini_instance : density_of (fun x => M_benini.cdf x (1) (2) (3)) (fun x => M_benini.pdf x (1) (2) (3)) (3) p_infty.
Proof. exact (C32_benini (1) (2) (3) ltac:(side) ltac:(side) ltac:(side)). Qed.

Theorem C33_benini : forall al be s : R, 0 < al -> 0 < be -> 0 < s -> 
  total_mass_one (fun x => M_benini.pdf x al be s) s p_infty.
Proof. exact (fun al be s H0 H1 H2 => cert_total_mass (P_benini.CERT al be s H0 H1 H2)). Qed.
Print Assumptions C33_benini.
Example C33_benini_instance : total_mass_one (fun x => M_benini.pdf x (1) (2) (3)) (3) p_infty.
Proof. exact (C33_benini (1) (2) (3) ltac:(side) ltac:(side) ltac:(side)). Qed.

Theorem C34_benini : forall al be s : R, 0 < al -> 0 < be -> 0 < s -> 
  forall x : R, log_of (fun x => M_benini.pdf x al be s) (fun x => M_benini.logpdf x al be s) (Fin x).
Proof. exact (fun al be s H0 H1 H2 => P_benini.log_all al be s H0 H1 H2). Qed.
Print Assumptions C34_benini.
Example C34_benini_instance : forall x : R, log_of (fun x => M_benini.pdf x (1) (2) (3)) (fun x => M_benini.logpdf x (1) (2) (3)) (Fin x).
Proof. exact (C34_benini (1) (2) (3) ltac:(side) ltac:(side) ltac:(side)). Qed.

Theorem C35_benini : forall al be s : R, 0 < al -> 0 < be -> 0 < s -> 
  inverse_of (fun x => M_benini.cdf x al be s) (fun x => M_benini.invcdf x al be s) s p_infty.
Proof. exact (fun al be s H0 H1 H2 => cert_inverse (P_benini.CERT al be s H0 H1 H2)). Qed.
Print Assumptions C35_benini.
Example C35_benini_instance : inverse_of (fun x => M_benini.cdf x (1) (2) (3)) (fun x => M_benini.invcdf x (1) (2) (3)) (3) p_infty.
Proof. exact (C35_benini (1) (2) (3) ltac:(side) ltac:(side) ltac:(side)). Qed.

Theorem C36_benini : forall al be s : R, 0 < al -> 0 < be -> 0 < s -> 
  inverse_of (fun x => M_benini.sf x al be s) (fun x => M_benini.invsf x al be s) s p_infty /\
  (forall p, 0 < p < 1 -> M_benini.invsf (Fin p) al be s = M_benini.invcdf (Fin (1 - p)) al be s).
Proof. exact (fun al be s H0 H1 H2 => conj (cert_inverse_sf (P_benini.CERT al be s H0 H1 H2)) (cert_invsf_invcdf (P_benini.CERT al be s H0 H1 H2))). Qed.
Print Assumptions C36_benini.
Example C36_benini_instance : inverse_of (fun x => M_benini.sf x (1) (2) (3)) (fun x => M_benini.invsf x (1) (2) (3)) (3) p_infty /\
  (forall p, 0 < p < 1 -> M_benini.invsf (Fin p) (1) (2) (3) = M_benini.invcdf (Fin (1 - p)) (1) (2) (3)).
Proof. exact (C36_benini (1) (2) (3) ltac:(side) ltac:(side) ltac:(side)). Qed.

Theorem C39_benini : forall al be s : R, 0 < al -> 0 < be -> 0 < s -> 
  is_mode (fun x => M_benini.pdf x al be s) (M_benini.mode al be s).
Proof. exact (fun al be s H0 H1 H2 => P_benini.mode_ok al be s H0 H1 H2). Qed.
Print Assumptions C39_benini.
Example C39_benini_instance : is_mode (fun x => M_benini.pdf x (1) (2) (3)) (M_benini.mode (1) (2) (3)).
Proof. exact (C39_benini (1) (2) (3) ltac:(side) ltac:(side) ltac:(side)). Qed.


(** C37: p outside [0,1] is rejected and the lower end is reached ... *)
Theorem C37_benini_partial : forall al be s : R, 0 < al -> 0 < be -> 0 < s ->
  rejects_bad_p (fun p => M_benini.invcdf p al be s) /\ rejects_bad_p (fun p => M_benini.invsf p al be s) /\
  M_benini.invcdf (Fin 0) al be s = Fin s /\ M_benini.invsf (Fin 1) al be s = Fin s.
Proof.
  exact (fun al be s H0 H1 H2 => conj (proj1 (P_benini.rejects al be s H0 H1 H2))
    (conj (proj2 (P_benini.rejects al be s H0 H1 H2)) (P_benini.ends_lo al be s H0 H1 H2))).
Qed.
Print Assumptions C37_benini_partial.
Example C37_benini_partial_instance : 0 < 1 /\ 0 < 2 /\ 0 < 3. Proof. lra. Qed.
(** ... but invcdf(1) and invsf(0) are nan for all parameters, not the upper end +inf. *)
Theorem C37_benini_refuted : forall al be s : R, 0 < al -> 0 < be -> 0 < s ->
  M_benini.invcdf (Fin 1) al be s = NaN /\ M_benini.invsf (Fin 0) al be s = NaN.
Proof. exact P_benini.ends_hi. Qed.
Print Assumptions C37_benini_refuted.
Example C37_benini_refuted_instance : M_benini.invcdf (Fin 1) (Fin 1) (Fin 2) (Fin 3) = NaN.
Proof. apply C37_benini_refuted; lra. Qed.

Theorem C38_benini : forall al be s : val, isnum al -> isnum be -> isnum s ->
  nonpositive al \/ nonpositive be \/ nonpositive s ->
  M_benini.support al be s = Err ValueError /\
  always_ValueError [ fun x => M_benini.pdf x al be s; fun x => M_benini.logpdf x al be s; fun x => M_benini.cdf x al be s;
    fun x => M_benini.sf x al be s; fun x => M_benini.logcdf x al be s; fun x => M_benini.logsf x al be s;
    fun p => M_benini.invcdf p al be s; fun p => M_benini.invsf p al be s;
    fun _ => M_benini.median al be s; fun _ => M_benini.mode al be s ].
Proof. exact P_benini.bad_params. Qed.
Print Assumptions C38_benini.
Example C38_benini_instance : isnum 2 /\ nonpositive (Fin (-1)).
Proof. repeat constructor; lra. Qed.

(** C34: logcdf and logsf are the logarithms of cdf and sf. *)
Theorem C34_benini_cdf : forall al be s : R, 0 < al -> 0 < be -> 0 < s -> forall (x : R),
  log_of (fun x => cdf x al be s) (fun x => logcdf x al be s) x /\
  log_of (fun x => sf x al be s) (fun x => logsf x al be s) x.
Proof. first [exact P_benini.log_cdf_sf | intros; apply P_benini.log_cdf_sf; assumption]. Qed.
Print Assumptions C34_benini_cdf.
Example C34_benini_cdf_instance := C34_benini_cdf (1) (2) (3) ltac:(inst) ltac:(inst) ltac:(inst) 4.

(** C43: the median halves the distribution. *)
Theorem C43_benini_median : forall al be s : R, 0 < al -> 0 < be -> 0 < s -> median_is (fun x => cdf x al be s) (median al be s).
Proof. first [exact P_benini.median_ok | intros; apply P_benini.median_ok; assumption]. Qed.
Print Assumptions C43_benini_median.
Example C43_benini_median_instance := C43_benini_median (1) (2) (3) ltac:(inst) ltac:(inst) ltac:(inst) .

