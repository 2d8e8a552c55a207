(** Properties of mpsci.distributions.levy (generated by tools/mkthm.py). *)
From Coq Require Import Reals Lra List.
From Coquelicot Require Import Coquelicot.
From Verif Require Import Values Spec SpecStat SpecEst VTac TTac DistLib.
From Verif Require Import M_levy.
From Verif Require P_levy.
Import ListNotations.
Local Open Scope R_scope.

Theorem C30_levy : forall l s : R, 0 < s -> 
  complementary (fun x => M_levy.cdf x l s) (fun x => M_levy.sf x l s).
Proof. exact (fun l s H0 => cert_complementary (P_levy.CERT l s H0)). Qed.
Print Assumptions C30_levy.
Example C30_levy_instance : complementary (fun x => M_levy.cdf x (1) (2)) (fun x => M_levy.sf x (1) (2)).
Proof. exact (C30_levy (1) (2) ltac:(side)). Qed.

Theorem C32_levy : forall l s : R, 0 < s -> 
  density_of (fun x => M_levy.cdf x l s) (fun x => M_levy.pdf x l s) l p_infty.
Proof. exact (fun l s H0 => cert_density (P_levy.CERT l s H0)). Qed.
Print Assumptions C32_levy.
Example C32_levy_instance : density_of (fun x => M_levy.cdf x (1) (2)) (fun x => M_levy.pdf x (1) (2)) (1) p_infty.
Proof. exact (C32_levy (1) (2) ltac:(side)). Qed.

Theorem C33_levy : forall l s : R, 0 < s -> 
  total_mass_one (fun x => M_levy.pdf x l s) l p_infty.
Proof. exact (fun l s H0 => cert_total_mass (P_levy.CERT l s H0)). Qed.
Print Assumptions C33_levy.
Example C33_levy_instance : total_mass_one (fun x => M_levy.pdf x (1) (2)) (1) p_infty.
Proof. exact (C33_levy (1) (2) ltac:(side)). Qed.

Theorem C34_levy : forall l s : R, 0 < s -> 
  forall x : R, log_of (fun x => M_levy.pdf x l s) (fun x => M_levy.logpdf x l s) (Fin x).
Proof. exact (fun l s H0 => P_levy.log_all l s H0). Qed.
Print Assumptions C34_levy.
Example C34_levy_instance : forall x : R, log_of (fun x => M_levy.pdf x (1) (2)) (fun x => M_levy.logpdf x (1) (2)) (Fin x).
Proof. exact (C34_levy (1) (2) ltac:(side)). Qed.

Theorem C35_levy : forall l s : R, 0 < s -> 
  inverse_of (fun x => M_levy.cdf x l s) (fun x => M_levy.invcdf x l s) l p_infty.
Proof. exact (fun l s H0 => cert_inverse (P_levy.CERT l s H0)). Qed.
Print Assumptions C35_levy.
Example C35_levy_instance : inverse_of (fun x => M_levy.cdf x (1) (2)) (fun x => M_levy.invcdf x (1) (2)) (1) p_infty.
Proof. exact (C35_levy (1) (2) ltac:(side)). Qed.

Theorem C36_levy : forall l s : R, 0 < s -> 
  inverse_of (fun x => M_levy.sf x l s) (fun x => M_levy.invsf x l s) l p_infty /\
  (forall p, 0 < p < 1 -> M_levy.invsf (Fin p) l s = M_levy.invcdf (Fin (1 - p)) l s).
Proof. exact (fun l s H0 => conj (cert_inverse_sf (P_levy.CERT l s H0)) (cert_invsf_invcdf (P_levy.CERT l s H0))). Qed.
Print Assumptions C36_levy.
Example C36_levy_instance : inverse_of (fun x => M_levy.sf x (1) (2)) (fun x => M_levy.invsf x (1) (2)) (1) p_infty /\
  (forall p, 0 < p < 1 -> M_levy.invsf (Fin p) (1) (2) = M_levy.invcdf (Fin (1 - p)) (1) (2)).
Proof. exact (C36_levy (1) (2) ltac:(side)). Qed.

(** C31: cdf is non-decreasing and supported on [mu, inf); see C57 for support(). *)
Theorem C31_levy_partial : forall l s : R, 0 < s -> nondecreasing (fun x => cdf x l s) /\ supported_on (fun x => cdf x l s) (Fin l) PInf.
Proof. first [exact P_levy.cdf_laws | intros; apply P_levy.cdf_laws; assumption]. Qed.
Print Assumptions C31_levy_partial.
Example C31_levy_partial_instance := C31_levy_partial (1) (2) ltac:(inst) .

(** C37: p outside [0,1] is rejected and the lower end of [0,1] goes to the lower end of the support ... *)
Theorem C37_levy_partial : forall l s : R, 0 < s -> rejects_bad_p (fun p => invcdf p l s) /\ rejects_bad_p (fun p => invsf p l s) /\
  invcdf 0 l s = Fin l /\ invsf 1 l s = Fin l.
Proof. first [exact P_levy.ends_part | intros; apply P_levy.ends_part; assumption]. Qed.
Print Assumptions C37_levy_partial.
Example C37_levy_partial_instance := C37_levy_partial (1) (2) ltac:(inst) .

(** C37: ... but the upper end raises ZeroDivisionError instead of giving +inf. *)
Theorem C37_levy_refuted : forall l s : R, 0 < s -> invcdf 1 l s = Exc ZeroDivisionError /\ invsf 0 l s = Exc ZeroDivisionError.
Proof. first [exact P_levy.ends_hi | intros; apply P_levy.ends_hi; assumption]. Qed.
Print Assumptions C37_levy_refuted.
Example C37_levy_refuted_instance := C37_levy_refuted (1) (2) ltac:(inst) .

(** C38: a scale that is not positive is rejected by every function. *)
Theorem C38_levy_partial : forall l s,
  nonpositive s ->
  always_ValueError [ fun x => pdf x l s; fun x => logpdf x l s; fun x => cdf x l s; fun x => sf x l s;
    fun p => invcdf p l s; fun p => invsf p l s ].
Proof. first [exact P_levy.bad_params | intros; apply P_levy.bad_params; assumption]. Qed.
Print Assumptions C38_levy_partial.
Example C38_levy_partial_instance := C38_levy_partial  (Fin 1) (Fin 0) ltac:(inst).

(** C44: location and scale. *)
Theorem C44_levy : loc_scale_law pdf cdf sf invcdf invsf 0 p_infty.
Proof. first [exact P_levy.loc_scale | intros; apply P_levy.loc_scale; assumption]. Qed.
Print Assumptions C44_levy.
Example C44_levy_instance := C44_levy  1 2 ltac:(inst).

(** C57: given a superfluous first argument in [0,1], support returns (mu, inf) ... *)
Theorem C57_levy_partial : forall l s : R, 0 < s -> forall (p : R),
  0 <= p <= 1 -> support p (Some (Fin l)) (Some (Fin s)) = Ok (Fin l, PInf).
Proof. first [exact P_levy.support_ok | intros; apply P_levy.support_ok; assumption]. Qed.
Print Assumptions C57_levy_partial.
Example C57_levy_partial_instance := C57_levy_partial (1) (2) ltac:(inst) (1/2) ltac:(inst).

(** C57: ... but called with the parameters it raises ValueError or returns the wrong end. *)
Theorem C57_levy_refuted : forall l s : R, 0 < s -> (l < 0 \/ 1 < l -> support l (Some (Fin s)) None = Err ValueError) /\
  (0 <= l <= 1 -> support l (Some (Fin s)) None = Ok (Fin s, PInf)).
Proof. first [exact P_levy.support_bad | intros; apply P_levy.support_bad; assumption]. Qed.
Print Assumptions C57_levy_refuted.
Example C57_levy_refuted_instance := C57_levy_refuted (1) (2) ltac:(inst) .

