(** Properties of mpsci.distributions.power_normal (generated by tools/mkthm.py). *)
From Coq Require Import Reals Lra List.
From Coquelicot Require Import Coquelicot.
From Verif Require Import Values Spec SpecStat SpecEst VTac TTac DistLib.
From Verif Require M_normal.
From Verif Require Import M_power_normal.
From Verif Require P_power_normal.
Import ListNotations.
Local Open Scope R_scope.

Theorem C30_power_normal : forall c l s : R, 0 < c -> 0 < s -> 
  complementary (fun x => M_power_normal.cdf x c l s) (fun x => M_power_normal.sf x c l s).
Proof. exact (fun c l s H0 H1 => cert_complementary (P_power_normal.CERT c l s H0 H1)). Qed.
Print Assumptions C30_power_normal.
Example C30_power_normal_instance : complementary (fun x => M_power_normal.cdf x (3) (1) (2)) (fun x => M_power_normal.sf x (3) (1) (2)).
Proof. exact (C30_power_normal (3) (1) (2) ltac:(side) ltac:(side)). Qed.

Theorem C31_power_normal : forall c l s : R, 0 < c -> 0 < s -> 
  nondecreasing (fun x => M_power_normal.cdf x c l s) /\ supported_on (fun x => M_power_normal.cdf x c l s) NInf PInf /\
  M_power_normal.support c l s = Ok (NInf, PInf).
Proof. intros c l s H0 H1. split; [exact (cert_nondecreasing (P_power_normal.CERT c l s H0 H1))|split; [exact (cert_supported (P_power_normal.CERT c l s H0 H1))|unfold M_power_normal.support, M_power_normal.validate; supp]]. Qed.
Print Assumptions C31_power_normal.
Example C31_power_normal_instance : nondecreasing (fun x => M_power_normal.cdf x (3) (1) (2)) /\ supported_on (fun x => M_power_normal.cdf x (3) (1) (2)) NInf PInf /\
  M_power_normal.support (3) (1) (2) = Ok (NInf, PInf).
Proof. exact (C31_power_normal (3) (1) (2) ltac:(side) ltac:(side)). Qed.

Theorem C32_power_normal : forall c l s : R, 0 < c -> 0 < s -> 
  density_of (fun x => M_power_normal.cdf x c l s) (fun x => M_power_normal.pdf x c l s) m_infty p_infty.
Proof. exact (fun c l s H0 H1 => cert_density (P_power_normal.CERT c l s H0 H1)). Qed.
Print Assumptions C32_power_normal.
Example C32_power_normal_instance : density_of (fun x => M_power_normal.cdf x (3) (1) (2)) (fun x => M_power_normal.pdf x (3) (1) (2)) m_infty p_infty.
Proof. exact (C32_power_normal (3) (1) (2) ltac:(side) ltac:(side)). Qed.

Theorem C33_power_normal : forall c l s : R, 0 < c -> 0 < s -> 
  total_mass_one (fun x => M_power_normal.pdf x c l s) m_infty p_infty.
Proof. exact (fun c l s H0 H1 => cert_total_mass (P_power_normal.CERT c l s H0 H1)). Qed.
Print Assumptions C33_power_normal.
Example C33_power_normal_instance : total_mass_one (fun x => M_power_normal.pdf x (3) (1) (2)) m_infty p_infty.
Proof. exact (C33_power_normal (3) (1) (2) ltac:(side) ltac:(side)). Qed.

Theorem C34_power_normal : forall c l s : R, 0 < c -> 0 < s -> 
  forall x : R, log_of (fun x => M_power_normal.pdf x c l s) (fun x => M_power_normal.logpdf x c l s) (Fin x).
Proof. exact (fun c l s H0 H1 => cert_log_ends (P_power_normal.CERT c l s H0 H1) (fun x E => ltac:(discriminate E)) (fun x E => ltac:(discriminate E))). Qed.
Print Assumptions C34_power_normal.
Example C34_power_normal_instance : forall x : R, log_of (fun x => M_power_normal.pdf x (3) (1) (2)) (fun x => M_power_normal.logpdf x (3) (1) (2)) (Fin x).
Proof. exact (C34_power_normal (3) (1) (2) ltac:(side) ltac:(side)). Qed.

Theorem C35_power_normal : forall c l s : R, 0 < c -> 0 < s -> 
  inverse_of (fun x => M_power_normal.cdf x c l s) (fun x => M_power_normal.invcdf x c l s) m_infty p_infty.
Proof. exact (fun c l s H0 H1 => cert_inverse (P_power_normal.CERT c l s H0 H1)). Qed.
Print Assumptions C35_power_normal.
Example C35_power_normal_instance : inverse_of (fun x => M_power_normal.cdf x (3) (1) (2)) (fun x => M_power_normal.invcdf x (3) (1) (2)) m_infty p_infty.
Proof. exact (C35_power_normal (3) (1) (2) ltac:(side) ltac:(side)). Qed.

Theorem C36_power_normal : forall c l s : R, 0 < c -> 0 < s -> 
  inverse_of (fun x => M_power_normal.sf x c l s) (fun x => M_power_normal.invsf x c l s) m_infty p_infty /\
  (forall p, 0 < p < 1 -> M_power_normal.invsf (Fin p) c l s = M_power_normal.invcdf (Fin (1 - p)) c l s).
Proof. exact (fun c l s H0 H1 => conj (cert_inverse_sf (P_power_normal.CERT c l s H0 H1)) (cert_invsf_invcdf (P_power_normal.CERT c l s H0 H1))). Qed.
Print Assumptions C36_power_normal.
Example C36_power_normal_instance : inverse_of (fun x => M_power_normal.sf x (3) (1) (2)) (fun x => M_power_normal.invsf x (3) (1) (2)) m_infty p_infty /\
  (forall p, 0 < p < 1 -> M_power_normal.invsf (Fin p) (3) (1) (2) = M_power_normal.invcdf (Fin (1 - p)) (3) (1) (2)).
Proof. exact (C36_power_normal (3) (1) (2) ltac:(side) ltac:(side)). Qed.

Theorem C37_power_normal : forall c l s : R, 0 < c -> 0 < s -> 
  rejects_bad_p (fun x => M_power_normal.invcdf x c l s) /\ rejects_bad_p (fun x => M_power_normal.invsf x c l s) /\
  at_ends (fun x => M_power_normal.invcdf x c l s) NInf PInf /\ at_ends (fun x => M_power_normal.invsf x c l s) PInf NInf.
Proof. exact (fun c l s H0 H1 => P_power_normal.ends c l s H0 H1). Qed.
Print Assumptions C37_power_normal.
Example C37_power_normal_instance : rejects_bad_p (fun x => M_power_normal.invcdf x (3) (1) (2)) /\ rejects_bad_p (fun x => M_power_normal.invsf x (3) (1) (2)) /\
  at_ends (fun x => M_power_normal.invcdf x (3) (1) (2)) NInf PInf /\ at_ends (fun x => M_power_normal.invsf x (3) (1) (2)) PInf NInf.
Proof. exact (C37_power_normal (3) (1) (2) ltac:(side) ltac:(side)). Qed.

(** C38: a scale that is not positive is rejected by every function. *)
Theorem C38_power_normal : forall (c l s : val),
  isnum c -> isnum s -> nonpositive c \/ nonpositive s ->
  support c l s = Err ValueError /\
  always_ValueError [ fun x => pdf x c l s; fun x => logpdf x c l s; fun x => cdf x c l s; fun x => sf x c l s;
    fun p => invcdf p c l s; fun p => invsf p c l s ].
Proof. first [exact P_power_normal.bad_params | intros; apply P_power_normal.bad_params; assumption]. Qed.
Print Assumptions C38_power_normal.
Example C38_power_normal_instance := C38_power_normal  (Fin 0) (Fin 1) (Fin 2) ltac:(inst) ltac:(inst) ltac:(inst).

(** C44: location and scale. *)
Theorem C44_power_normal : forall (c : R),
  0 < c -> loc_scale_law (fun x => pdf x c) (fun x => cdf x c) (fun x => sf x c) (fun x => invcdf x c) (fun x => invsf x c) m_infty p_infty.
Proof. first [exact P_power_normal.loc_scale | intros; apply P_power_normal.loc_scale; assumption]. Qed.
Print Assumptions C44_power_normal.
Example C44_power_normal_instance := C44_power_normal  (5/2) ltac:(inst).

(** C45: c = 1 is the normal law ... *)
Theorem C45_power_normal_normal : forall (x p l s : R),
  0 < s -> 0 < p < 1 ->
  pdf x 1 l s = M_normal.pdf x l s /\ logpdf x 1 l s = M_normal.logpdf x l s /\ cdf x 1 l s = M_normal.cdf x l s /\
  sf x 1 l s = M_normal.sf x l s /\ invcdf p 1 l s = M_normal.invcdf p l s.
Proof. first [exact P_power_normal.normal_case | intros; apply P_power_normal.normal_case; assumption]. Qed.
Print Assumptions C45_power_normal_normal.
Example C45_power_normal_normal_instance := C45_power_normal_normal  2 (1/3) 1 2 ltac:(inst) ltac:(inst).

(** C45: ... and for a positive integer c the law is that of the smallest of c independent normal variables. *)
Theorem C45_power_normal_minimum : forall c l s : R, 0 < c -> 0 < s -> forall (n : nat) (x : R),
  c = INR n -> exists q, M_normal.sf x l s = Fin q /\ sf x c l s = Fin (q ^ n).
Proof. first [exact P_power_normal.minimum | intros; apply P_power_normal.minimum; assumption]. Qed.
Print Assumptions C45_power_normal_minimum.
Example C45_power_normal_minimum_instance : exists q, M_normal.sf (Fin 1) 1 2 = Fin q /\ sf (Fin 1) 3 1 2 = Fin (q ^ 3).
Proof. apply (C45_power_normal_minimum 3 1 2 ltac:(lra) ltac:(lra) 3%nat 1). simpl. lra. Qed.

