(** Properties of mpsci.distributions.slash (generated by tools/mkthm.py). *)
From Coq Require Import Reals Lra List.
From Coquelicot Require Import Coquelicot.
From Verif Require Import Values Spec SpecStat SpecEst VTac TTac DistLib.
From Verif Require Import SpecInv.
From Verif Require Import SpecNoMom.
From Verif Require Import M_slash.
From Verif Require P_slash.
Import ListNotations.
Local Open Scope R_scope.

Theorem C30_slash : 
  complementary (fun x => M_slash.cdf x ) (fun x => M_slash.sf x ).
Proof. exact (cert_complementary P_slash.CERT). Qed.
Print Assumptions C30_slash.
Example C30_slash_instance : complementary (fun x => M_slash.cdf x ) (fun x => M_slash.sf x ).
Proof. exact (C30_slash  ). Qed.

Theorem C31_slash : 
  nondecreasing (fun x => M_slash.cdf x ) /\ supported_on (fun x => M_slash.cdf x ) NInf PInf /\
  M_slash.support  = Ok (NInf, PInf).
Proof. intros . split; [exact (cert_nondecreasing P_slash.CERT)|split; [exact (cert_supported P_slash.CERT)|unfold M_slash.support; supp]]. Qed.
Print Assumptions C31_slash.
Example C31_slash_instance : nondecreasing (fun x => M_slash.cdf x ) /\ supported_on (fun x => M_slash.cdf x ) NInf PInf /\
  M_slash.support  = Ok (NInf, PInf).
Proof. exact (C31_slash  ). Qed.

Theorem C32_slash : 
  density_of (fun x => M_slash.cdf x ) (fun x => M_slash.pdf x ) m_infty p_infty.
Proof. exact (cert_density P_slash.CERT). Qed.
Print Assumptions C32_slash.
Example C32_slash_instance : density_of (fun x => M_slash.cdf x ) (fun x => M_slash.pdf x ) m_infty p_infty.
Proof. exact (C32_slash  ). Qed.

Theorem C33_slash : 
  total_mass_one (fun x => M_slash.pdf x ) m_infty p_infty.
Proof. exact (cert_total_mass P_slash.CERT). Qed.
Print Assumptions C33_slash.
Example C33_slash_instance : total_mass_one (fun x => M_slash.pdf x ) m_infty p_infty.
Proof. exact (C33_slash  ). Qed.

Theorem C34_slash : 
  forall x : R, log_of (fun x => M_slash.pdf x ) (fun x => M_slash.logpdf x ) (Fin x).
Proof. exact (cert_log_ends P_slash.CERT (fun x E => ltac:(discriminate E)) (fun x E => ltac:(discriminate E))). Qed.
Print Assumptions C34_slash.
Example C34_slash_instance : forall x : R, log_of (fun x => M_slash.pdf x ) (fun x => M_slash.logpdf x ) (Fin x).
Proof. exact (C34_slash  ). Qed.

Theorem C39_slash : 
  is_mode (fun x => M_slash.pdf x ) (M_slash.mode ).
Proof. exact (P_slash.mode_ok ). Qed.
Print Assumptions C39_slash.
Example C39_slash_instance : is_mode (fun x => M_slash.pdf x ) (M_slash.mode ).
Proof. exact (C39_slash  ). Qed.

(** C35: any number returned is the quantile, whatever checked root finder is used.  Missing: that the root finder, started from a single point, returns. *)
Theorem C35_slash_partial : forall p,
  0 < p < 1 -> exists q, cdf (Fin q) = Fin p /\ (forall x, cdf (Fin x) = Fin p -> x = q) /\
  forall findroot, checked_solver1 findroot -> forall x, invcdf findroot (Fin p) = Fin x -> x = q.
Proof. first [exact P_slash.invcdf_ok | intros; apply P_slash.invcdf_ok; assumption]. Qed.
Print Assumptions C35_slash_partial.
Example C35_slash_partial_instance := C35_slash_partial  (1/3) ltac:(inst).

(** C36: the same for invsf.  Missing: that the root finder returns. *)
Theorem C36_slash_partial : forall p,
  0 < p < 1 -> exists q, sf (Fin q) = Fin p /\ (forall x, sf (Fin x) = Fin p -> x = q) /\
  forall findroot, checked_solver1 findroot -> forall x, invsf findroot (Fin p) = Fin x -> x = q.
Proof. first [exact P_slash.invsf_ok | intros; apply P_slash.invsf_ok; assumption]. Qed.
Print Assumptions C36_slash_partial.
Example C36_slash_partial_instance := C36_slash_partial  (1/3) ltac:(inst).

(** C37: p outside [0,1] is rejected; 0 and 1 go to the ends of the support. *)
Theorem C37_slash : forall fr,
  rejects_bad_p (invcdf fr) /\ rejects_bad_p (invsf fr) /\ at_ends (invcdf fr) NInf PInf /\ at_ends (invsf fr) PInf NInf.
Proof. first [exact P_slash.ends | intros; apply P_slash.ends; assumption]. Qed.
Print Assumptions C37_slash.
Example C37_slash_instance := C37_slash  (fun _ _ => NaN).

(** C43: mean() is 0 although the distribution has no mean. *)
Theorem C43_slash_mean_refuted : mean = Fin 0 /\ no_mean pdf m_infty p_infty.
Proof. first [exact P_slash.no_mean_ok | intros; apply P_slash.no_mean_ok; assumption]. Qed.
Print Assumptions C43_slash_mean_refuted.
Example C43_slash_mean_refuted_instance := C43_slash_mean_refuted  .

(** C45: the law is symmetric about 0. *)
Theorem C45_slash : forall (x : R),
  cdf (Fin (- x)) = sf x /\ pdf (Fin (- x)) = pdf x.
Proof. first [exact P_slash.reflect | intros; apply P_slash.reflect; assumption]. Qed.
Print Assumptions C45_slash.
Example C45_slash_instance := C45_slash  2.

