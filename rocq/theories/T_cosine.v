(** Properties of mpsci.distributions.cosine (generated by tools/mkthm.py). *)
From Coq Require Import Reals Lra List.
From Coquelicot Require Import Coquelicot.
From Verif Require Import Values Spec SpecStat SpecEst VTac TTac DistLib.
From Verif Require Import SpecInv.
From Verif Require Import M_cosine.
From Verif Require P_cosine.
Import ListNotations.
Local Open Scope R_scope.

Theorem C30_cosine : 
  complementary (fun x => M_cosine.cdf x ) (fun x => M_cosine.sf x ).
Proof. exact (cert_complementary P_cosine.CERT). Qed.
Print Assumptions C30_cosine.
Example C30_cosine_instance : complementary (fun x => M_cosine.cdf x ) (fun x => M_cosine.sf x ).
Proof. exact (C30_cosine  ). Qed.

Theorem C31_cosine : 
  nondecreasing (fun x => M_cosine.cdf x ) /\ supported_on (fun x => M_cosine.cdf x ) (Fin ((- PI))) (Fin (PI)) /\
  M_cosine.support  = Ok ((Fin ((- PI))), (Fin (PI))).
Proof. intros . split; [exact (cert_nondecreasing P_cosine.CERT)|split; [exact (cert_supported P_cosine.CERT)|unfold M_cosine.support; supp]]. Qed.
Print Assumptions C31_cosine.
Example C31_cosine_instance : nondecreasing (fun x => M_cosine.cdf x ) /\ supported_on (fun x => M_cosine.cdf x ) (Fin ((- PI))) (Fin (PI)) /\
  M_cosine.support  = Ok ((Fin ((- PI))), (Fin (PI))).
Proof. exact (C31_cosine  ). Qed.

Theorem C32_cosine : 
  density_of (fun x => M_cosine.cdf x ) (fun x => M_cosine.pdf x ) (- PI) PI.
Proof. exact (cert_density P_cosine.CERT). Qed.
Print Assumptions C32_cosine.
Example C32_cosine_instance : density_of (fun x => M_cosine.cdf x ) (fun x => M_cosine.pdf x ) (- PI) PI.
Proof. exact (C32_cosine  ). Qed.

Theorem C33_cosine : 
  total_mass_one (fun x => M_cosine.pdf x ) (- PI) PI.
Proof. exact (cert_total_mass P_cosine.CERT). Qed.
Print Assumptions C33_cosine.
Example C33_cosine_instance : total_mass_one (fun x => M_cosine.pdf x ) (- PI) PI.
Proof. exact (C33_cosine  ). Qed.

Theorem C34_cosine : 
  forall x : R, log_of (fun x => M_cosine.pdf x ) (fun x => M_cosine.logpdf x ) (Fin x).
Proof. exact (P_cosine.log_all ). Qed.
Print Assumptions C34_cosine.
Example C34_cosine_instance : forall x : R, log_of (fun x => M_cosine.pdf x ) (fun x => M_cosine.logpdf x ) (Fin x).
Proof. exact (C34_cosine  ). Qed.

Theorem C39_cosine : 
  is_mode (fun x => M_cosine.pdf x ) (M_cosine.mode ).
Proof. exact (P_cosine.mode_ok ). Qed.
Print Assumptions C39_cosine.
Example C39_cosine_instance : is_mode (fun x => M_cosine.pdf x ) (M_cosine.mode ).
Proof. exact (C39_cosine  ). Qed.

(** C35: any number returned is the quantile, whatever checked root finder is used.  Missing: that the root finder, started from a single point, returns. *)
Theorem C35_cosine_partial : forall p,
  0 < p < 1 -> exists q, - PI < q < PI /\ cdf (Fin q) = Fin p /\ (forall x, cdf (Fin x) = Fin p -> x = q) /\
  forall findroot, checked_solver1 findroot -> forall x, invcdf findroot (Fin p) = Fin x -> x = q.
Proof. first [exact P_cosine.invcdf_ok | intros; apply P_cosine.invcdf_ok; assumption]. Qed.
Print Assumptions C35_cosine_partial.
Example C35_cosine_partial_instance := C35_cosine_partial  (1/3) ltac:(inst).

(** C36: the same for invsf.  Missing: that the root finder returns. *)
Theorem C36_cosine_partial : forall p,
  0 < p < 1 -> exists q, - PI < q < PI /\ sf (Fin q) = Fin p /\ (forall x, sf (Fin x) = Fin p -> x = q) /\
  forall findroot, checked_solver1 findroot -> forall x, invsf findroot (Fin p) = Fin x -> x = q.
Proof. first [exact P_cosine.invsf_ok | intros; apply P_cosine.invsf_ok; assumption]. Qed.
Print Assumptions C36_cosine_partial.
Example C36_cosine_partial_instance := C36_cosine_partial  (1/3) ltac:(inst).

(** C37: p outside [0,1] is rejected; 0 and 1 go to the ends of the support. *)
Theorem C37_cosine : forall fr,
  rejects_bad_p (invcdf fr) /\ rejects_bad_p (invsf fr) /\ at_ends (invcdf fr) (Fin (- PI)) (Fin PI) /\ at_ends (invsf fr) (Fin PI) (Fin (- PI)).
Proof. first [exact P_cosine.ends | intros; apply P_cosine.ends; assumption]. Qed.
Print Assumptions C37_cosine.
Example C37_cosine_instance := C37_cosine  (fun _ _ => NaN).

(** C43: mean ... *)
Theorem C43_cosine_mean : mean_is pdf (Finite (- PI)) (Finite PI) mean.
Proof. first [exact P_cosine.mean_ok | intros; apply P_cosine.mean_ok; assumption]. Qed.
Print Assumptions C43_cosine_mean.
Example C43_cosine_mean_instance := C43_cosine_mean  .

(** C43: ... variance ... *)
Theorem C43_cosine_var : var_is pdf (Finite (- PI)) (Finite PI) mean var.
Proof. first [exact P_cosine.var_ok | intros; apply P_cosine.var_ok; assumption]. Qed.
Print Assumptions C43_cosine_var.
Example C43_cosine_var_instance := C43_cosine_var  .

(** C43: ... skewness ... *)
Theorem C43_cosine_skewness : skewness_is pdf (Finite (- PI)) (Finite PI) skewness.
Proof. first [exact P_cosine.skewness_ok | intros; apply P_cosine.skewness_ok; assumption]. Qed.
Print Assumptions C43_cosine_skewness.
Example C43_cosine_skewness_instance := C43_cosine_skewness  .

(** C43: ... and excess kurtosis. *)
Theorem C43_cosine_kurtosis : kurtosis_is pdf (Finite (- PI)) (Finite PI) kurtosis.
Proof. first [exact P_cosine.kurtosis_ok | intros; apply P_cosine.kurtosis_ok; assumption]. Qed.
Print Assumptions C43_cosine_kurtosis.
Example C43_cosine_kurtosis_instance := C43_cosine_kurtosis  .

(** C45: the law is symmetric about 0. *)
Theorem C45_cosine : forall (x : R),
  cdf (Fin (- x)) = sf x /\ pdf (Fin (- x)) = pdf x.
Proof. first [exact P_cosine.reflect | intros; apply P_cosine.reflect; assumption]. Qed.
Print Assumptions C45_cosine.
Example C45_cosine_instance := C45_cosine  2.

