(** Properties of mpsci.distributions.half_logistic (generated by tools/mkthm.py). *)
From Coq Require Import Reals Lra List.
From Coquelicot Require Import Coquelicot.
From Verif Require Import Values Spec SpecStat SpecEst VTac TTac DistLib.
From Verif Require M_logistic.
From Verif Require Import M_half_logistic.
From Verif Require P_half_logistic.
Import ListNotations.
Local Open Scope R_scope.

Theorem C30_half_logistic : forall l s : R, 0 < s -> 
  complementary (fun x => M_half_logistic.cdf x l s) (fun x => M_half_logistic.sf x l s).
Proof. exact (fun l s H0 => cert_complementary (P_half_logistic.CERT l s H0)). Qed.
Print Assumptions C30_half_logistic.
Example C30_half_logistic_instance : complementary (fun x => M_half_logistic.cdf x (1) (2)) (fun x => M_half_logistic.sf x (1) (2)).
Proof. exact (C30_half_logistic (1) (2) ltac:(side)). Qed.

Theorem C31_half_logistic : forall l s : R, 0 < s -> 
  nondecreasing (fun x => M_half_logistic.cdf x l s) /\ supported_on (fun x => M_half_logistic.cdf x l s) (Fin (l)) PInf /\
  M_half_logistic.support l s = Ok ((Fin (l)), PInf).
Proof. intros l s H0. split; [exact (cert_nondecreasing (P_half_logistic.CERT l s H0))|split; [exact (cert_supported (P_half_logistic.CERT l s H0))|unfold M_half_logistic.support; supp]]. Qed.
Print Assumptions C31_half_logistic.
Example C31_half_logistic_instance : nondecreasing (fun x => M_half_logistic.cdf x (1) (2)) /\ supported_on (fun x => M_half_logistic.cdf x (1) (2)) (Fin ((1))) PInf /\
  M_half_logistic.support (1) (2) = Ok ((Fin ((1))), PInf).
Proof. exact (C31_half_logistic (1) (2) ltac:(side)). Qed.

Theorem C32_half_logistic : forall l s : R, 0 < s -> 
  density_of (fun x => M_half_logistic.cdf x l s) (fun x => M_half_logistic.pdf x l s) l p_infty.
Proof. exact (fun l s H0 => cert_density (P_half_logistic.CERT l s H0)). Qed.
Print Assumptions C32_half_logistic.
Example C32_half_logistic_instance : density_of (fun x => M_half_logistic.cdf x (1) (2)) (fun x => M_half_logistic.pdf x (1) (2)) (1) p_infty.
Proof. exact (C32_half_logistic (1) (2) ltac:(side)). Qed.

Theorem C33_half_logistic : forall l s : R, 0 < s -> 
  total_mass_one (fun x => M_half_logistic.pdf x l s) l p_infty.
Proof. exact (fun l s H0 => cert_total_mass (P_half_logistic.CERT l s H0)). Qed.
Print Assumptions C33_half_logistic.
Example C33_half_logistic_instance : total_mass_one (fun x => M_half_logistic.pdf x (1) (2)) (1) p_infty.
Proof. exact (C33_half_logistic (1) (2) ltac:(side)). Qed.

Theorem C34_half_logistic : forall l s : R, 0 < s -> 
  forall x : R, log_of (fun x => M_half_logistic.pdf x l s) (fun x => M_half_logistic.logpdf x l s) (Fin x).
Proof. exact (fun l s H0 => P_half_logistic.log_all l s H0). Qed.
Print Assumptions C34_half_logistic.
Example C34_half_logistic_instance : forall x : R, log_of (fun x => M_half_logistic.pdf x (1) (2)) (fun x => M_half_logistic.logpdf x (1) (2)) (Fin x).
Proof. exact (C34_half_logistic (1) (2) ltac:(side)). Qed.

Theorem C35_half_logistic : forall l s : R, 0 < s -> 
  inverse_of (fun x => M_half_logistic.cdf x l s) (fun x => M_half_logistic.invcdf x l s) l p_infty.
Proof. exact (fun l s H0 => cert_inverse (P_half_logistic.CERT l s H0)). Qed.
Print Assumptions C35_half_logistic.
Example C35_half_logistic_instance : inverse_of (fun x => M_half_logistic.cdf x (1) (2)) (fun x => M_half_logistic.invcdf x (1) (2)) (1) p_infty.
Proof. exact (C35_half_logistic (1) (2) ltac:(side)). Qed.

Theorem C36_half_logistic : forall l s : R, 0 < s -> 
  inverse_of (fun x => M_half_logistic.sf x l s) (fun x => M_half_logistic.invsf x l s) l p_infty /\
  (forall p, 0 < p < 1 -> M_half_logistic.invsf (Fin p) l s = M_half_logistic.invcdf (Fin (1 - p)) l s).
Proof. exact (fun l s H0 => conj (cert_inverse_sf (P_half_logistic.CERT l s H0)) (cert_invsf_invcdf (P_half_logistic.CERT l s H0))). Qed.
Print Assumptions C36_half_logistic.
Example C36_half_logistic_instance : inverse_of (fun x => M_half_logistic.sf x (1) (2)) (fun x => M_half_logistic.invsf x (1) (2)) (1) p_infty /\
  (forall p, 0 < p < 1 -> M_half_logistic.invsf (Fin p) (1) (2) = M_half_logistic.invcdf (Fin (1 - p)) (1) (2)).
Proof. exact (C36_half_logistic (1) (2) ltac:(side)). Qed.

Theorem C37_half_logistic : forall l s : R, 0 < s -> 
  rejects_bad_p (fun x => M_half_logistic.invcdf x l s) /\ rejects_bad_p (fun x => M_half_logistic.invsf x l s) /\
  at_ends (fun x => M_half_logistic.invcdf x l s) l PInf /\ at_ends (fun x => M_half_logistic.invsf x l s) PInf l.
Proof. exact (fun l s H0 => P_half_logistic.ends l s H0). Qed.
Print Assumptions C37_half_logistic.
Example C37_half_logistic_instance : rejects_bad_p (fun x => M_half_logistic.invcdf x (1) (2)) /\ rejects_bad_p (fun x => M_half_logistic.invsf x (1) (2)) /\
  at_ends (fun x => M_half_logistic.invcdf x (1) (2)) (1) PInf /\ at_ends (fun x => M_half_logistic.invsf x (1) (2)) PInf (1).
Proof. exact (C37_half_logistic (1) (2) ltac:(side)). Qed.

Theorem C39_half_logistic : forall l s : R, 0 < s -> 
  is_mode (fun x => M_half_logistic.pdf x l s) (M_half_logistic.mode l s).
Proof. exact (fun l s H0 => P_half_logistic.mode_ok l s H0). Qed.
Print Assumptions C39_half_logistic.
Example C39_half_logistic_instance : is_mode (fun x => M_half_logistic.pdf x (1) (2)) (M_half_logistic.mode (1) (2)).
Proof. exact (C39_half_logistic (1) (2) ltac:(side)). Qed.

(** C38: a scale that is not positive is rejected by every function. *)
Theorem C38_half_logistic : forall l s,
  nonpositive s ->
  support l s = Err ValueError /\
  always_ValueError [ fun x => pdf x l s; fun x => logpdf x l s; fun x => cdf x l s; fun x => sf x l s;
    fun p => invcdf p l s; fun p => invsf p l s; fun _ => mean l s; fun _ => mode l s; fun _ => var l s;
    fun _ => entropy l s ].
Proof. first [exact P_half_logistic.bad_params | intros; apply P_half_logistic.bad_params; assumption]. Qed.
Print Assumptions C38_half_logistic.
Example C38_half_logistic_instance := C38_half_logistic  (Fin 1) (Fin 0) ltac:(inst).

(** C44: location and scale. *)
Theorem C44_half_logistic : loc_scale_law pdf cdf sf invcdf invsf 0 p_infty.
Proof. first [exact P_half_logistic.loc_scale | intros; apply P_half_logistic.loc_scale; assumption]. Qed.
Print Assumptions C44_half_logistic.
Example C44_half_logistic_instance := C44_half_logistic  1 2 ltac:(inst).

(** C43: mean and entropy are the integrals they stand for. *)
Theorem C43_half_logistic : forall (l s : R),
  0 < s -> mean_is (fun x => pdf x l s) l p_infty (mean l s) /\
  entropy_is (fun x => pdf x l s) l p_infty (entropy l s).
Proof. first [exact P_half_logistic.moments | intros; apply P_half_logistic.moments; assumption]. Qed.
Print Assumptions C43_half_logistic.
Example C43_half_logistic_instance := C43_half_logistic  1 2 ltac:(inst).

(** C43: variance. *)
Theorem C43_half_logistic_var : forall (l s : R),
  0 < s -> var_is (fun x => pdf x l s) l p_infty (mean l s) (var l s).
Proof. first [exact P_half_logistic.var_ok | intros; apply P_half_logistic.var_ok; assumption]. Qed.
Print Assumptions C43_half_logistic_var.
Example C43_half_logistic_var_instance := C43_half_logistic_var   1 2 ltac:(inst).

(** C45: the half-logistic is the logistic folded at its location. *)
Theorem C45_half_logistic : forall l s : R, 0 < s -> forall (x : R),
  l <= x -> exists a b c d, pdf x l s = Fin a /\ M_logistic.pdf x l s = Fin b /\ a = 2 * b /\
  cdf x l s = Fin c /\ M_logistic.cdf x l s = Fin d /\ c = 2 * d - 1.
Proof. first [exact P_half_logistic.folded | intros; apply P_half_logistic.folded; assumption]. Qed.
Print Assumptions C45_half_logistic.
Example C45_half_logistic_instance := C45_half_logistic (1) (2) ltac:(inst) 3 ltac:(inst).

