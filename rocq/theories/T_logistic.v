(** Properties of mpsci.distributions.logistic (generated by tools/mkthm.py). *)
From Coq Require Import Reals Lra List.
From Coquelicot Require Import Coquelicot.
From Verif Require Import Values Spec SpecStat SpecEst VTac TTac DistLib.
From Verif Require Import M_logistic.
From Verif Require P_logistic.
Import ListNotations.
Local Open Scope R_scope.

Theorem C30_logistic : forall l s : R, 0 < s -> 
  complementary (fun x => M_logistic.cdf x l s) (fun x => M_logistic.sf x l s).
Proof. exact (fun l s H0 => cert_complementary (P_logistic.CERT l s H0)). Qed.
Print Assumptions C30_logistic.
Example C30_logistic_instance : complementary (fun x => M_logistic.cdf x (1) (2)) (fun x => M_logistic.sf x (1) (2)).
Proof. exact (C30_logistic (1) (2) ltac:(side)). Qed.

Theorem C31_logistic : forall l s : R, 0 < s -> 
  nondecreasing (fun x => M_logistic.cdf x l s) /\ supported_on (fun x => M_logistic.cdf x l s) NInf PInf /\
  M_logistic.support l s = Ok (NInf, PInf).
Proof. intros l s H0. split; [exact (cert_nondecreasing (P_logistic.CERT l s H0))|split; [exact (cert_supported (P_logistic.CERT l s H0))|unfold M_logistic.support; supp]]. Qed.
Print Assumptions C31_logistic.
Example C31_logistic_instance : nondecreasing (fun x => M_logistic.cdf x (1) (2)) /\ supported_on (fun x => M_logistic.cdf x (1) (2)) NInf PInf /\
  M_logistic.support (1) (2) = Ok (NInf, PInf).
Proof. exact (C31_logistic (1) (2) ltac:(side)). Qed.

Theorem C32_logistic : forall l s : R, 0 < s -> 
  density_of (fun x => M_logistic.cdf x l s) (fun x => M_logistic.pdf x l s) m_infty p_infty.
Proof. exact (fun l s H0 => cert_density (P_logistic.CERT l s H0)). Qed.
Print Assumptions C32_logistic.
Example C32_logistic_instance : density_of (fun x => M_logistic.cdf x (1) (2)) (fun x => M_logistic.pdf x (1) (2)) m_infty p_infty.
Proof. exact (C32_logistic (1) (2) ltac:(side)). Qed.

Theorem C33_logistic : forall l s : R, 0 < s -> 
  total_mass_one (fun x => M_logistic.pdf x l s) m_infty p_infty.
Proof. exact (fun l s H0 => cert_total_mass (P_logistic.CERT l s H0)). Qed.
Print Assumptions C33_logistic.
Example C33_logistic_instance : total_mass_one (fun x => M_logistic.pdf x (1) (2)) m_infty p_infty.
Proof. exact (C33_logistic (1) (2) ltac:(side)). Qed.

Theorem C34_logistic : forall l s : R, 0 < s -> 
  forall x : R, log_of (fun x => M_logistic.pdf x l s) (fun x => M_logistic.logpdf x l s) (Fin x).
Proof. exact (fun l s H0 => cert_log_ends (P_logistic.CERT l s H0) (fun x E => ltac:(discriminate E)) (fun x E => ltac:(discriminate E))). Qed.
Print Assumptions C34_logistic.
Example C34_logistic_instance : forall x : R, log_of (fun x => M_logistic.pdf x (1) (2)) (fun x => M_logistic.logpdf x (1) (2)) (Fin x).
Proof. exact (C34_logistic (1) (2) ltac:(side)). Qed.

Theorem C35_logistic : forall l s : R, 0 < s -> 
  inverse_of (fun x => M_logistic.cdf x l s) (fun x => M_logistic.invcdf x l s) m_infty p_infty.
Proof. exact (fun l s H0 => cert_inverse (P_logistic.CERT l s H0)). Qed.
Print Assumptions C35_logistic.
Example C35_logistic_instance : inverse_of (fun x => M_logistic.cdf x (1) (2)) (fun x => M_logistic.invcdf x (1) (2)) m_infty p_infty.
Proof. exact (C35_logistic (1) (2) ltac:(side)). Qed.

Theorem C36_logistic : forall l s : R, 0 < s -> 
  inverse_of (fun x => M_logistic.sf x l s) (fun x => M_logistic.invsf x l s) m_infty p_infty /\
  (forall p, 0 < p < 1 -> M_logistic.invsf (Fin p) l s = M_logistic.invcdf (Fin (1 - p)) l s).
Proof. exact (fun l s H0 => conj (cert_inverse_sf (P_logistic.CERT l s H0)) (cert_invsf_invcdf (P_logistic.CERT l s H0))). Qed.
Print Assumptions C36_logistic.
Example C36_logistic_instance : inverse_of (fun x => M_logistic.sf x (1) (2)) (fun x => M_logistic.invsf x (1) (2)) m_infty p_infty /\
  (forall p, 0 < p < 1 -> M_logistic.invsf (Fin p) (1) (2) = M_logistic.invcdf (Fin (1 - p)) (1) (2)).
Proof. exact (C36_logistic (1) (2) ltac:(side)). Qed.

Theorem C37_logistic : forall l s : R, 0 < s -> 
  rejects_bad_p (fun x => M_logistic.invcdf x l s) /\ rejects_bad_p (fun x => M_logistic.invsf x l s) /\
  at_ends (fun x => M_logistic.invcdf x l s) NInf PInf /\ at_ends (fun x => M_logistic.invsf x l s) PInf NInf.
Proof. exact (fun l s H0 => P_logistic.ends l s H0). Qed.
Print Assumptions C37_logistic.
Example C37_logistic_instance : rejects_bad_p (fun x => M_logistic.invcdf x (1) (2)) /\ rejects_bad_p (fun x => M_logistic.invsf x (1) (2)) /\
  at_ends (fun x => M_logistic.invcdf x (1) (2)) NInf PInf /\ at_ends (fun x => M_logistic.invsf x (1) (2)) PInf NInf.
Proof. exact (C37_logistic (1) (2) ltac:(side)). Qed.

Theorem C39_logistic : forall l s : R, 0 < s -> 
  is_mode (fun x => M_logistic.pdf x l s) (M_logistic.mode l s).
Proof. exact (fun l s H0 => P_logistic.mode_ok l s H0). Qed.
Print Assumptions C39_logistic.
Example C39_logistic_instance : is_mode (fun x => M_logistic.pdf x (1) (2)) (M_logistic.mode (1) (2)).
Proof. exact (C39_logistic (1) (2) ltac:(side)). Qed.

(** C38: a scale that is not positive is rejected by every function. *)
Theorem C38_logistic : forall l s,
  nonpositive s ->
  support l s = Err ValueError /\
  always_ValueError [ fun x => pdf x l s; fun x => logpdf x l s; fun x => cdf x l s; fun x => sf x l s;
    fun p => invcdf p l s; fun p => invsf p l s; fun _ => mean l s; fun _ => mode l s; fun _ => var l s;
    fun _ => entropy l s; fun x => nll [x] l s ].
Proof. first [exact P_logistic.bad_params | intros; apply P_logistic.bad_params; assumption]. Qed.
Print Assumptions C38_logistic.
Example C38_logistic_instance := C38_logistic  (Fin 1) (Fin 0) ltac:(inst).

(** C44: location and scale. *)
Theorem C44_logistic : loc_scale_law pdf cdf sf invcdf invsf m_infty p_infty.
Proof. first [exact P_logistic.loc_scale | intros; apply P_logistic.loc_scale; assumption]. Qed.
Print Assumptions C44_logistic.
Example C44_logistic_instance := C44_logistic  1 2 ltac:(inst).

(** C43: mean and entropy are the integrals they stand for. *)
Theorem C43_logistic : forall (l s : R),
  0 < s -> mean_is (fun x => pdf x l s) m_infty p_infty (mean l s) /\
  entropy_is (fun x => pdf x l s) m_infty p_infty (entropy l s).
Proof. first [exact P_logistic.moments | intros; apply P_logistic.moments; assumption]. Qed.
Print Assumptions C43_logistic.
Example C43_logistic_instance := C43_logistic  1 2 ltac:(inst).

(** C43: variance. *)
Theorem C43_logistic_var : forall (l s : R),
  0 < s -> var_is (fun x => pdf x l s) m_infty p_infty (mean l s) (var l s).
Proof. first [exact P_logistic.var_ok | intros; apply P_logistic.var_ok; assumption]. Qed.
Print Assumptions C43_logistic_var.
Example C43_logistic_var_instance := C43_logistic_var   1 2 ltac:(inst).

(** C48: mom reproduces the sample mean and variance. *)
Theorem C48_logistic : forall xs,
  ~ constant xs -> exists l s, mom (map Fin xs) = Ok (Fin l, Fin s) /\ 0 < s /\
  reproduces (mean (Fin l) (Fin s)) (var (Fin l) (Fin s)) xs.
Proof. first [exact P_logistic.mom_ok | intros; apply P_logistic.mom_ok; assumption]. Qed.
Print Assumptions C48_logistic.
Example C48_logistic_instance := C48_logistic  [1; 2; 5] ltac:(inst).

(** C49: nll is minus the sum of logpdf. *)
Theorem C49_logistic : forall l s : R, 0 < s -> forall xs,
  nll (map Fin xs) l s = vneg (loglik (fun x => logpdf x l s) xs).
Proof. first [exact P_logistic.nll_ok | intros; apply P_logistic.nll_ok; assumption]. Qed.
Print Assumptions C49_logistic.
Example C49_logistic_instance := C49_logistic (1) (2) ltac:(inst) [1; 2; 5].

