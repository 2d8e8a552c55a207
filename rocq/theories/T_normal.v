(** Properties of mpsci.distributions.normal (generated by tools/mkthm.py). *)
From Coq Require Import Reals Lra List.
From Coquelicot Require Import Coquelicot.
From Verif Require Import Values Spec SpecStat SpecEst VTac TTac DistLib.
From Verif Require Import M_normal.
From Verif Require P_normal.
Import ListNotations.
Local Open Scope R_scope.

Theorem C30_normal : forall l s : R, 0 < s -> 
  complementary (fun x => M_normal.cdf x l s) (fun x => M_normal.sf x l s).
Proof. exact (fun l s H0 => cert_complementary (P_normal.CERT l s H0)). Qed.
Print Assumptions C30_normal.
Example C30_normal_instance : complementary (fun x => M_normal.cdf x (1) (2)) (fun x => M_normal.sf x (1) (2)).
Proof. exact (C30_normal (1) (2) ltac:(side)). Qed.

Theorem C31_normal : forall l s : R, 0 < s -> 
  nondecreasing (fun x => M_normal.cdf x l s) /\ supported_on (fun x => M_normal.cdf x l s) NInf PInf /\
  M_normal.support l s = Ok (NInf, PInf).
Proof. intros l s H0. split; [exact (cert_nondecreasing (P_normal.CERT l s H0))|split; [exact (cert_supported (P_normal.CERT l s H0))|unfold M_normal.support; supp]]. Qed.
Print Assumptions C31_normal.
Example C31_normal_instance : nondecreasing (fun x => M_normal.cdf x (1) (2)) /\ supported_on (fun x => M_normal.cdf x (1) (2)) NInf PInf /\
  M_normal.support (1) (2) = Ok (NInf, PInf).
Proof. exact (C31_normal (1) (2) ltac:(side)). Qed.

Theorem C32_normal : forall l s : R, 0 < s -> 
  density_of (fun x => M_normal.cdf x l s) (fun x => M_normal.pdf x l s) m_infty p_infty.
Proof. exact (fun l s H0 => cert_density (P_normal.CERT l s H0)). Qed.
Print Assumptions C32_normal.
Example C32_normal_instance : density_of (fun x => M_normal.cdf x (1) (2)) (fun x => M_normal.pdf x (1) (2)) m_infty p_infty.
Proof. exact (C32_normal (1) (2) ltac:(side)). Qed.

Theorem C33_normal : forall l s : R, 0 < s -> 
  total_mass_one (fun x => M_normal.pdf x l s) m_infty p_infty.
Proof. exact (fun l s H0 => cert_total_mass (P_normal.CERT l s H0)). Qed.
Print Assumptions C33_normal.
Example C33_normal_instance : total_mass_one (fun x => M_normal.pdf x (1) (2)) m_infty p_infty.
Proof. exact (C33_normal (1) (2) ltac:(side)). Qed.

Theorem C34_normal : forall l s : R, 0 < s -> 
  forall x : R, log_of (fun x => M_normal.pdf x l s) (fun x => M_normal.logpdf x l s) (Fin x).
Proof. exact (fun l s H0 => cert_log_ends (P_normal.CERT l s H0) (fun x E => ltac:(discriminate E)) (fun x E => ltac:(discriminate E))). Qed.
Print Assumptions C34_normal.
Example C34_normal_instance : forall x : R, log_of (fun x => M_normal.pdf x (1) (2)) (fun x => M_normal.logpdf x (1) (2)) (Fin x).
Proof. exact (C34_normal (1) (2) ltac:(side)). Qed.

Theorem C35_normal : forall l s : R, 0 < s -> 
  inverse_of (fun x => M_normal.cdf x l s) (fun x => M_normal.invcdf x l s) m_infty p_infty.
Proof. exact (fun l s H0 => cert_inverse (P_normal.CERT l s H0)). Qed.
Print Assumptions C35_normal.
Example C35_normal_instance : inverse_of (fun x => M_normal.cdf x (1) (2)) (fun x => M_normal.invcdf x (1) (2)) m_infty p_infty.
Proof. exact (C35_normal (1) (2) ltac:(side)). Qed.

Theorem C36_normal : forall l s : R, 0 < s -> 
  inverse_of (fun x => M_normal.sf x l s) (fun x => M_normal.invsf x l s) m_infty p_infty /\
  (forall p, 0 < p < 1 -> M_normal.invsf (Fin p) l s = M_normal.invcdf (Fin (1 - p)) l s).
Proof. exact (fun l s H0 => conj (cert_inverse_sf (P_normal.CERT l s H0)) (cert_invsf_invcdf (P_normal.CERT l s H0))). Qed.
Print Assumptions C36_normal.
Example C36_normal_instance : inverse_of (fun x => M_normal.sf x (1) (2)) (fun x => M_normal.invsf x (1) (2)) m_infty p_infty /\
  (forall p, 0 < p < 1 -> M_normal.invsf (Fin p) (1) (2) = M_normal.invcdf (Fin (1 - p)) (1) (2)).
Proof. exact (C36_normal (1) (2) ltac:(side)). Qed.

Theorem C37_normal : forall l s : R, 0 < s -> 
  rejects_bad_p (fun x => M_normal.invcdf x l s) /\ rejects_bad_p (fun x => M_normal.invsf x l s) /\
  at_ends (fun x => M_normal.invcdf x l s) NInf PInf /\ at_ends (fun x => M_normal.invsf x l s) PInf NInf.
Proof. exact (fun l s H0 => P_normal.ends l s H0). Qed.
Print Assumptions C37_normal.
Example C37_normal_instance : rejects_bad_p (fun x => M_normal.invcdf x (1) (2)) /\ rejects_bad_p (fun x => M_normal.invsf x (1) (2)) /\
  at_ends (fun x => M_normal.invcdf x (1) (2)) NInf PInf /\ at_ends (fun x => M_normal.invsf x (1) (2)) PInf NInf.
Proof. exact (C37_normal (1) (2) ltac:(side)). Qed.

Theorem C39_normal : forall l s : R, 0 < s -> 
  is_mode (fun x => M_normal.pdf x l s) (M_normal.mode l s).
Proof. exact (fun l s H0 => P_normal.mode_ok l s H0). Qed.
Print Assumptions C39_normal.
Example C39_normal_instance : is_mode (fun x => M_normal.pdf x (1) (2)) (M_normal.mode (1) (2)).
Proof. exact (C39_normal (1) (2) ltac:(side)). Qed.

(** C38: a scale that is not positive is rejected by every function. *)
Theorem C38_normal : forall l s,
  nonpositive s ->
  support l s = Err ValueError /\
  always_ValueError [ fun x => pdf x l s; fun x => logpdf x l s; fun x => cdf x l s; fun x => sf x l s;
    fun p => invcdf p l s; fun p => invsf p l s; fun _ => mean l s; fun _ => median l s; fun _ => mode l s;
    fun _ => entropy l s; fun x => nll [x] l s ].
Proof. first [exact P_normal.bad_params | intros; apply P_normal.bad_params; assumption]. Qed.
Print Assumptions C38_normal.
Example C38_normal_instance := C38_normal  (Fin 1) (Fin 0) ltac:(inst).

(** C43: mean, median and entropy. *)
Theorem C43_normal : forall (l s : R),
  0 < s -> mean_is (fun x => pdf x l s) m_infty p_infty (mean l s) /\
  median_is (fun x => cdf x l s) (median l s) /\
  entropy_is (fun x => pdf x l s) m_infty p_infty (entropy l s).
Proof. first [exact P_normal.moments | intros; apply P_normal.moments; assumption]. Qed.
Print Assumptions C43_normal.
Example C43_normal_instance := C43_normal  1 2 ltac:(inst).

(** C43: mu and sigma^2 are the mean and variance of the density. *)
Theorem C43_normal_var : forall (l s : R),
  0 < s -> var_is (fun x => pdf x l s) m_infty p_infty (Fin l) (Fin (s ^ 2)).
Proof. first [exact P_normal.variance | intros; apply P_normal.variance; assumption]. Qed.
Print Assumptions C43_normal_var.
Example C43_normal_var_instance := C43_normal_var  1 2 ltac:(inst).

(** C44: location and scale. *)
Theorem C44_normal : loc_scale_law pdf cdf sf invcdf invsf m_infty p_infty.
Proof. first [exact P_normal.loc_scale | intros; apply P_normal.loc_scale; assumption]. Qed.
Print Assumptions C44_normal.
Example C44_normal_instance := C44_normal  1 2 ltac:(inst).

(** C47: the maximum likelihood estimate, for data that is not constant. *)
Theorem C47_normal : forall xs,
  ~ constant xs -> exists l s, mle (map Fin xs) = Ok (Fin l, Fin s) /\
  maximises (fun '(l, s) => 0 < s) (fun '(l, s) => loglik (fun x => logpdf x (Fin l) (Fin s)) xs) (l, s).
Proof. first [exact P_normal.mle_ok | intros; apply P_normal.mle_ok; assumption]. Qed.
Print Assumptions C47_normal.
Example C47_normal_instance := C47_normal  [1; 2; 5] ltac:(inst).

(** C49: nll is minus the sum of logpdf. *)
Theorem C49_normal : forall l s : R, 0 < s -> forall xs,
  nll (map Fin xs) l s = vneg (loglik (fun x => logpdf x l s) xs).
Proof. first [exact P_normal.nll_ok | intros; apply P_normal.nll_ok; assumption]. Qed.
Print Assumptions C49_normal.
Example C49_normal_instance := C49_normal (1) (2) ltac:(inst) [1; 2; 5].

(** C67: without explicit parameters nll uses mu = 1 and logpdf uses mu = 0: they disagree on the data [0]. *)
Theorem C67_normal_refuted : nll_default [Fin 0] <> vneg (loglik logpdf_default [0]).
Proof. first [exact P_normal.nll_default_bad | intros; apply P_normal.nll_default_bad; assumption]. Qed.
Print Assumptions C67_normal_refuted.
Example C67_normal_refuted_instance := C67_normal_refuted  .

