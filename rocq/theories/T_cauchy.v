(** Properties of mpsci.distributions.cauchy (generated by tools/mkthm.py). *)
From Coq Require Import Reals Lra List.
From Coquelicot Require Import Coquelicot.
From Verif Require Import Values Spec SpecStat SpecEst VTac TTac DistLib.
From Verif Require Import SpecNoMom.
From Verif Require Import M_cauchy.
From Verif Require P_cauchy.
Import ListNotations.
Local Open Scope R_scope.

Theorem C30_cauchy : forall l s : R, 0 < s -> 
  complementary (fun x => M_cauchy.cdf x l s) (fun x => M_cauchy.sf x l s).
Proof. exact (fun l s H0 => cert_complementary (P_cauchy.CERT l s H0)). Qed.
Print Assumptions C30_cauchy.
Example C30_cauchy_instance : complementary (fun x => M_cauchy.cdf x (1) (2)) (fun x => M_cauchy.sf x (1) (2)).
Proof. exact (C30_cauchy (1) (2) ltac:(side)). Qed.

Theorem C31_cauchy : forall l s : R, 0 < s -> 
  nondecreasing (fun x => M_cauchy.cdf x l s) /\ supported_on (fun x => M_cauchy.cdf x l s) NInf PInf /\
  M_cauchy.support l s = Ok (NInf, PInf).
Proof. intros l s H0. split; [exact (cert_nondecreasing (P_cauchy.CERT l s H0))|split; [exact (cert_supported (P_cauchy.CERT l s H0))|unfold M_cauchy.support; supp]]. Qed.
Print Assumptions C31_cauchy.
Example C31_cauchy_instance : nondecreasing (fun x => M_cauchy.cdf x (1) (2)) /\ supported_on (fun x => M_cauchy.cdf x (1) (2)) NInf PInf /\
  M_cauchy.support (1) (2) = Ok (NInf, PInf).
Proof. exact (C31_cauchy (1) (2) ltac:(side)). Qed.

Theorem C32_cauchy : forall l s : R, 0 < s -> 
  density_of (fun x => M_cauchy.cdf x l s) (fun x => M_cauchy.pdf x l s) m_infty p_infty.
Proof. exact (fun l s H0 => cert_density (P_cauchy.CERT l s H0)). Qed.
Print Assumptions C32_cauchy.
Example C32_cauchy_instance : density_of (fun x => M_cauchy.cdf x (1) (2)) (fun x => M_cauchy.pdf x (1) (2)) m_infty p_infty.
Proof. exact (C32_cauchy (1) (2) ltac:(side)). Qed.

Theorem C33_cauchy : forall l s : R, 0 < s -> 
  total_mass_one (fun x => M_cauchy.pdf x l s) m_infty p_infty.
Proof. exact (fun l s H0 => cert_total_mass (P_cauchy.CERT l s H0)). Qed.
Print Assumptions C33_cauchy.
Example C33_cauchy_instance : total_mass_one (fun x => M_cauchy.pdf x (1) (2)) m_infty p_infty.
Proof. exact (C33_cauchy (1) (2) ltac:(side)). Qed.

Theorem C34_cauchy : forall l s : R, 0 < s -> 
  forall x : R, log_of (fun x => M_cauchy.pdf x l s) (fun x => M_cauchy.logpdf x l s) (Fin x).
Proof. exact (fun l s H0 => cert_log_ends (P_cauchy.CERT l s H0) (fun x E => ltac:(discriminate E)) (fun x E => ltac:(discriminate E))). Qed.
Print Assumptions C34_cauchy.
Example C34_cauchy_instance : forall x : R, log_of (fun x => M_cauchy.pdf x (1) (2)) (fun x => M_cauchy.logpdf x (1) (2)) (Fin x).
Proof. exact (C34_cauchy (1) (2) ltac:(side)). Qed.

Theorem C35_cauchy : forall l s : R, 0 < s -> 
  inverse_of (fun x => M_cauchy.cdf x l s) (fun x => M_cauchy.invcdf x l s) m_infty p_infty.
Proof. exact (fun l s H0 => cert_inverse (P_cauchy.CERT l s H0)). Qed.
Print Assumptions C35_cauchy.
Example C35_cauchy_instance : inverse_of (fun x => M_cauchy.cdf x (1) (2)) (fun x => M_cauchy.invcdf x (1) (2)) m_infty p_infty.
Proof. exact (C35_cauchy (1) (2) ltac:(side)). Qed.

Theorem C36_cauchy : forall l s : R, 0 < s -> 
  inverse_of (fun x => M_cauchy.sf x l s) (fun x => M_cauchy.invsf x l s) m_infty p_infty /\
  (forall p, 0 < p < 1 -> M_cauchy.invsf (Fin p) l s = M_cauchy.invcdf (Fin (1 - p)) l s).
Proof. exact (fun l s H0 => conj (cert_inverse_sf (P_cauchy.CERT l s H0)) (cert_invsf_invcdf (P_cauchy.CERT l s H0))). Qed.
Print Assumptions C36_cauchy.
Example C36_cauchy_instance : inverse_of (fun x => M_cauchy.sf x (1) (2)) (fun x => M_cauchy.invsf x (1) (2)) m_infty p_infty /\
  (forall p, 0 < p < 1 -> M_cauchy.invsf (Fin p) (1) (2) = M_cauchy.invcdf (Fin (1 - p)) (1) (2)).
Proof. exact (C36_cauchy (1) (2) ltac:(side)). Qed.

Theorem C39_cauchy : forall l s : R, 0 < s -> 
  is_mode (fun x => M_cauchy.pdf x l s) (M_cauchy.mode l s).
Proof. exact (fun l s H0 => P_cauchy.mode_ok l s H0). Qed.
Print Assumptions C39_cauchy.
Example C39_cauchy_instance : is_mode (fun x => M_cauchy.pdf x (1) (2)) (M_cauchy.mode (1) (2)).
Proof. exact (C39_cauchy (1) (2) ltac:(side)). Qed.

(** C37: p outside [0,1] is rejected ... *)
Theorem C37_cauchy_partial : forall l s : R, 0 < s -> rejects_bad_p (fun p => invcdf p l s) /\ rejects_bad_p (fun p => invsf p l s).
Proof. first [exact P_cauchy.rejects | intros; apply P_cauchy.rejects; assumption]. Qed.
Print Assumptions C37_cauchy_partial.
Example C37_cauchy_partial_instance := C37_cauchy_partial (1) (2) ltac:(inst) .

(** C37: ... but p = 0 raises ZeroDivisionError in both invcdf and invsf. *)
Theorem C37_cauchy_refuted : forall l s : R, 0 < s -> invcdf (Fin 0) l s = Exc ZeroDivisionError /\ invsf (Fin 0) l s = Exc ZeroDivisionError.
Proof. first [exact P_cauchy.ends0 | intros; apply P_cauchy.ends0; assumption]. Qed.
Print Assumptions C37_cauchy_refuted.
Example C37_cauchy_refuted_instance := C37_cauchy_refuted (1) (2) ltac:(inst) .

(** C38: invalid scale is rejected. *)
Theorem C38_cauchy : forall (l s : val),
  nonpositive s ->
  support l s = Err ValueError /\
  always_ValueError [ fun x => pdf x l s; fun x => logpdf x l s; fun x => cdf x l s; fun x => sf x l s;
    fun p => invcdf p l s; fun p => invsf p l s; fun _ => mean l s; fun _ => mode l s; fun _ => var l s; fun _ => entropy l s ].
Proof. first [exact P_cauchy.bad_params | intros; apply P_cauchy.bad_params; assumption]. Qed.
Print Assumptions C38_cauchy.
Example C38_cauchy_instance := C38_cauchy  (Fin 1) (Fin 0) ltac:(inst).

(** C43: there is no mean and nan is returned. *)
Theorem C43_cauchy_no_mean : forall l s : R, 0 < s -> mean l s = NaN /\ no_mean (fun x => pdf x l s) m_infty p_infty.
Proof. first [exact P_cauchy.no_mean_ok | intros; apply P_cauchy.no_mean_ok; assumption]. Qed.
Print Assumptions C43_cauchy_no_mean.
Example C43_cauchy_no_mean_instance := C43_cauchy_no_mean (1) (2) ltac:(inst) .

(** C43: there is no finite variance and nan is returned. *)
Theorem C43_cauchy_no_var : forall l s : R, 0 < s -> var l s = NaN /\ no_var (fun x => pdf x l s) m_infty p_infty.
Proof. first [exact P_cauchy.no_var_ok | intros; apply P_cauchy.no_var_ok; assumption]. Qed.
Print Assumptions C43_cauchy_no_var.
Example C43_cauchy_no_var_instance := C43_cauchy_no_var (1) (2) ltac:(inst) .

(** C43: entropy. *)
Theorem C43_cauchy_entropy : forall l s : R, 0 < s -> entropy_is (fun x => pdf x l s) m_infty p_infty (entropy l s).
Proof. first [exact P_cauchy.ent_ok | intros; apply P_cauchy.ent_ok; assumption]. Qed.
Print Assumptions C43_cauchy_entropy.
Example C43_cauchy_entropy_instance := C43_cauchy_entropy (1) (2) ltac:(inst) .

(** C44: location and scale. *)
Theorem C44_cauchy : loc_scale_law pdf cdf sf invcdf invsf m_infty p_infty.
Proof. first [exact P_cauchy.loc_scale | intros; apply P_cauchy.loc_scale; assumption]. Qed.
Print Assumptions C44_cauchy.
Example C44_cauchy_instance := C44_cauchy  1 2 ltac:(inst).

