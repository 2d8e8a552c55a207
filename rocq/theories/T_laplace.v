(** Properties of mpsci.distributions.laplace (generated by tools/mkthm.py). *)
From Coq Require Import Reals Lra List.
From Coquelicot Require Import Coquelicot.
From Verif Require Import Values Spec SpecStat SpecEst VTac TTac DistLib.
From Verif Require Import M_laplace.
From Verif Require P_laplace.
Import ListNotations.
Local Open Scope R_scope.

Theorem C30_laplace : forall l s : R, 0 < s -> 
  complementary (fun x => M_laplace.cdf x l s) (fun x => M_laplace.sf x l s).
Proof. exact (fun l s H0 => cert_complementary (P_laplace.CERT l s H0)). Qed.
Print Assumptions C30_laplace.
Example C30_laplace_instance : complementary (fun x => M_laplace.cdf x (1) (2)) (fun x => M_laplace.sf x (1) (2)).
Proof. exact (C30_laplace (1) (2) ltac:(side)). Qed.

Theorem C31_laplace : forall l s : R, 0 < s -> 
  nondecreasing (fun x => M_laplace.cdf x l s) /\ supported_on (fun x => M_laplace.cdf x l s) NInf PInf /\
  M_laplace.support l s = Ok (NInf, PInf).
Proof. intros l s H0. split; [exact (cert_nondecreasing (P_laplace.CERT l s H0))|split; [exact (cert_supported (P_laplace.CERT l s H0))|unfold M_laplace.support; supp]]. Qed.
Print Assumptions C31_laplace.
Example C31_laplace_instance : nondecreasing (fun x => M_laplace.cdf x (1) (2)) /\ supported_on (fun x => M_laplace.cdf x (1) (2)) NInf PInf /\
  M_laplace.support (1) (2) = Ok (NInf, PInf).
Proof. exact (C31_laplace (1) (2) ltac:(side)). Qed.

Theorem C32_laplace : forall l s : R, 0 < s -> 
  density_of (fun x => M_laplace.cdf x l s) (fun x => M_laplace.pdf x l s) m_infty p_infty.
Proof. exact (fun l s H0 => cert_density (P_laplace.CERT l s H0)). Qed.
Print Assumptions C32_laplace.
Example C32_laplace_instance : density_of (fun x => M_laplace.cdf x (1) (2)) (fun x => M_laplace.pdf x (1) (2)) m_infty p_infty.
Proof. exact (C32_laplace (1) (2) ltac:(side)). Qed.

Theorem C33_laplace : forall l s : R, 0 < s -> 
  total_mass_one (fun x => M_laplace.pdf x l s) m_infty p_infty.
Proof. exact (fun l s H0 => cert_total_mass (P_laplace.CERT l s H0)). Qed.
Print Assumptions C33_laplace.
Example C33_laplace_instance : total_mass_one (fun x => M_laplace.pdf x (1) (2)) m_infty p_infty.
Proof. exact (C33_laplace (1) (2) ltac:(side)). Qed.

Theorem C34_laplace : forall l s : R, 0 < s -> 
  forall x : R, log_of (fun x => M_laplace.pdf x l s) (fun x => M_laplace.logpdf x l s) (Fin x).
Proof. exact (fun l s H0 => cert_log_ends (P_laplace.CERT l s H0) (fun x E => ltac:(discriminate E)) (fun x E => ltac:(discriminate E))). Qed.
Print Assumptions C34_laplace.
Example C34_laplace_instance : forall x : R, log_of (fun x => M_laplace.pdf x (1) (2)) (fun x => M_laplace.logpdf x (1) (2)) (Fin x).
Proof. exact (C34_laplace (1) (2) ltac:(side)). Qed.

Theorem C35_laplace : forall l s : R, 0 < s -> 
  inverse_of (fun x => M_laplace.cdf x l s) (fun x => M_laplace.invcdf x l s) m_infty p_infty.
Proof. exact (fun l s H0 => cert_inverse (P_laplace.CERT l s H0)). Qed.
Print Assumptions C35_laplace.
Example C35_laplace_instance : inverse_of (fun x => M_laplace.cdf x (1) (2)) (fun x => M_laplace.invcdf x (1) (2)) m_infty p_infty.
Proof. exact (C35_laplace (1) (2) ltac:(side)). Qed.

Theorem C36_laplace : forall l s : R, 0 < s -> 
  inverse_of (fun x => M_laplace.sf x l s) (fun x => M_laplace.invsf x l s) m_infty p_infty /\
  (forall p, 0 < p < 1 -> M_laplace.invsf (Fin p) l s = M_laplace.invcdf (Fin (1 - p)) l s).
Proof. exact (fun l s H0 => conj (cert_inverse_sf (P_laplace.CERT l s H0)) (cert_invsf_invcdf (P_laplace.CERT l s H0))). Qed.
Print Assumptions C36_laplace.
Example C36_laplace_instance : inverse_of (fun x => M_laplace.sf x (1) (2)) (fun x => M_laplace.invsf x (1) (2)) m_infty p_infty /\
  (forall p, 0 < p < 1 -> M_laplace.invsf (Fin p) (1) (2) = M_laplace.invcdf (Fin (1 - p)) (1) (2)).
Proof. exact (C36_laplace (1) (2) ltac:(side)). Qed.

Theorem C39_laplace : forall l s : R, 0 < s -> 
  is_mode (fun x => M_laplace.pdf x l s) (M_laplace.mode l s).
Proof. exact (fun l s H0 => P_laplace.mode_ok l s H0). Qed.
Print Assumptions C39_laplace.
Example C39_laplace_instance : is_mode (fun x => M_laplace.pdf x (1) (2)) (M_laplace.mode (1) (2)).
Proof. exact (C39_laplace (1) (2) ltac:(side)). Qed.

(** C37: the ends of [0,1] go to the ends of the support ... *)
Theorem C37_laplace_partial : forall l s : R, 0 < s -> at_ends (fun p => invcdf p l s) NInf PInf /\ at_ends (fun p => invsf p l s) PInf NInf.
Proof. first [exact P_laplace.ends_ok | intros; apply P_laplace.ends_ok; assumption]. Qed.
Print Assumptions C37_laplace_partial.
Example C37_laplace_partial_instance := C37_laplace_partial (1) (2) ltac:(inst) .

(** C37: ... but p outside [0,1] is not rejected with ValueError: the result is not a real number. *)
Theorem C37_laplace_refuted : forall l s : R, 0 < s -> forall (p : R),
  p < 0 \/ 1 < p -> invcdf p l s = Exc NonReal /\ invsf p l s = Exc NonReal.
Proof. first [exact P_laplace.bad_p | intros; apply P_laplace.bad_p; assumption]. Qed.
Print Assumptions C37_laplace_refuted.
Example C37_laplace_refuted_instance := C37_laplace_refuted (1) (2) ltac:(inst) 2 ltac:(inst).

(** C38: a scale that is not positive is rejected by every function. *)
Theorem C38_laplace : forall l s,
  nonpositive s ->
  support l s = Err ValueError /\
  always_ValueError [ fun x => pdf x l s; fun x => logpdf x l s; fun x => cdf x l s; fun x => sf x l s;
    fun p => invcdf p l s; fun p => invsf p l s; fun x => interval_prob x x l s;
    fun _ => mean l s; fun _ => mode l s; fun _ => var l s ].
Proof. first [exact P_laplace.bad_params | intros; apply P_laplace.bad_params; assumption]. Qed.
Print Assumptions C38_laplace.
Example C38_laplace_instance := C38_laplace  (Fin 1) (Fin 0) ltac:(inst).

(** C44: location and scale. *)
Theorem C44_laplace : loc_scale_law pdf cdf sf invcdf invsf m_infty p_infty.
Proof. first [exact P_laplace.loc_scale | intros; apply P_laplace.loc_scale; assumption]. Qed.
Print Assumptions C44_laplace.
Example C44_laplace_instance := C44_laplace  1 2 ltac:(inst).

(** C46: interval_prob is the difference of the cdf. *)
Theorem C46_laplace : forall l s : R, 0 < s -> forall (x1 x2 : R),
  x1 <= x2 -> exists c1 c2, cdf x1 l s = Fin c1 /\ cdf x2 l s = Fin c2 /\
  interval_prob x1 x2 l s = Fin (c2 - c1).
Proof. first [exact P_laplace.interval | intros; apply P_laplace.interval; assumption]. Qed.
Print Assumptions C46_laplace.
Example C46_laplace_instance := C46_laplace (1) (2) ltac:(inst) 1 2 ltac:(inst).

(** C46: a reversed interval is rejected. *)
Theorem C46_laplace_reversed : forall l s : R, 0 < s -> forall (x1 x2 : R),
  x2 < x1 -> interval_prob x1 x2 l s = Exc ValueError.
Proof. first [exact P_laplace.interval_bad | intros; apply P_laplace.interval_bad; assumption]. Qed.
Print Assumptions C46_laplace_reversed.
Example C46_laplace_reversed_instance := C46_laplace_reversed (1) (2) ltac:(inst) 2 1 ltac:(inst).

(** C47: both parameters free. *)
Theorem C47_laplace_both : forall xs,
  ~ constant xs -> exists l s, mle xs None None = Ok (Fin l, Fin s) /\
  maximises (fun '(l, s) => 0 < s) (fun '(l, s) => loglik (fun x => logpdf x (Fin l) (Fin s)) xs) (l, s).
Proof. first [exact P_laplace.mle_both | intros; apply P_laplace.mle_both; assumption]. Qed.
Print Assumptions C47_laplace_both.
Example C47_laplace_both_instance := C47_laplace_both  [1; 2; 5] ltac:(inst).

(** C47: location given. *)
Theorem C47_laplace_loc_given : forall xs (l : R),
  (exists x, In x xs /\ x <> l) -> exists s, mle xs (Some (Fin l)) None = Ok (Fin l, Fin s) /\
  maximises (fun s => 0 < s) (fun s => loglik (fun x => logpdf x (Fin l) (Fin s)) xs) s.
Proof. first [exact P_laplace.mle_loc | intros; apply P_laplace.mle_loc; assumption]. Qed.
Print Assumptions C47_laplace_loc_given.
Example C47_laplace_loc_given_instance := C47_laplace_loc_given  [1; 2; 5] 3 ltac:(inst).

(** C47: scale given. *)
Theorem C47_laplace_scale_given : forall xs (s : R),
  xs <> [] -> 0 < s -> exists l, mle xs None (Some (Fin s)) = Ok (Fin l, Fin s) /\
  maximises (fun _ => True) (fun l => loglik (fun x => logpdf x (Fin l) (Fin s)) xs) l.
Proof. first [exact P_laplace.mle_scale | intros; apply P_laplace.mle_scale; assumption]. Qed.
Print Assumptions C47_laplace_scale_given.
Example C47_laplace_scale_given_instance := C47_laplace_scale_given  [1; 2; 5] 3 ltac:(inst) ltac:(inst).

(** C47: a given scale that is not positive is rejected. *)
Theorem C47_laplace_bad_scale : forall xs s,
  xs <> [] -> nonpositive s -> mle xs None (Some s) = Err ValueError.
Proof. first [exact P_laplace.mle_bad | intros; apply P_laplace.mle_bad; assumption]. Qed.
Print Assumptions C47_laplace_bad_scale.
Example C47_laplace_bad_scale_instance := C47_laplace_bad_scale  [1; 2; 5] (Fin 0) ltac:(inst) ltac:(inst).

(** C43: mean and var are the integrals they stand for. *)
Theorem C43_laplace : forall (l s : R),
  0 < s -> mean_is (fun x => pdf x l s) m_infty p_infty (mean l s) /\
  var_is (fun x => pdf x l s) m_infty p_infty (mean l s) (var l s).
Proof. first [exact P_laplace.moments | intros; apply P_laplace.moments; assumption]. Qed.
Print Assumptions C43_laplace.
Example C43_laplace_instance := C43_laplace  1 2 ltac:(inst).

(** C48: mom reproduces the sample mean and variance. *)
Theorem C48_laplace : forall xs,
  ~ constant xs -> exists l s, mom (map Fin xs) = Ok (Fin l, Fin s) /\ 0 < s /\
  reproduces (mean (Fin l) (Fin s)) (var (Fin l) (Fin s)) xs.
Proof. first [exact P_laplace.mom_ok | intros; apply P_laplace.mom_ok; assumption]. Qed.
Print Assumptions C48_laplace.
Example C48_laplace_instance := C48_laplace  [1; 2; 5] ltac:(inst).

