(** Properties of mpsci.distributions.hypsecant (generated by tools/mkthm.py). *)
From Coq Require Import Reals Lra List.
From Coquelicot Require Import Coquelicot.
From Verif Require Import Values Spec SpecStat SpecEst VTac TTac DistLib.
From Verif Require Import SpecInv.
From Verif Require Import M_hypsecant.
From Verif Require P_hypsecant.
Import ListNotations.
Local Open Scope R_scope.

Theorem C30_hypsecant : forall l s : R, 0 < s -> 
  complementary (fun x => M_hypsecant.cdf x l s) (fun x => M_hypsecant.sf x l s).
Proof. exact (fun l s H0 => cert_complementary (P_hypsecant.CERT l s H0)). Qed.
Print Assumptions C30_hypsecant.
Example C30_hypsecant_instance : complementary (fun x => M_hypsecant.cdf x (1) (2)) (fun x => M_hypsecant.sf x (1) (2)).
Proof. exact (C30_hypsecant (1) (2) ltac:(side)). Qed.

Theorem C31_hypsecant : forall l s : R, 0 < s -> 
  nondecreasing (fun x => M_hypsecant.cdf x l s) /\ supported_on (fun x => M_hypsecant.cdf x l s) NInf PInf /\
  M_hypsecant.support l s = Ok (NInf, PInf).
Proof. intros l s H0. split; [exact (cert_nondecreasing (P_hypsecant.CERT l s H0))|split; [exact (cert_supported (P_hypsecant.CERT l s H0))|unfold M_hypsecant.support; supp]]. Qed.
Print Assumptions C31_hypsecant.
Example C31_hypsecant_instance : nondecreasing (fun x => M_hypsecant.cdf x (1) (2)) /\ supported_on (fun x => M_hypsecant.cdf x (1) (2)) NInf PInf /\
  M_hypsecant.support (1) (2) = Ok (NInf, PInf).
Proof. exact (C31_hypsecant (1) (2) ltac:(side)). Qed.

Theorem C32_hypsecant : forall l s : R, 0 < s -> 
  density_of (fun x => M_hypsecant.cdf x l s) (fun x => M_hypsecant.pdf x l s) m_infty p_infty.
Proof. exact (fun l s H0 => cert_density (P_hypsecant.CERT l s H0)). Qed.
Print Assumptions C32_hypsecant.
Example C32_hypsecant_instance : density_of (fun x => M_hypsecant.cdf x (1) (2)) (fun x => M_hypsecant.pdf x (1) (2)) m_infty p_infty.
Proof. exact (C32_hypsecant (1) (2) ltac:(side)). Qed.

Theorem C33_hypsecant : forall l s : R, 0 < s -> 
  total_mass_one (fun x => M_hypsecant.pdf x l s) m_infty p_infty.
Proof. exact (fun l s H0 => cert_total_mass (P_hypsecant.CERT l s H0)). Qed.
Print Assumptions C33_hypsecant.
Example C33_hypsecant_instance : total_mass_one (fun x => M_hypsecant.pdf x (1) (2)) m_infty p_infty.
Proof. exact (C33_hypsecant (1) (2) ltac:(side)). Qed.

Theorem C34_hypsecant : forall l s : R, 0 < s -> 
  forall x : R, log_of (fun x => M_hypsecant.pdf x l s) (fun x => M_hypsecant.logpdf x l s) (Fin x).
Proof. exact (fun l s H0 => cert_log_ends (P_hypsecant.CERT l s H0) (fun x E => ltac:(discriminate E)) (fun x E => ltac:(discriminate E))). Qed.
Print Assumptions C34_hypsecant.
Example C34_hypsecant_instance : forall x : R, log_of (fun x => M_hypsecant.pdf x (1) (2)) (fun x => M_hypsecant.logpdf x (1) (2)) (Fin x).
Proof. exact (C34_hypsecant (1) (2) ltac:(side)). Qed.

Theorem C35_hypsecant : forall l s : R, 0 < s -> 
  inverse_of (fun x => M_hypsecant.cdf x l s) (fun x => M_hypsecant.invcdf x l s) m_infty p_infty.
Proof. exact (fun l s H0 => cert_inverse (P_hypsecant.CERT l s H0)). Qed.
Print Assumptions C35_hypsecant.
Example C35_hypsecant_instance : inverse_of (fun x => M_hypsecant.cdf x (1) (2)) (fun x => M_hypsecant.invcdf x (1) (2)) m_infty p_infty.
Proof. exact (C35_hypsecant (1) (2) ltac:(side)). Qed.

Theorem C36_hypsecant : forall l s : R, 0 < s -> 
  inverse_of (fun x => M_hypsecant.sf x l s) (fun x => M_hypsecant.invsf x l s) m_infty p_infty /\
  (forall p, 0 < p < 1 -> M_hypsecant.invsf (Fin p) l s = M_hypsecant.invcdf (Fin (1 - p)) l s).
Proof. exact (fun l s H0 => conj (cert_inverse_sf (P_hypsecant.CERT l s H0)) (cert_invsf_invcdf (P_hypsecant.CERT l s H0))). Qed.
Print Assumptions C36_hypsecant.
Example C36_hypsecant_instance : inverse_of (fun x => M_hypsecant.sf x (1) (2)) (fun x => M_hypsecant.invsf x (1) (2)) m_infty p_infty /\
  (forall p, 0 < p < 1 -> M_hypsecant.invsf (Fin p) (1) (2) = M_hypsecant.invcdf (Fin (1 - p)) (1) (2)).
Proof. exact (C36_hypsecant (1) (2) ltac:(side)). Qed.

Theorem C39_hypsecant : forall l s : R, 0 < s -> 
  is_mode (fun x => M_hypsecant.pdf x l s) (M_hypsecant.mode l s).
Proof. exact (fun l s H0 => P_hypsecant.mode_ok l s H0). Qed.
Print Assumptions C39_hypsecant.
Example C39_hypsecant_instance : is_mode (fun x => M_hypsecant.pdf x (1) (2)) (M_hypsecant.mode (1) (2)).
Proof. exact (C39_hypsecant (1) (2) ltac:(side)). Qed.

(** C37: p outside [0,1] is rejected, p = 0 goes to an end of the support.  Missing: p = 1, where the value depends on the rounding of pi/2. *)
Theorem C37_hypsecant_partial : forall l s : R, 0 < s -> rejects_bad_p (fun p => invcdf p l s) /\ rejects_bad_p (fun p => invsf p l s) /\
  invcdf (Fin 0) l s = NInf /\ invsf (Fin 0) l s = PInf.
Proof. first [exact P_hypsecant.ends0 | intros; apply P_hypsecant.ends0; assumption]. Qed.
Print Assumptions C37_hypsecant_partial.
Example C37_hypsecant_partial_instance := C37_hypsecant_partial (1) (2) ltac:(inst) .

(** C38: invalid scale is rejected. *)
Theorem C38_hypsecant : forall (l s : val) xs,
  nonpositive s ->
  support l s = Err ValueError /\
  always_ValueError [ fun x => pdf x l s; fun x => logpdf x l s; fun x => cdf x l s; fun x => sf x l s;
    fun p => invcdf p l s; fun p => invsf p l s; fun _ => mean l s; fun _ => mode l s; fun _ => var l s; fun _ => entropy l s; fun _ => nll xs l s ].
Proof. first [exact P_hypsecant.bad_params | intros; apply P_hypsecant.bad_params; assumption]. Qed.
Print Assumptions C38_hypsecant.
Example C38_hypsecant_instance := C38_hypsecant  (Fin 1) (Fin 0) [Fin 1] ltac:(inst).

(** C43: mean. *)
Theorem C43_hypsecant_mean : forall l s : R, 0 < s -> mean_is (fun x => pdf x l s) m_infty p_infty (mean l s).
Proof. first [exact P_hypsecant.mean_ok | intros; apply P_hypsecant.mean_ok; assumption]. Qed.
Print Assumptions C43_hypsecant_mean.
Example C43_hypsecant_mean_instance := C43_hypsecant_mean (1) (2) ltac:(inst) .

(** C43: variance. *)
Theorem C43_hypsecant_var : forall l s : R, 0 < s -> var_is (fun x => pdf x l s) m_infty p_infty (mean l s) (var l s).
Proof. first [exact P_hypsecant.var_ok | intros; apply P_hypsecant.var_ok; assumption]. Qed.
Print Assumptions C43_hypsecant_var.
Example C43_hypsecant_var_instance := C43_hypsecant_var (1) (2) ltac:(inst) .

(** C43: entropy. *)
Theorem C43_hypsecant_entropy : forall l s : R, 0 < s -> entropy_is (fun x => pdf x l s) m_infty p_infty (entropy l s).
Proof. first [exact P_hypsecant.ent_ok | intros; apply P_hypsecant.ent_ok; assumption]. Qed.
Print Assumptions C43_hypsecant_entropy.
Example C43_hypsecant_entropy_instance := C43_hypsecant_entropy (1) (2) ltac:(inst) .

(** C44: location and scale. *)
Theorem C44_hypsecant : loc_scale_law pdf cdf sf invcdf invsf m_infty p_infty.
Proof. first [exact P_hypsecant.loc_scale | intros; apply P_hypsecant.loc_scale; assumption]. Qed.
Print Assumptions C44_hypsecant.
Example C44_hypsecant_instance := C44_hypsecant  1 2 ltac:(inst).

(** C47: scale given: a location returned minimises nll over all locations. *)
Theorem C47_hypsecant_loc : forall fr fr2 l0 s0 xs (l s : R),
  checked_solver1 fr -> 0 < s ->
  mle fr fr2 l0 s0 (map Fin xs) None (Some (Fin s)) = Ok (Fin l, Fin s) ->
  minimises (fun _ => True) (fun l => nll (map Fin xs) (Fin l) (Fin s)) l.
Proof. first [exact P_hypsecant.mle_loc | intros; apply P_hypsecant.mle_loc; assumption]. Qed.
Print Assumptions C47_hypsecant_loc.
Example C47_hypsecant_loc_instance : exists fr l, checked_solver1 fr /\ mle fr (fun _ _ => Err ValueError) None None (map Fin [Ropp 1; 1]) None (Some (Fin 2)) = Ok (Fin l, Fin 2).
Proof. exact P_hypsecant.case_loc. Qed.

(** C47: location given: a positive scale returned minimises nll. *)
Theorem C47_hypsecant_scale : forall fr fr2 l0 s0 xs (l s : R),
  checked_solver1 fr -> 0 < s ->
  mle fr fr2 l0 s0 (map Fin xs) (Some (Fin l)) None = Ok (Fin l, Fin s) ->
  minimises (fun s => 0 < s) (fun s => nll (map Fin xs) (Fin l) (Fin s)) s.
Proof. first [exact P_hypsecant.mle_scale | intros; apply P_hypsecant.mle_scale; assumption]. Qed.
Print Assumptions C47_hypsecant_scale.
Example C47_hypsecant_scale_instance : exists fr s, checked_solver1 fr /\ 0 < s /\ mle fr (fun _ _ => Err ValueError) None (Some (Fin 1)) (map Fin [Ropp 1; 1]) (Some (Fin 0)) None = Ok (Fin 0, Fin s).
Proof. exact P_hypsecant.case_scale. Qed.

(** C47: both free: the pair returned minimises nll if its scale is positive. *)
Theorem C47_hypsecant_both : forall fr fr2 l0 s0 xs (l s : R),
  checked_solver2 fr2 -> 0 < s ->
  mle fr fr2 l0 s0 (map Fin xs) None None = Ok (Fin l, Fin s) ->
  minimises (fun p => 0 < snd p) (fun p => nll (map Fin xs) (Fin (fst p)) (Fin (snd p))) (l, s).
Proof. first [exact P_hypsecant.mle_both | intros; apply P_hypsecant.mle_both; assumption]. Qed.
Print Assumptions C47_hypsecant_both.
Example C47_hypsecant_both_instance : exists fr2 l s, checked_solver2 fr2 /\ 0 < s /\ mle (fun _ _ => NaN) fr2 (Some (Fin 0)) (Some (Fin 1)) (map Fin [Ropp 1; 1]) None None = Ok (Fin l, Fin s).
Proof. exact P_hypsecant.case_both. Qed.

(** C47: both given: they are returned. *)
Theorem C47_hypsecant_given : forall fr fr2 l0 s0 xs (l s : R),
  0 < s ->
  mle fr fr2 l0 s0 (map Fin xs) (Some (Fin l)) (Some (Fin s)) = Ok (Fin l, Fin s).
Proof. first [exact P_hypsecant.mle_given | intros; apply P_hypsecant.mle_given; assumption]. Qed.
Print Assumptions C47_hypsecant_given.
Example C47_hypsecant_given_instance := C47_hypsecant_given  (fun _ _ => NaN) (fun _ _ => Err ValueError) None None [1; 2] 1 2 ltac:(inst).

(** C49: nll is minus the sum of logpdf. *)
Theorem C49_hypsecant : forall l s : R, 0 < s -> forall xs,
  nll (map Fin xs) l s = vneg (loglik (fun x => logpdf x l s) xs).
Proof. first [exact P_hypsecant.nll_ok | intros; apply P_hypsecant.nll_ok; assumption]. Qed.
Print Assumptions C49_hypsecant.
Example C49_hypsecant_instance := C49_hypsecant (1) (2) ltac:(inst) [1; 2; 5].

