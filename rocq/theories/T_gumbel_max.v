(** Properties of mpsci.distributions.gumbel_max (generated by tools/mkthm.py). *)
From Coq Require Import Reals Lra List.
From Coquelicot Require Import Coquelicot.
From Verif Require Import Values Spec SpecStat SpecEst VTac TTac DistLib.
From Verif Require SFun EulerLib.
From Verif Require Import SpecEuler.
From Verif Require Import M_gumbel_max.
From Verif Require P_gumbel_max.
Import ListNotations.
Local Open Scope R_scope.

Theorem C30_gumbel_max : forall l s : R, 0 < s -> 
  complementary (fun x => M_gumbel_max.cdf x l s) (fun x => M_gumbel_max.sf x l s).
Proof. exact (fun l s H0 => cert_complementary (P_gumbel_max.CERT l s H0)). Qed.
Print Assumptions C30_gumbel_max.
Example C30_gumbel_max_instance : complementary (fun x => M_gumbel_max.cdf x (1) (2)) (fun x => M_gumbel_max.sf x (1) (2)).
Proof. exact (C30_gumbel_max (1) (2) ltac:(side)). Qed.

Theorem C31_gumbel_max : forall l s : R, 0 < s -> 
  nondecreasing (fun x => M_gumbel_max.cdf x l s) /\ supported_on (fun x => M_gumbel_max.cdf x l s) NInf PInf /\
  M_gumbel_max.support l s = Ok (NInf, PInf).
Proof. intros l s H0. split; [exact (cert_nondecreasing (P_gumbel_max.CERT l s H0))|split; [exact (cert_supported (P_gumbel_max.CERT l s H0))|unfold M_gumbel_max.support; supp]]. Qed.
Print Assumptions C31_gumbel_max.
Example C31_gumbel_max_instance : nondecreasing (fun x => M_gumbel_max.cdf x (1) (2)) /\ supported_on (fun x => M_gumbel_max.cdf x (1) (2)) NInf PInf /\
  M_gumbel_max.support (1) (2) = Ok (NInf, PInf).
Proof. exact (C31_gumbel_max (1) (2) ltac:(side)). Qed.

Theorem C32_gumbel_max : forall l s : R, 0 < s -> 
  density_of (fun x => M_gumbel_max.cdf x l s) (fun x => M_gumbel_max.pdf x l s) m_infty p_infty.
Proof. exact (fun l s H0 => cert_density (P_gumbel_max.CERT l s H0)). Qed.
Print Assumptions C32_gumbel_max.
Example C32_gumbel_max_instance : density_of (fun x => M_gumbel_max.cdf x (1) (2)) (fun x => M_gumbel_max.pdf x (1) (2)) m_infty p_infty.
Proof. exact (C32_gumbel_max (1) (2) ltac:(side)). Qed.

Theorem C33_gumbel_max : forall l s : R, 0 < s -> 
  total_mass_one (fun x => M_gumbel_max.pdf x l s) m_infty p_infty.
Proof. exact (fun l s H0 => cert_total_mass (P_gumbel_max.CERT l s H0)). Qed.
Print Assumptions C33_gumbel_max.
Example C33_gumbel_max_instance : total_mass_one (fun x => M_gumbel_max.pdf x (1) (2)) m_infty p_infty.
Proof. exact (C33_gumbel_max (1) (2) ltac:(side)). Qed.

Theorem C34_gumbel_max : forall l s : R, 0 < s -> 
  forall x : R, log_of (fun x => M_gumbel_max.pdf x l s) (fun x => M_gumbel_max.logpdf x l s) (Fin x).
Proof. exact (fun l s H0 => cert_log_ends (P_gumbel_max.CERT l s H0) (fun x E => ltac:(discriminate E)) (fun x E => ltac:(discriminate E))). Qed.
Print Assumptions C34_gumbel_max.
Example C34_gumbel_max_instance : forall x : R, log_of (fun x => M_gumbel_max.pdf x (1) (2)) (fun x => M_gumbel_max.logpdf x (1) (2)) (Fin x).
Proof. exact (C34_gumbel_max (1) (2) ltac:(side)). Qed.

Theorem C35_gumbel_max : forall l s : R, 0 < s -> 
  inverse_of (fun x => M_gumbel_max.cdf x l s) (fun x => M_gumbel_max.invcdf x l s) m_infty p_infty.
Proof. exact (fun l s H0 => cert_inverse (P_gumbel_max.CERT l s H0)). Qed.
Print Assumptions C35_gumbel_max.
Example C35_gumbel_max_instance : inverse_of (fun x => M_gumbel_max.cdf x (1) (2)) (fun x => M_gumbel_max.invcdf x (1) (2)) m_infty p_infty.
Proof. exact (C35_gumbel_max (1) (2) ltac:(side)). Qed.

Theorem C36_gumbel_max : forall l s : R, 0 < s -> 
  inverse_of (fun x => M_gumbel_max.sf x l s) (fun x => M_gumbel_max.invsf x l s) m_infty p_infty /\
  (forall p, 0 < p < 1 -> M_gumbel_max.invsf (Fin p) l s = M_gumbel_max.invcdf (Fin (1 - p)) l s).
Proof. exact (fun l s H0 => conj (cert_inverse_sf (P_gumbel_max.CERT l s H0)) (cert_invsf_invcdf (P_gumbel_max.CERT l s H0))). Qed.
Print Assumptions C36_gumbel_max.
Example C36_gumbel_max_instance : inverse_of (fun x => M_gumbel_max.sf x (1) (2)) (fun x => M_gumbel_max.invsf x (1) (2)) m_infty p_infty /\
  (forall p, 0 < p < 1 -> M_gumbel_max.invsf (Fin p) (1) (2) = M_gumbel_max.invcdf (Fin (1 - p)) (1) (2)).
Proof. exact (C36_gumbel_max (1) (2) ltac:(side)). Qed.

Theorem C37_gumbel_max : forall l s : R, 0 < s -> 
  rejects_bad_p (fun x => M_gumbel_max.invcdf x l s) /\ rejects_bad_p (fun x => M_gumbel_max.invsf x l s) /\
  at_ends (fun x => M_gumbel_max.invcdf x l s) NInf PInf /\ at_ends (fun x => M_gumbel_max.invsf x l s) PInf NInf.
Proof. exact (fun l s H0 => P_gumbel_max.ends l s H0). Qed.
Print Assumptions C37_gumbel_max.
Example C37_gumbel_max_instance : rejects_bad_p (fun x => M_gumbel_max.invcdf x (1) (2)) /\ rejects_bad_p (fun x => M_gumbel_max.invsf x (1) (2)) /\
  at_ends (fun x => M_gumbel_max.invcdf x (1) (2)) NInf PInf /\ at_ends (fun x => M_gumbel_max.invsf x (1) (2)) PInf NInf.
Proof. exact (C37_gumbel_max (1) (2) ltac:(side)). Qed.

Theorem C39_gumbel_max : forall l s : R, 0 < s -> 
  is_mode (fun x => M_gumbel_max.pdf x l s) (M_gumbel_max.mode l s).
Proof. exact (fun l s H0 => P_gumbel_max.mode_ok l s H0). Qed.
Print Assumptions C39_gumbel_max.
Example C39_gumbel_max_instance : is_mode (fun x => M_gumbel_max.pdf x (1) (2)) (M_gumbel_max.mode (1) (2)).
Proof. exact (C39_gumbel_max (1) (2) ltac:(side)). Qed.

(** C38: a scale that is not positive is rejected by every function. *)
Theorem C38_gumbel_max : forall g l s,
  nonpositive s ->
  support l s = Err ValueError /\
  always_ValueError [ fun x => pdf x l s; fun x => logpdf x l s; fun x => cdf x l s; fun x => sf x l s;
    fun p => invcdf p l s; fun p => invsf p l s; fun _ => mean g l s; fun _ => mode l s; fun _ => var l s;
    fun x => nll [x] l s ].
Proof. first [exact P_gumbel_max.bad_params | intros; apply P_gumbel_max.bad_params; assumption]. Qed.
Print Assumptions C38_gumbel_max.
Example C38_gumbel_max_instance := C38_gumbel_max  (Fin 1) (Fin 0) (Fin (-1)) ltac:(inst).

(** C44: location and scale. *)
Theorem C44_gumbel_max : loc_scale_law pdf cdf sf invcdf invsf m_infty p_infty.
Proof. first [exact P_gumbel_max.loc_scale | intros; apply P_gumbel_max.loc_scale; assumption]. Qed.
Print Assumptions C44_gumbel_max.
Example C44_gumbel_max_instance := C44_gumbel_max  1 2 ltac:(inst).

(** C47: for a given scale the returned location minimises nll over all locations, whatever the root finder does for the other cases. *)
Theorem C47_gumbel_max_loc_partial : forall solve solve_loc xs (s : R),
  xs <> [] -> 0 < s ->
  exists l, mle solve solve_loc (map Fin xs) None (Some (Fin s)) = Ok (Fin l, Fin s) /\
  minimises (fun _ => True) (fun l => nll (map Fin xs) (Fin l) (Fin s)) l.
Proof. first [exact P_gumbel_max.mle_loc_opt | intros; apply P_gumbel_max.mle_loc_opt; assumption]. Qed.
Print Assumptions C47_gumbel_max_loc_partial.
Example C47_gumbel_max_loc_partial_instance := C47_gumbel_max_loc_partial  (fun _ => NaN) (fun _ _ => NaN) [1; 2; 5] 3 ltac:(inst).

(** C48: mom reproduces the sample mean and variance, whatever number is used for the Euler constant. *)
Theorem C48_gumbel_max : forall (g : R) xs,
  ~ constant xs -> exists l s, mom (Fin g) (map Fin xs) = Ok (Fin l, Fin s) /\ 0 < s /\
  reproduces (mean (Fin g) (Fin l) (Fin s)) (var (Fin l) (Fin s)) xs.
Proof. first [exact P_gumbel_max.mom_ok | intros; apply P_gumbel_max.mom_ok; assumption]. Qed.
Print Assumptions C48_gumbel_max.
Example C48_gumbel_max_instance := C48_gumbel_max  (1/2) [1; 2; 5] ltac:(inst).

(** C49: nll is minus the sum of logpdf. *)
Theorem C49_gumbel_max : forall l s : R, 0 < s -> forall xs,
  nll (map Fin xs) l s = vneg (loglik (fun x => logpdf x l s) xs).
Proof. first [exact P_gumbel_max.nll_ok | intros; apply P_gumbel_max.nll_ok; assumption]. Qed.
Print Assumptions C49_gumbel_max.
Example C49_gumbel_max_instance := C49_gumbel_max (1) (2) ltac:(inst) [1; 2; 5].

(** C43: mean; g is the Euler-Mascheroni constant. *)
Theorem C43_gumbel_max_mean : forall l s : R, 0 < s -> forall g,
  euler_constant g -> mean_is (fun x => pdf x l s) m_infty p_infty (mean g l s).
Proof. first [exact P_gumbel_max.mean_ok | intros; apply P_gumbel_max.mean_ok; assumption]. Qed.
Print Assumptions C43_gumbel_max_mean.
Example C43_gumbel_max_mean_instance : exists g, euler_constant g /\ mean_is (fun x => pdf x 1 2) m_infty p_infty (mean g 1 2).
Proof. exists (- SFun.digamma 1). assert (G := EulerLib.euler_digamma). split; auto. apply C43_gumbel_max_mean; auto; lra. Qed.

(** C43: variance; g is the Euler-Mascheroni constant. *)
Theorem C43_gumbel_max_var : forall l s : R, 0 < s -> forall g,
  euler_constant g -> var_is (fun x => pdf x l s) m_infty p_infty (mean g l s) (var l s).
Proof. first [exact P_gumbel_max.var_ok | intros; apply P_gumbel_max.var_ok; assumption]. Qed.
Print Assumptions C43_gumbel_max_var.
Example C43_gumbel_max_var_instance : exists g, euler_constant g /\ var_is (fun x => pdf x 1 2) m_infty p_infty (mean g 1 2) (var 1 2).
Proof. exists (- SFun.digamma 1). assert (G := EulerLib.euler_digamma). split; auto. apply C43_gumbel_max_var; auto; lra. Qed.

