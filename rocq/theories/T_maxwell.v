(** Properties of mpsci.distributions.maxwell (generated by tools/mkthm.py). *)
From Coq Require Import Reals Lra List.
From Coquelicot Require Import Coquelicot.
From Verif Require Import Values Spec SpecStat SpecEst VTac TTac DistLib.
From Verif Require Import SpecInv.
From Verif Require Import SpecLS SpecEuler.
From Verif Require M_chi.
From Verif Require Import M_maxwell.
From Verif Require P_maxwell.
Import ListNotations.
Local Open Scope R_scope.

Theorem C30_maxwell : forall l s : R, 0 < s -> 
  complementary (fun x => M_maxwell.cdf x l s) (fun x => M_maxwell.sf x l s).
Proof. exact (fun l s H0 => cert_complementary (P_maxwell.CERT l s H0)). Qed.
Print Assumptions C30_maxwell.
Example C30_maxwell_instance : complementary (fun x => M_maxwell.cdf x (1) (2)) (fun x => M_maxwell.sf x (1) (2)).
Proof. exact (C30_maxwell (1) (2) ltac:(side)). Qed.

Theorem C31_maxwell : forall l s : R, 0 < s -> 
  nondecreasing (fun x => M_maxwell.cdf x l s) /\ supported_on (fun x => M_maxwell.cdf x l s) (Fin (l)) PInf /\
  M_maxwell.support l s = Ok ((Fin (l)), PInf).
Proof. intros l s H0. split; [exact (cert_nondecreasing (P_maxwell.CERT l s H0))|split; [exact (cert_supported (P_maxwell.CERT l s H0))|unfold M_maxwell.support, M_maxwell.validate_params; supp]]. Qed.
Print Assumptions C31_maxwell.
Example C31_maxwell_instance : nondecreasing (fun x => M_maxwell.cdf x (1) (2)) /\ supported_on (fun x => M_maxwell.cdf x (1) (2)) (Fin ((1))) PInf /\
  M_maxwell.support (1) (2) = Ok ((Fin ((1))), PInf).
Proof. exact (C31_maxwell (1) (2) ltac:(side)). Qed.

Theorem C32_maxwell : forall l s : R, 0 < s -> 
  density_of (fun x => M_maxwell.cdf x l s) (fun x => M_maxwell.pdf x l s) l p_infty.
Proof. exact (fun l s H0 => cert_density (P_maxwell.CERT l s H0)). Qed.
Print Assumptions C32_maxwell.
Example C32_maxwell_instance : density_of (fun x => M_maxwell.cdf x (1) (2)) (fun x => M_maxwell.pdf x (1) (2)) (1) p_infty.
Proof. exact (C32_maxwell (1) (2) ltac:(side)). Qed.

Theorem C33_maxwell : forall l s : R, 0 < s -> 
  total_mass_one (fun x => M_maxwell.pdf x l s) l p_infty.
Proof. exact (fun l s H0 => cert_total_mass (P_maxwell.CERT l s H0)). Qed.
Print Assumptions C33_maxwell.
Example C33_maxwell_instance : total_mass_one (fun x => M_maxwell.pdf x (1) (2)) (1) p_infty.
Proof. exact (C33_maxwell (1) (2) ltac:(side)). Qed.

Theorem C34_maxwell : forall l s : R, 0 < s -> 
  forall x : R, log_of (fun x => M_maxwell.pdf x l s) (fun x => M_maxwell.logpdf x l s) (Fin x).
Proof. exact (fun l s H0 => P_maxwell.log_all l s H0). Qed.
Print Assumptions C34_maxwell.
Example C34_maxwell_instance : forall x : R, log_of (fun x => M_maxwell.pdf x (1) (2)) (fun x => M_maxwell.logpdf x (1) (2)) (Fin x).
Proof. exact (C34_maxwell (1) (2) ltac:(side)). Qed.

Theorem C39_maxwell : forall l s : R, 0 < s -> 
  is_mode (fun x => M_maxwell.pdf x l s) (M_maxwell.mode l s).
Proof. exact (fun l s H0 => P_maxwell.mode_ok l s H0). Qed.
Print Assumptions C39_maxwell.
Example C39_maxwell_instance : is_mode (fun x => M_maxwell.pdf x (1) (2)) (M_maxwell.mode (1) (2)).
Proof. exact (C39_maxwell (1) (2) ltac:(side)). Qed.

(** C35: for loc >= 0: solved numerically; the bracket and the root finder are specified in SpecInv. *)
Theorem C35_maxwell : forall l s : R, 0 < s -> forall newton,
  0 <= l -> checked_solver1 newton -> solves (fun x => cdf x l s) (fun secant fuel p => invcdf secant newton fuel p l s) l p_infty.
Proof. first [exact P_maxwell.invcdf_ok | intros; apply P_maxwell.invcdf_ok; assumption]. Qed.
Print Assumptions C35_maxwell.
Example C35_maxwell_instance := C35_maxwell (1) (2) ltac:(inst) (fun _ _ => NaN) ltac:(inst) ltac:(intros f x r; discriminate).

(** C36: for loc >= 0, when the second attempt is not made or fails: solved numerically; the bracket and the root finder are specified in SpecInv. *)
Theorem C36_maxwell_partial : forall l s : R, 0 < s -> forall e,
  0 <= l -> solves (fun x => sf x l s) (fun secant fuel p => invsf secant (fun _ _ => Exc e) fuel p l s) l p_infty.
Proof. first [exact P_maxwell.invsf_ok | intros; apply P_maxwell.invsf_ok; assumption]. Qed.
Print Assumptions C36_maxwell_partial.
Example C36_maxwell_partial_instance := C36_maxwell_partial (1) (2) ltac:(inst) ValueError ltac:(inst).

(** C36: the second attempt solves cdf(x) = p: with it invsf(1/4) returns a number where sf is 3/4. *)
Theorem C36_maxwell_refuted : exists (l : R) secant newton fuel x, checked_solver secant /\ checked_solver1 newton /\
  invsf secant newton fuel (1 / 4)%R l 1 = Fin x /\ sf x l 1 = Fin (3 / 4).
Proof. first [exact P_maxwell.invsf_wrong | intros; apply P_maxwell.invsf_wrong; assumption]. Qed.
Print Assumptions C36_maxwell_refuted.
Example C36_maxwell_refuted_instance := C36_maxwell_refuted  .

(** C37: invalid p is rejected; the values at p = 0 and p = 1 are 0 and +inf whatever loc is. *)
Theorem C37_maxwell_partial : forall l s : R, 0 < s -> forall secant newton fuel,
  rejects_bad_p (fun p => invcdf secant newton fuel p l s) /\ rejects_bad_p (fun p => invsf secant newton fuel p l s) /\
  at_ends (fun p => invcdf secant newton fuel p l s) (Fin 0) PInf /\ at_ends (fun p => invsf secant newton fuel p l s) PInf (Fin 0).
Proof. first [exact P_maxwell.at_ends_ok | intros; apply P_maxwell.at_ends_ok; assumption]. Qed.
Print Assumptions C37_maxwell_partial.
Example C37_maxwell_partial_instance := C37_maxwell_partial (1) (2) ltac:(inst) (fun _ _ => NaN) (fun _ _ => NaN) 100%nat.

(** C38: invalid scale is rejected. *)
Theorem C38_maxwell : forall secant newton fuel euler l s,
  isnum s -> nonpositive s -> support l s = Err ValueError /\
  always_ValueError [ fun x => pdf x l s; fun x => logpdf x l s; fun x => cdf x l s; fun x => sf x l s;
    fun p => invcdf secant newton fuel p l s; fun p => invsf secant newton fuel p l s; 
    fun _ => mean l s; fun _ => mode l s; fun _ => var l s; fun _ => entropy euler l s ].
Proof. first [exact P_maxwell.bad_params | intros; apply P_maxwell.bad_params; assumption]. Qed.
Print Assumptions C38_maxwell.
Example C38_maxwell_instance := C38_maxwell  (fun _ _ => NaN) (fun _ _ => NaN) 100%nat (Fin 1) (Fin 0) (Fin 0) ltac:(inst) ltac:(inst).

(** C43: mean. *)
Theorem C43_maxwell_mean : forall l s : R, 0 < s -> mean_is (fun x => pdf x l s) l p_infty (mean l s).
Proof. first [exact P_maxwell.mean_ok | intros; apply P_maxwell.mean_ok; assumption]. Qed.
Print Assumptions C43_maxwell_mean.
Example C43_maxwell_mean_instance := C43_maxwell_mean (1) (2) ltac:(inst) .

(** C43: variance. *)
Theorem C43_maxwell_var : forall l s : R, 0 < s -> var_is (fun x => pdf x l s) l p_infty (mean l s) (var l s).
Proof. first [exact P_maxwell.var_ok | intros; apply P_maxwell.var_ok; assumption]. Qed.
Print Assumptions C43_maxwell_var.
Example C43_maxwell_var_instance := C43_maxwell_var (1) (2) ltac:(inst) .

(** C43: entropy, with Euler's constant. *)
Theorem C43_maxwell_entropy : forall l s : R, 0 < s -> forall g,
  euler_constant g -> entropy_is (fun x => pdf x l s) l p_infty (entropy (Fin g) l s).
Proof. first [exact P_maxwell.entropy_ok | intros; apply P_maxwell.entropy_ok; assumption]. Qed.
Print Assumptions C43_maxwell_entropy.
Example C43_maxwell_entropy_instance  : exists g, euler_constant g.
Proof. exact (ex_intro _ _ EulerLib.euler_digamma). Qed.

(** C44: location and scale. *)
Theorem C44_maxwell : loc_scale_law3 pdf cdf sf 0 p_infty.
Proof. first [exact P_maxwell.loc_scale | intros; apply P_maxwell.loc_scale; assumption]. Qed.
Print Assumptions C44_maxwell.
Example C44_maxwell_instance := C44_maxwell  1 2 ltac:(inst).

(** C45: the standardised variable is chi with 3 degrees of freedom. *)
Theorem C45_maxwell : forall l s : R, 0 < s -> forall (x : R),
  l <= x -> cdf x l s = M_chi.cdf (Fin ((x - l) / s)) (Fin 3) /\ sf x l s = M_chi.sf (Fin ((x - l) / s)) (Fin 3).
Proof. first [exact P_maxwell.is_chi | intros; apply P_maxwell.is_chi; assumption]. Qed.
Print Assumptions C45_maxwell.
Example C45_maxwell_instance := C45_maxwell (1) (2) ltac:(inst) 2 ltac:(inst).

(** C64: invcdf(0) and invsf(1) are not the lower end of the support unless loc = 0. *)
Theorem C64_maxwell_refuted : forall l s : R, 0 < s -> forall secant newton fuel,
  l <> 0 -> support l s = Ok (Fin l, PInf) /\ invcdf secant newton fuel 0 l s <> Fin l /\ invsf secant newton fuel 1 l s <> Fin l.
Proof. first [exact P_maxwell.ends_wrong | intros; apply P_maxwell.ends_wrong; assumption]. Qed.
Print Assumptions C64_maxwell_refuted.
Example C64_maxwell_refuted_instance := C64_maxwell_refuted (1) (2) ltac:(inst) (fun _ _ => NaN) (fun _ _ => NaN) 100%nat ltac:(inst).

(** C64: whatever loc is, a number returned by invcdf inverts cdf. *)
Theorem C64_maxwell_cdf_partial : forall l s : R, 0 < s -> forall secant newton fuel p x,
  checked_solver secant -> checked_solver1 newton -> 0 < p < 1 -> invcdf secant newton fuel p l s = Fin x -> cdf x l s = Fin p.
Proof. first [exact P_maxwell.invcdf_sound | intros; apply P_maxwell.invcdf_sound; assumption]. Qed.
Print Assumptions C64_maxwell_cdf_partial.
Example C64_maxwell_cdf_partial_instance : exists se ne fuel x, checked_solver se /\ checked_solver1 ne /\ (forall g y e, se g y <> Exc e) /\ invcdf se ne fuel (1 / 4)%R 1 2 = Fin x.
Proof. exact P_maxwell.inv_case. Qed.

(** C64: the same for invsf when the first attempt returns. *)
Theorem C64_maxwell_sf_partial : forall l s : R, 0 < s -> forall secant newton fuel p x,
  checked_solver secant -> (forall g y e, secant g y <> Exc e) -> 0 < p < 1 -> invsf secant newton fuel p l s = Fin x -> sf x l s = Fin p.
Proof. first [exact P_maxwell.invsf_sound | intros; apply P_maxwell.invsf_sound; assumption]. Qed.
Print Assumptions C64_maxwell_sf_partial.
Example C64_maxwell_sf_partial_instance : exists se ne fuel x, checked_solver se /\ checked_solver1 ne /\ (forall g y e, se g y <> Exc e) /\ invcdf se ne fuel (1 / 4)%R 1 2 = Fin x.
Proof. exact P_maxwell.inv_case. Qed.

