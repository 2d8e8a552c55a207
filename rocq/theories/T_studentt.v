(** Properties of mpsci.distributions.studentt (generated by tools/mkthm.py). *)
From Coq Require Import Reals Lra List.
From Coquelicot Require Import Coquelicot.
From Verif Require Import Values Spec SpecStat SpecEst VTac TTac DistLib.
From Verif Require Import SpecInv.
From Verif Require Import SpecNoMom SpecRoot M_bracket.
From Verif Require M_f M_cauchy.
From Verif Require Import M_studentt.
From Verif Require P_studentt.
Import ListNotations.
Local Open Scope R_scope.

Theorem C30_studentt : forall n : R, 0 < n -> 
  complementary (fun x => M_studentt.cdf x n) (fun x => M_studentt.sf x n).
Proof. exact (fun n H0 => cert_complementary (P_studentt.CERT n H0)). Qed.
Print Assumptions C30_studentt.
Example C30_studentt_instance : complementary (fun x => M_studentt.cdf x (3)) (fun x => M_studentt.sf x (3)).
Proof. exact (C30_studentt (3) ltac:(side)). Qed.

Theorem C31_studentt : forall n : R, 0 < n -> 
  nondecreasing (fun x => M_studentt.cdf x n) /\ supported_on (fun x => M_studentt.cdf x n) NInf PInf /\
  M_studentt.support n = Ok (NInf, PInf).
Proof. intros n H0. split; [exact (cert_nondecreasing (P_studentt.CERT n H0))|split; [exact (cert_supported (P_studentt.CERT n H0))|unfold M_studentt.support, M_studentt.validate_df; supp]]. Qed.
Print Assumptions C31_studentt.
Example C31_studentt_instance : nondecreasing (fun x => M_studentt.cdf x (3)) /\ supported_on (fun x => M_studentt.cdf x (3)) NInf PInf /\
  M_studentt.support (3) = Ok (NInf, PInf).
Proof. exact (C31_studentt (3) ltac:(side)). Qed.

Theorem C32_studentt : forall n : R, 0 < n -> 
  density_of (fun x => M_studentt.cdf x n) (fun x => M_studentt.pdf x n) m_infty p_infty.
Proof. exact (fun n H0 => cert_density (P_studentt.CERT n H0)). Qed.
Print Assumptions C32_studentt.
Example C32_studentt_instance : density_of (fun x => M_studentt.cdf x (3)) (fun x => M_studentt.pdf x (3)) m_infty p_infty.
Proof. exact (C32_studentt (3) ltac:(side)). Qed.

Theorem C33_studentt : forall n : R, 0 < n -> 
  total_mass_one (fun x => M_studentt.pdf x n) m_infty p_infty.
Proof. exact (fun n H0 => cert_total_mass (P_studentt.CERT n H0)). Qed.
Print Assumptions C33_studentt.
Example C33_studentt_instance : total_mass_one (fun x => M_studentt.pdf x (3)) m_infty p_infty.
Proof. exact (C33_studentt (3) ltac:(side)). Qed.

Theorem C34_studentt : forall n : R, 0 < n -> 
  forall x : R, log_of (fun x => M_studentt.pdf x n) (fun x => M_studentt.logpdf x n) (Fin x).
Proof. exact (fun n H0 => cert_log_ends (P_studentt.CERT n H0) (fun x E => ltac:(discriminate E)) (fun x E => ltac:(discriminate E))). Qed.
Print Assumptions C34_studentt.
Example C34_studentt_instance : forall x : R, log_of (fun x => M_studentt.pdf x (3)) (fun x => M_studentt.logpdf x (3)) (Fin x).
Proof. exact (C34_studentt (3) ltac:(side)). Qed.

Theorem C39_studentt : forall n : R, 0 < n -> 
  is_mode (fun x => M_studentt.pdf x n) (M_studentt.mode n).
Proof. exact (fun n H0 => P_studentt.mode_ok n H0). Qed.
Print Assumptions C39_studentt.
Example C39_studentt_instance : is_mode (fun x => M_studentt.pdf x (3)) (M_studentt.mode (3)).
Proof. exact (C39_studentt (3) ltac:(side)). Qed.

(** C35: for p <= 1/2 the quantile is found ... *)
Theorem C35_studentt_lower_partial : forall n : R, 0 < n -> forall p,
  0 < p <= 1/2 -> exists q N, cdf (Fin q) n = Fin p /\ (forall x, cdf (Fin x) n = Fin p -> x = q) /\
  (forall findroot, checked_solver findroot -> forall fuel x, (N < fuel)%nat -> invcdf findroot fuel p n = Fin x -> x = q) /\
  (forall findroot, bracket_solver findroot -> forall fuel, (N < fuel)%nat -> invcdf findroot fuel p n = Fin q).
Proof. first [exact P_studentt.invcdf_lo | intros; apply P_studentt.invcdf_lo; assumption]. Qed.
Print Assumptions C35_studentt_lower_partial.
Example C35_studentt_lower_partial_instance := C35_studentt_lower_partial (3) ltac:(inst) (1/3) ltac:(inst).

(** C35: ... and for p > 1/2 too, unless the bracket search hits it exactly.  Missing: that case, where the sign is wrong, see C61. *)
Theorem C35_studentt_upper_partial : forall n : R, 0 < n -> forall p,
  1/2 < p < 1 -> exists q N, 0 < q /\ cdf (Fin q) n = Fin p /\ (forall x, cdf (Fin x) n = Fin p -> x = q) /\
  (forall findroot, checked_solver findroot -> forall fuel x, (N < fuel)%nat -> invcdf findroot fuel p n = Fin x -> x = q \/ x = - q) /\
  (forall findroot, bracket_solver findroot -> forall fuel, (N < fuel)%nat ->
     (forall x, find_bracket fuel (fun x => cdf x n) (Fin (1 - p)) NInf PInf None <> Ok (x, x)) -> invcdf findroot fuel p n = Fin q).
Proof. first [exact P_studentt.invcdf_hi | intros; apply P_studentt.invcdf_hi; assumption]. Qed.
Print Assumptions C35_studentt_upper_partial.
Example C35_studentt_upper_partial_instance := C35_studentt_upper_partial (3) ltac:(inst) (2/3) ltac:(inst).

(** C36: the same for invsf. *)
Theorem C36_studentt_lower_partial : forall n : R, 0 < n -> forall p,
  0 < p <= 1/2 -> exists q N, sf (Fin q) n = Fin p /\ (forall x, sf (Fin x) n = Fin p -> x = q) /\
  (forall findroot, checked_solver findroot -> forall fuel x, (N < fuel)%nat -> invsf findroot fuel p n = Fin x -> x = q) /\
  (forall findroot, bracket_solver findroot -> forall fuel, (N < fuel)%nat -> invsf findroot fuel p n = Fin q).
Proof. first [exact P_studentt.invsf_lo | intros; apply P_studentt.invsf_lo; assumption]. Qed.
Print Assumptions C36_studentt_lower_partial.
Example C36_studentt_lower_partial_instance := C36_studentt_lower_partial (3) ltac:(inst) (1/3) ltac:(inst).

(** C36: the same for invsf.  Missing: an exact hit of the bracket search, where the sign is wrong, see C61. *)
Theorem C36_studentt_upper_partial : forall n : R, 0 < n -> forall p,
  1/2 < p < 1 -> exists q N, q < 0 /\ sf (Fin q) n = Fin p /\ (forall x, sf (Fin x) n = Fin p -> x = q) /\
  (forall findroot, checked_solver findroot -> forall fuel x, (N < fuel)%nat -> invsf findroot fuel p n = Fin x -> x = q \/ x = - q) /\
  (forall findroot, bracket_solver findroot -> forall fuel, (N < fuel)%nat ->
     (forall x, find_bracket fuel (fun x => cdf x n) (Fin (1 - p)) NInf PInf None <> Ok (x, x)) -> invsf findroot fuel p n = Fin q).
Proof. first [exact P_studentt.invsf_hi | intros; apply P_studentt.invsf_hi; assumption]. Qed.
Print Assumptions C36_studentt_upper_partial.
Example C36_studentt_upper_partial_instance := C36_studentt_upper_partial (3) ltac:(inst) (2/3) ltac:(inst).

(** C37: p outside [0,1] is rejected; 0 and 1 go to the ends of the support. *)
Theorem C37_studentt : forall n : R, 0 < n -> forall fr fuel,
  rejects_bad_p (fun p => invcdf fr fuel p n) /\ rejects_bad_p (fun p => invsf fr fuel p n) /\
  at_ends (fun p => invcdf fr fuel p n) NInf PInf /\ at_ends (fun p => invsf fr fuel p n) PInf NInf.
Proof. first [exact P_studentt.ends | intros; apply P_studentt.ends; assumption]. Qed.
Print Assumptions C37_studentt.
Example C37_studentt_instance := C37_studentt (3) ltac:(inst) (fun _ _ => NaN) 100%nat.

(** C38: degrees of freedom that are not positive are rejected. *)
Theorem C38_studentt : forall fr fuel a,
  isnum a -> nonpositive a ->
  support a = Err ValueError /\
  always_ValueError [ fun x => pdf x a; fun x => logpdf x a; fun x => cdf x a; fun x => sf x a;
    fun p => invcdf fr fuel p a; fun p => invsf fr fuel p a; fun _ => mean a; fun _ => mode a; fun _ => entropy a ].
Proof. first [exact P_studentt.bad_params | intros; apply P_studentt.bad_params; assumption]. Qed.
Print Assumptions C38_studentt.
Example C38_studentt_instance := C38_studentt  (fun _ _ => NaN) 100%nat (Fin 0) ltac:(inst) ltac:(inst).

(** C43: the mean, when it exists ... *)
Theorem C43_studentt_mean_partial : forall n : R, 0 < n -> 1 < n -> mean_is (fun x => pdf x n) m_infty p_infty (mean n).
Proof. first [exact P_studentt.mean_ok | intros; apply P_studentt.mean_ok; assumption]. Qed.
Print Assumptions C43_studentt_mean_partial.
Example C43_studentt_mean_partial_instance := C43_studentt_mean_partial (3) ltac:(inst) ltac:(inst).

(** C43: ... but 0 is returned also for df <= 1, when there is no mean. *)
Theorem C43_studentt_mean_refuted : forall n : R, 0 < n -> n <= 1 -> mean n = Fin 0 /\ no_mean (fun x => pdf x n) m_infty p_infty.
Proof. first [exact P_studentt.no_mean_ok | intros; apply P_studentt.no_mean_ok; assumption]. Qed.
Print Assumptions C43_studentt_mean_refuted.
Example C43_studentt_mean_refuted_instance : mean 1 = Fin 0 /\ no_mean (fun x => pdf x 1) m_infty p_infty.
Proof. apply (C43_studentt_mean_refuted 1); lra. Qed.

(** C43: entropy. *)
Theorem C43_studentt_entropy : forall n : R, 0 < n -> entropy_is (fun x => pdf x n) m_infty p_infty (entropy n).
Proof. first [exact P_studentt.ent_ok | intros; apply P_studentt.ent_ok; assumption]. Qed.
Print Assumptions C43_studentt_entropy.
Example C43_studentt_entropy_instance := C43_studentt_entropy (3) ltac:(inst) .

(** C45: the law is symmetric about 0 ... *)
Theorem C45_studentt_symmetric : forall n : R, 0 < n -> forall (x : R),
  cdf (Fin (- x)) n = sf x n /\ pdf (Fin (- x)) n = pdf x n.
Proof. first [exact P_studentt.reflect | intros; apply P_studentt.reflect; assumption]. Qed.
Print Assumptions C45_studentt_symmetric.
Example C45_studentt_symmetric_instance := C45_studentt_symmetric (3) ltac:(inst) 2.

(** C45: ... if X is t(df) then X^2 is F(1, df) ... *)
Theorem C45_studentt_f : forall n : R, 0 < n -> forall (x : R),
  0 < x -> M_f.cdf (Fin (x ^ 2)) 1 n = Fin (toR (cdf x n) - toR (cdf (Fin (- x)) n)).
Proof. first [exact P_studentt.square | intros; apply P_studentt.square; assumption]. Qed.
Print Assumptions C45_studentt_f.
Example C45_studentt_f_instance := C45_studentt_f (3) ltac:(inst) 2 ltac:(inst).

(** C45: ... and t(1) is the standard Cauchy distribution. *)
Theorem C45_studentt_cauchy : forall (x : R),
  pdf (Fin x) 1 = M_cauchy.pdf (Fin x) 0 1 /\ cdf (Fin x) 1 = M_cauchy.cdf (Fin x) 0 1 /\ sf (Fin x) 1 = M_cauchy.sf (Fin x) 0 1.
Proof. first [exact P_studentt.cauchy | intros; apply P_studentt.cauchy; assumption]. Qed.
Print Assumptions C45_studentt_cauchy.
Example C45_studentt_cauchy_instance := C45_studentt_cauchy  2.

(** C61: with p = cdf(3/2, df) the bracket search hits -3/2 exactly and invcdf(p, df) is -3/2, whatever the root finder. *)
Theorem C61_studentt_refuted : forall n : R, 0 < n -> let p := toR (cdf (Fin (3/2)) n) in 1/2 < p < 1 /\ cdf (Fin (3/2)) n = Fin p /\
  forall findroot fuel, (2 < fuel)%nat -> invcdf findroot fuel p n = Fin (- (3/2)).
Proof. first [exact P_studentt.invcdf_sign | intros; apply P_studentt.invcdf_sign; assumption]. Qed.
Print Assumptions C61_studentt_refuted.
Example C61_studentt_refuted_instance := C61_studentt_refuted (3) ltac:(inst) .

(** C61: likewise invsf(sf(-3/2, df), df) is 3/2. *)
Theorem C61_studentt_invsf_refuted : forall n : R, 0 < n -> let p := toR (sf (Fin (- (3/2))) n) in 1/2 < p < 1 /\ sf (Fin (- (3/2))) n = Fin p /\
  forall findroot fuel, (2 < fuel)%nat -> invsf findroot fuel p n = Fin (3/2).
Proof. first [exact P_studentt.invsf_sign | intros; apply P_studentt.invsf_sign; assumption]. Qed.
Print Assumptions C61_studentt_invsf_refuted.
Example C61_studentt_invsf_refuted_instance := C61_studentt_invsf_refuted (3) ltac:(inst) .

