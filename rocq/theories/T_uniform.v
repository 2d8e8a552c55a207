(** Properties of mpsci.distributions.uniform (generated by tools/mkthm.py). *)
From Coq Require Import Reals Lra List.
From Coquelicot Require Import Coquelicot.
From Verif Require Import Values Spec SpecStat SpecEst VTac TTac DistLib.
From Verif Require Import M_uniform.
From Verif Require P_uniform.
Import ListNotations.
Local Open Scope R_scope.

Theorem C30_uniform : forall a b : R, a < b -> 
  complementary (fun x => M_uniform.cdf x a b) (fun x => M_uniform.sf x a b).
Proof. exact (fun a b H0 => cert_complementary (P_uniform.CERT a b H0)). Qed.
Print Assumptions C30_uniform.
Example C30_uniform_instance : complementary (fun x => M_uniform.cdf x (1) (3)) (fun x => M_uniform.sf x (1) (3)).
Proof. exact (C30_uniform (1) (3) ltac:(side)). Qed.

Theorem C31_uniform : forall a b : R, a < b -> 
  nondecreasing (fun x => M_uniform.cdf x a b) /\ supported_on (fun x => M_uniform.cdf x a b) (Fin (a)) (Fin (b)) /\
  M_uniform.support a b = Ok ((Fin (a)), (Fin (b))).
Proof. intros a b H0. split; [exact (cert_nondecreasing (P_uniform.CERT a b H0))|split; [exact (cert_supported (P_uniform.CERT a b H0))|unfold M_uniform.support, M_uniform.validate; supp]]. Qed.
Print Assumptions C31_uniform.
Example C31_uniform_instance : nondecreasing (fun x => M_uniform.cdf x (1) (3)) /\ supported_on (fun x => M_uniform.cdf x (1) (3)) (Fin ((1))) (Fin ((3))) /\
  M_uniform.support (1) (3) = Ok ((Fin ((1))), (Fin ((3)))).
Proof. exact (C31_uniform (1) (3) ltac:(side)). Qed.

Theorem C32_uniform : forall a b : R, a < b -> 
  density_of (fun x => M_uniform.cdf x a b) (fun x => M_uniform.pdf x a b) a b.
Proof. exact (fun a b H0 => cert_density (P_uniform.CERT a b H0)). Qed.
Print Assumptions C32_uniform.
Example C32_uniform_instance : density_of (fun x => M_uniform.cdf x (1) (3)) (fun x => M_uniform.pdf x (1) (3)) (1) (3).
Proof. exact (C32_uniform (1) (3) ltac:(side)). Qed.

Theorem C33_uniform : forall a b : R, a < b -> 
  total_mass_one (fun x => M_uniform.pdf x a b) a b.
Proof. exact (fun a b H0 => cert_total_mass (P_uniform.CERT a b H0)). Qed.
Print Assumptions C33_uniform.
Example C33_uniform_instance : total_mass_one (fun x => M_uniform.pdf x (1) (3)) (1) (3).
Proof. exact (C33_uniform (1) (3) ltac:(side)). Qed.

Theorem C34_uniform : forall a b : R, a < b -> 
  forall x : R, log_of (fun x => M_uniform.pdf x a b) (fun x => M_uniform.logpdf x a b) (Fin x).
Proof. exact (fun a b H0 => P_uniform.log_all a b H0). Qed.
Print Assumptions C34_uniform.
Example C34_uniform_instance : forall x : R, log_of (fun x => M_uniform.pdf x (1) (3)) (fun x => M_uniform.logpdf x (1) (3)) (Fin x).
Proof. exact (C34_uniform (1) (3) ltac:(side)). Qed.

Theorem C35_uniform : forall a b : R, a < b -> 
  inverse_of (fun x => M_uniform.cdf x a b) (fun x => M_uniform.invcdf x a b) a b.
Proof. exact (fun a b H0 => cert_inverse (P_uniform.CERT a b H0)). Qed.
Print Assumptions C35_uniform.
Example C35_uniform_instance : inverse_of (fun x => M_uniform.cdf x (1) (3)) (fun x => M_uniform.invcdf x (1) (3)) (1) (3).
Proof. exact (C35_uniform (1) (3) ltac:(side)). Qed.

Theorem C36_uniform : forall a b : R, a < b -> 
  inverse_of (fun x => M_uniform.sf x a b) (fun x => M_uniform.invsf x a b) a b /\
  (forall p, 0 < p < 1 -> M_uniform.invsf (Fin p) a b = M_uniform.invcdf (Fin (1 - p)) a b).
Proof. exact (fun a b H0 => conj (cert_inverse_sf (P_uniform.CERT a b H0)) (cert_invsf_invcdf (P_uniform.CERT a b H0))). Qed.
Print Assumptions C36_uniform.
Example C36_uniform_instance : inverse_of (fun x => M_uniform.sf x (1) (3)) (fun x => M_uniform.invsf x (1) (3)) (1) (3) /\
  (forall p, 0 < p < 1 -> M_uniform.invsf (Fin p) (1) (3) = M_uniform.invcdf (Fin (1 - p)) (1) (3)).
Proof. exact (C36_uniform (1) (3) ltac:(side)). Qed.

Theorem C37_uniform : forall a b : R, a < b -> 
  rejects_bad_p (fun x => M_uniform.invcdf x a b) /\ rejects_bad_p (fun x => M_uniform.invsf x a b) /\
  at_ends (fun x => M_uniform.invcdf x a b) a b /\ at_ends (fun x => M_uniform.invsf x a b) b a.
Proof. exact (fun a b H0 => P_uniform.ends a b H0). Qed.
Print Assumptions C37_uniform.
Example C37_uniform_instance : rejects_bad_p (fun x => M_uniform.invcdf x (1) (3)) /\ rejects_bad_p (fun x => M_uniform.invsf x (1) (3)) /\
  at_ends (fun x => M_uniform.invcdf x (1) (3)) (1) (3) /\ at_ends (fun x => M_uniform.invsf x (1) (3)) (3) (1).
Proof. exact (C37_uniform (1) (3) ltac:(side)). Qed.


(** C43: mean, var, noncentral_moment, median and entropy are the integrals they stand for. *)
Theorem C43_uniform : forall a b : R, a < b ->
  (exists m, M_uniform.mean a b = Fin m /\ is_RInt (fun t => t * toR (M_uniform.pdf t a b)) a b m) /\
  (exists v m, M_uniform.var a b = Fin v /\ M_uniform.mean a b = Fin m /\
     is_RInt (fun t => (t - m)^2 * toR (M_uniform.pdf t a b)) a b v) /\
  (forall n, exists m, M_uniform.noncentral_moment n a b = Fin m /\
     is_RInt (fun t => t ^ n * toR (M_uniform.pdf t a b)) a b m) /\
  (exists m, M_uniform.median a b = Fin m /\ M_uniform.cdf m a b = Fin (1/2)) /\
  (exists h, M_uniform.entropy a b = Fin h /\
     is_RInt (fun t => - (toR (M_uniform.pdf t a b) * ln (toR (M_uniform.pdf t a b)))) a b h).
Proof.
  exact (fun a b H => conj (P_uniform.mean_ok a b H) (conj (P_uniform.var_ok a b H) (conj (P_uniform.moment_ok a b H)
           (conj (P_uniform.median_ok a b H) (P_uniform.entropy_ok a b H))))).
Qed.
Print Assumptions C43_uniform.
Example C43_uniform_instance : (-1) < 3. Proof. lra. Qed.

(** C38: b <= a is rejected by every function, whatever the other argument. *)
Theorem C38_uniform : forall a b : val, isnum a -> isnum b -> ext_le b a ->
  M_uniform.support a b = Err ValueError /\
  always_ValueError [ fun x => M_uniform.pdf x a b; fun x => M_uniform.logpdf x a b; fun x => M_uniform.cdf x a b;
    fun x => M_uniform.sf x a b; fun p => M_uniform.invcdf p a b; fun p => M_uniform.invsf p a b;
    fun _ => M_uniform.mean a b; fun _ => M_uniform.median a b; fun _ => M_uniform.var a b; fun _ => M_uniform.entropy a b ].
Proof. exact P_uniform.bad_params. Qed.
Print Assumptions C38_uniform.
Example C38_uniform_instance : isnum 2 /\ isnum 1 /\ ext_le (Fin 1) (Fin 2).
Proof. repeat constructor; lra. Qed.

