(** Properties of mpsci.distributions.rel_breitwigner (generated by tools/mkthm.py). *)
From Coq Require Import Reals Lra List.
From Coquelicot Require Import Coquelicot.
From Verif Require Import Values Spec SpecStat SpecEst VTac TTac DistLib.
From Verif Require Import SpecInv.
From Verif Require Import M_rel_breitwigner.
From Verif Require P_rel_breitwigner.
Import ListNotations.
Local Open Scope R_scope.

Theorem C30_rel_breitwigner : forall rho s : R, 0 < rho -> 0 < s -> 
  complementary (fun x => M_rel_breitwigner.cdf x rho s) (fun x => M_rel_breitwigner.sf x rho s).
Proof. exact (fun rho s H0 H1 => cert_complementary (P_rel_breitwigner.CERT rho s H0 H1)). Qed.
Print Assumptions C30_rel_breitwigner.
Example C30_rel_breitwigner_instance : complementary (fun x => M_rel_breitwigner.cdf x (2) (3)) (fun x => M_rel_breitwigner.sf x (2) (3)).
Proof. exact (C30_rel_breitwigner (2) (3) ltac:(side) ltac:(side)). Qed.

Theorem C31_rel_breitwigner : forall rho s : R, 0 < rho -> 0 < s -> 
  nondecreasing (fun x => M_rel_breitwigner.cdf x rho s) /\ supported_on (fun x => M_rel_breitwigner.cdf x rho s) (Fin (0)) PInf /\
  M_rel_breitwigner.support rho s = Ok ((Fin (0)), PInf).
Proof. intros rho s H0 H1. split; [exact (cert_nondecreasing (P_rel_breitwigner.CERT rho s H0 H1))|split; [exact (cert_supported (P_rel_breitwigner.CERT rho s H0 H1))|unfold M_rel_breitwigner.support, M_rel_breitwigner.validate_rho_scale; supp]]. Qed.
Print Assumptions C31_rel_breitwigner.
Example C31_rel_breitwigner_instance : nondecreasing (fun x => M_rel_breitwigner.cdf x (2) (3)) /\ supported_on (fun x => M_rel_breitwigner.cdf x (2) (3)) (Fin (0)) PInf /\
  M_rel_breitwigner.support (2) (3) = Ok ((Fin (0)), PInf).
Proof. exact (C31_rel_breitwigner (2) (3) ltac:(side) ltac:(side)). Qed.

Theorem C32_rel_breitwigner : forall rho s : R, 0 < rho -> 0 < s -> 
  density_of (fun x => M_rel_breitwigner.cdf x rho s) (fun x => M_rel_breitwigner.pdf x rho s) 0 p_infty.
Proof. exact (fun rho s H0 H1 => cert_density (P_rel_breitwigner.CERT rho s H0 H1)). Qed.
Print Assumptions C32_rel_breitwigner.
Example C32_rel_breitwigner_instance : density_of (fun x => M_rel_breitwigner.cdf x (2) (3)) (fun x => M_rel_breitwigner.pdf x (2) (3)) 0 p_infty.
Proof. exact (C32_rel_breitwigner (2) (3) ltac:(side) ltac:(side)). Qed.

Theorem C33_rel_breitwigner : forall rho s : R, 0 < rho -> 0 < s -> 
  total_mass_one (fun x => M_rel_breitwigner.pdf x rho s) 0 p_infty.
Proof. exact (fun rho s H0 H1 => cert_total_mass (P_rel_breitwigner.CERT rho s H0 H1)). Qed.
Print Assumptions C33_rel_breitwigner.
Example C33_rel_breitwigner_instance : total_mass_one (fun x => M_rel_breitwigner.pdf x (2) (3)) 0 p_infty.
Proof. exact (C33_rel_breitwigner (2) (3) ltac:(side) ltac:(side)). Qed.

Theorem C34_rel_breitwigner : forall rho s : R, 0 < rho -> 0 < s -> 
  forall x : R, log_of (fun x => M_rel_breitwigner.pdf x rho s) (fun x => M_rel_breitwigner.logpdf x rho s) (Fin x).
Proof. exact (fun rho s H0 H1 => P_rel_breitwigner.log_all rho s H0 H1). Qed.
Print Assumptions C34_rel_breitwigner.
Example C34_rel_breitwigner_instance : forall x : R, log_of (fun x => M_rel_breitwigner.pdf x (2) (3)) (fun x => M_rel_breitwigner.logpdf x (2) (3)) (Fin x).
Proof. exact (C34_rel_breitwigner (2) (3) ltac:(side) ltac:(side)). Qed.

Theorem C39_rel_breitwigner : forall rho s : R, 0 < rho -> 0 < s -> 
  is_mode (fun x => M_rel_breitwigner.pdf x rho s) (M_rel_breitwigner.mode rho s).
Proof. exact (fun rho s H0 H1 => P_rel_breitwigner.mode_ok rho s H0 H1). Qed.
Print Assumptions C39_rel_breitwigner.
Example C39_rel_breitwigner_instance : is_mode (fun x => M_rel_breitwigner.pdf x (2) (3)) (M_rel_breitwigner.mode (2) (3)).
Proof. exact (C39_rel_breitwigner (2) (3) ltac:(side) ltac:(side)). Qed.

(** C35: solved numerically; the bracket and the root finder are specified in SpecInv. *)
Theorem C35_rel_breitwigner : forall rho s : R, 0 < rho -> 0 < s -> solves (fun x => cdf x rho s) (fun fr fuel p => invcdf fr fuel p rho s) 0 p_infty.
Proof. first [exact P_rel_breitwigner.invcdf_ok | intros; apply P_rel_breitwigner.invcdf_ok; assumption]. Qed.
Print Assumptions C35_rel_breitwigner.
Example C35_rel_breitwigner_instance := C35_rel_breitwigner (2) (3) ltac:(inst) ltac:(inst) .

(** C36: solved numerically; the bracket and the root finder are specified in SpecInv. *)
Theorem C36_rel_breitwigner : forall rho s : R, 0 < rho -> 0 < s -> solves (fun x => sf x rho s) (fun fr fuel p => invsf fr fuel p rho s) 0 p_infty.
Proof. first [exact P_rel_breitwigner.invsf_ok | intros; apply P_rel_breitwigner.invsf_ok; assumption]. Qed.
Print Assumptions C36_rel_breitwigner.
Example C36_rel_breitwigner_instance := C36_rel_breitwigner (2) (3) ltac:(inst) ltac:(inst) .

(** C37: p outside [0,1] is rejected by both inverses. *)
Theorem C37_rel_breitwigner_partial : forall findroot fuel (p rho s : R),
  p < 0 \/ 1 < p -> invcdf findroot fuel p rho s = Exc ValueError /\ invsf findroot fuel p rho s = Exc ValueError.
Proof. first [exact P_rel_breitwigner.bad_p | intros; apply P_rel_breitwigner.bad_p; assumption]. Qed.
Print Assumptions C37_rel_breitwigner_partial.
Example C37_rel_breitwigner_partial_instance := C37_rel_breitwigner_partial  (fun _ _ => NaN) 100%nat 2 1 1 ltac:(right; lra).

(** C38: a rho or a scale that is not positive is rejected by every function. *)
Theorem C38_rel_breitwigner : forall findroot fuel rho scale,
  isnum rho -> isnum scale -> nonpositive rho \/ nonpositive scale ->
  support rho scale = Err ValueError /\
  always_ValueError [fun x => pdf x rho scale; fun x => logpdf x rho scale; fun x => cdf x rho scale; fun x => sf x rho scale; fun p => invcdf findroot fuel p rho scale;
    fun p => invsf findroot fuel p rho scale; fun _ => mean rho scale; fun _ => var rho scale; fun _ => mode rho scale; fun _ => noncentral_moment 2 rho scale].
Proof. first [exact P_rel_breitwigner.bad_params | intros; apply P_rel_breitwigner.bad_params; assumption]. Qed.
Print Assumptions C38_rel_breitwigner.
Example C38_rel_breitwigner_instance := C38_rel_breitwigner  (fun _ _ => NaN) 100%nat (Fin 1) (Fin 0) ltac:(inst) ltac:(inst) ltac:(right; constructor; lra).

(** C43: mean. *)
Theorem C43_rel_breitwigner_mean : forall rho s : R, 0 < rho -> 0 < s -> mean_is (fun x => pdf x rho s) 0 p_infty (mean rho s).
Proof. first [exact P_rel_breitwigner.mean_ok | intros; apply P_rel_breitwigner.mean_ok; assumption]. Qed.
Print Assumptions C43_rel_breitwigner_mean.
Example C43_rel_breitwigner_mean_instance := C43_rel_breitwigner_mean (2) (3) ltac:(inst) ltac:(inst) .

(** C43: variance. *)
Theorem C43_rel_breitwigner_var : forall rho s : R, 0 < rho -> 0 < s -> var_is (fun x => pdf x rho s) 0 p_infty (mean rho s) (var rho s).
Proof. first [exact P_rel_breitwigner.var_ok | intros; apply P_rel_breitwigner.var_ok; assumption]. Qed.
Print Assumptions C43_rel_breitwigner_var.
Example C43_rel_breitwigner_var_instance := C43_rel_breitwigner_var (2) (3) ltac:(inst) ltac:(inst) .

(** C43: raw moments of order at most 2. *)
Theorem C43_rel_breitwigner_moment : forall rho s : R, 0 < rho -> 0 < s -> forall (n : nat),
  (n <= 2)%nat -> moment_is (fun x => pdf x rho s) 0 p_infty n (noncentral_moment n rho s).
Proof. first [exact P_rel_breitwigner.moment_ok | intros; apply P_rel_breitwigner.moment_ok; assumption]. Qed.
Print Assumptions C43_rel_breitwigner_moment.
Example C43_rel_breitwigner_moment_instance := C43_rel_breitwigner_moment (2) (3) ltac:(inst) ltac:(inst) 2%nat ltac:(auto).

(** C43: moments of order 3 and more are returned as inf; they do not exist. *)
Theorem C43_rel_breitwigner_infinite : forall rho s : R, 0 < rho -> 0 < s -> forall (n : nat),
  (3 <= n)%nat -> noncentral_moment n rho s = PInf /\ forall v, ~ integrates_to (fun t => t ^ n * toR (pdf (Fin t) rho s)) 0 p_infty v.
Proof. first [exact P_rel_breitwigner.moment_big | intros; apply P_rel_breitwigner.moment_big; assumption]. Qed.
Print Assumptions C43_rel_breitwigner_infinite.
Example C43_rel_breitwigner_infinite_instance := C43_rel_breitwigner_infinite (2) (3) ltac:(inst) ltac:(inst) 3%nat ltac:(auto).

(** C44: multiplying x and scale by k > 0. *)
Theorem C44_rel_breitwigner : forall rho s,
  0 < rho -> 0 < s -> forall k x : R, 0 < k -> cdf (Fin (k * x)) rho (Fin (k * s)) = cdf x rho s /\ sf (Fin (k * x)) rho (Fin (k * s)) = sf x rho s /\
  exists d, pdf x rho s = Fin d /\ pdf (Fin (k * x)) rho (Fin (k * s)) = Fin (d / k).
Proof. first [exact P_rel_breitwigner.scale_ok | intros; apply P_rel_breitwigner.scale_ok; assumption]. Qed.
Print Assumptions C44_rel_breitwigner.
Example C44_rel_breitwigner_instance := C44_rel_breitwigner  2 3 ltac:(inst) ltac:(inst) 2 1 ltac:(inst).

(** C31: support. *)
Theorem C31_rel_breitwigner_support : forall rho s : R, 0 < rho -> 0 < s -> support rho s = Ok (Fin 0, PInf).
Proof. first [exact P_rel_breitwigner.supp_ok | intros; apply P_rel_breitwigner.supp_ok; assumption]. Qed.
Print Assumptions C31_rel_breitwigner_support.
Example C31_rel_breitwigner_support_instance := C31_rel_breitwigner_support (2) (3) ltac:(inst) ltac:(inst) .

