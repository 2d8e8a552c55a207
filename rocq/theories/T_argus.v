(** Properties of mpsci.distributions.argus (generated by tools/mkthm.py). *)
From Coq Require Import Reals Lra List.
From Coquelicot Require Import Coquelicot.
From Verif Require Import Values Spec SpecStat SpecEst VTac TTac DistLib.
From Verif Require Import SpecInv.
From Verif Require Import SpecRoot.
From Verif Require RootLib.
From Verif Require Import M_argus.
From Verif Require P_argus.
Import ListNotations.
Local Open Scope R_scope.

Theorem C30_argus : forall c s : R, 0 <= c -> 0 < s -> 
  complementary (fun x => M_argus.cdf x c s) (fun x => M_argus.sf x c s).
Proof. exact (fun c s H0 H1 => cert_complementary (P_argus.CERT c s H0 H1)). Qed.
Print Assumptions C30_argus.
Example C30_argus_instance : complementary (fun x => M_argus.cdf x (2) (3)) (fun x => M_argus.sf x (2) (3)).
Proof. exact (C30_argus (2) (3) ltac:(side) ltac:(side)). Qed.

Theorem C31_argus : forall c s : R, 0 <= c -> 0 < s -> 
  nondecreasing (fun x => M_argus.cdf x c s) /\ supported_on (fun x => M_argus.cdf x c s) (Fin (0)) (Fin (s)) /\
  M_argus.support c s = Ok ((Fin (0)), (Fin (s))).
Proof. intros c s H0 H1. split; [exact (cert_nondecreasing (P_argus.CERT c s H0 H1))|split; [exact (cert_supported (P_argus.CERT c s H0 H1))|unfold M_argus.support, M_argus.validate_params; supp]]. Qed.
Print Assumptions C31_argus.
Example C31_argus_instance : nondecreasing (fun x => M_argus.cdf x (2) (3)) /\ supported_on (fun x => M_argus.cdf x (2) (3)) (Fin (0)) (Fin ((3))) /\
  M_argus.support (2) (3) = Ok ((Fin (0)), (Fin ((3)))).
Proof. exact (C31_argus (2) (3) ltac:(side) ltac:(side)). Qed.

Theorem C32_argus : forall c s : R, 0 <= c -> 0 < s -> 
  density_of (fun x => M_argus.cdf x c s) (fun x => M_argus.pdf x c s) 0 s.
Proof. exact (fun c s H0 H1 => cert_density (P_argus.CERT c s H0 H1)). Qed.
Print Assumptions C32_argus.
Example C32_argus_instance : density_of (fun x => M_argus.cdf x (2) (3)) (fun x => M_argus.pdf x (2) (3)) 0 (3).
Proof. exact (C32_argus (2) (3) ltac:(side) ltac:(side)). Qed.

Theorem C33_argus : forall c s : R, 0 <= c -> 0 < s -> 
  total_mass_one (fun x => M_argus.pdf x c s) 0 s.
Proof. exact (fun c s H0 H1 => cert_total_mass (P_argus.CERT c s H0 H1)). Qed.
Print Assumptions C33_argus.
Example C33_argus_instance : total_mass_one (fun x => M_argus.pdf x (2) (3)) 0 (3).
Proof. exact (C33_argus (2) (3) ltac:(side) ltac:(side)). Qed.

Theorem C34_argus : forall c s : R, 0 <= c -> 0 < s -> 
  forall x : R, log_of (fun x => M_argus.pdf x c s) (fun x => M_argus.logpdf x c s) (Fin x).
Proof. exact (fun c s H0 H1 => P_argus.log_all c s H0 H1). Qed.
Print Assumptions C34_argus.
Example C34_argus_instance : forall x : R, log_of (fun x => M_argus.pdf x (2) (3)) (fun x => M_argus.logpdf x (2) (3)) (Fin x).
Proof. exact (C34_argus (2) (3) ltac:(side) ltac:(side)). Qed.

Theorem C39_argus : forall c s : R, 0 <= c -> 0 < s -> 
  is_mode (fun x => M_argus.pdf x c s) (M_argus.mode c s).
Proof. exact (fun c s H0 H1 => P_argus.mode_ok c s H0 H1). Qed.
Print Assumptions C39_argus.
Example C39_argus_instance : is_mode (fun x => M_argus.pdf x (2) (3)) (M_argus.mode (2) (3)).
Proof. exact (C39_argus (2) (3) ltac:(side) ltac:(side)). Qed.

(** C35: solved numerically; the bracket and the root finder are specified in SpecInv. *)
Theorem C35_argus : forall c s : R, 0 <= c -> 0 < s -> solves (fun x => cdf x c s) (fun findroot fuel p => invcdf findroot fuel p c s) 0 s.
Proof. first [exact P_argus.invcdf_ok | intros; apply P_argus.invcdf_ok; assumption]. Qed.
Print Assumptions C35_argus.
Example C35_argus_instance := C35_argus (2) (3) ltac:(inst) ltac:(inst) .

(** C36: solved numerically; the bracket and the root finder are specified in SpecInv. *)
Theorem C36_argus : forall c s : R, 0 <= c -> 0 < s -> solves (fun x => sf x c s) (fun findroot fuel p => invsf findroot fuel p c s) 0 s.
Proof. first [exact P_argus.invsf_ok | intros; apply P_argus.invsf_ok; assumption]. Qed.
Print Assumptions C36_argus.
Example C36_argus_instance := C36_argus (2) (3) ltac:(inst) ltac:(inst) .

(** C37: p outside [0,1] is rejected; 0 and 1 go to the ends of the support. *)
Theorem C37_argus : forall c s : R, 0 <= c -> 0 < s -> forall findroot fuel,
  bracket_solver findroot -> rejects_bad_p (fun p => invcdf findroot fuel p c s) /\ rejects_bad_p (fun p => invsf findroot fuel p c s) /\
  at_ends (fun p => invcdf findroot fuel p c s) (Fin 0) (Fin s) /\ at_ends (fun p => invsf findroot fuel p c s) (Fin s) (Fin 0).
Proof. first [exact P_argus.ends | intros; apply P_argus.ends; assumption]. Qed.
Print Assumptions C37_argus.
Example C37_argus_instance : exists fr, bracket_solver fr.
Proof. exact (ex_intro _ _ RootLib.ref_root_ok). Qed.

(** C38: a negative chi or a scale that is not positive is rejected by every function. *)
Theorem C38_argus : forall findroot fuel chi scale,
  isnum chi -> isnum scale -> negative chi \/ nonpositive scale ->
  support chi scale = Err ValueError /\
  always_ValueError [fun x => pdf x chi scale; fun x => logpdf x chi scale; fun x => cdf x chi scale; fun x => sf x chi scale; fun p => invcdf findroot fuel p chi scale;
    fun p => invsf findroot fuel p chi scale; fun _ => mean chi scale; fun _ => var chi scale; fun _ => mode chi scale].
Proof. first [exact P_argus.bad_params | intros; apply P_argus.bad_params; assumption]. Qed.
Print Assumptions C38_argus.
Example C38_argus_instance := C38_argus  (fun _ _ => NaN) 100%nat (Fin 1) (Fin 0) ltac:(inst) ltac:(inst) ltac:(right; constructor; lra).

(** C43: mean; besseli is given by its integral. *)
Theorem C43_argus_mean : forall c s : R, 0 <= c -> 0 < s -> mean_is (fun x => pdf x c s) 0 s (mean c s).
Proof. first [exact P_argus.mean_ok | intros; apply P_argus.mean_ok; assumption]. Qed.
Print Assumptions C43_argus_mean.
Example C43_argus_mean_instance := C43_argus_mean (2) (3) ltac:(inst) ltac:(inst) .

(** C43: variance. *)
Theorem C43_argus_var : forall c s : R, 0 <= c -> 0 < s -> var_is (fun x => pdf x c s) 0 s (mean c s) (var c s).
Proof. first [exact P_argus.var_ok | intros; apply P_argus.var_ok; assumption]. Qed.
Print Assumptions C43_argus_var.
Example C43_argus_var_instance := C43_argus_var (2) (3) ltac:(inst) ltac:(inst) .

(** C44: multiplying x and scale by k > 0. *)
Theorem C44_argus : forall c s,
  0 <= c -> 0 < s -> forall k x : R, 0 < k -> cdf (Fin (k * x)) c (Fin (k * s)) = cdf x c s /\ sf (Fin (k * x)) c (Fin (k * s)) = sf x c s /\
  exists d, pdf x c s = Fin d /\ pdf (Fin (k * x)) c (Fin (k * s)) = Fin (d / k).
Proof. first [exact P_argus.scale_ok | intros; apply P_argus.scale_ok; assumption]. Qed.
Print Assumptions C44_argus.
Example C44_argus_instance := C44_argus  2 3 ltac:(inst) ltac:(inst) 2 1 ltac:(inst).

