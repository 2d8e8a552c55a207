(** Properties of mpsci.distributions.rice (generated by tools/mkthm.py). *)
From Coq Require Import Reals Lra List.
From Coquelicot Require Import Coquelicot.
From Verif Require Import Values Spec SpecStat SpecEst VTac TTac DistLib.
From Verif Require Import SpecInv.
From Verif Require Import M_rice.
From Verif Require P_rice.
Import ListNotations.
Local Open Scope R_scope.

Theorem C30_rice : forall nu sigma : R, 0 <= nu -> 0 < sigma -> 
  complementary (fun x => M_rice.cdf x nu sigma) (fun x => M_rice.sf x nu sigma).
Proof. exact (fun nu sigma H0 H1 => cert_complementary (P_rice.CERT nu sigma H0 H1)). Qed.
Print Assumptions C30_rice.
Example C30_rice_instance : complementary (fun x => M_rice.cdf x (1) (2)) (fun x => M_rice.sf x (1) (2)).
Proof. exact (C30_rice (1) (2) ltac:(side) ltac:(side)). Qed.

Theorem C31_rice : forall nu sigma : R, 0 <= nu -> 0 < sigma -> 
  nondecreasing (fun x => M_rice.cdf x nu sigma) /\ supported_on (fun x => M_rice.cdf x nu sigma) (Fin (0)) PInf /\
  M_rice.support nu sigma = Ok ((Fin (0)), PInf).
Proof. intros nu sigma H0 H1. split; [exact (cert_nondecreasing (P_rice.CERT nu sigma H0 H1))|split; [exact (cert_supported (P_rice.CERT nu sigma H0 H1))|unfold M_rice.support, M_rice.validate_params; supp]]. Qed.
Print Assumptions C31_rice.
Example C31_rice_instance : nondecreasing (fun x => M_rice.cdf x (1) (2)) /\ supported_on (fun x => M_rice.cdf x (1) (2)) (Fin (0)) PInf /\
  M_rice.support (1) (2) = Ok ((Fin (0)), PInf).
Proof. exact (C31_rice (1) (2) ltac:(side) ltac:(side)). Qed.

Theorem C32_rice : forall nu sigma : R, 0 <= nu -> 0 < sigma -> 
  density_of (fun x => M_rice.cdf x nu sigma) (fun x => M_rice.pdf x nu sigma) 0 p_infty.
Proof. exact (fun nu sigma H0 H1 => cert_density (P_rice.CERT nu sigma H0 H1)). Qed.
Print Assumptions C32_rice.
Example C32_rice_instance : density_of (fun x => M_rice.cdf x (1) (2)) (fun x => M_rice.pdf x (1) (2)) 0 p_infty.
Proof. exact (C32_rice (1) (2) ltac:(side) ltac:(side)). Qed.

Theorem C33_rice : forall nu sigma : R, 0 <= nu -> 0 < sigma -> 
  total_mass_one (fun x => M_rice.pdf x nu sigma) 0 p_infty.
Proof. exact (fun nu sigma H0 H1 => cert_total_mass (P_rice.CERT nu sigma H0 H1)). Qed.
Print Assumptions C33_rice.
Example C33_rice_instance : total_mass_one (fun x => M_rice.pdf x (1) (2)) 0 p_infty.
Proof. exact (C33_rice (1) (2) ltac:(side) ltac:(side)). Qed.

Theorem C34_rice : forall nu sigma : R, 0 <= nu -> 0 < sigma -> 
  forall x : R, Finite (0) <> Finite x -> p_infty <> Finite x -> log_of (fun x => M_rice.pdf x nu sigma) (fun x => M_rice.logpdf x nu sigma) (Fin x).
Proof. exact (fun nu sigma H0 H1 => cert_log (P_rice.CERT nu sigma H0 H1)). Qed.
Print Assumptions C34_rice.
Example C34_rice_instance : forall x : R, Finite (0) <> Finite x -> p_infty <> Finite x -> log_of (fun x => M_rice.pdf x (1) (2)) (fun x => M_rice.logpdf x (1) (2)) (Fin x).
Proof. exact (C34_rice (1) (2) ltac:(side) ltac:(side)). Qed.

(** C34: outside the support both are the logarithm of 0. *)
Theorem C34_rice_zero : forall nu sigma : R, 0 <= nu -> 0 < sigma -> forall (x : R),
  x <= 0 -> log_of (fun x => pdf x nu sigma) (fun x => logpdf x nu sigma) x.
Proof. first [exact P_rice.log_zero | intros; apply P_rice.log_zero; assumption]. Qed.
Print Assumptions C34_rice_zero.
Example C34_rice_zero_instance := C34_rice_zero (1) (2) ltac:(inst) ltac:(inst) (-1) ltac:(inst).

(** C43: raw moments of every order, by the code's 1F1 formula. *)
Theorem C43_rice_moment : forall nu sigma : R, 0 <= nu -> 0 < sigma -> forall n,
  moment_is (fun x => pdf x nu sigma) 0 p_infty n (noncentral_moment n nu sigma).
Proof. first [exact P_rice.moment_ok | intros; apply P_rice.moment_ok; assumption]. Qed.
Print Assumptions C43_rice_moment.
Example C43_rice_moment_instance := C43_rice_moment (1) (2) ltac:(inst) ltac:(inst) 3%nat.

(** C43: mean. *)
Theorem C43_rice_mean : forall nu sigma : R, 0 <= nu -> 0 < sigma -> mean_is (fun x => pdf x nu sigma) 0 p_infty (mean nu sigma).
Proof. first [exact P_rice.mean_ok | intros; apply P_rice.mean_ok; assumption]. Qed.
Print Assumptions C43_rice_mean.
Example C43_rice_mean_instance := C43_rice_mean (1) (2) ltac:(inst) ltac:(inst) .

(** C43: variance. *)
Theorem C43_rice_var : forall nu sigma : R, 0 <= nu -> 0 < sigma -> var_is (fun x => pdf x nu sigma) 0 p_infty (mean nu sigma) (var nu sigma).
Proof. first [exact P_rice.var_ok | intros; apply P_rice.var_ok; assumption]. Qed.
Print Assumptions C43_rice_var.
Example C43_rice_var_instance := C43_rice_var (1) (2) ltac:(inst) ltac:(inst) .

(** C43: the second moment in closed form. *)
Theorem C43_rice_second : forall nu sigma : R, 0 <= nu -> 0 < sigma -> noncentral_moment 2 nu sigma = Fin (2 * sigma ^ 2 + nu ^ 2).
Proof. first [exact P_rice.second_ok | intros; apply P_rice.second_ok; assumption]. Qed.
Print Assumptions C43_rice_second.
Example C43_rice_second_instance := C43_rice_second (1) (2) ltac:(inst) ltac:(inst) .

(** C31: support. *)
Theorem C31_rice_support : forall nu sigma : R, 0 <= nu -> 0 < sigma -> support nu sigma = Ok (Fin 0, PInf).
Proof. first [exact P_rice.supp_ok | intros; apply P_rice.supp_ok; assumption]. Qed.
Print Assumptions C31_rice_support.
Example C31_rice_support_instance := C31_rice_support (1) (2) ltac:(inst) ltac:(inst) .

(** C39: a positive mode returned is a critical point of the density. *)
Theorem C39_rice_partial : forall nu sigma : R, 0 <= nu -> 0 < sigma -> forall fr (x : R),
  checked_solver1 fr -> mode fr nu sigma = Fin x -> 0 < x -> is_derive (fun x => toR (pdf (Fin x) nu sigma)) x 0.
Proof. first [exact P_rice.mode_crit | intros; apply P_rice.mode_crit; assumption]. Qed.
Print Assumptions C39_rice_partial.
Example C39_rice_partial_instance : exists fr, checked_solver1 fr /\ mode fr 0 2 = Fin 2.
Proof. exact P_rice.mode_case. Qed.

(** C39: the function solved by mode has the sign of the derivative of the density. *)
Theorem C39_rice_sign_partial : forall nu sigma : R, 0 <= nu -> 0 < sigma -> forall (x : R),
  0 < x -> exists e d, mode_eq nu sigma x = Fin e /\ pdf x nu sigma = Fin d /\ 0 < d /\
  is_derive (fun x => toR (pdf (Fin x) nu sigma)) x (d * e / (x * sigma ^ 2)).
Proof. first [exact P_rice.mode_sign | intros; apply P_rice.mode_sign; assumption]. Qed.
Print Assumptions C39_rice_sign_partial.
Example C39_rice_sign_partial_instance := C39_rice_sign_partial (1) (2) ltac:(inst) ltac:(inst) 1 ltac:(inst).

(** C38: a negative nu or a sigma that is not positive is rejected by every function. *)
Theorem C38_rice : forall fr nu sigma,
  isnum nu -> isnum sigma -> negative nu \/ nonpositive sigma -> support nu sigma = Err ValueError /\
  always_ValueError [ fun x => pdf x nu sigma; fun x => logpdf x nu sigma; fun x => cdf x nu sigma; fun x => sf x nu sigma;
    fun _ => mean nu sigma; fun _ => mode fr nu sigma; fun _ => var nu sigma; fun _ => noncentral_moment 2 nu sigma ].
Proof. first [exact P_rice.bad_params | intros; apply P_rice.bad_params; assumption]. Qed.
Print Assumptions C38_rice.
Example C38_rice_instance := C38_rice  (fun _ _ => NaN) (Fin 1) (Fin 0) ltac:(inst) ltac:(inst) ltac:(right; constructor; lra).

