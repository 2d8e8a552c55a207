(** Properties of mpsci.distributions.folded_normal (generated by tools/mkthm.py). *)
From Coq Require Import Reals Lra List.
From Coquelicot Require Import Coquelicot.
From Verif Require Import Values Spec SpecStat SpecEst VTac TTac DistLib.
From Verif Require Import SpecInv.
From Verif Require M_normal.
From Verif Require Import M_folded_normal.
From Verif Require P_folded_normal.
Import ListNotations.
Local Open Scope R_scope.

Theorem C30_folded_normal : forall u s : R, 0 < s -> 
  complementary (fun x => M_folded_normal.cdf x u s) (fun x => M_folded_normal.sf x u s).
Proof. exact (fun u s H0 => cert_complementary (P_folded_normal.CERT u s H0)). Qed.
Print Assumptions C30_folded_normal.
Example C30_folded_normal_instance : complementary (fun x => M_folded_normal.cdf x (-2) (3)) (fun x => M_folded_normal.sf x (-2) (3)).
Proof. exact (C30_folded_normal (-2) (3) ltac:(side)). Qed.

Theorem C31_folded_normal : forall u s : R, 0 < s -> 
  nondecreasing (fun x => M_folded_normal.cdf x u s) /\ supported_on (fun x => M_folded_normal.cdf x u s) (Fin (0)) PInf /\
  M_folded_normal.support u s = Ok ((Fin (0)), PInf).
Proof. intros u s H0. split; [exact (cert_nondecreasing (P_folded_normal.CERT u s H0))|split; [exact (cert_supported (P_folded_normal.CERT u s H0))|unfold M_folded_normal.support, M_folded_normal.validate_sigma; supp]]. Qed.
Print Assumptions C31_folded_normal.
Example C31_folded_normal_instance : nondecreasing (fun x => M_folded_normal.cdf x (-2) (3)) /\ supported_on (fun x => M_folded_normal.cdf x (-2) (3)) (Fin (0)) PInf /\
  M_folded_normal.support (-2) (3) = Ok ((Fin (0)), PInf).
Proof. exact (C31_folded_normal (-2) (3) ltac:(side)). Qed.

Theorem C32_folded_normal : forall u s : R, 0 < s -> 
  density_of (fun x => M_folded_normal.cdf x u s) (fun x => M_folded_normal.pdf x u s) 0 p_infty.
Proof. exact (fun u s H0 => cert_density (P_folded_normal.CERT u s H0)). Qed.
Print Assumptions C32_folded_normal.
Example C32_folded_normal_instance : density_of (fun x => M_folded_normal.cdf x (-2) (3)) (fun x => M_folded_normal.pdf x (-2) (3)) 0 p_infty.
Proof. exact (C32_folded_normal (-2) (3) ltac:(side)). Qed.

Theorem C33_folded_normal : forall u s : R, 0 < s -> 
  total_mass_one (fun x => M_folded_normal.pdf x u s) 0 p_infty.
Proof. exact (fun u s H0 => cert_total_mass (P_folded_normal.CERT u s H0)). Qed.
Print Assumptions C33_folded_normal.
Example C33_folded_normal_instance : total_mass_one (fun x => M_folded_normal.pdf x (-2) (3)) 0 p_infty.
Proof. exact (C33_folded_normal (-2) (3) ltac:(side)). Qed.

Theorem C34_folded_normal : forall u s : R, 0 < s -> 
  forall x : R, log_of (fun x => M_folded_normal.pdf x u s) (fun x => M_folded_normal.logpdf x u s) (Fin x).
Proof. exact (fun u s H0 => P_folded_normal.log_all u s H0). Qed.
Print Assumptions C34_folded_normal.
Example C34_folded_normal_instance : forall x : R, log_of (fun x => M_folded_normal.pdf x (-2) (3)) (fun x => M_folded_normal.logpdf x (-2) (3)) (Fin x).
Proof. exact (C34_folded_normal (-2) (3) ltac:(side)). Qed.

(** C34: at +inf the density is 0 but logpdf is nan, not -inf. *)
Theorem C34_folded_normal_pinf_refuted : forall u s : R, 0 < s -> pdf PInf u s = Fin 0 /\ logpdf PInf u s = NaN.
Proof. first [exact P_folded_normal.log_inf | intros; apply P_folded_normal.log_inf; assumption]. Qed.
Print Assumptions C34_folded_normal_pinf_refuted.
Example C34_folded_normal_pinf_refuted_instance := C34_folded_normal_pinf_refuted (-2) (3) ltac:(inst) .

(** C38: a nonpositive sigma is rejected. *)
Theorem C38_folded_normal : forall u s fr fuel,
  isnum u -> isnum s -> nonpositive s ->
  always_ValueError [fun x => pdf x u s; fun x => logpdf x u s; fun x => cdf x u s; fun x => sf x u s; fun _ => mean u s; fun _ => mode fr fuel u s; fun _ => var u s] /\ support u s = Err ValueError.
Proof. first [exact P_folded_normal.bad_params | intros; apply P_folded_normal.bad_params; assumption]. Qed.
Print Assumptions C38_folded_normal.
Example C38_folded_normal_instance := C38_folded_normal  (Fin 0) (Fin 0) (fun _ _ => NaN) 100%nat ltac:(inst) ltac:(inst) ltac:(inst).

(** C39: |mu| <= sigma: the mode is 0. *)
Theorem C39_folded_normal : forall u s : R, 0 < s -> forall fr fuel,
  Rabs u <= s -> is_mode (fun x => pdf x u s) (mode fr fuel u s).
Proof. first [exact P_folded_normal.mode_small | intros; apply P_folded_normal.mode_small; assumption]. Qed.
Print Assumptions C39_folded_normal.
Example C39_folded_normal_instance := C39_folded_normal (-2) (3) ltac:(inst) (fun _ _ => NaN) 0%nat (Rabs_le (-2) 3 ltac:(lra)).

(** C39: |mu| > sigma: any positive number returned is the mode, whatever checked root finder is used.  Missing: that the root finder returns, and a positive number. *)
Theorem C39_folded_normal_large_partial : forall u s : R, 0 < s -> forall fr fuel x,
  s < Rabs u -> checked_solver1 fr -> mode fr fuel u s = Fin x -> 0 < x -> is_mode (fun x => pdf x u s) (Fin x).
Proof. first [exact P_folded_normal.mode_large | intros; apply P_folded_normal.mode_large; assumption]. Qed.
Print Assumptions C39_folded_normal_large_partial.
Example C39_folded_normal_large_partial_instance : exists u fr x, checked_solver1 fr /\ 1 < Rabs u /\ 0 < x /\ mode fr 0 (Fin u) (Fin 1) = Fin x.
Proof. exact P_folded_normal.mode_case. Qed.

(** C39: the loop that looks for a starting point ends, at a point where the equation is negative. *)
Theorem C39_folded_normal_start : forall r,
  1 < r -> exists N, forall fuel, (N <= fuel)%nat -> exists y, mode_getstart fuel (Fin r) (Fin r) = Fin y /\ 0 < y /\ y < r * tanh (r * y).
Proof. first [exact P_folded_normal.start_total | intros; apply P_folded_normal.start_total; assumption]. Qed.
Print Assumptions C39_folded_normal_start.
Example C39_folded_normal_start_instance := C39_folded_normal_start  (9/8) ltac:(inst).

(** C43: mean ... *)
Theorem C43_folded_normal_mean : forall u s : R, 0 < s -> mean_is (fun x => pdf x u s) 0 p_infty (mean u s).
Proof. first [exact P_folded_normal.mean_ok | intros; apply P_folded_normal.mean_ok; assumption]. Qed.
Print Assumptions C43_folded_normal_mean.
Example C43_folded_normal_mean_instance := C43_folded_normal_mean (-2) (3) ltac:(inst) .

(** C43: ... and variance. *)
Theorem C43_folded_normal_var : forall u s : R, 0 < s -> var_is (fun x => pdf x u s) 0 p_infty (mean u s) (var u s).
Proof. first [exact P_folded_normal.var_ok | intros; apply P_folded_normal.var_ok; assumption]. Qed.
Print Assumptions C43_folded_normal_var.
Example C43_folded_normal_var_instance := C43_folded_normal_var (-2) (3) ltac:(inst) .

(** C44: multiplying x, mu and sigma by c > 0. *)
Theorem C44_folded_normal : forall u s : R, 0 < s -> forall (c x : R),
  0 < c -> cdf (Fin (c * x)) (Fin (c * u)) (Fin (c * s)) = cdf x u s /\ sf (Fin (c * x)) (Fin (c * u)) (Fin (c * s)) = sf x u s /\
  exists d, pdf x u s = Fin d /\ pdf (Fin (c * x)) (Fin (c * u)) (Fin (c * s)) = Fin (d / c).
Proof. first [exact P_folded_normal.scale_ok | intros; apply P_folded_normal.scale_ok; assumption]. Qed.
Print Assumptions C44_folded_normal.
Example C44_folded_normal_instance := C44_folded_normal (-2) (3) ltac:(inst) 2 1 ltac:(inst).

(** C45: the law of |X| for normal X ... *)
Theorem C45_folded_normal : forall u s : R, 0 < s -> forall (x : R),
  0 <= x -> exists a b, M_normal.cdf x u s = Fin a /\ M_normal.cdf (Fin (- x)) u s = Fin b /\ cdf x u s = Fin (a - b).
Proof. first [exact P_folded_normal.folded | intros; apply P_folded_normal.folded; assumption]. Qed.
Print Assumptions C45_folded_normal.
Example C45_folded_normal_instance := C45_folded_normal (-2) (3) ltac:(inst) 1 ltac:(inst).

(** C45: ... which does not depend on the sign of mu. *)
Theorem C45_folded_normal_sign : forall u s : R, 0 < s -> forall (x : R),
  pdf x (Fin (- u)) s = pdf x u s /\ cdf x (Fin (- u)) s = cdf x u s.
Proof. first [exact P_folded_normal.reflect | intros; apply P_folded_normal.reflect; assumption]. Qed.
Print Assumptions C45_folded_normal_sign.
Example C45_folded_normal_sign_instance := C45_folded_normal_sign (-2) (3) ltac:(inst) 2.

