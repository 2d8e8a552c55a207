(** Properties of mpsci.distributions.benktander2 (generated by tools/mkthm.py). *)
From Coq Require Import Reals Lra List.
From Coquelicot Require Import Coquelicot.
From Verif Require Import Values Spec SpecStat SpecEst VTac TTac DistLib.
From Verif Require Import M_benktander2.
From Verif Require P_benktander2.
Import ListNotations.
Local Open Scope R_scope.

(** C30: cdf and sf are complementary at every argument but +inf ... *)
Theorem C30_benktander2_partial : forall a b : R, 0 < a -> 0 < b -> b <= 1 -> forall x,
  ext x -> x <> PInf \/ b < 1 -> exists c, 0 <= c <= 1 /\ cdf x a b = Fin c /\ sf x a b = Fin (1 - c).
Proof. first [exact P_benktander2.compl | intros; apply P_benktander2.compl; assumption]. Qed.
Print Assumptions C30_benktander2_partial.
Example C30_benktander2_partial_instance := C30_benktander2_partial (2) ((1/2)) ltac:(inst) ltac:(inst) ltac:(inst) (Fin 4) ltac:(constructor) ltac:(left; discriminate).

(** C30: ... where both are nan when b = 1. *)
Theorem C30_benktander2_refuted : forall a b : R, 0 < a -> 0 < b -> b <= 1 -> b = 1 -> cdf PInf a b = NaN /\ sf PInf a b = NaN.
Proof. first [exact P_benktander2.at_inf | intros; apply P_benktander2.at_inf; assumption]. Qed.
Print Assumptions C30_benktander2_refuted.
Example C30_benktander2_refuted_instance : cdf PInf 3 1 = NaN /\ sf PInf 3 1 = NaN.
Proof. apply (C30_benktander2_refuted 3 1); lra. Qed.

(** C31: cdf is non-decreasing at every argument but +inf, 0 up to 1, and tends to 1. *)
Theorem C31_benktander2_partial : forall a b : R, 0 < a -> 0 < b -> b <= 1 -> (forall x y, ext_le x y -> y <> PInf -> exists u v, cdf x a b = Fin u /\ cdf y a b = Fin v /\ u <= v) /\
  (forall x, ext_le x (Fin 1) -> cdf x a b = Fin 0) /\ filterlim (fun t => toR (cdf (Fin t) a b)) (Rbar_locally p_infty) (locally 1) /\ support a b = Ok (Fin 1, PInf).
Proof. first [exact P_benktander2.mono | intros; apply P_benktander2.mono; assumption]. Qed.
Print Assumptions C31_benktander2_partial.
Example C31_benktander2_partial_instance := C31_benktander2_partial (2) ((1/2)) ltac:(inst) ltac:(inst) ltac:(inst) .

(** C32: pdf is the derivative of cdf. *)
Theorem C32_benktander2 : forall a b : R, 0 < a -> 0 < b -> b <= 1 -> density_of (fun x => cdf x a b) (fun x => pdf x a b) 1 p_infty.
Proof. first [exact P_benktander2.density | intros; apply P_benktander2.density; assumption]. Qed.
Print Assumptions C32_benktander2.
Example C32_benktander2_instance := C32_benktander2 (2) ((1/2)) ltac:(inst) ltac:(inst) ltac:(inst) .

(** C33: total mass. *)
Theorem C33_benktander2 : forall a b : R, 0 < a -> 0 < b -> b <= 1 -> total_mass_one (fun x => pdf x a b) 1 p_infty.
Proof. first [exact P_benktander2.mass | intros; apply P_benktander2.mass; assumption]. Qed.
Print Assumptions C33_benktander2.
Example C33_benktander2_instance := C33_benktander2 (2) ((1/2)) ltac:(inst) ltac:(inst) ltac:(inst) .

(** C34: logpdf is the logarithm of pdf. *)
Theorem C34_benktander2 : forall a b : R, 0 < a -> 0 < b -> b <= 1 -> forall (x : R),
  log_of (fun x => pdf x a b) (fun x => logpdf x a b) x.
Proof. first [exact P_benktander2.log_all | intros; apply P_benktander2.log_all; assumption]. Qed.
Print Assumptions C34_benktander2.
Example C34_benktander2_instance := C34_benktander2 (2) ((1/2)) ltac:(inst) ltac:(inst) ltac:(inst) 3.

(** C35: invcdf (closed form with the Lambert W function) inverts cdf. *)
Theorem C35_benktander2 : forall a b : R, 0 < a -> 0 < b -> b <= 1 -> inverse_of (fun x => cdf x a b) (fun p => invcdf p a b) 1 p_infty.
Proof. first [exact P_benktander2.inv_cdf | intros; apply P_benktander2.inv_cdf; assumption]. Qed.
Print Assumptions C35_benktander2.
Example C35_benktander2_instance := C35_benktander2 (2) ((1/2)) ltac:(inst) ltac:(inst) ltac:(inst) .

(** C36: invsf inverts sf. *)
Theorem C36_benktander2 : forall a b : R, 0 < a -> 0 < b -> b <= 1 -> inverse_of (fun x => sf x a b) (fun p => invsf p a b) 1 p_infty.
Proof. first [exact P_benktander2.inv_sf | intros; apply P_benktander2.inv_sf; assumption]. Qed.
Print Assumptions C36_benktander2.
Example C36_benktander2_instance := C36_benktander2 (2) ((1/2)) ltac:(inst) ltac:(inst) ltac:(inst) .

(** C37: p outside [0,1] is rejected and the ends are right, except perhaps for invcdf(1) and invsf(0) ... *)
Theorem C37_benktander2_partial : forall a b : R, 0 < a -> 0 < b -> b <= 1 -> rejects_bad_p (fun p => invcdf p a b) /\ rejects_bad_p (fun p => invsf p a b) /\
  invcdf (Fin 0) a b = Fin 1 /\ invsf (Fin 1) a b = Fin 1 /\
  (b = 1 \/ (forall k : positive, 2 * b / (1 - b) <> IZR (Zpos k)) -> invcdf (Fin 1) a b = PInf /\ invsf (Fin 0) a b = PInf).
Proof. first [exact P_benktander2.ends | intros; apply P_benktander2.ends; assumption]. Qed.
Print Assumptions C37_benktander2_partial.
Example C37_benktander2_partial_instance := C37_benktander2_partial (2) ((1/2)) ltac:(inst) ltac:(inst) ltac:(inst) .

(** C37: ... which raise ZeroDivisionError for b = 1/3, 1/2, 3/5, ... . *)
Theorem C37_benktander2_refuted : forall a b : R, 0 < a -> 0 < b -> b <= 1 -> (exists k : positive, 2 * b / (1 - b) = IZR (Zpos k)) -> b < 1 -> invcdf (Fin 1) a b = Exc ZeroDivisionError /\ invsf (Fin 0) a b = Exc ZeroDivisionError.
Proof. first [exact P_benktander2.ends_hi | intros; apply P_benktander2.ends_hi; assumption]. Qed.
Print Assumptions C37_benktander2_refuted.
Example C37_benktander2_refuted_instance := C37_benktander2_refuted (2) ((1/2)) ltac:(inst) ltac:(inst) ltac:(inst) ltac:(exists 2%positive; simpl; lra) ltac:(inst).

(** C38: invalid parameters are rejected (except by mode) ... *)
Theorem C38_benktander2_partial : forall (a b : val),
  isnum a -> isnum b -> nonpositive a \/ nonpositive b \/ (exists y : R, b = Fin y /\ 1 < y) ->
  support a b = Err ValueError /\
  always_ValueError [ fun x => pdf x a b; fun x => logpdf x a b; fun x => cdf x a b; fun x => sf x a b;
    fun p => invcdf p a b; fun p => invsf p a b; fun _ => mean a b ].
Proof. first [exact P_benktander2.bad_params | intros; apply P_benktander2.bad_params; assumption]. Qed.
Print Assumptions C38_benktander2_partial.
Example C38_benktander2_partial_instance := C38_benktander2_partial  (Fin 1) (Fin 2) ltac:(inst) ltac:(inst) ltac:(right; right; exists 2; split; [auto|lra]).

(** C38: ... which answers 1 whatever the parameters are. *)
Theorem C38_benktander2_refuted : forall (a b : val),
  mode a b = Fin 1.
Proof. first [exact P_benktander2.mode_bad | intros; apply P_benktander2.mode_bad; assumption]. Qed.
Print Assumptions C38_benktander2_refuted.
Example C38_benktander2_refuted_instance := C38_benktander2_refuted  (Fin (-1)) (Fin 5).

(** C39: mode. *)
Theorem C39_benktander2 : forall a b : R, 0 < a -> 0 < b -> b <= 1 -> is_mode (fun x => pdf x a b) (mode a b).
Proof. first [exact P_benktander2.mode_ok | intros; apply P_benktander2.mode_ok; assumption]. Qed.
Print Assumptions C39_benktander2.
Example C39_benktander2_instance := C39_benktander2 (2) ((1/2)) ltac:(inst) ltac:(inst) ltac:(inst) .

(** C43: mean. *)
Theorem C43_benktander2_mean : forall a b : R, 0 < a -> 0 < b -> b <= 1 -> mean_is (fun x => pdf x a b) 1 p_infty (mean a b).
Proof. first [exact P_benktander2.mean_ok | intros; apply P_benktander2.mean_ok; assumption]. Qed.
Print Assumptions C43_benktander2_mean.
Example C43_benktander2_mean_instance := C43_benktander2_mean (2) ((1/2)) ltac:(inst) ltac:(inst) ltac:(inst) .

(** C49: nll is minus the sum of logpdf. *)
Theorem C49_benktander2 : forall a b : R, 0 < a -> 0 < b -> b <= 1 -> forall xs,
  (forall x, In x xs -> 1 <= x) -> nll (map Fin xs) a b = vneg (loglik (fun x => logpdf x a b) xs).
Proof. first [exact P_benktander2.nll_ok | intros; apply P_benktander2.nll_ok; assumption]. Qed.
Print Assumptions C49_benktander2.
Example C49_benktander2_instance := C49_benktander2 (2) ((1/2)) ltac:(inst) ltac:(inst) ltac:(inst) [1; 2; 5] ltac:(inst).

(** C49: data outside the support is rejected. *)
Theorem C49_benktander2_outside : forall a b : R, 0 < a -> 0 < b -> b <= 1 -> forall xs,
  (exists x, In x xs /\ x < 1) -> nll (map Fin xs) a b = Exc ValueError.
Proof. first [exact P_benktander2.nll_bad | intros; apply P_benktander2.nll_bad; assumption]. Qed.
Print Assumptions C49_benktander2_outside.
Example C49_benktander2_outside_instance := C49_benktander2_outside (2) ((1/2)) ltac:(inst) ltac:(inst) ltac:(inst) [1; -2; 5] ltac:(inst).

