(** Properties of mpsci.distributions.benktander1 (generated by tools/mkthm.py). *)
From Coq Require Import Reals Lra List.
From Coquelicot Require Import Coquelicot.
From Verif Require Import Values Spec SpecStat SpecEst VTac TTac DistLib.
From Verif Require Import SpecInv.
From Verif Require Import M_benktander1.
From Verif Require P_benktander1.
Import ListNotations.
Local Open Scope R_scope.

(** C30: cdf and sf are complementary at every argument but +inf ... *)
Theorem C30_benktander1_partial : forall a b : R, 0 < a -> 0 < b -> b <= a * (a + 1) / 2 -> forall x,
  ext x -> x <> PInf -> exists c, 0 <= c <= 1 /\ cdf x a b = Fin c /\ sf x a b = Fin (1 - c).
Proof. first [exact P_benktander1.compl | intros; apply P_benktander1.compl; assumption]. Qed.
Print Assumptions C30_benktander1_partial.
Example C30_benktander1_partial_instance := C30_benktander1_partial (2) (1) ltac:(inst) ltac:(inst) ltac:(inst) (Fin 4) ltac:(constructor) ltac:(discriminate).

(** C30: ... where cdf, sf and pdf are nan instead of 1, 0, 0. *)
Theorem C30_benktander1_refuted : forall a b : R, 0 < a -> 0 < b -> b <= a * (a + 1) / 2 -> cdf PInf a b = NaN /\ sf PInf a b = NaN /\ pdf PInf a b = NaN.
Proof. first [exact P_benktander1.at_inf | intros; apply P_benktander1.at_inf; assumption]. Qed.
Print Assumptions C30_benktander1_refuted.
Example C30_benktander1_refuted_instance := C30_benktander1_refuted (2) (1) ltac:(inst) ltac:(inst) ltac:(inst) .

(** C31: cdf is non-decreasing at every argument but +inf, 0 up to 1, and tends to 1. *)
Theorem C31_benktander1_partial : forall a b : R, 0 < a -> 0 < b -> b <= a * (a + 1) / 2 -> (forall x y, ext_le x y -> y <> PInf -> exists u v, cdf x a b = Fin u /\ cdf y a b = Fin v /\ u <= v) /\
  (forall x, ext_le x (Fin 1) -> cdf x a b = Fin 0) /\ filterlim (fun t => toR (cdf (Fin t) a b)) (Rbar_locally p_infty) (locally 1) /\ support a b = Ok (Fin 1, PInf).
Proof. first [exact P_benktander1.mono | intros; apply P_benktander1.mono; assumption]. Qed.
Print Assumptions C31_benktander1_partial.
Example C31_benktander1_partial_instance := C31_benktander1_partial (2) (1) ltac:(inst) ltac:(inst) ltac:(inst) .

(** C32: pdf is the derivative of cdf. *)
Theorem C32_benktander1 : forall a b : R, 0 < a -> 0 < b -> b <= a * (a + 1) / 2 -> density_of (fun x => cdf x a b) (fun x => pdf x a b) 1 p_infty.
Proof. first [exact P_benktander1.density | intros; apply P_benktander1.density; assumption]. Qed.
Print Assumptions C32_benktander1.
Example C32_benktander1_instance := C32_benktander1 (2) (1) ltac:(inst) ltac:(inst) ltac:(inst) .

(** C33: total mass. *)
Theorem C33_benktander1 : forall a b : R, 0 < a -> 0 < b -> b <= a * (a + 1) / 2 -> total_mass_one (fun x => pdf x a b) 1 p_infty.
Proof. first [exact P_benktander1.mass | intros; apply P_benktander1.mass; assumption]. Qed.
Print Assumptions C33_benktander1.
Example C33_benktander1_instance := C33_benktander1 (2) (1) ltac:(inst) ltac:(inst) ltac:(inst) .

(** C34: logpdf is the logarithm of pdf. *)
Theorem C34_benktander1 : forall a b : R, 0 < a -> 0 < b -> b <= a * (a + 1) / 2 -> forall (x : R),
  log_of (fun x => pdf x a b) (fun x => logpdf x a b) x.
Proof. first [exact P_benktander1.log_all | intros; apply P_benktander1.log_all; assumption]. Qed.
Print Assumptions C34_benktander1.
Example C34_benktander1_instance := C34_benktander1 (2) (1) ltac:(inst) ltac:(inst) ltac:(inst) 3.

(** C35: invcdf (bracketed root finding) inverts cdf. *)
Theorem C35_benktander1 : forall a b : R, 0 < a -> 0 < b -> b <= a * (a + 1) / 2 -> inverts (fun x => cdf x a b) (fun fr p => invcdf fr p a b) 1 p_infty.
Proof. first [exact P_benktander1.inv_cdf | intros; apply P_benktander1.inv_cdf; assumption]. Qed.
Print Assumptions C35_benktander1.
Example C35_benktander1_instance := C35_benktander1 (2) (1) ltac:(inst) ltac:(inst) ltac:(inst) .

(** C36: invsf inverts sf. *)
Theorem C36_benktander1 : forall a b : R, 0 < a -> 0 < b -> b <= a * (a + 1) / 2 -> inverts (fun x => sf x a b) (fun fr p => invsf fr p a b) 1 p_infty.
Proof. first [exact P_benktander1.inv_sf | intros; apply P_benktander1.inv_sf; assumption]. Qed.
Print Assumptions C36_benktander1.
Example C36_benktander1_instance := C36_benktander1 (2) (1) ltac:(inst) ltac:(inst) ltac:(inst) .

(** C37: p outside [0,1] is rejected; 0 and 1 go to the ends of the support. *)
Theorem C37_benktander1 : forall a b : R, 0 < a -> 0 < b -> b <= a * (a + 1) / 2 -> forall fr,
  rejects_bad_p (fun p => invcdf fr p a b) /\ rejects_bad_p (fun p => invsf fr p a b) /\
  at_ends (fun p => invcdf fr p a b) (Fin 1) PInf /\ at_ends (fun p => invsf fr p a b) PInf (Fin 1).
Proof. first [exact P_benktander1.ends | intros; apply P_benktander1.ends; assumption]. Qed.
Print Assumptions C37_benktander1.
Example C37_benktander1_instance := C37_benktander1 (2) (1) ltac:(inst) ltac:(inst) ltac:(inst) (fun _ _ => NaN).

(** C38: parameters that are not positive, or b > a(a+1)/2, are rejected. *)
Theorem C38_benktander1 : forall (a b : val),
  isnum a -> isnum b -> nonpositive a \/ nonpositive b \/ (exists x y : R, a = Fin x /\ b = Fin y /\ 0 < x /\ 0 < y /\ x * (x + 1) / 2 < y) ->
  support a b = Err ValueError /\
  always_ValueError [ fun x => pdf x a b; fun x => logpdf x a b; fun x => cdf x a b; fun x => sf x a b;
    fun p => invcdf (fun _ _ => NaN) p a b; fun p => invsf (fun _ _ => NaN) p a b; fun _ => mode a b; fun _ => mean a b; fun _ => var a b ].
Proof. first [exact P_benktander1.bad_params | intros; apply P_benktander1.bad_params; assumption]. Qed.
Print Assumptions C38_benktander1.
Example C38_benktander1_instance := C38_benktander1  (Fin 1) (Fin 2) ltac:(inst) ltac:(inst) ltac:(right; right; exists 1, 2; repeat split; lra).

(** C39: mode. *)
Theorem C39_benktander1 : forall a b : R, 0 < a -> 0 < b -> b <= a * (a + 1) / 2 -> is_mode (fun x => pdf x a b) (mode a b).
Proof. first [exact P_benktander1.mode_ok | intros; apply P_benktander1.mode_ok; assumption]. Qed.
Print Assumptions C39_benktander1.
Example C39_benktander1_instance := C39_benktander1 (2) (1) ltac:(inst) ltac:(inst) ltac:(inst) .

(** C43: mean. *)
Theorem C43_benktander1_mean : forall a b : R, 0 < a -> 0 < b -> b <= a * (a + 1) / 2 -> mean_is (fun x => pdf x a b) 1 p_infty (mean a b).
Proof. first [exact P_benktander1.mean_ok | intros; apply P_benktander1.mean_ok; assumption]. Qed.
Print Assumptions C43_benktander1_mean.
Example C43_benktander1_mean_instance := C43_benktander1_mean (2) (1) ltac:(inst) ltac:(inst) ltac:(inst) .

(** C43: variance. *)
Theorem C43_benktander1_var : forall a b : R, 0 < a -> 0 < b -> b <= a * (a + 1) / 2 -> var_is (fun x => pdf x a b) 1 p_infty (mean a b) (var a b).
Proof. first [exact P_benktander1.var_ok | intros; apply P_benktander1.var_ok; assumption]. Qed.
Print Assumptions C43_benktander1_var.
Example C43_benktander1_var_instance := C43_benktander1_var (2) (1) ltac:(inst) ltac:(inst) ltac:(inst) .

(** C47: the two equations that mle solves are the partial derivatives of the log-likelihood.  Missing: that the stationary point is a maximum. *)
Theorem C47_benktander1_partial : forall a b xs,
  0 < a -> 0 < b -> b < a * (a + 1) / 2 -> (forall x, In x xs -> 1 <= x) ->
  exists u v, mle_eqns (map Fin xs) a b = (Fin u, Fin v) /\
    is_derive (fun t => toR (nll (map Fin xs) (Fin t) (Fin b))) a (- u) /\ is_derive (fun t => toR (nll (map Fin xs) (Fin a) (Fin t))) b (- v).
Proof. first [exact P_benktander1.eqns_ok | intros; apply P_benktander1.eqns_ok; assumption]. Qed.
Print Assumptions C47_benktander1_partial.
Example C47_benktander1_partial_instance := C47_benktander1_partial  2 1 [1; 2; 5] ltac:(inst) ltac:(inst) ltac:(inst) ltac:(inst).

(** C49: nll is minus the sum of logpdf. *)
Theorem C49_benktander1 : forall a b : R, 0 < a -> 0 < b -> b <= a * (a + 1) / 2 -> forall xs,
  (forall x, In x xs -> 1 <= x) -> nll (map Fin xs) a b = vneg (loglik (fun x => logpdf x a b) xs).
Proof. first [exact P_benktander1.nll_ok | intros; apply P_benktander1.nll_ok; assumption]. Qed.
Print Assumptions C49_benktander1.
Example C49_benktander1_instance := C49_benktander1 (2) (1) ltac:(inst) ltac:(inst) ltac:(inst) [1; 2; 5] ltac:(inst).

(** C49: data outside the support is rejected. *)
Theorem C49_benktander1_outside : forall a b : R, 0 < a -> 0 < b -> b <= a * (a + 1) / 2 -> forall xs,
  (exists x, In x xs /\ x < 1) -> nll (map Fin xs) a b = Exc ValueError.
Proof. first [exact P_benktander1.nll_bad | intros; apply P_benktander1.nll_bad; assumption]. Qed.
Print Assumptions C49_benktander1_outside.
Example C49_benktander1_outside_instance := C49_benktander1_outside (2) (1) ltac:(inst) ltac:(inst) ltac:(inst) [1; -2; 5] ltac:(inst).

