(** Properties of mpsci.distributions.genexpon (generated by tools/mkthm.py). *)
From Coq Require Import Reals Lra List.
From Coquelicot Require Import Coquelicot.
From Verif Require Import Values Spec SpecStat SpecEst VTac TTac DistLib.
From Verif Require Import M_genexpon.
From Verif Require P_genexpon.
Import ListNotations.
Local Open Scope R_scope.

(** C30: at and above loc cdf and sf are complementary ... *)
Theorem C30_genexpon_partial : forall a b c l s : R, 0 < a -> 0 < b -> 0 < c -> 0 < s -> forall x,
  ext_le (Fin l) x -> exists v, 0 <= v <= 1 /\ cdf x a b c l s = Fin v /\ sf x a b c l s = Fin (1 - v).
Proof. first [exact P_genexpon.compl | intros; apply P_genexpon.compl; assumption]. Qed.
Print Assumptions C30_genexpon_partial.
Example C30_genexpon_partial_instance := C30_genexpon_partial (1) (2) (3) (1) (2) ltac:(inst) ltac:(inst) ltac:(inst) ltac:(inst) (Fin 4) ltac:(constructor; lra).

(** C30: ... but below loc cdf, sf, pdf and logpdf raise ValueError instead of returning 0, 1, 0, -inf. *)
Theorem C30_genexpon_refuted : forall a b c l s : R, 0 < a -> 0 < b -> 0 < c -> 0 < s -> forall (x : R),
  x < l -> pdf x a b c l s = Exc ValueError /\ logpdf x a b c l s = Exc ValueError /\ cdf x a b c l s = Exc ValueError /\ sf x a b c l s = Exc ValueError.
Proof. first [exact P_genexpon.below | intros; apply P_genexpon.below; assumption]. Qed.
Print Assumptions C30_genexpon_refuted.
Example C30_genexpon_refuted_instance := C30_genexpon_refuted (1) (2) (3) (1) (2) ltac:(inst) ltac:(inst) ltac:(inst) ltac:(inst) 0 ltac:(inst).

(** C31: at and above loc cdf is non-decreasing; it is 0 at loc and 1 at +inf. *)
Theorem C31_genexpon_partial : forall a b c l s : R, 0 < a -> 0 < b -> 0 < c -> 0 < s -> (forall x y, ext_le (Fin l) x -> ext_le x y -> exists u v, cdf x a b c l s = Fin u /\ cdf y a b c l s = Fin v /\ u <= v) /\
  cdf (Fin l) a b c l s = Fin 0 /\ cdf PInf a b c l s = Fin 1 /\ support a b c l s = Ok (Fin l, PInf).
Proof. first [exact P_genexpon.mono | intros; apply P_genexpon.mono; assumption]. Qed.
Print Assumptions C31_genexpon_partial.
Example C31_genexpon_partial_instance := C31_genexpon_partial (1) (2) (3) (1) (2) ltac:(inst) ltac:(inst) ltac:(inst) ltac:(inst) .

(** C32: pdf is the derivative of cdf. *)
Theorem C32_genexpon : forall a b c l s : R, 0 < a -> 0 < b -> 0 < c -> 0 < s -> forall x, l < x -> exists v, pdf (Fin x) a b c l s = Fin v /\ 0 <= v /\ is_derive (fun t => toR (cdf (Fin t) a b c l s)) x v.
Proof. first [exact P_genexpon.density | intros; apply P_genexpon.density; assumption]. Qed.
Print Assumptions C32_genexpon.
Example C32_genexpon_instance := C32_genexpon (1) (2) (3) (1) (2) ltac:(inst) ltac:(inst) ltac:(inst) ltac:(inst) 2 ltac:(inst).

(** C33: total mass. *)
Theorem C33_genexpon : forall a b c l s : R, 0 < a -> 0 < b -> 0 < c -> 0 < s -> total_mass_one (fun x => pdf x a b c l s) l p_infty.
Proof. first [exact P_genexpon.mass | intros; apply P_genexpon.mass; assumption]. Qed.
Print Assumptions C33_genexpon.
Example C33_genexpon_instance := C33_genexpon (1) (2) (3) (1) (2) ltac:(inst) ltac:(inst) ltac:(inst) ltac:(inst) .

(** C35: invcdf (with Lambert W) inverts cdf. *)
Theorem C35_genexpon : forall a b c l s : R, 0 < a -> 0 < b -> 0 < c -> 0 < s -> inverse_of (fun x => cdf x a b c l s) (fun p => invcdf p a b c l s) l p_infty.
Proof. first [exact P_genexpon.inv_cdf | intros; apply P_genexpon.inv_cdf; assumption]. Qed.
Print Assumptions C35_genexpon.
Example C35_genexpon_instance := C35_genexpon (1) (2) (3) (1) (2) ltac:(inst) ltac:(inst) ltac:(inst) ltac:(inst) .

(** C36: invsf inverts sf. *)
Theorem C36_genexpon : forall a b c l s : R, 0 < a -> 0 < b -> 0 < c -> 0 < s -> inverse_of (fun x => sf x a b c l s) (fun p => invsf p a b c l s) l p_infty /\
  (forall p, 0 < p < 1 -> invsf (Fin p) a b c l s = invcdf (Fin (1 - p)) a b c l s).
Proof. first [exact P_genexpon.inv_sf | intros; apply P_genexpon.inv_sf; assumption]. Qed.
Print Assumptions C36_genexpon.
Example C36_genexpon_instance := C36_genexpon (1) (2) (3) (1) (2) ltac:(inst) ltac:(inst) ltac:(inst) ltac:(inst) .

(** C37: p outside [0,1] is rejected; 0 and 1 go to the ends of the support. *)
Theorem C37_genexpon : forall a b c l s : R, 0 < a -> 0 < b -> 0 < c -> 0 < s -> rejects_bad_p (fun p => invcdf p a b c l s) /\ rejects_bad_p (fun p => invsf p a b c l s) /\
  at_ends (fun p => invcdf p a b c l s) (Fin l) PInf /\ at_ends (fun p => invsf p a b c l s) PInf (Fin l).
Proof. first [exact P_genexpon.ends | intros; apply P_genexpon.ends; assumption]. Qed.
Print Assumptions C37_genexpon.
Example C37_genexpon_instance := C37_genexpon (1) (2) (3) (1) (2) ltac:(inst) ltac:(inst) ltac:(inst) ltac:(inst) .

(** C38: a parameter that must be positive and is not is rejected by every function. *)
Theorem C38_genexpon : forall (a b c l s : val),
  isnum a -> isnum b -> isnum c -> isnum l -> isnum s -> nonpositive a \/ nonpositive b \/ nonpositive c \/ nonpositive s ->
  support a b c l s = Err ValueError /\
  always_ValueError [ fun x => pdf x a b c l s; fun x => logpdf x a b c l s; fun x => cdf x a b c l s; fun x => sf x a b c l s;
    fun p => invcdf p a b c l s; fun p => invsf p a b c l s ].
Proof. first [exact P_genexpon.bad_params | intros; apply P_genexpon.bad_params; assumption]. Qed.
Print Assumptions C38_genexpon.
Example C38_genexpon_instance := C38_genexpon  (Fin 0) (Fin 1) (Fin 1) (Fin 1) (Fin 1) ltac:(inst) ltac:(inst) ltac:(inst) ltac:(inst) ltac:(inst) ltac:(inst).

(** C56: for scale = 1 logpdf is the logarithm of pdf ... *)
Theorem C56_genexpon_partial : forall a b c l s : R, 0 < a -> 0 < b -> 0 < c -> 0 < s -> s = 1 -> forall x : R, l <= x -> log_of (fun x => pdf x a b c l s) (fun x => logpdf x a b c l s) x.
Proof. first [exact P_genexpon.log_unit | intros; apply P_genexpon.log_unit; assumption]. Qed.
Print Assumptions C56_genexpon_partial.
Example C56_genexpon_partial_instance : log_of (fun x => pdf x 1 2 3 0 1) (fun x => logpdf x 1 2 3 0 1) 4.
Proof. apply (C56_genexpon_partial 1 2 3 0 1); lra. Qed.

(** C56: ... for every other scale it is too large by log(scale), at every point. *)
Theorem C56_genexpon_refuted : forall a b c l s : R, 0 < a -> 0 < b -> 0 < c -> 0 < s -> s <> 1 -> forall x : R, l <= x -> exists v, 0 < v /\ pdf x a b c l s = Fin v /\ logpdf x a b c l s = Fin (ln v + ln s) /\ ln s <> 0 /\
  ~ log_of (fun x => pdf x a b c l s) (fun x => logpdf x a b c l s) x.
Proof. first [exact P_genexpon.log_wrong | intros; apply P_genexpon.log_wrong; assumption]. Qed.
Print Assumptions C56_genexpon_refuted.
Example C56_genexpon_refuted_instance := C56_genexpon_refuted (1) (2) (3) (1) (2) ltac:(inst) ltac:(inst) ltac:(inst) ltac:(inst) ltac:(inst) 2 ltac:(inst).

