(** Properties of mpsci.distributions.marcumq (generated by tools/mkthm.py). *)
From Coq Require Import Reals Lra List.
From Coquelicot Require Import Coquelicot.
From Verif Require Import Values Spec SpecStat SpecEst VTac TTac DistLib.
From Verif Require Import SpecDisc SpecInt SpecMulti.
From Coq Require Import Lra.
From Coquelicot Require Import Coquelicot.
From Verif Require Import SpecMarcum SFun M_sfun.
From Verif Require Import M_marcumq.
From Verif Require P_marcumq.
Import ListNotations.
Local Open Scope R_scope.

(** C74: a > 0: the two functions are the integral above b and its complement. *)
Theorem C74_marcumq : forall (m a b : R),
  0 < m -> 0 < a -> 0 <= b -> exists q, 0 < q <= 1 /\ marcumq m a b = Fin q /\ cmarcumq m a b = Fin (1 - q) /\
  integrates_to (marcum_integrand m a) b p_infty q.
Proof. first [exact P_marcumq.spec_ok | intros; apply P_marcumq.spec_ok; assumption]. Qed.
Print Assumptions C74_marcumq.
Example C74_marcumq_instance := C74_marcumq  2 1 3 ltac:(inst) ltac:(inst) ltac:(inst).

(** C74: marcumq is 1 at b = 0, 0 at b = inf, and decreasing in b. *)
Theorem C74_marcumq_range : forall (m a : R),
  0 < m -> 0 <= a -> marcumq m a 0 = Fin 1 /\ cmarcumq m a 0 = Fin 0 /\ marcumq m a PInf = Fin 0 /\ cmarcumq m a PInf = Fin 1 /\
  forall b : R, 0 < b -> exists q, 0 < q < 1 /\ marcumq m a b = Fin q /\ cmarcumq m a b = Fin (1 - q) /\
    forall b' : R, b < b' -> exists q', q' < q /\ marcumq m a b' = Fin q'.
Proof. first [exact P_marcumq.range_ok | intros; apply P_marcumq.range_ok; assumption]. Qed.
Print Assumptions C74_marcumq_range.
Example C74_marcumq_range_instance := C74_marcumq_range  2 1 ltac:(inst) ltac:(inst).

(** C74: a = 0: incomplete gamma functions, including the shortcut for m = 1. *)
Theorem C74_marcumq_central : forall (m b : R),
  0 < m -> 0 < b -> exists q, marcumq m 0 b = Fin q /\ vgammainc_upper m (Fin (b ^ 2 / 2)) = Fin q /\ cmarcumq m 0 b = Fin (1 - q) /\ vgammainc_lower m (Fin (b ^ 2 / 2)) = Fin (1 - q).
Proof. first [exact P_marcumq.central_ok | intros; apply P_marcumq.central_ok; assumption]. Qed.
Print Assumptions C74_marcumq_central.
Example C74_marcumq_central_instance := C74_marcumq_central  1 3 ltac:(inst) ltac:(inst).

