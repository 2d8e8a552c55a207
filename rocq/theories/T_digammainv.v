(** Properties of mpsci.fun.digammainv. *)
From Coq Require Import Reals Lra.
From Coquelicot Require Import Coquelicot.
From Verif Require Import Values SpecRoot SpecInv SFun M_digammainv GammaLib4.
From Verif Require P_digammainv.
Local Open Scope R_scope.

(** C71: for every real y there is exactly one x > 0 with digamma(x) = y, and a number returned by
    digammainv(y) is that x, whatever the initial guess and the root finder are, provided that the
    root finder checks its result. *)
Theorem C71_digammainv : forall y : R, exists x, 0 < x /\ digamma x = y /\ (forall x', 0 < x' -> digamma x' = y -> x' = x) /\
  forall euler findroot x', checked_solver findroot -> digammainv euler findroot (Fin y) = Fin x' -> x' = x.
Proof.
  intros y. destruct (P_digammainv.onto y) as [x [X E]]. exists x. split; [exact X|]. split; [exact E|].
  assert (U : forall x', 0 < x' -> digamma x' = y -> x' = x) by (intros x' X' E'; apply digamma_inj; congruence).
  split; [exact U|]. intros euler fr x' CS R. destruct (P_digammainv.digammainv_sound euler fr y x' CS R). apply U; assumption.
Qed.
Print Assumptions C71_digammainv.
Example C71_digammainv_instance := C71_digammainv 2.
