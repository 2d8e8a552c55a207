(** C27: the global mpmath precision, for every function of the package. *)
From Coq Require Import List String ZArith Bool Lia.
From Verif Require Import M_prec M_prec_table.
From Verif Require P_prec.
Import ListNotations.
Local Open Scope Z_scope.

(** The skeleton of a function. *)
Definition body_of (f : string) : stmt := match find (fun r => String.eqb (fst r) f) package with Some r => snd r | None => Skip end.
Lemma in_package f : (if find (fun r => String.eqb (fst r) f) package then true else false) = true -> In (f, body_of f) package.
Proof.
  unfold body_of. destruct (find _ package) as [[g b]|] eqn:E; [|discriminate]. intros _. apply find_some in E. destruct E as [I E]. simpl in E. apply String.eqb_eq in E. subst g. exact I.
Qed.

(** C27: after any sequence of calls of package functions (public or not), each ending in any way
    and with any exceptions, branches, loops and callbacks inside, mp.prec and mp.dps are what
    they were. *)
Theorem C27_precision_restored : forall calls s tr s',
  settled s -> session package calls s tr s' -> prec s' = prec s /\ dps s' = dps s.
Proof.
  intros calls s tr s' S H. rewrite (proj1 (P_prec.session_ok package P_prec.package_tidy 4 P_prec.package_lifts calls s tr s' H S)). auto.
Qed.
Print Assumptions C27_precision_restored.

(** C27: and no expression is evaluated at a precision below the caller's, provided the caller has
    at least 15 bits. *)
Theorem C27_precision_never_lower_partial : forall calls s tr s',
  settled s -> 15 <= prec s -> session package calls s tr s' -> forall q, In q tr -> prec s <= q.
Proof.
  intros calls s tr s' S P H. apply Forall_forall.
  exact (proj2 (P_prec.session_ok package P_prec.package_tidy 4 P_prec.package_lifts calls s tr s' H S) (P_prec.dps4 s S P)).
Qed.
Print Assumptions C27_precision_never_lower_partial.

Lemma run_with P m a s t o s' s2 : exec P a (enter m s) t o s' -> leave s = s2 -> exec P (With m a) s t o s2.
Proof. intros H <-. eapply E_with. exact H. Qed.
(** A session: both calls raise or return inside their with-statements, at 53 bits. *)
Example C27_session : exists tr, session package ["mpsci.distributions.logistic.mle"; "mpsci.distributions.gamma.invcdf"]%string (Ctx 53 15) tr (Ctx 53 15).
Proof.
  eexists. eapply S_call with (s1 := Ctx 53 15); [apply in_package; vm_compute; reflexivity| |eapply S_call with (s1 := Ctx 53 15); [apply in_package; vm_compute; reflexivity| |apply S_nil]].
  - vm_compute body_of. eapply run_with; [|vm_compute; reflexivity]. apply E_seq_abrupt. apply E_eval. apply V_end.
  - vm_compute body_of. eapply run_with; [|vm_compute; reflexivity]. eapply E_seq; [apply E_eval; apply V_end|]. apply E_seq_abrupt. apply E_eval. apply V_end.
Qed.
Example C27_precision_restored_instance : exists tr, session package ["mpsci.distributions.logistic.mle"; "mpsci.distributions.gamma.invcdf"]%string (Ctx 53 15) tr (Ctx 53 15) /\ forall q, In q tr -> 53 <= q.
Proof.
  destruct C27_session as [tr H]. exists tr. split; [exact H|].
  eapply (C27_precision_never_lower_partial _ (Ctx 53 15) tr (Ctx 53 15)); [split; vm_compute; congruence|vm_compute; congruence|exact H].
Qed.

(** C27 fails for callers with very low precision: logistic.mle(x) uses extradps(min(5, mp.dps//4)),
    which is extradps(0) when mp.dps < 4 and rounds 8 bits down to 7. *)
Theorem C27_logistic_refuted : exists s tr s', settled s /\ session package ["mpsci.distributions.logistic.mle"%string] s tr s' /\ exists q, In q tr /\ q < prec s.
Proof.
  exists (Ctx 8 1), [7], (Ctx 8 1). split; [split; vm_compute; congruence|]. split.
  - change [7] with ([7] ++ []). eapply S_call with (s1 := Ctx 8 1); [apply in_package; vm_compute; reflexivity| |apply S_nil].
    vm_compute body_of. eapply run_with; [|vm_compute; reflexivity]. apply E_seq_abrupt. apply E_eval. apply (V_end _ _ (Ctx 7 1)).
  - exists 7. simpl. split; [auto|lia].
Qed.
Print Assumptions C27_logistic_refuted.
