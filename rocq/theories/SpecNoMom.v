(** Moments that do not exist.  Nothing here mentions the model of mpsci. *)
From Coq Require Import Reals.
From Coquelicot Require Import Coquelicot.
From Verif Require Import Values Spec.
Local Open Scope R_scope.

(** The density has no mean: the improper integral of t pdf(t) does not converge. *)
Definition no_mean (pdf : val -> val) (lo hi : Rbar) : Prop :=
  forall v, ~ integrates_to (fun t => t * toR (pdf (Fin t))) lo hi v.
(** The density has no finite variance: about no point m does (t - m)^2 pdf(t) have an integral. *)
Definition no_var (pdf : val -> val) (lo hi : Rbar) : Prop :=
  forall m v, ~ integrates_to (fun t => (t - m) ^ 2 * toR (pdf (Fin t))) lo hi v.
