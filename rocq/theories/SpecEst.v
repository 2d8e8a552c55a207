(** Specification vocabulary for the estimators.  Independent of the model. *)
From Coq Require Import Reals List.
From Verif Require Import Values SpecStat.
Import ListNotations.
Local Open Scope R_scope.

(** Log-likelihood of data under a density given by its logarithm. *)
Definition loglik (logpdf : val -> val) (xs : list R) : val :=
  vfsum (map (fun t => logpdf (Fin t)) xs).

(** [a] is admissible and [L] is finite and globally maximal at [a]. *)
Definition maximises {A} (adm : A -> Prop) (L : A -> val) (a : A) : Prop :=
  adm a /\ exists m, L a = Fin m /\ forall b, adm b -> exists r, L b = Fin r /\ r <= m.
Definition minimises {A} (adm : A -> Prop) (L : A -> val) (a : A) : Prop :=
  adm a /\ exists m, L a = Fin m /\ forall b, adm b -> exists r, L b = Fin r /\ m <= r.

(** The mean and variance are those of the data. *)
Definition reproduces (m v : val) (xs : list R) : Prop :=
  m = Fin (average xs) /\ v = Fin (sumsq_dev xs / INR (length xs)).

(** Data in which [x_i] is repeated [c_i] times. *)
Definition expand {A} (xs : list A) (cs : list nat) : list A :=
  concat (map (fun '(x, c) => repeat x c) (combine xs cs)).
