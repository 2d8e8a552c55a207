(** Location and scale for distributions whose inverses are computed numerically. *)
From Coq Require Import Reals.
From Coquelicot Require Import Coquelicot.
From Verif Require Import Values Spec.
Local Open Scope R_scope.

(** Location and scale act as documented on pdf, cdf and sf, for z in the open standard
    support (lo, hi). *)
Definition loc_scale_law3 (pdf cdf sf : val -> val -> val -> val) (lo hi : Rbar) : Prop :=
  forall l s : R, 0 < s ->
  (forall z : R, cdf (Fin (l + s * z)) (Fin l) (Fin s) = cdf (Fin z) (Fin 0) (Fin 1) /\
                 sf (Fin (l + s * z)) (Fin l) (Fin s) = sf (Fin z) (Fin 0) (Fin 1)) /\
  (forall z, inside lo hi z -> exists d, pdf (Fin z) (Fin 0) (Fin 1) = Fin d /\
                 pdf (Fin (l + s * z)) (Fin l) (Fin s) = Fin (d / s)).
