(** Specification of the Box-Cox and Yeo-Johnson families and of the likelihood of data that become
    normal after such a transformation.  Independent of the model of mpsci. *)
From Coq Require Import Reals List.
From Coquelicot Require Import Coquelicot.
From Verif Require Import SpecStat.
Import ListNotations.
Local Open Scope R_scope.

Definition boxcox_fn (lam x : R) : R := if Req_EM_T lam 0 then ln x else (Rpower x lam - 1) / lam.
Definition yeojohnson_fn (lam x : R) : R :=
  if Rle_dec 0 x then boxcox_fn lam (1 + x) else - boxcox_fn (2 - lam) (1 - x).
(** Density at x of a variable X for which psi(X) is normal with mean mu and deviation sigma. *)
Definition transformed_density (psi : R -> R) (mu sigma x : R) : R :=
  Derive psi x * (exp (- ((psi x - mu) / sigma) ^ 2 / 2) / (sigma * sqrt (2 * PI))).
Definition transformed_loglik (psi : R -> R) (xs : list R) (mu sigma : R) : R :=
  sum (map (fun x => ln (transformed_density psi mu sigma x)) xs).
(** [m] is the maximum of [g] over all mu and all sigma > 0. *)
Definition profile_max (g : R -> R -> R) (m : R) : Prop :=
  (exists mu sigma, 0 < sigma /\ g mu sigma = m) /\ forall mu sigma, 0 < sigma -> g mu sigma <= m.
