(** The integrand of the Marcum Q function, x (x/a)^(m-1) exp(-(x^2+a^2)/2) I_(m-1)(a x). *)
From Coq Require Import Reals.
From Verif Require Import SFun SFun4.
Local Open Scope R_scope.
Definition marcum_integrand (m a x : R) : R :=
  x * Rpower (x / a) (m - 1) * exp (- (x ^ 2 + a ^ 2) / 2) * besseli (m - 1) (a * x).
