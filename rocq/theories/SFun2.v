(** Textbook definitions of further special functions of mpmath.  Independent of the model. *)
From Coq Require Import Reals.
From Coquelicot Require Import Coquelicot.
From Verif Require Import Values Spec SFun.
Local Open Scope R_scope.

(** The exponential integral E1(x), x > 0. *)
Definition e1_kernel (t : R) : R := exp (- t) / t.
Definition E1 (x : R) : R := improper e1_kernel x p_infty.
(** The principal branch of Lambert's W on [-1/e, +inf): the largest w with w e^w <= x. *)
Definition LambertW (x : R) : R := real (Lub_Rbar (fun w => w * exp w <= x)).
