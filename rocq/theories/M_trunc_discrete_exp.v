(** Model of /repo/mpsci/distributions/trunc_discrete_exp.py. *)
From Coq Require Import Reals List ZArith.
From Verif Require Import Values SpecDisc M_common M_disc.
Import ListNotations.
Local Open Scope R_scope.
Local Open Scope val_scope.

(** trunc_discrete_exp.py:28-35; n is used as [int(n)], equal to n once it has passed. *)
Definition validate_params {A} `{CanRaise A} (lam n : val) (cont : A) : A :=
  RIF n <>? vint n THEN raise ValueError ELSE RIF n <? 0 THEN raise ValueError ELSE
  RIF lam <? 0 THEN raise ValueError ELSE cont.
(** trunc_discrete_exp.py:38-55. *)
Definition support (lam n : val) : res isupport := validate_params lam n (vrange (Fin 0) n).
(** trunc_discrete_exp.py:59-71. *)
Definition logpmf (k lam n : val) : val :=
  validate_int k (validate_params lam n
  (IF k <? 0 THEN NInf ELSE IF k >=? n THEN NInf ELSE IF lam =? 0 THEN - vlog n ELSE
   vlog1p (- vexp (- lam)) - lam * k - vlog1p (- vexp (- lam * n)))).
(** trunc_discrete_exp.py:75-87. *)
Definition pmf (k lam n : val) : val :=
  validate_int k (validate_params lam n
  (IF k <? 0 THEN 0 ELSE IF k >=? n THEN 0 ELSE IF lam =? 0 THEN Fin 1 / n ELSE vexp (logpmf k lam n))).
(** trunc_discrete_exp.py:91-103. *)
Definition cdf (k lam n : val) : val :=
  validate_int k (validate_params lam n
  (IF k <? 0 THEN 0 ELSE IF k >=? n THEN 1 ELSE IF lam =? 0 THEN (k + 1) / n ELSE
   vexpm1 (- lam * (k + 1)) / vexpm1 (- lam * n))).
(** trunc_discrete_exp.py:107-119. *)
Definition sf (k lam n : val) : val :=
  validate_int k (validate_params lam n
  (IF k <? 0 THEN 1 ELSE IF k >=? n THEN 0 ELSE IF lam =? 0 THEN (n - k - 1) / n ELSE
   vexpm1 (lam * (n - k - 1)) / vexpm1 (lam * n))).
(** trunc_discrete_exp.py:123-131. *)
Definition mean (lam n : val) : val :=
  validate_params lam n
  (IF lam =? 0 THEN (n - 1) / 2 ELSE
   let nlam := n * lam in - vexp (- lam) / vexpm1 (- lam) + n * vexp (- nlam) / vexpm1 (- nlam)).
(** trunc_discrete_exp.py:134-141. *)
Definition mode (lam n : val) : val := 0.
(** trunc_discrete_exp.py:145-153. *)
Definition var (lam n : val) : val :=
  validate_params lam n
  (IF lam =? 0 THEN (vpown n 2 - 1) / 12 ELSE
   let nlam := n * lam in vexp (- lam) / vpown (vexpm1 (- lam)) 2 - vpown n 2 * vexp (- nlam) / vpown (vexpm1 (- nlam)) 2).
(** trunc_discrete_exp.py:157-162. *)
Definition entropy (lam n : val) : val := validate_params lam n (- logpmf 0 lam n + lam * mean lam n).
