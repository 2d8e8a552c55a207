(** Model of /repo/mpsci/distributions/_weibull_common.py. *)
From Coq Require Import Reals List.
From Verif Require Import Values.
Import ListNotations.
Local Open Scope R_scope.
Local Open Scope val_scope.

(** _weibull_common.py:8-16 [_validate_params]. *)
Definition validate_params {A} `{CanRaise A} (k loc scale : val) (c : A) : A :=
  RIF k <=? 0 THEN raise ValueError ELSE RIF scale <=? 0 THEN raise ValueError ELSE c.
(** _weibull_common.py:19-28 [_mle_k_eqn1]. *)
Definition mle_k_eqn1 (k : val) (x : list val) : val :=
  let lnx := map vlog x in
  let xk := map (fun xi => vpow xi k) x in
  let xklnx := map (fun '(a, b) => a * b) (combine xk lnx) in
  let t1 := vfsum xklnx / vfsum xk in
  let t2 := vfsum lnx / vlen x in
  t1 - t2 - 1 / k.
(** _weibull_common.py:31-42 [_mle_k_eqn2]. *)
Definition mle_k_eqn2 (k : val) (x : list val) (scale : val) : val :=
  let n := vlen x in
  let lnx := map vlog x in
  let xk := map (fun xi => vpow xi k) x in
  let xklnx := map (fun xi => vpow xi k * vlog xi) x in
  let m1 := vfsum xk / n in
  let m2 := vfsum xklnx / n in
  let lnscale := vlog scale in
  1 / k - lnscale + vfsum lnx / n + (1 / vpow scale k) * (lnscale * m1 - m2).
