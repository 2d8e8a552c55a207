(** Model of /repo/mpsci/distributions/genpareto.py. *)
From Coq Require Import Reals List.
From Verif Require Import Values M_common M_fun.
Import ListNotations.
Local Open Scope R_scope.
Local Open Scope val_scope.

(** genpareto.py:16-19. *)
Definition validate {A} `{CanRaise A} (xi mu sigma : val) (k : A) : A := validate_positive sigma k.
(** genpareto.py:30, 49: the test for a point outside the support. *)
Definition outside (xi z : val) : cond :=
  cor (cand (xi >=? 0) (z <? 0)) (cand (xi <? 0) (cor (z <? 0) (z >? Fin (-1) / xi))).
(** genpareto.py:23-38. *)
Definition pdf (x xi mu sigma : val) : val :=
  validate xi mu sigma
  (let z := (x - mu) / sigma in
   IF outside xi z THEN 0
   ELSE let t := IF xi <>? 0 THEN vpow (Fin 1 + z * xi) (- (Fin 1 / xi + 1)) ELSE vexp (- z) in
     t / sigma).
(** genpareto.py:42-57. *)
Definition logpdf (x xi mu sigma : val) : val :=
  validate xi mu sigma
  (let z := (x - mu) / sigma in
   IF outside xi z THEN NInf
   ELSE let logt := IF xi <>? 0 THEN - (Fin 1 / xi + 1) * vlog (Fin 1 + xi * z) ELSE - z in
     logt - vlog sigma).
(** genpareto.py:61-77. *)
Definition cdf (x xi mu sigma : val) : val :=
  validate xi mu sigma
  (let z := (x - mu) / sigma in
   IF cor (cand (xi >=? 0) (z <? 0)) (cand (xi <? 0) (z <? 0)) THEN 0
   ELSE IF cand (xi <? 0) (z >? Fin (-1) / xi) THEN 1
   ELSE IF xi <>? 0 THEN - vpowm1 (Fin 1 + xi * z) (Fin (-1) / xi) ELSE - vexpm1 (- z)).
(** genpareto.py:81-101. *)
Definition invcdf (p xi mu sigma : val) : val :=
  validate xi mu sigma (validate_p p
  (IF p =? 0 THEN mu
   ELSE IF p =? 1 THEN (IF xi >=? 0 THEN PInf ELSE mu - sigma / xi)
   ELSE IF xi =? 0 THEN mu - sigma * vlog1p (- p)
   ELSE mu + sigma / xi * pow1pm1 (- p) (- xi))).
(** genpareto.py:105-121. *)
Definition sf (x xi mu sigma : val) : val :=
  validate xi mu sigma
  (let z := (x - mu) / sigma in
   IF cor (cand (xi >=? 0) (z <? 0)) (cand (xi <? 0) (z <? 0)) THEN 1
   ELSE IF cand (xi <? 0) (z >? Fin (-1) / xi) THEN 0
   ELSE IF xi <>? 0 THEN vpow (Fin 1 + xi * z) (Fin (-1) / xi) ELSE vexp (- z)).
(** genpareto.py:125-144. *)
Definition invsf (p xi mu sigma : val) : val :=
  validate xi mu sigma (validate_p p
  (IF p =? 1 THEN mu
   ELSE IF p =? 0 THEN (IF xi >=? 0 THEN PInf ELSE mu - sigma / xi)
   ELSE IF xi =? 0 THEN mu - sigma * vlog p
   ELSE mu + sigma / xi * vpowm1 p (- xi))).
(** genpareto.py:148-157. *)
Definition support (xi mu sigma : val) : res (val * val) :=
  validate xi mu sigma
  (let upper := IF xi >=? 0 THEN PInf ELSE mu - sigma / xi in
   bindv upper (fun upper => Ok (mu, upper))).
(** genpareto.py:161-168. *)
Definition mean (xi mu sigma : val) : val :=
  validate xi mu sigma (IF xi <? 1 THEN mu + sigma / (Fin 1 - xi) ELSE NaN).
(** genpareto.py:172-179. *)
Definition var (xi mu sigma : val) : val :=
  validate xi mu sigma
  (IF xi <? Fin (1/2) THEN vpown sigma 2 / vpown (Fin 1 - xi) 2 / (Fin 1 - 2 * xi) ELSE NaN).
(** genpareto.py:183-188. *)
Definition entropy (xi mu sigma : val) : val :=
  validate xi mu sigma (vlog sigma + xi + 1).
(** genpareto.py:192-208. *)
Definition nll (x : list val) (xi mu sigma : val) : val :=
  validate xi mu sigma
  (IF xi >=? 0 THEN
     validate_x_bounds x (Some mu) (Some PInf) false true (- vfsum (map (fun t => logpdf t xi mu sigma) x))
   ELSE
     bindv (mu - sigma / xi) (fun high =>
     validate_x_bounds x (Some mu) (Some high) false false (- vfsum (map (fun t => logpdf t xi mu sigma) x)))).
