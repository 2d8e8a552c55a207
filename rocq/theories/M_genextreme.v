(** Model of /repo/mpsci/distributions/genextreme.py.  Euler's constant ([mp.euler]) and Apery's
    constant ([mp.zeta(3)]) are arguments. *)
From Coq Require Import Reals List.
From Verif Require Import Values M_common M_sfun M_fun.
Local Open Scope R_scope.
Local Open Scope val_scope.

(** genextreme.py:27-30. *)
Definition validate {A} `{CanRaise A} (xi mu sigma : val) (k : A) : A := validate_positive sigma k.
(** genextreme.py:33-56. *)
Definition pdf (x xi mu sigma : val) : val :=
  validate xi mu sigma
  (let bound := mu - sigma / xi in
   let rest :=
     let z := (x - mu) / sigma in
     let t := IF xi <>? 0 THEN vpow (Fin 1 + z * xi) (Fin (-1) / xi) ELSE vexp (- z) in
     vpow t (xi + 1) * vexp (- t) / sigma in
   IF xi <>? 0 THEN
     IF (xi >? 0) && (x <=? bound) THEN 0
     ELSE IF (xi <? 0) && (x >? bound) THEN 0 ELSE rest
   ELSE rest).
(** genextreme.py:59-83. *)
Definition logpdf (x xi mu sigma : val) : val :=
  validate xi mu sigma
  (let bound := mu - sigma / xi in
   let rest :=
     let z := (x - mu) / sigma in
     let t := IF xi <>? 0 THEN vpow (Fin 1 + z * xi) (Fin (-1) / xi) ELSE vexp (- z) in
     let logt := IF xi <>? 0 THEN - vlog1p (z * xi) / xi ELSE - z in
     (xi + 1) * logt - t - vlog sigma in
   IF xi <>? 0 THEN
     IF (xi >? 0) && (x <=? bound) THEN NInf
     ELSE IF (xi <? 0) && (x >=? bound) THEN NInf ELSE rest
   ELSE rest).
(** genextreme.py:94-112. *)
Definition logcdf (x xi mu sigma : val) : val :=
  validate xi mu sigma
  (let bound := mu - sigma / xi in
   let rest :=
     let t := IF xi <>? 0 THEN vpow (Fin 1 + (x - mu) / sigma * xi) (Fin (-1) / xi) ELSE vexp (- (x - mu) / sigma) in
     - t in
   IF xi <>? 0 THEN
     IF (xi >? 0) && (x <=? bound) THEN NInf
     ELSE IF (xi <? 0) && (x >=? bound) THEN 0 ELSE rest
   ELSE rest).
(** genextreme.py:86-91. *)
Definition cdf (x xi mu sigma : val) : val := vexp (logcdf x xi mu sigma).
(** genextreme.py:115-126. *)
Definition invcdf (p xi mu sigma : val) : val :=
  validate_p p (validate xi mu sigma
  (IF xi <>? 0 THEN mu + sigma / xi * vpowm1 (- vlog p) (- xi)
   ELSE mu - sigma * vlog (- vlog p))).
(** genextreme.py:129-134. *)
Definition sf (x xi mu sigma : val) : val := - vexpm1 (logcdf x xi mu sigma).
(** genextreme.py:137-148. *)
Definition logsf (x xi mu sigma : val) : val :=
  let med := invcdf (Fin (1 / 2)) xi mu sigma in
  IF x >? med THEN vlog (sf x xi mu sigma) ELSE vlog1p (- cdf x xi mu sigma).
(** genextreme.py:151-162. *)
Definition invsf (p xi mu sigma : val) : val :=
  validate_p p (validate xi mu sigma
  (IF xi <>? 0 THEN mu + sigma / xi * vpowm1 (- vlog1p (- p)) (- xi)
   ELSE mu - sigma * vlog (- vlog1p (- p)))).
(** genextreme.py:165-184. *)
Definition support (xi mu sigma : val) : res (val * val) :=
  validate xi mu sigma
  (RIF xi <>? 0 THEN
     let bound := mu - sigma / xi in
     RIF xi >? 0 THEN Ok (bound, PInf) ELSE Ok (NInf, bound)
   ELSE Ok (NInf, PInf)).
(** genextreme.py:187-199. *)
Definition mean (euler xi mu sigma : val) : val :=
  validate xi mu sigma
  (IF xi =? 0 THEN mu + sigma * euler
   ELSE IF xi <? 1 THEN let g1 := vgamma (Fin 1 - xi) in mu + sigma * (g1 - 1) / xi
   ELSE PInf).
(** genextreme.py:202-219. *)
Definition mode (xi mu sigma : val) : val :=
  validate xi mu sigma
  (IF xi <? (-1)%R THEN mu - sigma / xi
   ELSE IF xi =? 0 THEN mu
   ELSE mu + sigma * pow1pm1 xi (- xi) / xi).
(** genextreme.py:222-235. *)
Definition var (xi mu sigma : val) : val :=
  validate xi mu sigma
  (IF xi =? 0 THEN vpown sigma 2 * vpown vpi 2 / 6
   ELSE IF Fin 2 * xi <? 1 THEN
     let g1 := vgamma (Fin 1 - xi) in
     let g2 := vgamma (Fin 1 - Fin 2 * xi) in
     vpown sigma 2 * (g2 - vpown g1 2) / vpown xi 2
   ELSE PInf).
(** genextreme.py:238-254 (mp.sign of the non-zero [xi]). *)
Definition skewness (zeta3 xi mu sigma : val) : val :=
  validate xi mu sigma
  (IF xi =? 0 THEN Fin 12 * vsqrt (Fin 6) * zeta3 / vpown vpi 3
   ELSE IF Fin 3 * xi <? 1 THEN
     let g1 := vgamma (Fin 1 - xi) in
     let g2 := vgamma (Fin 1 - Fin 2 * xi) in
     let g3 := vgamma (Fin 1 - Fin 3 * xi) in
     let num := g3 - Fin 3 * g2 * g1 + Fin 2 * vpown g1 3 in
     let den := vpow (g2 - vpown g1 2) (Fin (3 / 2)) in
     (IF xi <? 0 THEN Fin (-1) ELSE Fin 1) * num / den
   ELSE PInf).
(** genextreme.py:257-274. *)
Definition kurtosis (xi mu sigma : val) : val :=
  validate xi mu sigma
  (IF xi =? 0 THEN Fin (12 / 5)
   ELSE IF Fin 4 * xi <? 1 THEN
     let g1 := vgamma (Fin 1 - xi) in
     let g2 := vgamma (Fin 1 - Fin 2 * xi) in
     let g3 := vgamma (Fin 1 - Fin 3 * xi) in
     let g4 := vgamma (Fin 1 - Fin 4 * xi) in
     let num := g4 - Fin 4 * g3 * g1 - Fin 3 * vpown g2 2 + Fin 12 * g2 * vpown g1 2 - Fin 6 * vpown g1 4 in
     let den := vpown (g2 - vpown g1 2) 2 in
     num / den
   ELSE PInf).
(** genextreme.py:277-283. *)
Definition entropy (euler xi mu sigma : val) : val :=
  validate xi mu sigma (vlog sigma + euler * (xi + 1) + 1).
(** genextreme.py:286-295; [mp.binomial] of integers is the binomial coefficient. *)
Definition standard_noncentral_moment (n : nat) (xi : val) : val :=
  if Nat.eqb n 0 then Fin 1 else
  IF xi <? Fin 1 / Fin (INR n) THEN
    vfsum (map (fun k => Fin (C n k) * Fin ((-1) ^ k) * vgamma (Fin 1 - xi * Fin (INR k))) (seq 0 (n + 1))) / vpown (- xi) n
  ELSE NaN.
(** genextreme.py:298-318, for a natural number [n]. *)
Definition noncentral_moment (n : nat) (xi mu sigma : val) : val :=
  validate xi mu sigma
  (if Nat.eqb n 0 then Fin 1 else
   IF xi >=? Fin 1 / Fin (INR n) THEN NaN
   ELSE vfsum (map (fun k => Fin (C n k) * vpown mu (n - k) * vpown sigma k * standard_noncentral_moment k xi) (seq 0 (n + 1)))).
