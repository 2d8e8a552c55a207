(** Model of /repo/mpsci/distributions/benktander2.py ([var], which uses the exponential integral
    E_n for real n, is not modelled). *)
From Coq Require Import Reals List.
From Verif Require Import Values M_common M_sfun2.
Local Open Scope R_scope.
Local Open Scope val_scope.

(** benktander2.py:14-19. *)
Definition validate {A} `{CanRaise A} (a b : val) (k : A) : A :=
  cif (a <=? 0) (raise ValueError) (cif ((b <=? 0) || (b >? 1)) (raise ValueError) k).
(** benktander2.py:23-36. *)
Definition pdf (x a b : val) : val :=
  validate a b
  (IF x <? 1 THEN 0
   ELSE let p1 := vexp (a / b * - vpowm1 x b) in
        let p2 := vpow x (b - 2) in
        let p3 := a * vpow x b - b + 1 in p1 * p2 * p3).
(** benktander2.py:40-53. *)
Definition logpdf (x a b : val) : val :=
  validate a b
  (IF x <? 1 THEN NInf
   ELSE let t1 := a / b * - vpowm1 x b in
        let t2 := (b - 2) * vlog x in
        let t3 := vlog1p (a * vpow x b - b) in t1 + t2 + t3).
(** benktander2.py:57-68. *)
Definition cdf (x a b : val) : val :=
  validate a b
  (IF x <? 1 THEN 0
   ELSE let p := (b - 1) * vlog x + a / b * - vpowm1 x b in - vexpm1 p).
(** benktander2.py:72-82. *)
Definition sf (x a b : val) : val :=
  validate a b
  (IF x <? 1 THEN 1 ELSE vpow x (b - 1) * vexp (a / b * - vpowm1 x b)).
(** benktander2.py:86-100. *)
Definition invcdf (p a b : val) : val :=
  validate_p p (validate a b
  (IF b =? 1 THEN Fin 1 - vlog1p (- p) / a
   ELSE let onemb := Fin 1 - b in
        let c := a / onemb in
        let t := c * vexp c * vpow (Fin 1 - p) (- b / onemb) in
        vpow (vlambertw t / c) (Fin 1 / b))).
(** benktander2.py:104-118. *)
Definition invsf (p a b : val) : val :=
  validate_p p (validate a b
  (IF b =? 1 THEN Fin 1 - vlog p / a
   ELSE let onemb := Fin 1 - b in
        let c := a / onemb in
        let t := c * vexp c * vpow p (- b / onemb) in
        vpow (vlambertw t / c) (Fin 1 / b))).
(** benktander2.py:121-126. *)
Definition support (a b : val) : res (val * val) := validate a b (Ok (Fin 1, PInf)).
(** benktander2.py:130-137. *)
Definition mean (a b : val) : val := validate a b (Fin 1 + Fin 1 / a).
(** benktander2.py:140-146; the parameters are not looked at. *)
Definition mode (a b : val) : val := Fin 1.
(** benktander2.py:162-171. *)
Definition nll (x : list val) (a b : val) : val :=
  validate_x_bounds x (Some (Fin 1)) (Some PInf) false true
  (validate a b (- vfsum (List.map (fun t => logpdf t a b) x))).
