(** Model of /repo/mpsci/distributions/kumaraswamy.py.  [beta] is [mp.beta], [digamma] is
    [mp.digamma], [euler] is [mp.euler]. *)
From Coq Require Import Reals List.
From Verif Require Import Values M_common M_fun.
Import ListNotations.
Local Open Scope R_scope.
Local Open Scope val_scope.

(** kumaraswamy.py:34-38 [_validate_a_b]. *)
Definition validate {A} `{CanRaise A} (a b : val) (k : A) : A :=
  RIF (a <=? 0) || (b <=? 0) THEN raise ValueError ELSE k.
(** kumaraswamy.py:42-55. *)
Definition pdf (x a b : val) : val :=
  validate a b
  (IF (x <? 0) || (x >? 1) THEN 0
   ELSE IF cand (x =? 0) (a <? 1) THEN PInf
   ELSE IF cand (x =? 1) (b <? 1) THEN PInf
   ELSE a * b * vpow x (a - 1) * vpow (- vpowm1 x a) (b - 1)).
(** kumaraswamy.py:59-68. *)
Definition logpdf (x a b : val) : val :=
  validate a b
  (IF (x <? 0) || (x >? 1) THEN NInf
   ELSE vlog a + vlog b + (a - 1) * vlog x + (b - 1) * vlog1p (- vpow x a)).
(** kumaraswamy.py:72-82. *)
Definition cdf (x a b : val) : val :=
  validate a b
  (IF x <? 0 THEN 0 ELSE IF x >? 1 THEN 1 ELSE - vpowm1 (- vpowm1 x a) b).
(** kumaraswamy.py:86-96. *)
Definition sf (x a b : val) : val :=
  validate a b
  (IF x <? 0 THEN 1 ELSE IF x >? 1 THEN 0 ELSE vpow (- vpowm1 x a) b).
(** kumaraswamy.py:100-110. *)
Definition invcdf (p a b : val) : val :=
  validate a b (validate_p p
  (IF p =? 0 THEN 0 ELSE IF p =? 1 THEN 1 ELSE inv_powm1 (- inv_powm1 (- p) b) a)).
(** kumaraswamy.py:114-124. *)
Definition invsf (p a b : val) : val :=
  validate a b (validate_p p
  (IF p =? 0 THEN 1 ELSE IF p =? 1 THEN 0 ELSE inv_powm1 (- vpow p (1 / b)) a)).
(** kumaraswamy.py:127-131: the parameters are not validated. *)
Definition support (a b : val) : res (val * val) := Ok (Fin 0, Fin 1).
(** kumaraswamy.py:144-149. *)
Definition median (a b : val) : val :=
  validate a b (inv_powm1 (- vpow (1/2)%R (1 / b)) a).
(** kumaraswamy.py:153-173. *)
Definition mode (a b : val) : val :=
  validate a b
  (IF cor (a <? 1) (cand (a =? 1) (b >=? 1)) THEN 0
   ELSE IF cor (cand (a >=? 1) (b <? 1)) (cand (a >? 1) (b =? 1)) THEN 1
   ELSE vpow ((a - 1) / (a * b - 1)) (1 / a)).
Section Beta.
Variables (beta : val -> val -> val) (digamma : val -> val) (euler : val).
(** kumaraswamy.py:135-140. *)
Definition mean (a b : val) : val := validate a b (b * beta (1 + 1 / a) b).
(** kumaraswamy.py:177-182. *)
Definition var (a b : val) : val :=
  validate a b (b * beta (1 + 2 / a) b - vpown (mean a b) 2).
(** kumaraswamy.py:186-196; [n] has passed [_validate_moment_n]. *)
Definition noncentral_moment (n : nat) (a b : val) : val :=
  validate a b (if Nat.eqb n 0 then Fin 1 else b * beta (1 + Fin (INR n) / a) b).
(** kumaraswamy.py:200-208. *)
Definition skewness (a b : val) : val :=
  validate a b
  (let m := mean a b in
   let v := var a b in
   let mu3p := noncentral_moment 3 a b in
   (mu3p - m * (3 * v + vpown m 2)) / vpow v (3/2)%R).
(** kumaraswamy.py:211-222. *)
Definition entropy (a b : val) : val :=
  validate a b
  ((Fin 1 - 1 / b) + (Fin 1 - 1 / a) * (digamma (b + 1) + euler) - vlog a - vlog b).
End Beta.
(** kumaraswamy.py:226-235. *)
Definition nll (x : list val) (a b : val) : val :=
  validate_x_bounds x (Some (Fin 0)) (Some (Fin 1)) true true
  (validate a b (- vfsum (map (fun t => logpdf t a b) x))).
(** kumaraswamy.py:252-294 [mle]: [a] given, [b] free (lines 292-294); [len] is the number of
    data.  When [a] is free it comes from a numerical solver and is the argument [solve]:
    the pair is then completed by the same formula (lines 272-279). *)
Definition mle_b (x : list val) (a : val) : res (val * val) :=
  validate_x_bounds x (Some (Fin 0)) (Some (Fin 1)) true true
  (validate a 1
  (bindv (- vlen x / vfsum (map (fun t => vlog1p (- vpow t a)) x)) (fun b => Ok (a, b)))).
Definition mle_ab (solve : (val -> val) -> val) (x : list val) : res (val * val) :=
  validate_x_bounds x (Some (Fin 0)) (Some (Fin 1)) true true
  (let n := vlen x in
   let sumlogx := vfsum (map vlog x) in
   let eqn a :=  (* _mle_a_eqn, 238-242 *)
     let s2 := vfsum (map (fun t => vlog1p (- vpow t a)) x) in
     let s3 := vfsum (map (fun t => vpow t a * vlog t / (- vpowm1 t a)) x) in
     n / a + sumlogx + (1 + n / s2) * s3 in
   bindv (solve eqn) (fun a =>
   bindv (- n / vfsum (map (fun t => vlog1p (- vpow t a)) x)) (fun b => Ok (a, b)))).
