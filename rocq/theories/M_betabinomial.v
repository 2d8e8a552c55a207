(** Model of /repo/mpsci/distributions/betabinomial.py. *)
From Coq Require Import Reals List Bool ZArith.
From Verif Require Import Values SpecDisc M_common M_sfun M_disc M_fun.
Import ListNotations.
Local Open Scope R_scope.
Local Open Scope val_scope.

(** betabinomial.py:18-27 [_validate_params]. *)
Definition validate_params {A} `{CanRaise A} (n a b : val) (cont : A) : A :=
  RIF n <>? vint n THEN raise ValueError ELSE RIF n <? 0 THEN raise ValueError ELSE
  RIF a <=? 0 THEN raise ValueError ELSE RIF b <=? 0 THEN raise ValueError ELSE cont.
(** betabinomial.py:30-46. *)
Definition support (n a b : val) : res isupport := validate_params n a b (vrange (Fin 0) (n + 1)).
(** betabinomial.py:49-62. *)
Definition logpmf (k n a b : val) : val :=
  validate_params n a b
  (IF k <? 0 THEN NInf ELSE IF k >? n THEN NInf ELSE
   logbinomial vloggamma n k + logbeta vloggamma (k + a) (n - k + b) - logbeta vloggamma a b).
(** betabinomial.py:65-75. *)
Definition pmf (k n a b : val) : val :=
  validate_params n a b (IF k <? 0 THEN 0 ELSE IF k >? n THEN 0 ELSE vexp (logpmf k n a b)).
(** betabinomial.py:78-99; the hypergeometric series terminates at degree n - k - 1. *)
Definition cdf (k n a b : val) : val :=
  validate_params n a b
  (IF k <? 0 THEN 0 ELSE IF k >=? n THEN 1 ELSE
   let t1 := vbeta (n + b - k - 1) (a + k + 1) in
   let t2 := vhyp3f2_1 (Fin 1) (- n + k + 1) (a + k + 1) (k + 2) (- n - b + k + 2) in
   Fin 1 - t1 * t2 / ((n + 1) * vbeta a b * vbeta (n - k) (k + 2))).
(** betabinomial.py:102-120. *)
Definition sf (k n a b : val) : val :=
  validate_params n a b
  (IF k <? 0 THEN 1 ELSE IF k >=? n THEN 0 ELSE
   let t1 := vbeta (n + b - k - 1) (a + k + 1) in
   let t2 := vhyp3f2_1 (Fin 1) (- n + k + 1) (a + k + 1) (k + 2) (- n - b + k + 2) in
   t1 * t2 / ((n + 1) * vbeta a b * vbeta (n - k) (k + 2))).
(** betabinomial.py:123-129. *)
Definition mean (n a b : val) : val := validate_params n a b (n * a / (a + b)).
(** betabinomial.py:132-145. *)
Definition mode (n a b : val) : val :=
  validate_params n a b
  (IF (a <=? 1) && (b >=? a) THEN 0 ELSE IF (b <=? 1) && (a >? b) THEN n ELSE
   vint (vceil ((n + 1) * (a - 1) / (a + b - 2))) - 1).
(** betabinomial.py:148-155. *)
Definition var (n a b : val) : val :=
  validate_params n a b (let s := a + b in n * a * b * (s + n) / vpown s 2 / (s + 1)).
(** betabinomial.py:158-167. *)
Definition skewness (n a b : val) : val :=
  validate_params n a b
  (let s := a + b in
   let f1 := (s + Fin 2 * n) * (b - a) / (s + 2) in
   let f2 := vsqrt ((Fin 1 + s) / (n * a * b * (s + n))) in f1 * f2).
(** betabinomial.py:170-184. *)
Definition kurtosis (n a b : val) : val :=
  validate_params n a b
  (let s := a + b in
   let denom := a * b * n * (s + 2) * (s + 3) * (s + n) in
   let kurt := (s + 1) * (Fin 3 * vpown n 2 * (vpown a 2 * (b + 2) + a * (b - 2) * b + Fin 2 * vpown b 2)
                          + (vpown a 2 - a * (Fin 4 * b + 1) + (b - 1) * b) * vpown s 2
                          + Fin 3 * n * (vpown a 3 * (b + 2) + Fin 2 * vpown a 2 * vpown b 2 + a * vpown b 3 + Fin 2 * vpown b 3)) / denom in
   kurt - 3).
(** betabinomial.py:187-202. *)
Definition nll (x : list val) (n a b : val) (counts : option (list val)) : val :=
  validate_params n a b
  (validate_x_bounds x (Some (Fin 0)) (Some n) false false
  (IF cnot (call visint x) THEN Exc ValueError ELSE
  (validate_counts x counts true (fun counts =>
   - vfsum (map (fun '(t, c) => c * logpmf t n a b) (zip_counts x counts)))))).
(** betabinomial.py:312-325: the system solved when both shape parameters are free. *)
Definition eqns (x counts : list val) (n : val) (a b : val) : val * val :=
  let psia := vdigamma a in let psib := vdigamma b in
  let psiab := vdigamma (a + b) in let psinab := vdigamma (n + a + b) in
  let s1 := psiab - psinab in let sa := s1 - psia in let sb := s1 - psib in
  (vfsum (map (fun '(t, c) => c * (vdigamma (t + a) + sa)) (combine x counts)),
   vfsum (map (fun '(t, c) => c * (vdigamma (n - t + b) + sb)) (combine x counts))).
(** betabinomial.py:334-337. *)
Definition eqn_a (x counts : list val) (n b a : val) : val :=
  let s := - vdigamma a + vdigamma (a + b) - vdigamma (n + a + b) in
  vfsum (map (fun '(t, c) => c * (vdigamma (t + a) + s)) (combine x counts)).
(** betabinomial.py:345-348. *)
Definition eqn_b (x counts : list val) (n a b : val) : val :=
  let s := - vdigamma b + vdigamma (a + b) - vdigamma (n + a + b) in
  vfsum (map (fun '(t, c) => c * (vdigamma (n - t + b) + s)) (combine x counts)).
(** betabinomial.py:205-355 [mle].  [a], [b] are [inl v] for fixed values and [inr v] for [Initial(v)]
    (1 by default); n is returned first by the code and is unchanged. *)
Definition counts_list (c : option (list val)) : list val := match c with Some c => c | None => [] end.
Definition mle (findroot1 : (val -> val) -> val -> val) (findroot2 : (val -> val -> val * val) -> val * val -> res (val * val))
    (x : list val) (counts : option (list val)) (n : val) (a b : val + val) : res (val * val) :=
  RIF cnot (visint n) || (n <? 1) THEN Err ValueError ELSE
  validate_x_bounds x (Some (Fin 0)) (Some n) false false
  (RIF cnot (call visint x) THEN Err ValueError ELSE
  (validate_counts x counts true (fun counts =>
   let counts := counts_list counts in
   match a, b with
   | inr a0, inr b0 => validate_params n (Fin 1) (Fin 1) (findroot2 (eqns x counts n) (a0, b0))
   | inr a0, inl b => validate_params n (Fin 1) b (bindv (findroot1 (eqn_a x counts n b) a0) (fun a => Ok (a, b)))
   | inl a, inr b0 => validate_params n a (Fin 1) (bindv (findroot1 (eqn_b x counts n a) b0) (fun b => Ok (a, b)))
   | inl a, inl b => validate_params n a b (Ok (a, b))
   end))).
