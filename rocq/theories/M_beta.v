(** Model of /repo/mpsci/distributions/beta.py. *)
From Coq Require Import Reals List ZArith.
From Coquelicot Require Import Coquelicot.
From Verif Require Import Values M_common M_basic M_fun SFun M_sfun M_bracket M_bisect.
Import ListNotations.
Local Open Scope R_scope.
Local Open Scope val_scope.

(** beta.py:22-26. *)
Definition validate_a_b {A} `{CanRaise A} (a b : val) (c : A) : A :=
  RIF (a <=? 0) || (b <=? 0) THEN raise ValueError ELSE c.
(** beta.py:30-43. *)
Definition pdf (x a b : val) : val :=
  validate_a_b a b
  (IF (x <? 0) || (x >? 1) THEN 0 ELSE
   IF (x =? 0) && (a <? 1) THEN PInf ELSE
   IF (x =? 1) && (b <? 1) THEN PInf ELSE
   vpow x (a - 1) * vpow (Fin 1 - x) (b - 1) / vbeta a b).
(** beta.py:47-56. *)
Definition logpdf (x a b : val) : val :=
  validate_a_b a b
  (IF (x <? 0) || (x >? 1) THEN NInf ELSE
   xlogy (a - 1) x + xlog1py (b - 1) (- x) - logbeta vloggamma a b).
(** beta.py:60-69. *)
Definition cdf (x a b : val) : val :=
  validate_a_b a b (IF x <? 0 THEN 0 ELSE IF x >? 1 THEN 1 ELSE vbetainc_lower a b x).
(** beta.py:73-82. *)
Definition sf (x a b : val) : val :=
  validate_a_b a b (IF x <? 0 THEN 1 ELSE IF x >? 1 THEN 0 ELSE vbetainc_upper a b x).
(** mpmath.betainc(a, b, x1, x2, regularized=True) with x1 <= x2: the integral of the beta kernel over
    [x1, x2], divided by B(a, b), for limits in [0, 1].  With other limits the values are complex in
    general; only a = b = 1, where the integral is x2 - x1, is modelled. *)
Definition vbetainc2 (a b x y : val) : val :=
  match a, b, x, y with
  | Exc e, _, _, _ | _, Exc e, _, _ | _, _, Exc e, _ | _, _, _, Exc e => Exc e
  | Fin a, Fin b, Fin x, Fin y =>
      if Reqb x y then Fin 0
      else if Rleb 0 x then if Rleb y 1 then Fin (improper (beta_kernel a b) x y / Beta a b)
      else if Reqb a 1 then if Reqb b 1 then Fin (y - x) else Exc NonReal else Exc NonReal
      else if Reqb a 1 then if Reqb b 1 then Fin (y - x) else Exc NonReal else Exc NonReal
  | NaN, _, _, _ | _, NaN, _, _ | _, _, NaN, _ | _, _, _, NaN => NaN
  | _, _, _, _ => Exc NonReal
  end.
(** beta.py:86-104. *)
Definition interval_prob (x1 x2 a b : val) : val :=
  validate_a_b a b (IF x1 >? x2 THEN Exc ValueError ELSE vbetainc2 a b x1 x2).
(** beta.py:108-119.  [betaincinv] is called with a bisection method, so its findroot is not used.
    [fuel] bounds the loops and [prec] is the working precision in bits. *)
Definition invcdf (fuel : nat) (prec : positive) (p a b : val) : val :=
  validate_a_b a b (validate_p p
  (match find_bracket fuel (fun x => cdf x a b) p 0 1 None with
   | Err e => Exc e
   | Ok (x0, x1) => IF x0 =? x1 THEN x0 ELSE betaincinv fuel prec (fun _ _ => NaN) a b p (BisectFrom x0 x1) false
   end)).
(** beta.py:123-135. *)
Definition invsf (fuel : nat) (prec : positive) (p a b : val) : val :=
  validate_a_b a b (validate_p p
  (match find_bracket fuel (fun x => sf x a b) p 0 1 None with
   | Err e => Exc e
   | Ok (x0, x1) => IF x0 =? x1 THEN x0 ELSE betaincinv fuel prec (fun _ _ => NaN) a b p (BisectFrom x0 x1) true
   end)).
(** beta.py:139-144. *)
Definition support (a b : val) : res (val * val) := validate_a_b a b (Ok (Fin 0, Fin 1)).
(** beta.py:148-153. *)
Definition mean (a b : val) : val := validate_a_b a b (a / (a + b)).
(** beta.py:157-176. *)
Definition mode (a b : val) : val :=
  validate_a_b a b
  (IF a <? 1 THEN 0 ELSE
   IF a =? 1 THEN (IF b <? 1 THEN 1 ELSE 0) ELSE
   IF b <=? 1 THEN 1 ELSE (a - 1) / (a + b - 2)).
(** beta.py:180-186. *)
Definition var (a b : val) : val :=
  validate_a_b a b (let apb := a + b in a * b / (vpown apb 2 * (apb + 1))).
(** beta.py:190-196. *)
Definition skewness (a b : val) : val :=
  validate_a_b a b
  (let apb := a + b in Fin 2 * (b - a) * vsqrt (apb + 1) / ((apb + 2) * vsqrt (a * b))).
(** beta.py:200-207. *)
Definition kurtosis (a b : val) : val :=
  validate_a_b a b
  (let apb := a + b in
   Fin 6 * (vpown (a - b) 2 * (apb + 1) - a * b * (apb + 2)) / (a * b * (apb + 2) * (apb + 3))).
(** beta.py:211-222; [n] has passed [_validate_moment_n]. *)
Definition noncentral_moment (n : nat) (a b : val) : val :=
  validate_a_b a b
  (fold_left (fun mu k => mu * ((a + Fin (INR k)) / (a + b + Fin (INR k)))) (seq 0 n) (Fin 1)).
(** beta.py:226-234. *)
Definition entropy (a b : val) : val :=
  validate_a_b a b
  (logbeta vloggamma a b - (a - 1) * vdigamma a - (b - 1) * vdigamma b + (a + b - 2) * vdigamma (a + b)).
(** beta.py:238-243. *)
Definition nll (x : list val) (a b : val) : val :=
  validate_a_b a b (validate_x_bounds x (Some (Fin 0)) (Some (Fin 1)) true true
  (- vfsum (map (fun t => logpdf t a b) x))).
(** beta.py:247-249. *)
Definition mle_func (a b n s : val) : val :=
  let psiab := vdigamma (a + b) in s - n * (- psiab + vdigamma a).
(** beta.py:296-314: one parameter given.  [p0] is the value wrapped in [Initial], if any. *)
Definition mle_one (findroot : (val -> val) -> val -> val) (p0 : option val) (x : list val) (xbar b : val) : val :=
  bindv (vfsum (map vlog x)) (fun s1 =>
  bindv (match p0 with None => b * xbar / (Fin 1 - xbar) | Some p => p end) (fun p0 =>
  findroot (fun a => mle_func a b (vlen x) s1) p0)).
(** beta.py:253-314.  [a], [b]: [Some] when given; [a0], [b0] are the values wrapped in [Initial], if
    any.  [findroot1] and [findroot2] are [mp.findroot] for one equation and for a system of two. *)
Definition mle (findroot1 : (val -> val) -> val -> val) (findroot2 : (val -> val -> val * val) -> val * val -> res (val * val))
    (a0 b0 : option val) (x : list val) (a b : option val) : res (val * val) :=
  validate_x_bounds x (Some (Fin 0)) (Some (Fin 1)) true true
  (bindv (M_basic.mean x None) (fun xbar =>
   RIF match a with Some a => a <=? 0 | None => CB false end THEN Err ValueError ELSE
   RIF match b with Some b => b <=? 0 | None => CB false end THEN Err ValueError ELSE
   match a, b with
   | None, None =>
       bindv (vfsum (map vlog x)) (fun s1 =>
       bindv (vfsum (map (fun t => vlog1p (- t)) x)) (fun s2 =>
       bindv (xbar * (Fin 1 - xbar) / M_basic.var x 0 - 1) (fun fac =>
       bindv (match a0 with None => xbar * fac | Some a => a end) (fun a0 =>
       bindv (match b0 with None => (Fin 1 - xbar) * fac | Some b => b end) (fun b0 =>
       findroot2 (fun a b => (mle_func a b (vlen x) s1, mle_func b a (vlen x) s2)) (a0, b0))))))
   | Some a, Some b => Ok (a, b)
   | None, Some b => bindv (mle_one findroot1 a0 x xbar b) (fun a => Ok (a, b))
   | Some a, None => bindv (mle_one findroot1 b0 (map (fun t => Fin 1 - t) x) (Fin 1 - xbar) a) (fun b => Ok (a, b))
   end)).
(** beta.py:318-333. *)
Definition mom (x : list val) : res (val * val) :=
  validate_x_bounds x (Some (Fin 0)) (Some (Fin 1)) true true
  (bindv (M_basic.mean x None) (fun M1 =>
   bindv (M_basic.mean (map (fun t => vpown t 2) x) None) (fun M2 =>
   bindv ((M1 - M2) / (M2 - vpown M1 2)) (fun c =>
   bindv (M1 * c) (fun a => bindv ((Fin 1 - M1) * c) (fun b => Ok (a, b))))))).
