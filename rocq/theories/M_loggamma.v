(** Model of /repo/mpsci/distributions/loggamma.py. *)
From Coq Require Import Reals List.
From Coquelicot Require Import Coquelicot.
From Verif Require Import Values M_common M_basic SFun M_sfun M_bracket M_digammainv.
From Verif Require M_gamma.
Import ListNotations.
Local Open Scope R_scope.
Local Open Scope val_scope.

(** mpmath.psi(2, .) and psi(3, .) on positive reals: derivatives of psi(1, .). *)
Definition psi2 (a : R) : R := Derive trigamma a.
Definition psi3 (a : R) : R := Derive psi2 a.
Definition vpsi2 (a : val) : val :=
  match a with Fin x => if Rltb 0 x then Fin (psi2 x) else Exc NonReal | PInf => Fin 0 | NInf => Exc NonReal | _ => a end.
Definition vpsi3 (a : val) : val :=
  match a with Fin x => if Rltb 0 x then Fin (psi3 x) else Exc NonReal | PInf => Fin 0 | NInf => Exc NonReal | _ => a end.
(** loggamma.py:29-34. *)
Definition validate_k_theta {A} `{CanRaise A} (k theta : val) (c : A) : A :=
  RIF k <=? 0 THEN raise ValueError ELSE RIF theta <=? 0 THEN raise ValueError ELSE c.
(** loggamma.py:38-48. *)
Definition pdf (x k theta : val) : val :=
  validate_k_theta k theta (let z := x / theta in vexp (k * z - vexp z) / vgamma k / theta).
(** loggamma.py:52-62. *)
Definition logpdf (x k theta : val) : val :=
  validate_k_theta k theta (let z := x / theta in (k * z - vexp z) - vloggamma k - vlog theta).
(** loggamma.py:66-76. *)
Definition cdf (x k theta : val) : val :=
  validate_k_theta k theta (let z := x / theta in vgammainc_lower k (vexp z)).
(** loggamma.py:102-112. *)
Definition sf (x k theta : val) : val :=
  validate_k_theta k theta (let z := x / theta in vgammainc_upper k (vexp z)).
(** loggamma.py:80-98; [findroot] gets the bracket. *)
Definition invcdf (findroot : (val -> val) -> val * val -> val) (fuel : nat) (p k theta : val) : val :=
  validate_p p (IF p =? 0 THEN NInf ELSE IF p =? 1 THEN PInf ELSE
  validate_k_theta k theta
  match find_bracket fuel (fun t => cdf t k theta) p NInf PInf None with
  | Err e => Exc e
  | Ok x => findroot (fun t => cdf t k theta - p) x
  end).
(** loggamma.py:116-132; [findroot] gets the lower end of the bracket only. *)
Definition invsf (findroot : (val -> val) -> val -> val) (fuel : nat) (p k theta : val) : val :=
  validate_p p (IF p =? 0 THEN PInf ELSE IF p =? 1 THEN NInf ELSE
  validate_k_theta k theta
  match find_bracket fuel (fun t => sf t k theta) p NInf PInf None with
  | Err e => Exc e
  | Ok x => findroot (fun t => sf t k theta - p) (fst x)
  end).
(** loggamma.py:136-160. *)
Definition interval_prob (x1 x2 k theta : val) : val :=
  IF x1 >? x2 THEN Exc ValueError ELSE
  validate_k_theta k theta (M_gamma.vgammainc2 k (vexp (x1 / theta)) (vexp (x2 / theta))).
(** loggamma.py:164-172. *)
Definition support (k theta : val) : res (val * val) := validate_k_theta k theta (Ok (NInf, PInf)).
(** loggamma.py:176-184, 188-193, 197-205. *)
Definition mean (k theta : val) : val := validate_k_theta k theta (theta * vdigamma k).
Definition mode (k theta : val) : val := validate_k_theta k theta (theta * vlog k).
Definition var (k theta : val) : val := validate_k_theta k theta (vpown theta 2 * vtrigamma k).
(** loggamma.py:209-217, 221-229. *)
Definition skewness (k theta : val) : val := validate_k_theta k theta (vpsi2 k / vpow (vtrigamma k) (3 / 2)%R).
Definition kurtosis (k theta : val) : val := validate_k_theta k theta (vpsi3 k / vpown (vtrigamma k) 2).
(** loggamma.py:233-241. *)
Definition nll (x : list val) (k theta : val) : val :=
  validate_k_theta k theta (validate_x_bounds x (Some NInf) (Some PInf) false false
  (- vfsum (map (fun xi => logpdf xi k theta) x))).
(** loggamma.py:246-251 and 259-263: the two equations. *)
Definition shape_eq (x : list val) (k scale : val) : val :=
  - vlen x * vdigamma k + vfsum (map (fun x1 => x1 / scale) x).
Definition scale_eq (x : list val) (k scale : val) : val :=
  - vlen x * scale + vfsum (map (fun x1 => x1 * (vexp (x1 / scale) - k)) x).
(** loggamma.py:272-306.  [k], [theta]: [Some] when given; [k0], [theta0] are the values wrapped in
    [Initial], if any.  [findroot], [findroot1], [findroot2] stand for [mp.findroot] in digammainv,
    for one equation and for a system of two. *)
Definition mle (euler : val) (findroot : (val -> val) -> val * val -> val) (findroot1 : (val -> val) -> val -> val)
    (findroot2 : (val -> val -> val * val) -> val * val -> res (val * val))
    (k0 theta0 : option val) (x : list val) (k theta : option val) : res (val * val) :=
  let i0 := match k0 with Some v => v | None => Fin 1 end in
  let t0 := match theta0 with Some v => v | None => Fin 1 end in
  validate_x_bounds x (Some NInf) (Some PInf) false false
  match k, theta with
  | Some k, Some theta => validate_k_theta k theta (Ok (k, theta))
  | None, None => validate_k_theta i0 t0 (findroot2 (fun k s => (shape_eq x k s, scale_eq x k s)) (i0, t0))
  | None, Some theta =>
      validate_k_theta (Fin 1) theta
      (bindv (M_basic.mean (map (fun t => t / theta) x) None) (fun m =>
       bindv (digammainv euler findroot m) (fun k => Ok (k, theta))))
  | Some k, None =>
      validate_k_theta k t0 (bindv (findroot1 (fun s => scale_eq x k s) t0) (fun s => Ok (k, s)))
  end.
