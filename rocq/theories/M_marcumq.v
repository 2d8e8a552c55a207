(** Model of /repo/mpsci/fun/_marcumq.py, with the mpmath functions besseli, hyp1f1 and quad it rests on. *)
From Coq Require Import Reals.
From Coquelicot Require Import Coquelicot.
From Verif Require Import Values SFun SFun4 M_sfun.
Local Open Scope R_scope.
Local Open Scope val_scope.

(** mpmath.besseli(nu, z) for nu > -1 and z >= 0 (at z = 0 only for nu >= 0); elsewhere the model has no
    value and says [NonReal]. *)
Definition vbesseli (nu z : val) : val :=
  match nu, z with
  | Exc e, _ => Exc e
  | _, Exc e => Exc e
  | Fin v, Fin z =>
      if Rltb (-1) v then
        if Rltb 0 z then Fin (SFun4.besseli v z)
        else if Reqb z 0 then (if Reqb v 0 then Fin 1 else if Rltb 0 v then Fin 0 else Exc NonReal) else Exc NonReal
      else Exc NonReal
  | Fin _, PInf => PInf
  | _, _ => NaN
  end.
(** mpmath.hyp1f1(a, b, x) for b > 0 and real x. *)
Definition vhyp1f1 (a b x : val) : val :=
  match a, b, x with
  | Exc e, _, _ | _, Exc e, _ | _, _, Exc e => Exc e
  | Fin a, Fin b, Fin x => if Rltb 0 b then Fin (SFun4.hyp1f1 a b x) else Exc NonReal
  | _, _, _ => NaN
  end.
(** mpmath.quad(f, [lo, hi]): the exact integral (the quadrature error is not modelled); zero when the two
    end points are equal. *)
Definition rbar_of (v : val) : Rbar := match v with Fin r => Finite r | PInf => p_infty | _ => m_infty end.
Definition real_of (v : val) : R := match v with Fin r => r | _ => 0%R end.
Definition vquad (f : val -> val) (lo hi : val) : val :=
  match lo, hi with
  | Exc e, _ => Exc e
  | _, Exc e => Exc e
  | NaN, _ | _, NaN => NaN
  | PInf, PInf => Fin 0
  | _, _ => IF lo =? hi THEN Fin 0 ELSE Fin (improper (fun x => real_of (f (Fin x))) (rbar_of lo) (rbar_of hi))
  end.
(** _marcumq.py:8-10. *)
Definition integrand (x m a : val) : val :=
  let e2 := vexp (- (vpown x 2 + vpown a 2) / 2) in
  x * vpow (x / a) (m - 1) * e2 * vbesseli (m - 1) (a * x).
(** _marcumq.py:13-52. *)
Definition marcumq (m a b : val) : val :=
  IF a =? 0 THEN
    (IF m =? 1 THEN vexp (- vpown b 2 / 2) ELSE vgammainc_upper m (vpown b 2 / 2))
  ELSE IF (b =? 0) && (m >? 0) THEN Fin 1
  ELSE vquad (fun x => integrand x m a) b PInf.
(** _marcumq.py:69-90. *)
Definition cmarcumq (m a b : val) : val :=
  IF a =? 0 THEN
    (IF m =? 1 THEN - vexpm1 (- vpown b 2 / 2) ELSE vgammainc_lower m (vpown b 2 / 2))
  ELSE IF (b =? 0) && (m >? 0) THEN Fin 0
  ELSE vquad (fun x => integrand x m a) (Fin 0) b.
