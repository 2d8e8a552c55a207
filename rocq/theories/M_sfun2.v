(** Further functions of mpmath, on the values of the model. *)
From Coq Require Import Reals.
From Verif Require Import Values SFun2.
Local Open Scope R_scope.

(** [mp.e1]; only used for x > 0 (for x < 0 the value is not real). *)
Definition ve1 (a : val) : val :=
  match a with
  | Fin x => if Rltb 0 x then Fin (E1 x) else if Reqb x 0 then PInf else Exc NonReal
  | PInf => Fin 0 | NInf => NInf | v => v
  end.
(** [mp.lambertw], principal branch; not real below -1/e.  Used in genexpon.py and benktander2.py,
    where the result has type mpf because the argument is at least -1/e. *)
Definition vlambertw (a : val) : val :=
  match a with
  | Fin x => if Rltb x (- exp (- 1)) then Exc NonReal else Fin (LambertW x)
  | NInf => Exc NonReal | v => v
  end.
(** [mp.cot] is 1/tan: ZeroDivisionError where the sine vanishes.  At a multiple of pi other than
    0 the floating-point argument is not exact and mpmath returns a huge number instead. *)
Definition vcot (a : val) : val :=
  match a with
  | Fin x => if Reqb (sin x) 0 then Exc ZeroDivisionError else Fin (cos x / sin x)
  | Exc e => Exc e | _ => NaN
  end.
(** [mp.atan2(1, x)]: the angle in (0, pi) of the vector (x, 1). *)
Definition vatan2_1 (a : val) : val :=
  match a with
  | Fin x => Fin (PI / 2 - atan x) | PInf => Fin 0 | NInf => Fin PI | v => v
  end.
