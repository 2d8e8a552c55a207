(** mpmath.hyp2f1 (a library function called by mpsci) on real arguments with 0 < a < c or 0 < b < c, and
    z < 1.  Outside this range the model has no value for it and says [NonReal]. *)
From Coq Require Import Reals.
From Verif Require Import Values SFun SFun3.
Local Open Scope R_scope.

Definition vhyp2f1 (a b c z : val) : val :=
  match a, b, c, z with
  | Exc e, _, _, _ | _, Exc e, _, _ | _, _, Exc e, _ | _, _, _, Exc e => Exc e
  | Fin a, Fin b, Fin c, Fin z =>
      if Rltb z 1 then
        if Rltb 0 a then if Rltb a c then Fin (hyp2f1 a b c z) else
          if Rltb 0 b then if Rltb b c then Fin (hyp2f1 b a c z) else Exc NonReal else Exc NonReal
        else if Rltb 0 b then if Rltb b c then Fin (hyp2f1 b a c z) else Exc NonReal else Exc NonReal
      else Exc NonReal
  | NaN, _, _, _ | _, NaN, _, _ | _, _, NaN, _ | _, _, _, NaN => NaN
  | _, _, _, _ => Exc NonReal
  end.
