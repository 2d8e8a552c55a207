(** The Newton iteration written out in invgamma.invcdf/invsf (invgamma.py:88-95, 122-129) and
    invgauss.invcdf/invsf (invgauss.py:131-138, 182-189), and mpmath's almosteq. *)
From Coq Require Import Reals ZArith.
From Verif Require Import Values.
Local Open Scope R_scope.
Local Open Scope val_scope.

(** mpmath.almosteq(s, t) with its default tolerances at [prec] bits: eps = 2^(4-prec) bounds
    the absolute or else the relative difference. *)
Definition almosteq (prec : Z) (s t : val) : cond :=
  let eps := Fin (powerRZ 2 (4 - prec)) in
  let diff := vabs (s - t) in
  cor (diff <=? eps) (diff / vmax2 (vabs s) (vabs t) <=? eps).
(** The loop [while True: x1 = step(x0); if almosteq(x1, x0): break; x0 = x1] and the final
    [return x1].  Simplified: [step] is evaluated in exact arithmetic.  [NonTermination] when
    [fuel] passes were not enough. *)
Fixpoint newton (prec : Z) (fuel : nat) (step : val -> val) (x0 : val) : val :=
  match fuel with
  | O => Exc NonTermination
  | S n => let x1 := step x0 in
           IF almosteq prec x1 x0 THEN x1 ELSE newton prec n step x1
  end.
