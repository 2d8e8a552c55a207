(** The numbers representable with a given precision, and neighbours among them. *)
From Coq Require Import Reals ZArith.
Local Open Scope R_scope.

(** x = m * 2^e with a mantissa of at most prec bits; the exponent is unbounded. *)
Definition representable (prec : positive) (x : R) : Prop :=
  exists m e : Z, (Z.abs m < 2 ^ Zpos prec)%Z /\ x = IZR m * powerRZ 2 e.

(** l < h with no representable number between them. *)
Definition neighbours (prec : positive) (l h : R) : Prop :=
  representable prec l /\ representable prec h /\ l < h /\
  forall x, representable prec x -> ~ (l < x < h).
