(** Textbook definitions of a few complex functions on pairs (real part, imaginary part): quotient,
    argument, principal square root and principal arctangent.  Independent of the model of mpsci. *)
From Coq Require Import Reals.
Local Open Scope R_scope.

Definition cplx := (R * R)%type.
Definition cdivide (z w : cplx) : cplx :=
  let n := fst w ^ 2 + snd w ^ 2 in
  ((fst z * fst w + snd z * snd w) / n, (snd z * fst w - fst z * snd w) / n).
(** the angle of x + iy, in (-pi, pi] *)
Definition carg (x y : R) : R :=
  if Rlt_dec 0 y then PI / 2 - atan (x / y) else
  if Rlt_dec y 0 then - (PI / 2) - atan (x / y) else
  if Rlt_dec x 0 then PI else 0.
(** the square root with nonnegative real part *)
Definition csqroot (z : cplx) : cplx :=
  let m := sqrt (fst z ^ 2 + snd z ^ 2) in
  (sqrt ((m + fst z) / 2), if Rlt_dec (snd z) 0 then - sqrt ((m - fst z) / 2) else sqrt ((m - fst z) / 2)).
(** atan z = (log (1 + iz) - log (1 - iz)) / 2i *)
Definition catan (z : cplx) : cplx :=
  let x := fst z in let y := snd z in
  ((carg (1 - y) x - carg (1 + y) (- x)) / 2, (ln ((1 + y) ^ 2 + x ^ 2) - ln ((1 - y) ^ 2 + x ^ 2)) / 4).
