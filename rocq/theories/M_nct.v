(** Model of /repo/mpsci/distributions/nct.py, without [pdf] and [logpdf] (infinite series
    summed by mpmath.nsum). *)
From Coq Require Import Reals List ZArith.
From Verif Require Import Values M_common M_sfun.
Import ListNotations.
Local Open Scope R_scope.
Local Open Scope val_scope.

(** nct.py:94-98. *)
Definition support (df nc : val) : val * val := (NInf, PInf).
(** nct.py:102-113. *)
Definition mean (df nc : val) : val :=
  vexp (vlog nc + vlog (df / 2) / 2 + vloggamma ((df - 1) / 2) - vloggamma (df / 2)).
(** nct.py:117-125. *)
Definition var (df nc : val) : val :=
  let c := vexp (vloggamma ((df - 1) / 2) - vloggamma (df / 2)) in
  df / (df - 2) * (1 + vpown nc 2) - df / 2 * vpown nc 2 * vpown c 2.
(** nct.py:142-144: one round of the loop.  [combine] is Python's zip and [firstn (len c - 2) c]
    is c[:-2]. *)
Definition poly_step (c : list Z) : list Z :=
  (map (fun '(a, b) => a + b)
     (combine (map (fun '(i, j) => i * j) (combine (map Z.of_nat (seq 1 (length (tl c)))) (tl c)))
              (0 :: firstn (length c - 2) c)) ++ [0; 1])%Z.
(** nct.py:128-145 [_poly_coeffs]; the loop runs k - 1 times. *)
Definition poly_coeffs (k : nat) : list Z :=
  match k with O => [1%Z] | S j => Nat.iter j poly_step [0%Z; 1%Z] end.
(** mpmath.polyval(coeffs, x): Horner, highest power first. *)
Fixpoint polyval (acc : val) (cs : list Z) (x : val) : val :=
  match cs with [] => acc | c :: cs => polyval (Fin (IZR c) + x * acc) cs x end.
(** nct.py:148-169; [n] has passed [_validate_moment_n].  The two branches on the mpmath version
    evaluate the same polynomial. *)
Definition noncentral_moment (n : nat) (df nc : val) : val :=
  IF df <=? Fin (INR n) THEN NaN ELSE
  let c := poly_coeffs n in
  let pval := polyval 0 (rev c) nc in
  vexp (Fin (INR n / 2) * vlog (df / 2) + vloggamma ((df - Fin (INR n)) / 2) - vloggamma (df / 2)) * pval.
