(** Model of /repo/mpsci/fun/_digammainv.py. *)
From Coq Require Import Reals.
From Verif Require Import Values M_sfun.
Local Open Scope R_scope.
Local Open Scope val_scope.

(** _digammainv.py:43-56.  The literals 2.332 and 0.08661 stand for themselves instead of the nearest
    binary fractions; Euler's constant and mpmath.findroot (solver 'anderson') are parameters. *)
Definition digammainv (euler : val) (findroot : (val -> val) -> val * val -> val) (y : val) : val :=
  let x0 := IF y >? Fin (-1/8) THEN vexp y + Fin (1/2)
            ELSE IF y >? Fin (-3) THEN vexp (y / Fin (2332/1000)) + Fin (8661/100000)
            ELSE Fin (-1) / (y + euler) in
  bindv x0 (fun x0 => findroot (fun x => vdigamma x - y) (Fin 4 * x0 / Fin 5, Fin 5 * x0 / Fin 4)).
