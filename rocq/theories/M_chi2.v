(** Model of /repo/mpsci/distributions/chi2.py. *)
From Coq Require Import Reals List ZArith.
From Verif Require Import Values M_common SFun M_sfun M_bracket.
Import ListNotations.
Local Open Scope R_scope.
Local Open Scope val_scope.

(** chi2.py:16-19. *)
Definition validate_k {A} `{CanRaise A} (k : val) (c : A) : A := RIF k <=? 0 THEN raise ValueError ELSE c.
(** chi2.py:23-32. *)
Definition pdf (x k : val) : val :=
  validate_k k
  (IF x <? 0 THEN 0 ELSE vexp (- x / Fin 2) * vpow (x / Fin 2) (k / Fin 2 - Fin 1) / Fin 2 / vgamma (k / Fin 2)).
(** chi2.py:36-45. *)
Definition logpdf (x k : val) : val :=
  validate_k k
  (IF x <? 0 THEN NInf ELSE
   - x / Fin 2 + (k / Fin 2 - Fin 1) * vlog (x / Fin 2) - vlog (Fin 2) - vloggamma (k / Fin 2)).
(** chi2.py:49-58. *)
Definition cdf (x k : val) : val :=
  validate_k k (IF x <=? 0 THEN 0 ELSE vgammainc_lower (k / Fin 2) (x / Fin 2)).
(** chi2.py:94-103. *)
Definition sf (x k : val) : val :=
  validate_k k (IF x <=? 0 THEN 1 ELSE vgammainc_upper (k / Fin 2) (x / Fin 2)).
(** chi2.py:61-75, 106-120, with one of the bracketing solvers ('bisect' by default); [fuel] bounds the
    loops of the bracket search. *)
Definition invcdf (findroot : (val -> val) -> val * val -> val) (fuel : nat) (p k : val) : val :=
  generic_inv fuel findroot (fun x => cdf x k) p 1%Z.
Definition invsf (findroot : (val -> val) -> val * val -> val) (fuel : nat) (p k : val) : val :=
  generic_inv fuel findroot (fun x => sf x k) p (-1)%Z.
(** chi2.py:78-90, 123-135. *)
Definition invcdf_k (findroot : (val -> val) -> val * val -> val) (fuel : nat) (x p : val) : val :=
  generic_inv fuel findroot (fun k => cdf x k) p (-1)%Z.
Definition invsf_k (findroot : (val -> val) -> val * val -> val) (fuel : nat) (x p : val) : val :=
  generic_inv fuel findroot (fun k => sf x k) p 1%Z.
(** chi2.py:138-143. *)
Definition support (k : val) : res (val * val) := validate_k k (Ok (Fin 0, PInf)).
(** chi2.py:146-151, 155-162, 166-171. *)
Definition mean (k : val) : val := validate_k k k.
Definition mode (k : val) : val := validate_k k (vmax2 (k - Fin 2) (Fin 0)).
Definition var (k : val) : val := validate_k k (Fin 2 * k).
(** chi2.py:175-181. *)
Definition entropy (k : val) : val :=
  validate_k k
  (let k2 := k / Fin 2 in k2 + vlog (Fin 2) + vloggamma k2 + (Fin 1 - k2) * vdigamma k2).
(** chi2.py:185-195; [n] has passed [_validate_moment_n].  gammaprod([n+k/2], [k/2]) with k > 0. *)
Definition noncentral_moment (n : nat) (k : val) : val :=
  validate_k k
  (if Nat.eqb n 0 then Fin 1 else vpown (Fin 2) n * (vgamma (Fin (INR n) + k / Fin 2) / vgamma (k / Fin 2))).
