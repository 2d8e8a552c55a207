(** Model of /repo/mpsci/distributions/dirichlet.py. *)
From Coq Require Import Reals List Bool Arith.
From Verif Require Import Values M_common M_sfun M_fun.
Import ListNotations.
Local Open Scope R_scope.
Local Open Scope val_scope.

(** dirichlet.py:16-20 [_validate_alpha]. *)
Definition validate_alpha {A} `{CanRaise A} (alpha : list val) (cont : A) : A :=
  RIF cany (fun a => a <=? 0) alpha THEN raise ValueError ELSE cont.
(** mpmath.almosteq(s, t) with rel_eps = abs_eps = eps (mpmath: 2**(-prec + 4)), for t = 1. *)
Definition almosteq1 (eps : R) (s : val) : cond :=
  match s with
  | Fin x => CB (if Rleb (Rabs (x - 1)) eps then true
                 else Rleb (Rabs (x - 1) / (if Rltb (Rabs x) 1 then 1 else Rabs x)) eps)
  | Exc e => CE e
  | _ => CB false
  end.
(** dirichlet.py:23-32 [_validate_x]. *)
Definition validate_x {A} `{CanRaise A} (eps : R) (x : list val) (cont : A) : A :=
  RIF cany (fun t => t <? 0) x THEN raise ValueError ELSE
  RIF cnot (almosteq1 eps (vfsum x)) THEN raise ValueError ELSE cont.
(** dirichlet.py:35-40 [_validate_x_alpha]. *)
Definition validate_x_alpha {A} `{CanRaise A} (eps : R) (x alpha : list val) (cont : A) : A :=
  validate_alpha alpha (validate_x eps x
  (if Nat.eqb (length alpha) (length x) then cont else raise ValueError)).
(** dirichlet.py:43-52; the exponent of a zero entry with alpha = 1 is handled by xlogy. *)
Definition logpdf (eps : R) (x alpha : list val) : val :=
  validate_x_alpha eps x alpha
  (bindv (multivariate_logbeta vloggamma alpha) (fun b =>
   vfsum (map (fun '(t, a) => xlogy (a - 1) t) (combine x alpha) ++ [- b]))).
(** dirichlet.py:55-59. *)
Definition pdf (eps : R) (x alpha : list val) : val := vexp (logpdf eps x alpha).
(** dirichlet.py:62-69. *)
Definition mean (alpha : list val) : res (list val) :=
  validate_alpha alpha (let a0 := vfsum alpha in Ok (map (fun a => a / a0) alpha)).
(** mp.matrix(n): an n by n matrix of zeros with assignable entries. *)
Definition mat := nat -> nat -> val.
Definition assign (m : mat) (i j : nat) (v : val) : mat := fun i' j' => if (Nat.eqb i' i && Nat.eqb j' j)%bool then v else m i' j'.
(** dirichlet.py:85-88: the body of the outer loop; the inner loop runs over [i+1, n). *)
Definition cov_row (a0 : val) (r : list val) (n : nat) (m : mat) (i : nat) : mat :=
  let m := assign m i i (nth i r NaN * (Fin 1 - nth i r NaN) / (a0 + 1)) in
  fold_left (fun m j => let m := assign m i j (- nth i r NaN * nth j r NaN / (a0 + 1)) in assign m j i (m i j)) (seq (S i) (n - S i)) m.
(** dirichlet.py:72-90. *)
Definition cov (alpha : list val) : res (nat * mat) :=
  validate_alpha alpha
  (let n := length alpha in
   let a0 := vfsum alpha in
   let r := map (fun a => a / a0) alpha in
   Ok (n, fold_left (cov_row a0 r n) (seq 0 n) (fun _ _ => Fin 0))).
(** dirichlet.py:93-103. *)
Definition entropy (alpha : list val) : val :=
  validate_alpha alpha
  (let a0 := vfsum alpha in
   let lb := multivariate_logbeta vloggamma alpha in
   let d := (a0 - Fin (INR (length alpha))) * vdigamma a0 in
   vfsum ([lb; d] ++ map (fun a => - (a - 1) * vdigamma a) alpha)).
