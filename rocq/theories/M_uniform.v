(** Model of /repo/mpsci/distributions/uniform.py. *)
From Coq Require Import Reals List.
From Verif Require Import Values M_common.
Import ListNotations.
Local Open Scope R_scope.
Local Open Scope val_scope.

(** uniform.py:19-22 [_validate]. *)
Definition validate {A} `{CanRaise A} (a b : val) (k : A) : A :=
  RIF a >=? b THEN raise ValueError ELSE k.

(** uniform.py:25-34. *)
Definition pdf (x a b : val) : val :=
  validate a b
  (IF (x <? a) || (x >? b) THEN 0 ELSE 1 / (b - a)).

(** uniform.py:37-46. *)
Definition logpdf (x a b : val) : val :=
  validate a b
  (IF (x <? a) || (x >? b) THEN NInf ELSE - vlog (b - a)).

(** uniform.py:49-61. *)
Definition cdf (x a b : val) : val :=
  validate a b
  (IF x <? a THEN 0 ELSE IF x >? b THEN 1 ELSE (x - a) / (b - a)).

(** uniform.py:64-76. *)
Definition sf (x a b : val) : val :=
  validate a b
  (IF x <? a THEN 1 ELSE IF x >? b THEN 0 ELSE (b - x) / (b - a)).

(** uniform.py:79-90. *)
Definition invcdf (p a b : val) : val :=
  validate_p p (validate a b (a + p * (b - a))).

(** uniform.py:93-101. *)
Definition invsf (p a b : val) : val :=
  validate_p p (validate a b (b - p * (b - a))).

(** uniform.py:104-110. *)
Definition support (a b : val) : res (val * val) := validate a b (Ok (a, b)).

(** uniform.py:113-119, 122-128. *)
Definition mean (a b : val) : val := validate a b ((a + b) / 2).
Definition median (a b : val) : val := validate a b ((a + b) / 2).

(** uniform.py:131-137. *)
Definition var (a b : val) : val := validate a b (vpown (b - a) 2 / 12).

(** uniform.py:140-146. *)
Definition entropy (a b : val) : val := validate a b (vlog (b - a)).

(** uniform.py:149-160; [n] has passed [_validate_moment_n] (a nonnegative integer). *)
Definition noncentral_moment (n : nat) (a b : val) : val :=
  validate a b
  (if Nat.eqb n 0 then Fin 1
   else vfsum (map (fun i => vpown a i * vpown b (n - i)) (seq 0 (n + 1))) / (Fin (INR n) + 1)).
