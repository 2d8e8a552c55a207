(** Model of /repo/mpsci/distributions/chi.py. *)
From Coq Require Import Reals List.
From Verif Require Import Values M_common SFun M_sfun.
Import ListNotations.
Local Open Scope R_scope.
Local Open Scope val_scope.

(** chi.py:15-18. *)
Definition validate_k {A} `{CanRaise A} (k : val) (c : A) : A := RIF k <=? 0 THEN raise ValueError ELSE c.
(** chi.py:51-62. *)
Definition logpdf (x k : val) : val :=
  validate_k k
  (IF x <? 0 THEN NInf ELSE
   (k - Fin 1) * vlog x - vpown x 2 / Fin 2 - (k / Fin 2 - Fin 1) * vlog (Fin 2) - vloggamma (k / Fin 2)).
(** chi.py:21-35. *)
Definition pdf (x k : val) : val := validate_k k (IF x <? 0 THEN 0 ELSE vexp (logpdf x k)).
(** chi.py:65-75. *)
Definition cdf (x k : val) : val :=
  validate_k k (IF x <=? 0 THEN 0 ELSE vgammainc_lower (k / Fin 2) (vpown x 2 / Fin 2)).
(** chi.py:78-88. *)
Definition sf (x k : val) : val :=
  validate_k k (IF x <=? 0 THEN 1 ELSE vgammainc_upper (k / Fin 2) (vpown x 2 / Fin 2)).
(** chi.py:91-96. *)
Definition support (k : val) : res (val * val) := validate_k k (Ok (Fin 0, PInf)).
(** chi.py:99-111. *)
Definition mode (k : val) : val := validate_k k (IF k <? 1 THEN 0 ELSE vsqrt (k - Fin 1)).
(** chi.py:121-127, 130-137. *)
Definition mean (k : val) : val :=
  validate_k k (vsqrt (Fin 2) * vgamma ((k + Fin 1) / Fin 2) / vgamma (k / Fin 2)).
Definition var (k : val) : val := validate_k k (let mu := mean k in k - vpown mu 2).
(** chi.py:140-147. *)
Definition entropy (k : val) : val :=
  validate_k k
  (let k2 := k / Fin 2 in
   vloggamma k2 + (k - vlog (Fin 2) - (k - Fin 1) * vdigamma k2) / Fin 2).
(** chi.py:150-161; [n] has passed [_validate_moment_n].  gammaprod([(n+k)/2], [k/2]) with k > 0. *)
Definition noncentral_moment (n : nat) (k : val) : val :=
  validate_k k
  (if Nat.eqb n 0 then Fin 1
   else vpow (Fin 2) (Fin (INR n / 2)) * (vgamma ((Fin (INR n) + k) / Fin 2) / vgamma (k / Fin 2))).
