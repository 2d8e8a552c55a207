(** Model of /repo/mpsci/distributions/poisson.py. *)
From Coq Require Import Reals List Bool ZArith.
From Verif Require Import Values SpecDisc M_common M_sfun M_disc.
From Verif Require M_basic.
Import ListNotations.
Local Open Scope R_scope.
Local Open Scope val_scope.

(** poisson.py:18-21 [_validate_lam] is [validate_positive]. *)
(** poisson.py:24-42. *)
Definition support (lam : val) : res isupport := validate_positive lam (Ok (Count 0)).
(** poisson.py:46-53. *)
Definition pmf (k lam : val) : val :=
  validate_positive lam
  (IF k <? 0 THEN Fin 0 ELSE vpow lam k * vexp (- lam) / vfactorial k).
(** poisson.py:57-64. *)
Definition logpmf (k lam : val) : val :=
  validate_positive lam
  (IF k <? 0 THEN NInf ELSE k * vlog lam - lam - vloggamma (k + 1)).
(** poisson.py:68-75. *)
Definition cdf (k lam : val) : val :=
  validate_positive lam
  (IF k <? 0 THEN Fin 0 ELSE vgammainc_upper (k + 1) lam).
(** poisson.py:79-86. *)
Definition sf (k lam : val) : val :=
  validate_positive lam
  (IF k <? 0 THEN Fin 1 ELSE vgammainc_lower (k + 1) lam).
(** poisson.py:90-95, 99-119, 123-128, 132-137, 141-146. *)
Definition mean (lam : val) : val := validate_positive lam lam.
Definition mode (lam : val) : val := validate_positive lam (vint (vceil lam) - 1).
Definition var (lam : val) : val := validate_positive lam lam.
Definition skewness (lam : val) : val := validate_positive lam (Fin 1 / vsqrt lam).
Definition kurtosis (lam : val) : val := validate_positive lam (Fin 1 / lam).
(** poisson.py:150-162. *)
Definition nll (x : list val) (lam : val) (counts : option (list val)) : val :=
  validate_positive lam
  (validate_x_bounds x (Some (Fin 0)) None false false
  (IF cnot (call (fun t => visint t && (t >=? 0)) x) THEN Exc ValueError ELSE
  (validate_counts x counts true (fun counts =>
   - vfsum (map (fun '(t, c) => c * logpmf t lam) (zip_counts x counts)))))).
(** poisson.py:166-176. *)
Definition mle (x : list val) (counts : option (list val)) : val :=
  validate_counts x counts false (fun counts => M_basic.mean x counts).
