(** Model of /repo/mpsci/distributions/truncnorm.py.  The end points may be infinite. *)
From Coq Require Import Reals List.
From Verif Require Import Values M_common M_sfun.
From Verif Require M_normal.
Import ListNotations.
Local Open Scope R_scope.
Local Open Scope val_scope.

(** truncnorm.py:19-22. *)
Definition validate {A} `{CanRaise A} (a b : val) (k : A) : A :=
  RIF a >=? b THEN raise ValueError ELSE k.
(** truncnorm.py:25-44; [mp.ncdf(x)] has the default arguments mu = 0, sigma = 1. *)
Definition norm_delta_cdf (a b : val) : val :=
  IF a =? b THEN Fin 0 ELSE
  IF (a =? NInf) && (b =? PInf) THEN Fin 1 ELSE
  IF a =? NInf THEN vncdf b (Fin 0) (Fin 1) ELSE
  IF b =? PInf THEN vncdf (- a) (Fin 0) (Fin 1) ELSE
  IF a >? Fin 0 THEN vncdf (- a) (Fin 0) (Fin 1) - vncdf (- b) (Fin 0) (Fin 1)
  ELSE vncdf b (Fin 0) (Fin 1) - vncdf a (Fin 0) (Fin 1).
(** truncnorm.py:47-57. *)
Definition pdf (x a b : val) : val :=
  validate a b
  (IF (x <? a) || (x >? b) THEN Fin 0 ELSE vnpdf x (Fin 0) (Fin 1) / norm_delta_cdf a b).
(** truncnorm.py:60-70; [normal.logpdf(x)] has the default arguments mu = 0, sigma = 1. *)
Definition logpdf (x a b : val) : val :=
  validate a b
  (IF (x <? a) || (x >? b) THEN NInf ELSE M_normal.logpdf x (Fin 0) (Fin 1) - vlog (norm_delta_cdf a b)).
(** truncnorm.py:73-84. *)
Definition cdf (x a b : val) : val :=
  validate a b
  (IF x <=? a THEN Fin 0 ELSE IF x >=? b THEN Fin 1 ELSE norm_delta_cdf a x / norm_delta_cdf a b).
(** truncnorm.py:87-98. *)
Definition sf (x a b : val) : val :=
  validate a b
  (IF x <=? a THEN Fin 1 ELSE IF x >=? b THEN Fin 0 ELSE norm_delta_cdf x b / norm_delta_cdf a b).
(** truncnorm.py:101-112. *)
Definition invcdf (p a b : val) : val :=
  validate_p p (validate a b
  (M_normal.invcdf (p * norm_delta_cdf a b + vncdf a (Fin 0) (Fin 1)) (Fin 0) (Fin 1))).
(** truncnorm.py:115-123. *)
Definition invsf (p a b : val) : val :=
  validate_p p (validate a b
  (M_normal.invcdf (- p * norm_delta_cdf a b + vncdf b (Fin 0) (Fin 1)) (Fin 0) (Fin 1))).
(** truncnorm.py:126-132. *)
Definition support (a b : val) : res (val * val) := validate a b (Ok (a, b)).
(** truncnorm.py:135-141. *)
Definition mean (a b : val) : val := validate a b (pdf a a b - pdf b a b).
(** truncnorm.py:144-150. *)
Definition median (a b : val) : val :=
  validate a b
  (M_normal.invcdf ((M_normal.cdf a (Fin 0) (Fin 1) + M_normal.cdf b (Fin 0) (Fin 1)) / Fin 2) (Fin 0) (Fin 1)).
(** truncnorm.py:153-162. *)
Definition mode (a b : val) : val :=
  validate a b (IF a >=? Fin 0 THEN a ELSE IF b <=? Fin 0 THEN b ELSE Fin 0).
(** truncnorm.py:165-176. *)
Definition var (a b : val) : val :=
  validate a b
  (let pa := pdf a a b in
   let pb := pdf b a b in
   let ta := IF pa =? Fin 0 THEN Fin 0 ELSE a * pa in
   let tb := IF pb =? Fin 0 THEN Fin 0 ELSE b * pb in
   Fin 1 + ta - tb - vpown (pa - pb) 2).
(** truncnorm.py:179-208.  [moments_loop] is the [for k in range(3, n+1)] loop, [j] rounds left. *)
Fixpoint moments_loop (a b : val) (j k : nat) (apa bpb : val) (result : list val) : list val :=
  match j with
  | O => result
  | S j' =>
      let apa' := a * apa in
      let bpb' := b * bpb in
      moments_loop a b j' (S k) apa' bpb'
        (result ++ [Fin (INR (k - 1)) * nth (k - 3) result (Exc IndexError) + apa' - bpb'])
  end.
Definition noncentral_moments (n : nat) (a b : val) : res (list val) :=
  validate a b
  (let pa := pdf a a b in
   let pb := pdf b a b in
   let a' := IF pa =? Fin 0 THEN Fin 0 ELSE a in
   let b' := IF pb =? Fin 0 THEN Fin 0 ELSE b in
   let apa := a' * pa in
   let bpb := b' * pb in
   let result := (pa - pb) :: (if Nat.leb 2 n then [Fin 1 + apa - bpb] else []) in
   Ok (moments_loop a' b' (n - 2) 3 apa bpb result)).
(** truncnorm.py:211-226.  Unpacking a list of another length would be a ValueError. *)
Definition skewness (a b : val) : val :=
  validate a b
  (bindr (noncentral_moments 3 a b) (fun ms =>
   match ms with
   | [m1; m2; m3] =>
       let mu2 := m2 - vpown m1 2 in
       let mu3 := m3 + m1 * (- Fin 3 * m2 + Fin 2 * vpown m1 2) in
       mu3 / vpow mu2 (Fin (3 / 2))
   | _ => raise ValueError
   end)).
(** truncnorm.py:229-244. *)
Definition kurtosis (a b : val) : val :=
  validate a b
  (bindr (noncentral_moments 4 a b) (fun ms =>
   match ms with
   | [m1; m2; m3; m4] =>
       let mu2 := m2 - vpown m1 2 in
       let mu4 := m4 + m1 * (- Fin 4 * m3 + Fin 3 * m1 * (Fin 2 * m2 - vpown m1 2)) in
       mu4 / vpown mu2 2 - Fin 3
   | _ => raise ValueError
   end)).
(** truncnorm.py:247-250. *)
Definition prod_x_npdfx (x : val) : val :=
  IF visinf x THEN Fin 0 ELSE x * vnpdf x (Fin 0) (Fin 1).
(** truncnorm.py:253-264. *)
Definition entropy (a b : val) : val :=
  validate a b
  (let delta := norm_delta_cdf a b in
   let t1 := (vlog (Fin 2 * vpi) + Fin 1) / Fin 2 + vlog delta in
   let s1 := prod_x_npdfx a in
   let s2 := prod_x_npdfx b in
   let t2 := (s1 - s2) / (Fin 2 * delta) in
   t1 + t2).
