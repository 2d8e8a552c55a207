(** Model of /repo/mpsci/distributions/pareto.py. *)
From Coq Require Import Reals List.
From Verif Require Import Values M_common M_fun.
Import ListNotations.
Local Open Scope R_scope.
Local Open Scope val_scope.

(** pareto.py:24-29 [_validate_params]. *)
Definition validate {A} `{CanRaise A} (b loc scale : val) (k : A) : A :=
  validate_positive b (validate_positive scale k).
(** pareto.py:33-44. *)
Definition pdf (x b loc scale : val) : val :=
  validate b loc scale
  (let lb := loc + scale in
   IF x <? lb THEN 0
   ELSE let z := (x - loc) / scale in b * vpow z (- b - 1) / scale).
(** pareto.py:48-59. *)
Definition logpdf (x b loc scale : val) : val :=
  validate b loc scale
  (let lb := loc + scale in
   IF x <? lb THEN NInf
   ELSE vlog b - (b + 1) * vlog (x - loc) + b * vlog scale).
(** pareto.py:63-74. *)
Definition cdf (x b loc scale : val) : val :=
  validate b loc scale
  (let lb := loc + scale in
   IF x <? lb THEN 0
   ELSE let z := (x - loc) / scale in - vpowm1 z (- b)).
(** pareto.py:78-85. *)
Definition invcdf (p b loc scale : val) : val :=
  validate b loc scale (validate_p p (loc + scale * inv_powm1 (- p) (- b))).
(** pareto.py:89-100. *)
Definition sf (x b loc scale : val) : val :=
  validate b loc scale
  (let lb := loc + scale in
   IF x <? lb THEN 1
   ELSE let z := (x - loc) / scale in vpow z (- b)).
(** pareto.py:104-111. *)
Definition invsf (p b loc scale : val) : val :=
  validate b loc scale (validate_p p (loc + scale * vpow p ((-1)%R / b))).
(** pareto.py:115-121. *)
Definition support (b loc scale : val) : res (val * val) :=
  validate b loc scale (bindv (loc + scale) (fun lo => Ok (lo, PInf))).
(** pareto.py:125-133. *)
Definition mean (b loc scale : val) : val :=
  validate b loc scale (IF b <=? 1 THEN PInf ELSE loc + scale * b / (b - 1)).
(** pareto.py:137-145. *)
Definition var (b loc scale : val) : val :=
  validate b loc scale (IF b <=? 2 THEN NaN ELSE vpown scale 2 * b / vpown (b - 1) 2 / (b - 2)).
(** pareto.py:149-154. *)
Definition entropy (b loc scale : val) : val :=
  validate b loc scale (1 + 1 / b + vlog (scale / b)).
(** pareto.py:158-168. *)
Definition nll (x : list val) (b loc scale : val) : val :=
  validate b loc scale (validate_x_bounds x (Some (loc + scale)) None false false
  (- vfsum (map (fun t => logpdf t b loc scale) x))).
(** pareto.py:176-265 [mle].  [None] is a free parameter (no initial guess); the two cases that
    call [mp.findroot] take the root from the arguments [solve1], [solve2]. *)
Definition mle (solve1 : val -> val -> val) (solve2 : val * val)
    (x : list val) (b loc scale : option val) : res (val * val * val) :=
  let n := vlen x in
  match b, loc, scale with
  | Some b, Some loc, Some scale =>
      validate b loc scale
      (validate_x_bounds x (Some (loc + scale)) (Some PInf) false false (Ok (b, loc, scale)))
  | None, None, None =>
      validate_x_bounds x (Some NInf) (Some PInf) false false
      (bindv (vminl x) (fun x1 =>
       let '(b_hat, scale_hat) := solve2 in
       bindv b_hat (fun b_hat => bindv scale_hat (fun scale_hat =>
       bindv (x1 - scale_hat) (fun loc_hat => Ok (b_hat, loc_hat, scale_hat))))))
  | None, Some loc, None =>
      validate_x_bounds x (Some loc) (Some PInf) false false
      (bindv (vminl x) (fun x1 =>
       bindv (x1 - loc) (fun scale_hat =>
       bindv (vfsum (map (fun t => vlog (t - loc)) x)) (fun s1 =>
       bindv (1 / (s1 / n - vlog scale_hat)) (fun b_hat => Ok (b_hat, loc, scale_hat))))))
  | None, _, Some scale =>
      validate 1 1 scale
      (validate_x_bounds x (Some NInf) (Some PInf) false false
      (bindv (vminl x) (fun x1 =>
       bindv (x1 - scale) (fun loc_hat =>
       bindv (vfsum (map (fun t => vlog (t - loc_hat)) x)) (fun s1 =>
       bindv (1 / (s1 / n - vlog scale)) (fun b_hat => Ok (b_hat, loc_hat, scale)))))))
  | Some b, None, None =>
      validate b 0 1
      (validate_x_bounds x (Some NInf) (Some PInf) false false
      (bindv (vminl x) (fun x1 =>
       bindv (solve1 b x1) (fun scale_hat =>
       bindv (x1 - scale_hat) (fun loc_hat => Ok (b, loc_hat, scale_hat))))))
  | Some b, Some loc, None =>
      validate b loc 1
      (validate_x_bounds x (Some loc) (Some PInf) false false
      (bindv (vminl x) (fun x1 =>
       bindv (x1 - loc) (fun scale_hat => Ok (b, loc, scale_hat)))))
  | Some b, None, Some scale =>
      validate b 0 scale
      (bindv (vminl x) (fun x1 =>
       bindv (x1 - scale) (fun loc_hat => Ok (b, loc_hat, scale))))
  end.
