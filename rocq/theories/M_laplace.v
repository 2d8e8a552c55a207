(** Model of /repo/mpsci/distributions/laplace.py. *)
From Coq Require Import Reals List.
From Verif Require Import Values M_common M_basic M_seq.
Import ListNotations.
Local Open Scope R_scope.
Local Open Scope val_scope.

(** laplace.py:23-29. *)
Definition pdf (x loc scale : val) : val :=
  validate_loc_scale loc scale (vexp (- vabs (x - loc) / scale) / (2 * scale)).
(** laplace.py:33-39. *)
Definition logpdf (x loc scale : val) : val :=
  validate_loc_scale loc scale (- vabs (x - loc) / scale - vlog (2 * scale)).
(** laplace.py:43-54. *)
Definition cdf (x loc scale : val) : val :=
  validate_loc_scale loc scale
  (let z := (x - loc) / scale in
   IF x <=? loc THEN vexp z / 2 ELSE 1 - vexp (- z) / 2).
(** laplace.py:58-69. *)
Definition sf (x loc scale : val) : val :=
  validate_loc_scale loc scale
  (let z := (x - loc) / scale in
   IF x <=? loc THEN 1 - vexp z / 2 ELSE vexp (- z) / 2).
(** laplace.py:73-101. *)
Definition interval_prob (x1 x2 loc scale : val) : val :=
  validate_loc_scale loc scale
  (IF x1 >? x2 THEN Exc ValueError
   ELSE IF x1 =? x2 THEN 0
   ELSE
   let z1 := (x1 - loc) / scale in
   let z2 := (x2 - loc) / scale in
   let delta := z2 - z1 in
   IF z2 <=? 0 THEN - vexp z2 * vexpm1 (- delta) / 2
   ELSE IF z1 >=? 0 THEN - vexp (- z1) * vexpm1 (- delta) / 2
   ELSE - (vexpm1 (- z2) + vexpm1 z1) / 2).
(** laplace.py:105-118. *)
Definition invcdf (p loc scale : val) : val :=
  validate_loc_scale loc scale
  (IF p <=? (1/2)%R THEN loc + scale * vlog (2 * p) ELSE loc - scale * vlog (Fin 2 - 2 * p)).
(** laplace.py:122-132. *)
Definition invsf (p loc scale : val) : val :=
  validate_loc_scale loc scale
  (IF p >=? (1/2)%R THEN loc + scale * vlog (Fin 2 - 2 * p) ELSE loc - scale * vlog (2 * p)).
(** laplace.py:136-141. *)
Definition support (loc scale : val) : res (val * val) :=
  validate_loc_scale loc scale (Ok (NInf, PInf)).
(** laplace.py:145-150, 153-160, 164-169. *)
Definition mean (loc scale : val) : val := validate_loc_scale loc scale loc.
Definition mode (loc scale : val) : val := validate_loc_scale loc scale loc.
Definition var (loc scale : val) : val := validate_loc_scale loc scale (2 * vpown scale 2).
(** laplace.py:173-224 [mle].  The sort and middle element(s) of lines 200-210 are
    [M_seq.median], which has the same cases for a nonempty sample; [x[-1]] of an empty one is an
    IndexError. *)
Definition mle (x : list R) (loc scale : option val) : res (val * val) :=
  bindv (match loc with Some l => l | None => match x with [] => Exc IndexError | _ => median x end end) (fun loc_est =>
  let scale_est :=
    match scale with
    | Some s => IF s <=? 0 THEN Exc ValueError ELSE s
    | None => M_basic.mean (map (fun t => vabs (t - loc_est)) (map Fin x)) None
    end in
  bindv scale_est (fun s => Ok (loc_est, s))).
(** laplace.py:228-238. *)
Definition mom (x : list val) : res (val * val) :=
  bindv (M_basic.mean x None) (fun M1 =>
  bindv (M_basic.mean (map (fun t => vpown t 2) x) None) (fun M2 =>
  bindv (vsqrt ((M2 - vpown M1 2) / 2)) (fun s => Ok (M1, s)))).
