(** Model of /repo/mpsci/distributions/gumbel_min.py.  Euler's constant
    ([mp.euler]) is an argument. *)
From Coq Require Import Reals List.
From Verif Require Import Values M_common M_basic.
Import ListNotations.
Local Open Scope R_scope.
Local Open Scope val_scope.

(** gumbel_min.py:35-42. *)
Definition logpdf (x loc scale : val) : val :=
  validate_loc_scale loc scale
  (let z := (x - loc) / scale in - (- z + vexp z) - vlog scale).
(** gumbel_min.py:26-31. *)
Definition pdf (x loc scale : val) : val :=
  validate_loc_scale loc scale (vexp (logpdf x loc scale)).
(** gumbel_min.py:46-53. *)
Definition cdf (x loc scale : val) : val :=
  validate_loc_scale loc scale
  (let z := (x - loc) / scale in - vexpm1 (- vexp z)).
(** gumbel_min.py:69-76. *)
Definition sf (x loc scale : val) : val :=
  validate_loc_scale loc scale
  (let z := (x - loc) / scale in vexp (- vexp z)).
(** gumbel_min.py:57-65. *)
Definition invcdf (p loc scale : val) : val :=
  validate_loc_scale loc scale (validate_p p
  (let z := vlog (- vlog1p (- p)) in scale * z + loc)).
(** gumbel_min.py:80-88. *)
Definition invsf (p loc scale : val) : val :=
  validate_loc_scale loc scale (validate_p p
  (let z := vlog (- vlog p) in scale * z + loc)).
(** gumbel_min.py:91-96. *)
Definition support (loc scale : val) : res (val * val) :=
  validate_loc_scale loc scale (Ok (NInf, PInf)).
(** gumbel_min.py:100-105, 108-113, 117-122. *)
Definition mean (euler loc scale : val) : val :=
  validate_loc_scale loc scale (loc - euler * scale).
Definition mode (loc scale : val) : val := validate_loc_scale loc scale loc.
Definition var (loc scale : val) : val :=
  validate_loc_scale loc scale (vpown vpi 2 / 6 * vpown scale 2).
(** gumbel_min.py:126-136. *)
Definition nll (x : list val) (loc scale : val) : val :=
  validate_loc_scale loc scale
  (let z := map (fun xi => (xi - loc) / scale) x in
   let t1 := vlen x * vlog scale in
   let t2 := - vfsum z in
   let t3 := vfsum (map (fun zi => vexp (zi)) z) in
   t1 + t2 + t3).
(** gumbel_min.py:139-143 [_mle_scale_func] and 183-186 [_mle_scale_with_fixed_loc]:
    the equations solved numerically for the scale. *)
Definition mle_scale_func (scale : val) (x : list val) (xbar : val) : val :=
  let emx := map (fun xi => vexp (xi / scale)) x in
  let s1 := vfsum (map (fun '(xi, e) => xi * e) (combine x emx)) in
  let s2 := vfsum emx in
  s2 * (xbar + scale) - s1.
Definition mle_scale_with_fixed_loc (scale : val) (x : list val) (loc : val) : val :=
  let z := map (fun xi => (xi - loc) / scale) x in
  let ez := map (fun zi => vexpm1 (zi) * zi) z in
  Fin 1 - M_basic.mean ez None.
(** gumbel_min.py:190-248 [mle] when the scale is given; the numerical solution for the
    scale ([mp.findroot]) is the argument [solve]. *)
Definition mle (solve : list val -> val) (solve_loc : list val -> val -> val)
    (x : list val) (loc scale : option val) : res (val * val) :=
  match loc, scale with
  | Some l, None => bindv (solve_loc x l) (fun s => Ok (l, s))
  | _, _ =>
    bindv (match scale with Some s => s | None => solve x end) (fun scale =>
    match loc with
    | Some l => Ok (l, scale)
    | None =>
        let ex := map (fun xi => vexp (xi / scale)) x in
        bindv (scale * vlog (M_basic.mean ex None)) (fun loc => Ok (loc, scale))
    end)
  end.
(** gumbel_min.py:252-264. *)
Definition mom (euler : val) (x : list val) : res (val * val) :=
  bindv (M_basic.mean x None) (fun M1 =>
  bindv (M_basic.mean (map (fun t => vpown t 2) x) None) (fun M2 =>
  let scale := vsqrt (6 * (M2 - vpown M1 2)) / vpi in
  bindv scale (fun scale =>
  bindv (M1 + scale * euler) (fun loc => Ok (loc, scale))))).
