(** Model of /repo/mpsci/distributions/hypsecant.py. *)
From Coq Require Import Reals List.
From Verif Require Import Values M_common M_basic.
Import ListNotations.
Local Open Scope R_scope.
Local Open Scope val_scope.

(** hypsecant.py:31-37. *)
Definition pdf (x loc scale : val) : val :=
  validate_loc_scale loc scale (let z := (x - loc) / scale in vsech z / vpi / scale).
(** hypsecant.py:40-46. *)
Definition logpdf (x loc scale : val) : val := vlog (pdf x loc scale).
(** hypsecant.py:50-56. *)
Definition cdf (x loc scale : val) : val :=
  validate_loc_scale loc scale (let z := (x - loc) / scale in Fin 2 / vpi * vatan (vexp z)).
(** hypsecant.py:60-66. *)
Definition sf (x loc scale : val) : val :=
  validate_loc_scale loc scale (let z := (x - loc) / scale in Fin 2 / vpi * vatan (vexp (- z))).
(** hypsecant.py:70-79. *)
Definition invcdf (p loc scale : val) : val :=
  validate_loc_scale loc scale (validate_p p (loc + scale * vlog (vtan (vpi * p / 2)))).
(** hypsecant.py:83-89. *)
Definition invsf (p loc scale : val) : val :=
  validate_loc_scale loc scale (validate_p p (loc - scale * vlog (vtan (vpi * p / 2)))).
(** hypsecant.py:92-97. *)
Definition support (loc scale : val) : res (val * val) := validate_loc_scale loc scale (Ok (NInf, PInf)).
(** hypsecant.py:100-105. *)
Definition mean (loc scale : val) : val := validate_loc_scale loc scale loc.
(** hypsecant.py:108-115. *)
Definition mode (loc scale : val) : val := validate_loc_scale loc scale loc.
(** hypsecant.py:119-124. *)
Definition var (loc scale : val) : val := validate_loc_scale loc scale (vpown (vpi / 2 * scale) 2).
(** hypsecant.py:128-133. *)
Definition entropy (loc scale : val) : val := validate_loc_scale loc scale (vlog (2 * vpi) + vlog scale).
(** hypsecant.py:137-145.  [_validate_x_bounds(x)] without bounds accepts every list. *)
Definition nll (x : list val) (loc scale : val) : val :=
  validate_loc_scale loc scale
  (validate_x_bounds x None None true true (- vfsum (map (fun t => logpdf t loc scale) x))).
(** hypsecant.py:169-174, 184-185, 199-202: the likelihood equations. *)
Definition mle_loc_eqn (x : list val) (scale loc : val) : val :=
  vfsum (map (fun t => vtanh ((t - loc) / scale)) x).
Definition mle_scale_eqn (x : list val) (loc scale : val) : val :=
  vfsum (map (fun t => (t - loc) * vtanh ((t - loc) / scale) / scale) x) - vlen x.
(** hypsecant.py:149-209 [mle].  [loc], [scale]: [Some] when given; [loc0], [scale0] are the values
    wrapped in [Initial], if any.  [findroot1] and [findroot2] are [mp.findroot] for one equation
    and for a system of two. *)
Definition mle (findroot1 : (val -> val) -> val -> val) (findroot2 : (val -> val -> val * val) -> val * val -> res (val * val))
    (loc0 scale0 : option val) (x : list val) (loc scale : option val) : res (val * val) :=
  validate_x_bounds x None None true true
  (match loc, scale with
   | None, None =>
       bindv (match loc0 with None => M_basic.mean x None | Some l => l end) (fun l0 =>
       bindv (match scale0 with None => M_basic.std x 0 | Some s => s end) (fun s0 =>
       findroot2 (fun loc scale => (mle_loc_eqn x scale loc, mle_scale_eqn x loc scale)) (l0, s0)))
   | None, Some s =>
       bindv (match loc0 with None => M_basic.mean x None | Some l => l end) (fun l0 =>
       validate_loc_scale l0 s
       (bindv (findroot1 (mle_loc_eqn x s) l0) (fun l => Ok (l, s))))
   | Some l, None =>
       bindv (match scale0 with None => M_basic.std (map (fun t => t - l) x) 0 | Some s => s end) (fun s0 =>
       validate_loc_scale l s0
       (bindv (findroot1 (mle_scale_eqn x l) s0) (fun s => Ok (l, s))))
   | Some l, Some s => validate_loc_scale l s (Ok (l, s))
   end).
