(** Model of /repo/mpsci/distributions/weibull_max.py.  [gam] is [mp.gamma],
    [euler] is [mp.euler]. *)
From Coq Require Import Reals List ZArith.
From Verif Require Import Values M_common M_basic M_weibull_common.
Import ListNotations.
Local Open Scope R_scope.
Local Open Scope val_scope.

(** weibull_max.py:62-82. *)
Definition logpdf (x k loc scale : val) : val :=
  validate_params k loc scale
  (IF x =? loc THEN
     IF k <? 1 THEN PInf ELSE IF k =? 1 THEN - vlog scale ELSE NInf
   ELSE IF x >? loc THEN NInf
   ELSE let z := (x - loc) / scale in
     vlog k - k * vlog scale + (k - 1) * vlog (- x + loc) - vpow (- z) k).
(** weibull_max.py:40-58. *)
Definition pdf (x k loc scale : val) : val :=
  validate_params k loc scale
  (IF x =? loc THEN
     IF k <? 1 THEN PInf ELSE IF k =? 1 THEN 1 / scale ELSE 0
   ELSE IF x >? loc THEN 0
   ELSE vexp (logpdf x k loc scale)).
(** weibull_max.py:86-98. *)
Definition cdf (x k loc scale : val) : val :=
  validate_params k loc scale
  (IF x >=? loc THEN 1
   ELSE let z := (x - loc) / scale in vexp (- vpow (- z) k)).
(** weibull_max.py:117-129. *)
Definition sf (x k loc scale : val) : val :=
  validate_params k loc scale
  (IF x >=? loc THEN 0
   ELSE let z := (x - loc) / scale in - vexpm1 (- vpow (- z) k)).
(** weibull_max.py:102-113. *)
Definition invcdf (p k loc scale : val) : val :=
  validate_p p (validate_params k loc scale
  (let z := - vpow (- vlog p) (1 / k) in scale * z + loc)).
(** weibull_max.py:133-144. *)
Definition invsf (p k loc scale : val) : val :=
  validate_p p (validate_params k loc scale
  (let z := - vpow (- vlog1p (- p)) (1 / k) in scale * z + loc)).
(** weibull_max.py:148-156. *)
Definition support (k loc scale : val) : res (val * val) :=
  validate_params k loc scale (Ok (NInf, loc)).
(** weibull_max.py:160-169. *)
Definition mode (k loc scale : val) : val :=
  validate_params k loc scale
  (let m := IF k >? 1 THEN scale * vpow ((k - 1) / k) (1 / k) ELSE 0 in
   loc - m).

Section Gamma.
Variables (gam : val -> val) (euler : val).
(** weibull_max.py:173-181. *)
Definition mean (k loc scale : val) : val :=
  validate_params k loc scale (loc - scale * gam (1 + 1 / k)).
(** weibull_max.py:185-195. *)
Definition var (k loc scale : val) : val :=
  validate_params k loc scale
  (let v1 := 1 + 1 / k in
   let v2 := 1 + 2 / k in
   vpown scale 2 * (gam v2 - vpown (gam v1) 2)).
(** weibull_max.py:199-210. *)
Definition skewness (k loc scale : val) : val :=
  validate_params k loc scale
  (let g1 := gam (1 + 1 / k) in
   let g2 := gam (1 + 2 / k) in
   let g3 := gam (1 + 3 / k) in
   - (g3 - 3 * g1 * g2 + 2 * vpown g1 3) / vpow (g2 - vpown g1 2) (3/2)%R).
(** weibull_max.py:214-227. *)
Definition kurtosis (k loc scale : val) : val :=
  validate_params k loc scale
  (let g1 := gam (1 + 1 / k) in
   let g2 := gam (1 + 2 / k) in
   let g3 := gam (1 + 3 / k) in
   let g4 := gam (1 + 4 / k) in
   let den := vpown (g2 - vpown g1 2) 2 in
   ((-6)%R * vpown g1 4 + 12 * vpown g1 2 * g2 - 3 * vpown g2 2 - 4 * g1 * g3 + g4) / den).
(** weibull_max.py:231-239. *)
Definition entropy (k loc scale : val) : val :=
  validate_params k loc scale (euler * (Fin 1 - 1 / k) + vlog scale - vlog k + 1).
(** weibull_max.py:243-246 and 250-263; [n] has passed [_validate_moment_n]. *)
Definition standard_noncentral_moment (n : nat) (k : val) : val :=
  if Nat.eqb n 0 then Fin 1 else (vpown (Fin (-1)) (Nat.modulo n 2)) * gam (1 + Fin (INR n) / k).
Definition noncentral_moment (n : nat) (k loc scale : val) : val :=
  validate_params k loc scale
  (if Nat.eqb n 0 then Fin 1 else
   vfsum (map (fun i => Fin (C n i) * vpown loc (n - i) * vpown scale i
                        * standard_noncentral_moment i k) (seq 0 (n + 1)))).
End Gamma.
(** weibull_max.py:267-273 with _common.py:64-97 [_validate_x_bounds]. *)
Definition nll (x : list val) (k loc scale : val) : val :=
  validate_params k loc scale
  (IF cany (fun t => t >=? loc) x THEN Exc ValueError
   ELSE - vfsum (map (fun t => logpdf t k loc scale) x)).
(** weibull_max.py:277-326 when [k] is given; otherwise [k] comes from a numerical solver,
    the arguments [solve1] and [solve2]. *)
Definition mle (solve1 : list val -> val) (solve2 : list val -> val -> val)
    (x : list val) (k loc scale : option val) : res (val * val * val) :=
  match loc with
  | None => Err ValueError
  | Some loc =>
    RIF cany (fun t => t >=? loc) x THEN Err ValueError ELSE
    let x := map (fun t => - t + loc) x in
    RIF match k with Some k => k <=? 0 | None => CB false end THEN Err ValueError ELSE
    RIF match scale with Some s => s <=? 0 | None => CB false end THEN Err ValueError ELSE
    match k, scale with
    | None, None => bindv (solve1 x) (fun k => bindv (pmean x k None) (fun s => Ok (k, loc, s)))
    | Some k, None => bindv (pmean x k None) (fun s => Ok (k, loc, s))
    | None, Some s => bindv (solve2 x s) (fun k => Ok (k, loc, s))
    | Some k, Some s => Ok (k, loc, s)
    end
  end.
