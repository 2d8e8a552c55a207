(** Model of /repo/mpsci/distributions/betaprime.py. *)
From Coq Require Import Reals List ZArith.
From Coquelicot Require Import Coquelicot.
From Verif Require Import Values M_common M_basic M_fun SFun M_sfun M_bracket M_numinv.
Import ListNotations.
Local Open Scope R_scope.
Local Open Scope val_scope.

(** betaprime.py:67-76. *)
Definition validate_params {A} `{CanRaise A} (a b scale : val) (c : A) : A :=
  RIF (a <=? 0) || (b <=? 0) THEN raise ValueError ELSE
  RIF scale <=? 0 THEN raise ValueError ELSE c.
(** betaprime.py:80-92. *)
Definition pdf (x a b scale : val) : val :=
  validate_params a b scale
  (IF x <? 0 THEN 0 ELSE IF (x =? 0) && (a <? 1) THEN PInf ELSE
   let z := x / scale in
   vpow z (a - 1) / vpow (Fin 1 + z) (a + b) / vbeta a b / scale).
(** betaprime.py:96-108. *)
Definition logpdf (x a b scale : val) : val :=
  validate_params a b scale
  (IF x <? 0 THEN NInf ELSE IF (x =? 0) && (a <? 1) THEN PInf ELSE
   let z := x / scale in
   xlogy (a - 1) z - xlog1py (a + b) z - logbeta vloggamma a b - vlog scale).
(** betaprime.py:112-127. *)
Definition cdf (x a b scale : val) : val :=
  validate_params a b scale
  (IF x <? 0 THEN 0 ELSE IF x =? PInf THEN 1 ELSE
   let z := x / scale in
   IF z >? 1 THEN vbetainc_upper b a (Fin 1 / (Fin 1 + z)) ELSE vbetainc_lower a b (z / (Fin 1 + z))).
(** betaprime.py:131-146. *)
Definition sf (x a b scale : val) : val :=
  validate_params a b scale
  (IF x <? 0 THEN 1 ELSE IF x =? PInf THEN 0 ELSE
   let z := x / scale in
   IF z >? 1 THEN vbetainc_lower b a (Fin 1 / (Fin 1 + z)) ELSE vbetainc_upper a b (z / (Fin 1 + z))).
(** betaprime.py:150-166; [findroot] stands for mpmath.findroot with the secant solver, [fuel] bounds
    the loops of the bracket search. *)
Definition invcdf (findroot : (val -> val) -> val * val -> val) (fuel : nat) (p a b scale : val) : val :=
  validate_params a b scale (validate_p p
  (IF p =? 0 THEN 0 ELSE IF p =? 1 THEN PInf ELSE
   bracket_solve findroot fuel None (fun x => cdf x a b scale) p 0 PInf)).
(** betaprime.py:170-186. *)
Definition invsf (findroot : (val -> val) -> val * val -> val) (fuel : nat) (p a b scale : val) : val :=
  validate_params a b scale (validate_p p
  (IF p =? 0 THEN 1 ELSE IF p =? 1 THEN 0 ELSE
   bracket_solve findroot fuel None (fun x => sf x a b scale) p 0 PInf)).
(** betaprime.py:189-194. *)
Definition support (a b scale : val) : res (val * val) := validate_params a b scale (Ok (Fin 0, PInf)).
(** betaprime.py:198-205. *)
Definition mean (a b scale : val) : val :=
  validate_params a b scale (IF b <=? 1 THEN PInf ELSE scale * a / (b - 1)).
(** betaprime.py:209-216. *)
Definition mode (a b scale : val) : val :=
  validate_params a b scale (IF a <? 1 THEN 0 ELSE scale * (a - 1) / (b + 1)).
(** betaprime.py:220-227. *)
Definition var (a b scale : val) : val :=
  validate_params a b scale
  (IF b <=? 2 THEN NaN ELSE vpown scale 2 * (a * (a + b - 1)) / ((b - 2) * vpown (b - 1) 2)).
(** betaprime.py:231-240. *)
Definition skewness (a b scale : val) : val :=
  validate_params a b scale
  (IF b <=? 3 THEN NaN ELSE
   let t1 := Fin 2 * (Fin 2 * a + b - 1) / (b - 3) in
   let t2 := vsqrt ((b - 2) / (a * (a + b - 1))) in
   t1 * t2).
(** betaprime.py:263-274; [n] has passed [_validate_moment_n]. *)
Definition noncentral_moment (n : nat) (a b scale : val) : val :=
  validate_params a b scale
  (let m := Fin (INR n) in
   IF m >=? b THEN NaN ELSE vpown scale n * vbeta (a + m) (b - m) / vbeta a b).
(** betaprime.py:244-259. *)
Definition kurtosis (a b scale : val) : val :=
  validate_params a b scale
  (IF b <=? 4 THEN NaN ELSE
   let m1 := noncentral_moment 1 a b scale in
   let m2 := noncentral_moment 2 a b scale in
   let m3 := noncentral_moment 3 a b scale in
   let m4 := noncentral_moment 4 a b scale in
   let mu := mean a b scale in
   let sigma4 := vpown (var a b scale) 2 in
   (m4 - Fin 4 * mu * m3 + Fin 6 * vpown mu 2 * m2 - Fin 4 * vpown mu 3 * m1 + vpown mu 4) / sigma4 - 3).
(** betaprime.py:278-295. *)
Definition entropy (a b scale : val) : val :=
  validate_params a b scale
  (let dfn := Fin 2 * a in
   let dfd := Fin 2 * b in
   let fscale := (a / b) * scale in
   let dfn2 := dfn / 2 in
   let dfd2 := dfd / 2 in
   let dfmean := dfn2 + dfd2 in
   vlog (dfd / dfn) + logbeta vloggamma dfn2 dfd2 + (Fin 1 - dfn2) * vdigamma dfn2
   - (Fin 1 + dfd2) * vdigamma dfd2 + dfmean * vdigamma dfmean + vlog fscale).
(** betaprime.py:299-308. *)
Definition nll (x : list val) (a b scale : val) : val :=
  validate_params a b scale (validate_x_bounds x (Some (Fin 0)) (Some PInf) false true
  (- vfsum (map (fun t => logpdf t a b scale) x))).

(** The sample means used by [mle]: betaprime.py:353, 356-357, 379-380, 396, 406-407, ... *)
Definition meanlogx (x : list val) : val := M_basic.mean (map vlog x) None.
Definition meanlog1px (x : list val) (scale : val) : val := M_basic.mean (map (fun t => vlog1p (t / scale)) x) None.
Definition meanxover1px (x : list val) (scale : val) : val :=
  M_basic.mean (map (fun t => (t / scale) / (Fin 1 + t / scale)) x) None.
(** betaprime.py:355-363. *)
Definition eqns_a_b_scale (x : list val) (mlx a b scale : val) : val * val * val :=
  let ml1 := meanlog1px x scale in
  let mx := meanxover1px x scale in
  let d1 := vdigamma (a + b) in
  (vdigamma a - d1 - (mlx - ml1) + vlog scale, vdigamma b - d1 + ml1, a - (a + b) * mx).
(** betaprime.py:383-388. *)
Definition eqns_a_b (ml1 mlx lnscale a b : val) : val * val :=
  let d1 := vdigamma (a + b) in
  (vdigamma a - d1 - (mlx - ml1) + lnscale, vdigamma b - d1 + ml1).
(** betaprime.py:398-399, 410-412 and 424-425. *)
Definition b_eqn (ml1 a b : val) : val := vdigamma b - vdigamma (a + b) + ml1.
Definition a_eqn (ml1 mlx lnscale b a : val) : val := vdigamma a - vdigamma (a + b) - mlx + ml1 + lnscale.
Definition scale_eqn (x : list val) (a b s : val) : val := a - (a + b) * meanxover1px x s.
(** betaprime.py:433-438 and 452-460. *)
Definition scale_eqn_b (x : list val) (a s : val) : val :=
  let mx := meanxover1px x s in
  vdigamma (a * (Fin 1 / mx - 1)) - vdigamma (a / mx) + meanlog1px x s.
Definition scale_eqn_a (x : list val) (b s : val) : val :=
  let mx := meanxover1px x s in
  vdigamma (b * (mx / (Fin 1 - mx))) - vdigamma (b / (Fin 1 - mx)) - meanlogx x + meanlog1px x s + vlog s.
Definition dflt (p0 : option val) : val := match p0 with None => Fin 1 | Some p => p end.
(** betaprime.py:316-466.  [a], [b], [scale]: [Some] when given; [a0], [b0], [scale0] are the values
    wrapped in [Initial], if any.  [fr1], [fr2], [fr3] are [mp.findroot] for one, two and three
    equations. *)
Definition mle (fr1 : (val -> val) -> val -> val) (fr2 : (val -> val -> val * val) -> val * val -> res (val * val))
    (fr3 : (val -> val -> val -> val * val * val) -> val * val * val -> res (val * val * val))
    (a0 b0 scale0 : option val) (x : list val) (a b scale : option val) : res (val * val * val) :=
  validate_x_bounds x (Some (Fin 0)) (Some PInf) false true
  (match a, b, scale with
   | Some a, Some b, Some scale => validate_params a b scale (Ok (a, b, scale))
   | None, None, None =>
       bindv (meanlogx x) (fun mlx => fr3 (eqns_a_b_scale x mlx) (dflt a0, dflt b0, dflt scale0))
   | None, None, Some scale =>
       validate_params (Fin 1) (Fin 1) scale
       (bindv (meanlog1px x scale) (fun ml1 => bindv (meanlogx x) (fun mlx =>
        bind (fr2 (eqns_a_b ml1 mlx (vlog scale)) (dflt a0, dflt b0)) (fun ab => Ok (fst ab, snd ab, scale)))))
   | Some a, None, Some scale =>
       validate_params a (Fin 1) scale
       (bindv (meanlog1px x scale) (fun ml1 => bindv (fr1 (b_eqn ml1 a) (dflt b0)) (fun b => Ok (a, b, scale))))
   | None, Some b, Some scale =>
       validate_params (Fin 1) b scale
       (bindv (meanlog1px x scale) (fun ml1 => bindv (meanlogx x) (fun mlx =>
        bindv (fr1 (a_eqn ml1 mlx (vlog scale) b) (dflt a0)) (fun a => Ok (a, b, scale)))))
   | Some a, Some b, None =>
       validate_params a b (Fin 1)
       (bindv (fr1 (scale_eqn x a b) (dflt scale0)) (fun s => Ok (a, b, s)))
   | Some a, None, None =>
       validate_params a (Fin 1) (Fin 1)
       (bindv (fr1 (scale_eqn_b x a) (dflt scale0)) (fun s =>
        bindv (a * (Fin 1 / meanxover1px x s - 1)) (fun b => Ok (a, b, s))))
   | None, Some b, None =>
       validate_params (Fin 1) b (Fin 1)
       (bindv (fr1 (scale_eqn_a x b) (dflt scale0)) (fun s =>
        bindv (let mx := meanxover1px x s in b * (mx / (Fin 1 - mx))) (fun a => Ok (a, b, s))))
   end).
