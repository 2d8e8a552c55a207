(** Model of /repo/mpsci/distributions/gamma.py. *)
From Coq Require Import Reals List ZArith.
From Coquelicot Require Import Coquelicot.
From Verif Require Import Values M_common M_basic SFun M_sfun M_bracket M_numinv M_digammainv.
Import ListNotations.
Local Open Scope R_scope.
Local Open Scope val_scope.

(** gamma.py:29-34. *)
Definition validate_k_scale {A} `{CanRaise A} (k scale : val) (c : A) : A :=
  RIF k <=? 0 THEN raise ValueError ELSE RIF scale <=? 0 THEN raise ValueError ELSE c.
(** gamma.py:38-51. *)
Definition pdf (x k scale : val) : val :=
  validate_k_scale k scale
  (IF x <? 0 THEN 0 ELSE Fin 1 / vgamma k / vpow scale k * vpow x (k - 1) * vexp (- x / scale)).
(** gamma.py:55-64. *)
Definition logpdf (x k scale : val) : val :=
  validate_k_scale k scale
  (IF x <? 0 THEN NInf ELSE - vloggamma k - k * vlog scale + (k - 1) * vlog x - x / scale).
(** gamma.py:68-81. *)
Definition cdf (x k scale : val) : val :=
  validate_k_scale k scale (IF x <? 0 THEN 0 ELSE vgammainc_lower k (x / scale)).
(** gamma.py:106-114. *)
Definition sf (x k scale : val) : val :=
  validate_k_scale k scale (IF x <? 0 THEN 1 ELSE vgammainc_upper k (x / scale)).
(** gamma.py:84-102; [findroot] stands for mpmath.findroot with the secant solver, [fuel] bounds the
    loops of the bracket search. *)
Definition invcdf (findroot : (val -> val) -> val * val -> val) (fuel : nat) (p k scale : val) : val :=
  validate_k_scale k scale (validate_p p
  (IF p =? 0 THEN 0 ELSE IF p =? 1 THEN PInf ELSE
   bracket_solve findroot fuel (Some 16%nat) (fun x => cdf x k scale) p 0 PInf)).
(** gamma.py:117-135. *)
Definition invsf (findroot : (val -> val) -> val * val -> val) (fuel : nat) (p k scale : val) : val :=
  validate_k_scale k scale (validate_p p
  (IF p =? 0 THEN PInf ELSE IF p =? 1 THEN 0 ELSE
   bracket_solve findroot fuel (Some 16%nat) (fun x => sf x k scale) p 0 PInf)).
(** mpmath.gammainc(k, x, y, regularized=True) with both limits given and x <= y: the integral of
    t^(k-1) e^(-t) over [x, y], divided by Gamma(k), for x >= 0.  With a negative limit the values
    are complex in general; only k = 1, where the integral is elementary, is modelled. *)
Definition vgammainc2 (k x y : val) : val :=
  match k, x, y with
  | Exc e, _, _ | _, Exc e, _ | _, _, Exc e => Exc e
  | Fin k, Fin x, Fin y =>
      if Reqb x y then Fin 0
      else if Rleb 0 x then Fin (improper (gamma_kernel k) x y / Gamma k)
      else if Reqb k 1 then Fin (exp (- x) - exp (- y)) else Exc NonReal
  | Fin k, Fin x, PInf => if Rleb 0 x then Fin (improper (gamma_kernel k) x p_infty / Gamma k)
      else if Reqb k 1 then Fin (exp (- x)) else Exc NonReal
  | Fin _, PInf, PInf => Fin 0
  | NaN, _, _ | _, NaN, _ | _, _, NaN => NaN
  | _, _, _ => Exc NonReal
  end.
(** gamma.py:139-157. *)
Definition interval_prob (x1 x2 k scale : val) : val :=
  validate_k_scale k scale
  (IF x1 >? x2 THEN Exc ValueError ELSE vgammainc2 k (x1 / scale) (x2 / scale)).
(** gamma.py:161-166. *)
Definition support (k scale : val) : res (val * val) := validate_k_scale k scale (Ok (Fin 0, PInf)).
(** gamma.py:170-175, 179-186, 190-195, 199-204, 208-213. *)
Definition mean (k scale : val) : val := validate_k_scale k scale (k * scale).
Definition mode (k scale : val) : val := validate_k_scale k scale (IF k <=? 1 THEN 0 ELSE scale * (k - 1)).
Definition var (k scale : val) : val := validate_k_scale k scale (k * vpown scale 2).
Definition skewness (k scale : val) : val := validate_k_scale k scale (Fin 2 / vsqrt k).
Definition kurtosis (k scale : val) : val := validate_k_scale k scale (Fin 6 / k).
(** gamma.py:217-227; [n] has passed [_validate_moment_n].  gammaprod([k+n], [k]) with k > 0. *)
Definition noncentral_moment (n : nat) (k scale : val) : val :=
  validate_k_scale k scale
  (if Nat.eqb n 0 then Fin 1 else vpown scale n * (vgamma (k + Fin (INR n)) / vgamma k)).
(** gamma.py:231-236. *)
Definition entropy (k scale : val) : val :=
  validate_k_scale k scale (k + vlog scale + vloggamma k + (Fin 1 - k) * vdigamma k).
(** gamma.py:240-250. *)
Definition mom (x : list val) : res (val * val) :=
  bindv (M_basic.mean x None) (fun m =>
  bindv (M_basic.var x (Fin 0)) (fun v =>
  bindv (vpown m 2 / v) (fun k => bindv (v / m) (fun scale => Ok (k, scale))))).
(** gamma.py:274-280: at most [n] Newton steps, stopping when k_hat does not change. *)
Definition mle_step (s k : val) : val := k - (vlog k - vdigamma k - s) / (Fin 1 / k - vtrigamma k).
Fixpoint mle_loop (n : nat) (s k : val) : val :=
  match n with
  | O => k
  | S n => bindv (mle_step s k) (fun k' => IF k' =? k THEN k' ELSE mle_loop n s k')
  end.
(** gamma.py:268-269. *)
Definition mle_start (s : val) : val :=
  (Fin 3 - s + vsqrt (vpown (s - Fin 3) 2 + Fin 24 * s)) / (Fin 12 * s).
(** gamma.py:253-297; [None] is an absent keyword argument. *)
Definition mle (euler : val) (findroot : (val -> val) -> val * val -> val) (x : list val) (k scale : option val) : res (val * val) :=
  bindv (vfsum x / vlen x) (fun meanx =>
  bindv (vfsum (map vlog x) / vlen x) (fun meanlnx =>
  match k with
  | None =>
      match scale with
      | None =>
          bindv (vlog meanx - meanlnx) (fun s =>
          bindv (mle_start s) (fun k0 =>
          bindv (mle_loop 10 s k0) (fun k_hat =>
          bindv (meanx / k_hat) (fun scale_hat => Ok (k_hat, scale_hat)))))
      | Some scale =>
          bindv (digammainv euler findroot (meanlnx - vlog scale)) (fun k_hat => Ok (k_hat, scale))
      end
  | Some k =>
      match scale with
      | None => bindv (meanx / k) (fun scale_hat => Ok (k, scale_hat))
      | Some scale => Ok (k, scale)
      end
  end)).
(** gamma.py:301-314. *)
Definition nll (x : list val) (k scale : val) : val :=
  validate_k_scale k scale (validate_x_bounds x (Some (Fin 0)) (Some PInf) false true
  (let N := vlen x in let sumx := vfsum x in let sumlnx := vfsum (map vlog x) in
   - ((k - 1) * sumlnx - sumx / scale - N * k * vlog scale - N * vloggamma k))).
(** gamma.py:318-330; the two components of the returned list. *)
Definition nll_grad_k (x : list val) (k scale : val) : val :=
  validate_k_scale k scale (- (vfsum (map vlog x) - vlen x * vlog scale - vlen x * vdigamma k)).
Definition nll_grad_scale (x : list val) (k scale : val) : val :=
  validate_k_scale k scale (- (vfsum x / vpown scale 2 - vlen x * k / scale)).
(** gamma.py:344-346, 362-364. *)
Definition dk2 (x : list val) (k scale : val) : val := - vlen x * vtrigamma k.
Definition dkdscale (x : list val) (k scale : val) : val := - vlen x / scale.
Definition dscale2 (x : list val) (k scale : val) : val :=
  Fin (-2) * vfsum x / vpown scale 3 + vlen x * k / vpown scale 2.
(** gamma.py:334-348; a 2 by 2 matrix as ((h11, h12), (h21, h22)). *)
Definition nll_hess (x : list val) (k scale : val) : res ((val * val) * (val * val)) :=
  validate_k_scale k scale
  (bindv (- dk2 x k scale) (fun a => bindv (- dkdscale x k scale) (fun b => bindv (- dscale2 x k scale) (fun d =>
   Ok ((a, b), (b, d)))))).
(** gamma.py:352-369. *)
Definition nll_invhess (x : list val) (k scale : val) : res ((val * val) * (val * val)) :=
  validate_k_scale k scale
  (bindv (dk2 x k scale * dscale2 x k scale - vpown (dkdscale x k scale) 2) (fun det =>
   bindv (- dscale2 x k scale / det) (fun a => bindv (dkdscale x k scale / det) (fun b =>
   bindv (- dk2 x k scale / det) (fun d => Ok ((a, b), (b, d))))))).
