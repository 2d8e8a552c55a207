(** Model of /repo/mpsci/distributions/binomial.py. *)
From Coq Require Import Reals List Bool ZArith.
From Verif Require Import Values SpecDisc M_common M_sfun M_disc M_fun.
From Verif Require M_basic.
Import ListNotations.
Local Open Scope R_scope.
Local Open Scope val_scope.

(** binomial.py:31-35 [_validate_np]. *)
Definition validate_np {A} `{CanRaise A} (n p : val) (cont : A) : A :=
  validate_p p (RIF (n <? 0) || (vint n <>? n) THEN raise ValueError ELSE cont).
(** binomial.py:38-57. *)
Definition support (n p : val) : res isupport := validate_np n p (vrange (Fin 0) (n + 1)).
(** binomial.py:61-68. *)
Definition pmf (k n p : val) : val :=
  validate_np n p (vbinomial n k * vpow p k * vpow (Fin 1 - p) (n - k)).
(** binomial.py:72-79. *)
Definition logpmf (k n p : val) : val :=
  validate_np n p (logbinomial vloggamma n k + k * vlog p + vfsum [n; - k] * vlog1p (- p)).
(** binomial.py:83-107, the two values of [method]; any other raises ValueError.
    [range(k + 1)] is enumerated by [zrange]. *)
Definition cdf_incbeta (k n p : val) : val :=
  validate_np n p
  (IF k =? n THEN Fin 1 ELSE vbetainc_lower (n - k) (k + 1) (Fin 1 - p)).
Definition over_range (f : val -> val) (r : res isupport) : val :=
  match r with
  | Ok (Range a b) => vfsum (map (fun t => f (Fin (IZR t))) (zrange a b))
  | Ok (Count _) => Exc NonTermination
  | Err e => Exc e
  end.
Definition cdf_sumpmf (k n p : val) : val :=
  validate_np n p (over_range (fun t => vexp (logpmf t n p)) (vrange (Fin 0) (k + 1))).
(** binomial.py:111-133. *)
Definition sf_incbeta (k n p : val) : val :=
  validate_np n p (vbetainc_upper (n - k) (k + 1) (Fin 1 - p)).
Definition sf_sumpmf (k n p : val) : val :=
  validate_np n p (over_range (fun t => vexp (logpmf t n p)) (vrange (k + 1) (n + 1))).
(** binomial.py:137-142. *)
Definition mean (n p : val) : val := validate_np n p (n * p).
(** binomial.py:146-158. *)
Definition mode (n p : val) : val :=
  validate_np n p
  (IF (n =? 0) || (p =? 0) THEN Fin 0
   ELSE IF p =? 1 THEN vint n
   ELSE vint (vceil ((n + 1) * p) - 1)).
(** binomial.py:162-167. *)
Definition var (n p : val) : val := validate_np n p (n * p * (Fin 1 - p)).
(** binomial.py:171-185. *)
Definition nll (x : list val) (n p : val) (counts : option (list val)) : val :=
  validate_np n p
  (validate_x_bounds x (Some (Fin 0)) (Some n) false false
  (IF cnot (call visint x) THEN Exc ValueError ELSE
  (validate_counts x counts true (fun counts =>
   - vfsum (map (fun '(t, c) => c * logpmf t n p) (zip_counts x counts)))))).
(** binomial.py:188-191 [_p_threshold]. *)
Definition p_threshold (k : list val) : val :=
  bindv (vmaxl k) (fun kmax =>
  let d := M_basic.mean (map (fun ki => vdigamma (kmax + 1) - vdigamma (kmax - ki + 1)) k) None in
  - vexpm1 (- d)).
(** binomial.py:195-317 [mle].  [n], [p]: [Some] when given as fixed values ([Initial] guesses
    are not modelled).  The numerical solution [mp.findroot(mle_n_eqn, n0)] is an argument, applied to
    the equation and the starting point (the retry of lines 299-304 is inside [findroot]). *)
Definition mle_head (x : list val) (counts : option (list val)) (cont : val -> option (list val) -> res (val * val)) : res (val * val) :=
  RIF cany (fun xi => vint xi <>? xi) x THEN Err ValueError ELSE
  validate_x_bounds x (Some (Fin 0)) (Some PInf) false false
  (bindv (vmaxl x) (fun xmax => validate_counts x counts false (fun counts => cont xmax counts))).
(** Lines 230-244: n fixed, p free. *)
Definition mle_fixed_n (x : list val) (counts : option (list val)) (n : val) : res (val * val) :=
  mle_head x counts (fun xmax counts =>
  RIF xmax >? n THEN Err ValueError ELSE
  validate_np n (Fin (1 / 2)%R)
  (bindv (M_basic.mean x counts) (fun m => bindv (m / n) (fun phat => bindv (vint n) (fun ni => Ok (ni, phat)))))).
(** Lines 284-317: p fixed, n free. *)
Definition mle_fixed_p (findroot : (val -> val) -> val -> val) (x : list val) (counts : option (list val)) (p : val) : res (val * val) :=
  mle_head x counts (fun xmax counts =>
  validate_np (Fin 1) p
  (bindv (p_threshold x) (fun pt =>
  RIF p >=? pt THEN bindv (vint xmax) (fun n => Ok (n, p)) ELSE
  let mle_n_eqn n := - M_basic.mean (map (fun xi => vdigamma (n - xi + 1)) x) counts + vdigamma (n + 1) + vlog1p (- p) in
  bindv (findroot mle_n_eqn (xmax + 1)) (fun nhat =>
  RIF nhat <? xmax THEN bindv (vint xmax) (fun n => Ok (n, p)) ELSE
  RIF vint nhat =? nhat THEN bindv (vint nhat) (fun n => Ok (n, p)) ELSE
  let nhat0 := vint (vfloor nhat) in
  let nhat1 := nhat0 + 1 in
  let nll0 := nll x nhat0 p counts in
  let nll1 := nll x nhat1 p counts in
  RIF nll0 <=? nll1 THEN Ok (nhat0, p) ELSE Ok (nhat1, p))))).
