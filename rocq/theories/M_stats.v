(** Model of boxcox, yeojohnson, chisquare, gtest, anova_oneway, pearsonr and
    pearsonr_ci (/repo/mpsci/stats). *)
From Coq Require Import Reals List Bool Arith String.
From Verif Require Import Values M_fun M_basic.
Import ListNotations.
Local Open Scope R_scope.
Local Open Scope val_scope.

(** _boxcox.py:9-28 [boxcox]. *)
Definition boxcox (x lmbda : val) : val :=
  IF lmbda =? 0 THEN vlog x ELSE vpowm1 x lmbda / lmbda.
(** _boxcox.py:45-66 [boxcox1p]. *)
Definition boxcox1p (x lmbda : val) : val :=
  IF lmbda =? 0 THEN vlog1p x ELSE pow1pm1 x lmbda / lmbda.
(** _boxcox.py:83-93 [inv_boxcox]. *)
Definition inv_boxcox (y lmbda : val) : val :=
  IF lmbda =? 0 THEN vexp y ELSE inv_powm1 (lmbda * y) lmbda.
(** _boxcox.py:96-106 [inv_boxcox1p]. *)
Definition inv_boxcox1p (y lmbda : val) : val :=
  IF lmbda =? 0 THEN vexpm1 y ELSE inv_pow1pm1 (lmbda * y) lmbda.

(** _yeojohnson.py:8-28 [yeojohnson]. *)
Definition yeojohnson (x lmbda : val) : val :=
  IF x >=? 0 THEN
    (IF lmbda =? 0 THEN vlog1p x ELSE pow1pm1 x lmbda / lmbda)
  ELSE IF lmbda =? 2 THEN - vlog1p (- x)
  ELSE (- pow1pm1 (- x) (Fin 2 - lmbda)) / (Fin 2 - lmbda).
(** _yeojohnson.py:31-50 [inv_yeojohnson]. *)
Definition inv_yeojohnson (x lmbda : val) : val :=
  IF x >=? 0 THEN
    (IF lmbda =? 0 THEN vexpm1 x ELSE inv_pow1pm1 (lmbda * x) lmbda)
  ELSE IF lmbda =? 2 THEN - vexpm1 (- x)
  ELSE - inv_pow1pm1 ((- (Fin 2 - lmbda)) * x) (Fin 2 - lmbda).

(** mpmath's [almosteq(s, t, rel_eps, abs_eps=0)]. *)
Definition almosteq (s t rel_eps : val) : cond :=
  let diff := vabs (s - t) in
  cor (diff <=? 0)
      (match vabs s <? vabs t with
       | CE e => CE e
       | CB true => diff / vabs t <=? rel_eps
       | CB false => diff / vabs s <=? rel_eps
       end).

(** _goftests.py:8-28 [chisquare]; [gammainc a x] and [gamma] are mpmath's. *)
Definition chisquare (gammainc : val -> val -> val) (gamma : val -> val)
  (observed expected : list val) (sum_rel_tol : val) : res (val * val) :=
  RIF cnot (almosteq (vfsum observed) (vfsum expected) sum_rel_tol) THEN raise ValueError
  ELSE
  bindv (vfsum (map (fun '(obs, ex) => vpown (obs - ex) 2 / ex) (combine observed expected))) (fun chi2 =>
  let df := vlen observed - 1 in
  bindv (gammainc (df / 2) (chi2 / 2) / gamma (df / 2)) (fun p => Ok (chi2, p))).

(** _goftests.py:31-57 [gtest]. *)
Definition gtest (gammainc : val -> val -> val) (gamma : val -> val)
  (observed expected : list val) (sum_rel_tol : val) : res (val * val) :=
  RIF cnot (almosteq (vfsum observed) (vfsum expected) sum_rel_tol) THEN raise ValueError
  ELSE
  bindv (vfsum (map (fun '(obs, ex) => Fin 2 * xlogy obs (obs / ex)) (combine observed expected))) (fun stat =>
  let df := vlen observed - 1 in
  bindv (gammainc (df / 2) (stat / 2) / gamma (df / 2)) (fun p => Ok (stat, p))).

(** _anova.py:13-70 [anova_oneway]; [f_sf] is distributions.f.sf.  The loop of lines
    50-54 is [n] (total length) and [grand_total]. *)
Definition anova_oneway (f_sf : val -> val -> val -> val) (groups : list (list val)) : res (val * val) :=
  let num_groups := vlen groups in
  let n := vlen (List.concat groups) in
  let grand_total := vfsum (map vfsum groups) in
  bindv (grand_total / n) (fun grand_mean =>
  bindv (vfsum (map (fun group => vfsum (map (fun g => vpown (g - grand_mean) 2) group)) groups)) (fun v =>
  bindv (vfsum (map (fun group => vlen group * vpown (mean group None - grand_mean) 2) groups)) (fun vb =>
  let vw := v - vb in
  bindv (vb / (num_groups - 1) / (vw / (n - num_groups))) (fun F =>
  bindv (f_sf F (num_groups - 1) (n - num_groups)) (fun p => Ok (F, p)))))).

(** _pearsonr.py:8-79 [pearsonr].  The conversions [float(t)] are taken as exact.
    [betainc a b x2] and [beta] are mpmath's. *)
Definition all_equal (x : list val) : cond :=
  match x with [] => CB true | x0 :: x' => call (fun t => x0 =? t) x' end.
Definition pearsonr (betainc : val -> val -> val -> val) (beta : val -> val -> val)
  (x y : list val) (alternative : string) : res (val * val) :=
  if negb (String.eqb alternative "two-sided" || String.eqb alternative "less"
           || String.eqb alternative "greater")%bool then Err ValueError
  else if negb (Nat.eqb (List.length x) (List.length y)) then Err ValueError
  else RIF cor (all_equal x) (all_equal y) THEN Ok (NaN, NaN)
  ELSE match x, y with
  | [x0; x1], [y0; y1] => bindv (vsign (x1 - x0) * vsign (y1 - y0)) (fun r => Ok (r, Fin 1))
  | _, _ =>
    let xmean := vfsum x / vlen x in
    let ymean := vfsum y / vlen y in
    let xm := map (fun t => t - xmean) x in
    let ym := map (fun t => t - ymean) y in
    let num := vfsum (map (fun '(s, t) => s * t) (combine xm ym)) in
    let den := vsqrt (vfsum (map (fun t => vpown t 2) xm) * vfsum (map (fun t => vpown t 2) ym)) in
    bindv (num / den) (fun r =>
    let a := vlen x / 2 - 1 in
    bindv (if String.eqb alternative "two-sided"
           then Fin 2 * betainc a a (Fin (1/2) * (Fin 1 - vabs r)) / beta a a
           else if String.eqb alternative "less"
           then betainc a a (Fin (1/2) * (Fin 1 + r)) / beta a a
           else betainc a a (Fin (1/2) * (Fin 1 - r)) / beta a a)
    (fun p => Ok (r, p)))
  end.

(** _pearsonr.py:82-143 [pearsonr_ci]; [invcdf] is normal.invcdf with the default
    parameters. *)
Definition pearsonr_ci (invcdf : val -> val) (r n alpha : val) (alternative : string) : res (val * val) :=
  if negb (String.eqb alternative "two-sided" || String.eqb alternative "less"
           || String.eqb alternative "greater")%bool then Err ValueError
  else
  bindv (vatanh r) (fun zr =>
  bindv (vsqrt (Fin 1 / (n - 3))) (fun s =>
  if String.eqb alternative "two-sided" then
    bindv (invcdf (Fin 1 - alpha / 2)) (fun h =>
    bindv (vtanh (zr - h * s)) (fun rlo =>
    bindv (vtanh (zr + h * s)) (fun rhi => Ok (rlo, rhi))))
  else if String.eqb alternative "less" then
    bindv (invcdf (Fin 1 - alpha)) (fun h =>
    bindv (vtanh (zr + h * s)) (fun rhi => Ok (Fin (-1), rhi)))
  else
    bindv (invcdf (Fin 1 - alpha)) (fun h =>
    bindv (vtanh (zr - h * s)) (fun rlo => Ok (rlo, Fin 1))))).
