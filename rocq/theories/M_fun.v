(** Model of the elementary functions of /repo/mpsci/fun.  The decorator
    [mp.extradps(5)] only changes the working precision and is modelled in
    M_prec.v; conversions [mp.mpf] are the identity on the model's numbers. *)
From Coq Require Import Reals List Bool.
From Verif Require Import Values.
Import ListNotations.
Local Open Scope R_scope.
Local Open Scope val_scope.

(** fun/_xlogy.py:7-19 [xlogy]. *)
Definition xlogy (x y : val) : val :=
  IF cor (visnan x) (visnan y) THEN NaN
  ELSE IF x =? 0 THEN Fin 0
  ELSE x * vlog y.

(** fun/_xlogy.py:27-42 [xlog1py]. *)
Definition xlog1py (x y : val) : val :=
  IF cor (visnan x) (visnan y) THEN NaN
  ELSE IF x =? 0 THEN Fin 0
  ELSE x * vlog1p y.

(** fun/_powm1.py:5-18 [inv_powm1]. *)
Definition inv_powm1 (t y : val) : val :=
  IF y =? 0 THEN Exc ValueError
  ELSE IF t <=? (-1)%R THEN Exc ValueError
  ELSE vexp (xlog1py (Fin 1 / y) t).

(** fun/_powm1.py:21-48 [pow1pm1]. *)
Definition pow1pm1 (x y : val) : val := vexpm1 (xlog1py y x).

(** fun/_powm1.py:56-71 [inv_pow1pm1]. *)
Definition inv_pow1pm1 (t y : val) : val :=
  IF y =? 0 THEN Exc ValueError
  ELSE IF t <=? (-1)%R THEN Exc ValueError
  ELSE vexpm1 (xlog1py (Fin 1 / y) t).

(** fun/_logsumexp.py:7-51 [logsumexp]; [weights = None] is [None].  [zip] stops at
    the shorter sequence. *)
Definition logsumexp (logs : list val) (weights : option (list val)) : val :=
  bindv (vmaxl logs) (fun log_max =>
  let exps := map (fun t => vexp (t - log_max)) logs in
  match weights with
  | None => vlog (vfsum exps) + log_max
  | Some w => vlog (vfsum (map (fun '(w, e) => w * e) (combine w exps))) + log_max
  end).
(** The numbers passed to [mp.exp] by [logsumexp] (line 46). *)
Definition logsumexp_exp_args (logs : list val) : list val :=
  map (fun t => t - vmaxl logs) logs.

(** fun/_logbinomial.py:7-37 [logbinomial]; [loggamma] is mpmath's. *)
Definition logbinomial (loggamma : val -> val) (n k : val) : val :=
  IF n <? 0 THEN Exc ValueError
  ELSE IF k <? 0 THEN Exc ValueError
  ELSE IF k >? n THEN Exc ValueError
  ELSE loggamma (n + 1) - loggamma (k + 1) - loggamma (vfsum [n + 1; - k]).

(** fun/_logbeta.py:9-35 [logbeta]. *)
Definition logbeta (loggamma : val -> val) (x y : val) : val :=
  loggamma x + loggamma y - loggamma (vfsum [x; y]).

(** fun/_logbeta.py:51-75 [multivariate_logbeta]. *)
Definition multivariate_logbeta (loggamma : val -> val) (alpha : list val) : val :=
  vfsum (map loggamma alpha ++ [- loggamma (vfsum alpha)]).
