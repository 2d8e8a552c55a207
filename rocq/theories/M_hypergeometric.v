(** Model of /repo/mpsci/distributions/hypergeometric.py. *)
From Coq Require Import Reals List Bool ZArith.
From Verif Require Import Values SpecDisc M_common M_sfun M_disc M_fun.
Import ListNotations.
Local Open Scope R_scope.
Local Open Scope val_scope.

(** hypergeometric.py:14-23. *)
Definition validate {A} `{CanRaise A} (ntotal ngood nsample : val) (cont : A) : A :=
  RIF (ntotal <? 0) || (ngood <? 0) || (nsample <? 0) THEN raise ValueError ELSE
  RIF ngood >? ntotal THEN raise ValueError ELSE
  RIF nsample >? ntotal THEN raise ValueError ELSE cont.
(** hypergeometric.py:27-37. *)
Definition pmf (k ntotal ngood nsample : val) : val :=
  validate ntotal ngood nsample
  (let nbad := ntotal - ngood in
   let numer := (ntotal + 1) * vbeta (ntotal - nsample + 1) (nsample + 1) in
   let denom := (ngood + 1) * (nbad + 1) * vbeta (k + 1) (ngood - k + 1) *
                vbeta (nsample - k + 1) (nbad - nsample + k + 1) in
   numer / denom).
(** hypergeometric.py:41-58. *)
Definition logpmf (k ntotal ngood nsample : val) : val :=
  validate ntotal ngood nsample
  (let nbad := ntotal - ngood in
   vfsum [vlog (ntotal + 1); logbeta vloggamma (ntotal - nsample + 1) (nsample + 1);
          - vlog (ngood + 1); - vlog (nbad + 1);
          - logbeta vloggamma (k + 1) (ngood - k + 1);
          - logbeta vloggamma (nsample - k + 1) (nbad - nsample + k + 1)]).
(** hypergeometric.py:71-82. *)
Definition sf (k ntotal ngood nsample : val) : val :=
  validate ntotal ngood nsample
  (bindv (vhyp3f2_1 (Fin 1) (k + 1 - ngood) (k + 1 - nsample) (k + 2) (ntotal + k + 2 - ngood - nsample)) (fun h =>
   let num := vbinomial nsample (k + 1) * vbinomial (ntotal - nsample) (ngood - k - 1) in
   let den := vbinomial ntotal ngood in
   num / den * h)).
(** hypergeometric.py:62-67. *)
Definition cdf (k ntotal ngood nsample : val) : val :=
  validate ntotal ngood nsample (Fin 1 - sf k ntotal ngood nsample).
(** hypergeometric.py:85-107. *)
Definition support (ntotal ngood nsample : val) : res isupport :=
  validate ntotal ngood nsample
  (let nbad := ntotal - ngood in
   vrange (vmax2 (Fin 0) (nsample - nbad)) (vmin2 nsample ngood + 1)).
(** hypergeometric.py:110-138. *)
Definition support_pmf (ntotal ngood nsample : val) : res (isupport * list val) :=
  bindr (support ntotal ngood nsample) (fun sup =>
  match sup with
  | Range a b => Ok (sup, map (fun k => pmf (Fin (IZR k)) ntotal ngood nsample) (zrange a b))
  | Count _ => Err NonTermination
  end).
(** hypergeometric.py:142-147. *)
Definition mean (ntotal ngood nsample : val) : val :=
  validate ntotal ngood nsample (nsample * ngood / ntotal).
(** hypergeometric.py:151-160. *)
Definition mode (ntotal ngood nsample : val) : val :=
  validate ntotal ngood nsample
  (let r := (nsample + 1) * (ngood + 1) / (ntotal + 2) in vint (vceil r) - 1).
(** hypergeometric.py:164-174. *)
Definition var (ntotal ngood nsample : val) : val :=
  validate ntotal ngood nsample
  (let nbad := ntotal - ngood in
   nsample * (ngood / ntotal) * (nbad / ntotal) * ((ntotal - nsample) / (ntotal - 1))).
