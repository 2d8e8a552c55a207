(** Model of /repo/mpsci/distributions/levy.py. *)
From Coq Require Import Reals List.
From Verif Require Import Values M_common M_sfun.
Import ListNotations.
Local Open Scope R_scope.
Local Open Scope val_scope.

(** levy.py:25-26. *)
Definition erfcinv (y : val) : val := verfinv (Fin 1 - y).
(** levy.py:30-41. *)
Definition logpdf (x mu sigma : val) : val :=
  validate_loc_scale mu sigma
  (IF x <=? mu THEN NInf ELSE
   (let t1 := vlog sigma / 2 - vlog (2 * vpi) / 2 in
    let t2 := - sigma / (2 * (x - mu)) in
    let t3 := vlog (x - mu) * 3 / 2 in
    t1 + t2 - t3)).
(** levy.py:45-49. *)
Definition pdf (x mu sigma : val) : val := vexp (logpdf x mu sigma).
(** levy.py:53-62. *)
Definition cdf (x mu sigma : val) : val :=
  validate_loc_scale mu sigma (IF x <=? mu THEN 0 ELSE verfc (vsqrt (sigma / (2 * (x - mu))))).
(** levy.py:66-72. *)
Definition invcdf (p mu sigma : val) : val :=
  validate_p p (validate_loc_scale mu sigma (mu + sigma / (2 * vpown (erfcinv p) 2))).
(** levy.py:76-85. *)
Definition sf (x mu sigma : val) : val :=
  validate_loc_scale mu sigma (IF x <=? mu THEN 1 ELSE verf (vsqrt (sigma / (2 * (x - mu))))).
(** levy.py:89-95. *)
Definition invsf (p mu sigma : val) : val :=
  validate_p p (validate_loc_scale mu sigma (mu + sigma / (2 * vpown (verfinv p) 2))).
(** levy.py:98-104: the signature is [support(p, mu=0, sigma=1)]; [None] is an omitted
    argument. *)
Definition support (p : val) (mu sigma : option val) : res (val * val) :=
  let mu := match mu with Some m => m | None => Fin 0 end in
  let sigma := match sigma with Some s => s | None => Fin 1 end in
  validate_p p (validate_loc_scale mu sigma (Ok (mu, PInf))).
