(** Model of /repo/mpsci/stats/_boxcox_mle.py and _yeojohnson_mle.py. *)
From Coq Require Import Reals List.
From Coquelicot Require Import Coquelicot.
From Verif Require Import Values M_fun M_basic M_stats.
Import ListNotations.
Local Open Scope R_scope.
Local Open Scope val_scope.

(** _boxcox_mle.py:10-31 [boxcox_llf]. *)
Definition boxcox_llf (lam : val) (x : list val) : val :=
  let logdata := map vlog x in
  let sumlogdata := vfsum logdata in
  let variance := IF lam =? 0 THEN var logdata (Fin 0) ELSE var (map (fun t => vpow t lam / lam) x) (Fin 0) in
  (lam - Fin 1) * sumlogdata - vlen x / Fin 2 * vlog variance.
(** _yeojohnson_mle.py:8-45 [yeojohnson_llf]. *)
Definition yeojohnson_llf (lam : val) (x : list val) : val :=
  match x with
  | [] => Exc ValueError
  | _ =>
    let y_var := var (map (fun t => yeojohnson t lam) x) (Fin 0) in
    let log1psum := vfsum (map (fun t => vsign t * vlog1p (vabs t)) x) in
    - vlen x / Fin 2 * vlog y_var + (lam - Fin 1) * log1psum
  end.
(** mpmath's numerical derivative mp.diff, idealised as the derivative of the function on the reals;
    nan where there is none. *)
Definition vdiff (g : val -> val) (t : val) : val :=
  match t with Fin t => Fin (Derive (fun s => match g (Fin s) with Fin r => r | _ => 0%R end) t) | _ => NaN end.
(** _boxcox_mle.py:34-39 [_boxcox_llf_deriv] and 42-69 [boxcox_mle]; [findroot] is mpmath.findroot. *)
Definition boxcox_mle (findroot : (val -> val) -> val -> val) (x : list val) (lam0 : val) : val :=
  findroot (fun t => vdiff (fun s => boxcox_llf s x) t) lam0.
(** _yeojohnson_mle.py:63-78 [yeojohnson_mle]. *)
Definition yeojohnson_mle (findroot : (val -> val) -> val -> val) (x : list val) (lam0 : val) : val :=
  findroot (fun t => vdiff (fun s => yeojohnson_llf s x) t) lam0.
