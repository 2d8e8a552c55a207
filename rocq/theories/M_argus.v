(** Model of /repo/mpsci/distributions/argus.py. *)
From Coq Require Import Reals List.
From Coquelicot Require Import Coquelicot.
From Verif Require Import Values M_common SFun M_sfun M_bracket.
Import ListNotations.
Local Open Scope R_scope.
Local Open Scope val_scope.

(** mpmath.besseli(1, y) for real y: Poisson's integral of the modified Bessel function of order 1. *)
Definition vbesseli1 (y : val) : val :=
  match y with
  | Fin y => Fin (y / PI * RInt (fun t => exp (y * cos t) * sin t ^ 2) 0 PI)%R
  | v => v
  end.
(** argus.py:19-24. *)
Definition validate_params {A} `{CanRaise A} (chi scale : val) (c : A) : A :=
  RIF chi <? 0 THEN raise ValueError ELSE RIF scale <=? 0 THEN raise ValueError ELSE c.
(** argus.py:27-28. *)
Definition psi (chi : val) : val := vncdf chi 0 1 - chi * vnpdf chi 0 1 - Fin (1/2).
(** argus.py:45-62. *)
Definition logpdf (x chi scale : val) : val :=
  validate_params chi scale
  (IF (x <? 0) || (x >? scale) THEN NInf ELSE
   let z := x / scale in
   IF chi =? 0 THEN vlog 3 + vlog z + Fin (1/2) * (vlog1p (- z) + vlog1p z) - vlog scale ELSE
   let t1 := Fin 3 * vlog chi - vlog (Fin 2 * vpi) / 2 - vlog (psi chi) in
   let t2 := - vlog scale + vlog z in
   let t3 := vlog1p (- vpown z 2) / 2 in
   let t4 := - vpown chi 2 / 2 * (Fin 1 - z) * (Fin 1 + z) in
   t1 + t2 + t3 + t4).
(** argus.py:31-40. *)
Definition pdf (x chi scale : val) : val :=
  validate_params chi scale
  (IF (x <? 0) || (x >? scale) THEN 0 ELSE vexp (logpdf x chi scale)).
(** argus.py:65-82. *)
Definition cdf (x chi scale : val) : val :=
  validate_params chi scale
  (IF x <? 0 THEN 0 ELSE IF x >? scale THEN 1 ELSE
   let z := x / scale in
   IF chi =? 0 THEN - vpowm1 ((Fin 1 + z) * (Fin 1 - z)) (Fin (3/2)) ELSE
   Fin 1 - psi (chi * vsqrt ((Fin 1 - z) * (Fin 1 + z))) / psi chi).
(** argus.py:112-128. *)
Definition sf (x chi scale : val) : val :=
  validate_params chi scale
  (IF x <? 0 THEN 1 ELSE IF x >? scale THEN 0 ELSE
   let z := x / scale in
   IF chi =? 0 THEN vpow ((Fin 1 + z) * (Fin 1 - z)) (Fin (3/2)) ELSE
   psi (chi * vsqrt ((Fin 1 - z) * (Fin 1 + z))) / psi chi).
(** argus.py:85-109 and 131-155 with the default solver; [findroot] is mpmath.findroot started from the
    two ends of the bracket. *)
Definition invcdf (findroot : (val -> val) -> val * val -> val) (fuel : nat) (p chi scale : val) : val :=
  validate_params chi scale (validate_p p
  (match find_bracket fuel (fun x => cdf x chi scale) p 0 scale None with
   | Err e => Exc e
   | Ok x => findroot (fun x => cdf x chi scale - p) x
   end)).
Definition invsf (findroot : (val -> val) -> val * val -> val) (fuel : nat) (p chi scale : val) : val :=
  validate_params chi scale (validate_p p
  (match find_bracket fuel (fun x => sf x chi scale) p 0 scale None with
   | Err e => Exc e
   | Ok x => findroot (fun x => sf x chi scale - p) x
   end)).
(** argus.py:158-164. *)
Definition support (chi scale : val) : res (val * val) := validate_params chi scale (Ok (Fin 0, scale)).
(** argus.py:167-180. *)
Definition mean (chi scale : val) : val :=
  validate_params chi scale
  (IF chi =? 0 THEN scale * 3 * vpi / 16 ELSE
   let chi2o4 := vpown chi 2 / 4 in
   let p1 := scale * vsqrt (vpi / 8) in
   let p2 := chi * vexp (- chi2o4) in
   let p3 := vbesseli1 chi2o4 in
   p1 * p2 * p3 / psi chi).
(** argus.py:183-195. *)
Definition var (chi scale : val) : val :=
  validate_params chi scale
  (let mu := mean chi scale in
   IF chi =? 0 THEN vpown scale 2 * (Fin (2/5) - Fin 9 * vpown vpi 2 / 256) ELSE
   let t1 := vpown scale 2 * (Fin 1 - Fin 3 / vpown chi 2 + chi * vnpdf chi 0 1 / psi chi) in
   t1 - vpown mu 2).
(** argus.py:198-210. *)
Definition mode (chi scale : val) : val :=
  validate_params chi scale
  (IF chi =? 0 THEN scale / vsqrt 2 ELSE
   let chi2 := vpown chi 2 in
   let p1 := scale / vsqrt 2 / chi in
   let p2 := vsqrt (chi2 - 2 + vsqrt (vpown chi2 2 + 4)) in
   p1 * p2).
