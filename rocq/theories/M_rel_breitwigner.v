(** Model of /repo/mpsci/distributions/rel_breitwigner.py. *)
From Coq Require Import Reals List ZArith.
From Verif Require Import Values M_common M_bracket M_fun SFunC.
Import ListNotations.
Local Open Scope R_scope.
Local Open Scope val_scope.

(** rel_breitwigner.py:38-43. *)
Definition validate_rho_scale {A} `{CanRaise A} (rho scale : val) (c : A) : A :=
  RIF rho <=? 0 THEN raise ValueError ELSE RIF scale <=? 0 THEN raise ValueError ELSE c.
(** rel_breitwigner.py:46-52. *)
Definition k_ (rho : val) : val :=
  let rho2 := vpown rho 2 in
  let s := vsqrt (rho2 + Fin 1) in
  Fin 2 * vsqrt (Fin 2) * rho2 * s / vsqrt (rho2 + rho * s) / vpi.
(** rel_breitwigner.py:55-67. *)
Definition pdf (x rho scale : val) : val :=
  validate_rho_scale rho scale
  (IF x <? 0 THEN 0 ELSE
   let z := x / scale in
   k_ rho / (vpown (vpown z 2 - vpown rho 2) 2 + vpown rho 2) / scale).
(** rel_breitwigner.py:70-82. *)
Definition logpdf (x rho scale : val) : val :=
  validate_rho_scale rho scale
  (IF x <? 0 THEN NInf ELSE
   let z := x / scale in
   vlog (k_ rho) - Fin 2 * vlog rho - vlog scale - vlog1p (vpown ((z + rho) * (z - rho) / rho) 2)).
(** rel_breitwigner.py:98-99: alpha = sqrt(-rho*(rho + 1j)) and the imaginary part of atan(z/alpha)/alpha,
    with the complex functions of SFunC; a nan goes to nan. *)
Definition im_term (z rho : val) : val :=
  match z, rho with
  | Fin z, Fin rho => let alpha := csqroot (- (rho * rho), - rho)%R in Fin (snd (cdivide (catan (cdivide (z, 0%R) alpha)) alpha))
  | _, _ => NaN
  end.
(** rel_breitwigner.py:85-99. *)
Definition cdf (x rho scale : val) : val :=
  validate_rho_scale rho scale
  (IF x <? 0 THEN 0 ELSE IF visinf x THEN 1 ELSE k_ rho * im_term (x / scale) rho / rho).
(** rel_breitwigner.py:117-123. *)
Definition sf (x rho scale : val) : val := Fin 1 - cdf x rho scale.
(** rel_breitwigner.py:102-114, 126-137; [findroot] is mpmath.findroot started from the ends of the bracket. *)
Definition invcdf (findroot : (val -> val) -> val * val -> val) (fuel : nat) (p rho scale : val) : val :=
  validate_p p (validate_rho_scale rho scale
  (match find_bracket fuel (fun x => cdf x rho scale) p 0 PInf None with
   | Err e => Exc e
   | Ok x => findroot (fun t => cdf t rho scale - p) x
   end)).
Definition invsf (findroot : (val -> val) -> val * val -> val) (fuel : nat) (p rho scale : val) : val :=
  validate_p p (validate_rho_scale rho scale
  (match find_bracket fuel (fun x => sf x rho scale) p 0 PInf None with
   | Err e => Exc e
   | Ok x => findroot (fun t => sf t rho scale - p) x
   end)).
(** rel_breitwigner.py:140-145. *)
Definition support (rho scale : val) : res (val * val) := validate_rho_scale rho scale (Ok (Fin 0, PInf)).
(** rel_breitwigner.py:148-155. *)
Definition mean (rho scale : val) : val :=
  validate_rho_scale rho scale (scale * k_ rho / (Fin 2 * rho) * (vpi / Fin 2 + vatan rho)).
(** rel_breitwigner.py:176-197; [n] has passed [_validate_moment_n]; rho**-2 is written 1/rho**2. *)
Definition noncentral_moment (n : nat) (rho scale : val) : val :=
  validate_rho_scale rho scale
  (match n with
   | 0%nat => Fin 1
   | 1%nat => mean rho scale
   | 2%nat => vpown scale 2 * (vpi / (Fin 2 * vsqrt (Fin 2))) * k_ rho / (rho * vsqrt (pow1pm1 (Fin 1 / vpown rho 2) (Fin (1/2))))
   | _ => PInf
   end).
(** rel_breitwigner.py:158-164. *)
Definition var (rho scale : val) : val :=
  validate_rho_scale rho scale (noncentral_moment 2 rho scale - vpown (mean rho scale) 2).
(** rel_breitwigner.py:167-173. *)
Definition mode (rho scale : val) : val := validate_rho_scale rho scale (rho * scale).
