(** Model of /repo/mpsci/distributions/nakagami.py. *)
From Coq Require Import Reals List.
From Verif Require Import Values M_common M_basic SFun M_sfun M_bracket.
Import ListNotations.
Local Open Scope R_scope.
Local Open Scope val_scope.

(** nakagami.py:31-36. *)
Definition validate_params {A} `{CanRaise A} (nu loc scale : val) (c : A) : A :=
  RIF nu <=? 0 THEN raise ValueError ELSE RIF scale <=? 0 THEN raise ValueError ELSE c.
(** nakagami.py:40-50. *)
Definition pdf (x nu loc scale : val) : val :=
  validate_params nu loc scale
  (IF x <=? loc THEN 0 ELSE
   let z := (x - loc) / scale in
   Fin 2 * vpow nu nu * vpow z (Fin 2 * nu - Fin 1) * vexp (- nu * vpown z 2) / vgamma nu / scale).
(** nakagami.py:54-64. *)
Definition logpdf (x nu loc scale : val) : val :=
  validate_params nu loc scale
  (IF x <=? loc THEN NInf ELSE
   let z := (x - loc) / scale in
   vlog (Fin 2) + nu * vlog nu - vloggamma nu + (Fin 2 * nu - Fin 1) * vlog z - nu * vpown z 2 - vlog scale).
(** nakagami.py:68-77. *)
Definition cdf (x nu loc scale : val) : val :=
  validate_params nu loc scale
  (IF x <=? loc THEN 0 ELSE
   let z := (x - loc) / scale in vgammainc_lower nu (nu * vpown z 2)).
(** nakagami.py:97-106. *)
Definition sf (x nu loc scale : val) : val :=
  validate_params nu loc scale
  (IF x <=? loc THEN 1 ELSE
   let z := (x - loc) / scale in vgammainc_upper nu (nu * vpown z 2)).
(** nakagami.py:81-93, 110-122. *)
Definition invcdf (findroot : (val -> val) -> val * val -> val) (fuel : nat) (p nu loc scale : val) : val :=
  validate_p p (validate_params nu loc scale
  match find_bracket fuel (fun x => cdf x nu loc scale) p 0 PInf None with
  | Err e => Exc e
  | Ok x => findroot (fun t => cdf t nu loc scale - p) x
  end).
Definition invsf (findroot : (val -> val) -> val * val -> val) (fuel : nat) (p nu loc scale : val) : val :=
  validate_p p (validate_params nu loc scale
  match find_bracket fuel (fun x => sf x nu loc scale) p 0 PInf None with
  | Err e => Exc e
  | Ok x => findroot (fun t => sf t nu loc scale - p) x
  end).
(** nakagami.py:126-131. *)
Definition support (nu loc scale : val) : res (val * val) := validate_params nu loc scale (Ok (loc, PInf)).
(** nakagami.py:135-142; gammaprod([nu + 0.5], [nu]) with nu > 0. *)
Definition gratio (nu : val) : val := vgamma (nu + Fin (1/2)) / vgamma nu.
Definition mean (nu loc scale : val) : val :=
  validate_params nu loc scale (loc + scale * (gratio nu / vsqrt nu)).
(** nakagami.py:146-151. *)
Definition mode (nu loc scale : val) : val :=
  validate_params nu loc scale (loc + scale * vsqrt (Fin 1 - Fin 1 / (Fin 2 * nu))).
(** nakagami.py:155-162. *)
Definition var (nu loc scale : val) : val :=
  validate_params nu loc scale (vpown scale 2 * (Fin 1 - vpown (gratio nu) 2 / nu)).
(** nakagami.py:166-172. *)
Definition entropy (nu loc scale : val) : val :=
  validate_params nu loc scale
  ((Fin 1 / Fin 2 - nu) * vdigamma nu - vlog nu / Fin 2 + nu + vloggamma nu - vlog (Fin 2) + vlog scale).
(** nakagami.py:176-188. *)
Definition nll (x : list val) (nu loc scale : val) : val :=
  let n := vlen x in
  validate_params nu loc scale
  (validate_x_bounds x (Some loc) None true false
   (let z := map (fun t => (t - loc) / scale) x in
    let logsum := vfsum (map vlog z) in
    let sqsum := vfsum (map (fun t => vpown t 2) z) in
    - (n * (vlog (Fin 2) + nu * vlog nu - vloggamma nu - vlog scale) + (Fin 2 * nu - Fin 1) * logsum - nu * sqsum))).
(** nakagami.py:192-207: the three components of the result. *)
Definition nll_grad_nu (x : list val) (nu loc scale : val) : val :=
  let n := vlen x in
  validate_params nu loc scale
  (validate_x_bounds x (Some loc) None true false
   (let xloc := map (fun t => t - loc) x in
    - (n * (Fin 1 + vlog nu - vdigamma nu) + Fin 2 * vfsum (map (fun t => vlog (t / scale)) xloc)
       - vfsum (map (fun t => vpown t 2) xloc) / vpown scale 2))).
Definition nll_grad_loc (x : list val) (nu loc scale : val) : val :=
  validate_params nu loc scale
  (validate_x_bounds x (Some loc) None true false
   (let xloc := map (fun t => t - loc) x in
    let sum_inv := vfsum (map (fun t => Fin 1 / t) xloc) in
    - (- (Fin 2 * nu - Fin 1) * sum_inv + Fin 2 * nu * vfsum xloc / vpown scale 2))).
Definition nll_grad_scale (x : list val) (nu loc scale : val) : val :=
  let n := vlen x in
  validate_params nu loc scale
  (validate_x_bounds x (Some loc) None true false
   (let xloc := map (fun t => t - loc) x in
    let sum_sq := vfsum (map (fun t => vpown t 2) xloc) in
    - (Fin 2 * nu / scale * (- n + sum_sq / vpown scale 2)))).
(** nakagami.py:210-213. *)
Definition mle_nu_func (nu R : val) : val := vlog nu - vdigamma nu - R.
(** nakagami.py:216-225. *)
Definition estimate_nu (R : val) : val :=
  IF R >=? 10 THEN Fin 1 / R ELSE IF R <? Fin (1/2) THEN Fin 1 / (Fin 2 * R) ELSE Fin 1 / (Fin (3/2) * R).
(** nakagami.py:229-273; [None] is an absent keyword argument, [findroot] is mpmath's findroot started from
    one point. *)
Definition mle (findroot : (val -> val) -> val -> val) (x : list val) (nu loc scale : option val) : res (val * val * val) :=
  match nu, loc, scale with
  | Some nu, Some loc, Some scale => Ok (nu, loc, scale)
  | _, None, _ => Err ValueError
  | nu, Some loc, scale =>
      validate_x_bounds x (Some loc) None true false
      (let x := map (fun t => t - loc) x in
       bindv (match scale with None => vsqrt (vfsum (map (fun t => vpown t 2) x) / vlen x) | Some s => s end) (fun scale0 =>
       bindv (match nu with
              | Some nu => nu
              | None =>
                  let m2 := M_basic.mean (map (fun t => Fin 2 * vlog (t / scale0)) x) None in
                  bindv (match scale with
                         | None => - m2
                         | Some _ => M_basic.mean (map (fun t => vpown (t / scale0) 2) x) None - m2 - Fin 1
                         end) (fun R =>
                  bindv (estimate_nu R) (fun nu0 => findroot (fun nu => mle_nu_func nu R) nu0))
              end) (fun nu0 =>
       Ok (nu0, loc, scale0))))
  end.
