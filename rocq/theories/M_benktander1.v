(** Model of /repo/mpsci/distributions/benktander1.py. *)
From Coq Require Import Reals List.
From Verif Require Import Values M_common M_basic M_sfun.
Import ListNotations.
Local Open Scope R_scope.
Local Open Scope val_scope.

(** benktander1.py:15-22. *)
Definition validate {A} `{CanRaise A} (a b : val) (k : A) : A :=
  cif (a <=? 0) (raise ValueError) (cif (b <=? 0) (raise ValueError)
  (cif (b >? a * (a + 1) / 2) (raise ValueError) k)).
(** benktander1.py:36-37, 52-53. *)
Definition coef (blogx a b : val) : val := (Fin 1 + Fin 2 * blogx / a) * (Fin 1 + a + Fin 2 * blogx) - Fin 2 * b / a.
(** benktander1.py:26-38. *)
Definition pdf (x a b : val) : val :=
  validate a b
  (IF x <? 1 THEN 0
   ELSE let blogx := b * vlog x in coef blogx a b * vpow x (- (Fin 2 + a + blogx))).
(** benktander1.py:42-54. *)
Definition logpdf (x a b : val) : val :=
  validate a b
  (IF x <? 1 THEN NInf
   ELSE let blogx := b * vlog x in vlog (coef blogx a b) - (Fin 2 + a + blogx) * vlog x).
(** benktander1.py:58-69. *)
Definition cdf (x a b : val) : val :=
  validate a b
  (IF x <? 1 THEN 0
   ELSE let blogx := b * vlog x in Fin 1 - (Fin 1 + Fin 2 * blogx / a) * vpow x (- (a + 1 + blogx))).
(** benktander1.py:73-84. *)
Definition sf (x a b : val) : val :=
  validate a b
  (IF x <? 1 THEN 1
   ELSE let blogx := b * vlog x in (Fin 1 + Fin 2 * blogx / a) * vpow x (- (a + 1 + blogx))).
(** benktander1.py:101-106, 124-129: the bracket and the equation of the numeric inversion.  The
    call passes method='anderson', which findroot does not know and ignores. *)
Definition zlow (a b w : val) : val := (- (a + 1) + vsqrt (vpown (a + 1) 2 - Fin 4 * b * w)) / (Fin 2 * b).
Definition zhigh (a b w : val) : val :=
  let q := a + 1 - Fin 2 * b / a in (- q + vsqrt (vpown q 2 - Fin 4 * b * w)) / (Fin 2 * b).
Definition zeqn (a b w z : val) : val := vlog (Fin 1 + Fin 2 * b / a * z) - (a + 1 + b * z) * z - w.
(** benktander1.py:88-107. *)
Definition invcdf (findroot : (val -> val) -> val * val -> val) (p a b : val) : val :=
  validate_p p (validate a b
  (IF p =? 0 THEN 1 ELSE IF p =? 1 THEN PInf
   ELSE let w := vlog1p (- p) in vexp (findroot (zeqn a b w) (zlow a b w, zhigh a b w)))).
(** benktander1.py:111-130. *)
Definition invsf (findroot : (val -> val) -> val * val -> val) (p a b : val) : val :=
  validate_p p (validate a b
  (IF p =? 0 THEN PInf ELSE IF p =? 1 THEN 1
   ELSE let w := vlog p in vexp (findroot (zeqn a b w) (zlow a b w, zhigh a b w)))).
(** benktander1.py:133-138. *)
Definition support (a b : val) : res (val * val) := validate a b (Ok (Fin 1, PInf)).
(** benktander1.py:142-149. *)
Definition mean (a b : val) : val := validate a b (Fin 1 + Fin 1 / a).
(** benktander1.py:153-160. *)
Definition mode (a b : val) : val :=
  validate a b
  (IF b >? a * (a + 2) / 6 THEN vexp ((- (a + 1) + vsqrt (Fin 6 * b + 1)) / (Fin 2 * b)) ELSE 1).
(** benktander1.py:164-174. *)
Definition var (a b : val) : val :=
  validate a b
  (let sb := vsqrt b in
   let t := (a - 1) / (Fin 2 * sb) in
   let sqrtpi := vsqrt vpi in
   (- sb + a * vexp (vpown t 2) * sqrtpi * verfc t) / (vpown a 2 * sb)).
(** benktander1.py:178-187. *)
Definition nll (x : list val) (a b : val) : val :=
  validate_x_bounds x (Some (Fin 1)) (Some PInf) false true
  (validate a b (- vfsum (map (fun t => logpdf t a b) x))).
(** benktander1.py:203-211: the two likelihood equations. *)
Definition mle_eqns (x : list val) (a b : val) : val * val :=
  let logx := map vlog x in
  let t1 := fun lnx => Fin 2 * a + Fin 4 * b * lnx + 1 in
  let t2 := fun lnx => vpown a 2 + Fin 4 * a * b * lnx + a + Fin 4 * vpown b 2 * vpown lnx 2 + Fin 2 * b * lnx - Fin 2 * b in
  (- Fin (INR (length x)) / a + vfsum (map (fun lnx => t1 lnx / t2 lnx - lnx) logx),
   vfsum (map (fun lnx => (t1 lnx * Fin 2 * lnx - Fin 2) / t2 lnx - vpown lnx 2) logx)).
(** benktander1.py:191-230 [mle].  [a0], [b0]: values wrapped in [Initial], if any. *)
Definition mle (findroot : (val -> val -> val * val) -> val * val -> res (val * val)) (x : list val) (a0 b0 : option val) : res (val * val) :=
  validate_x_bounds x (Some (Fin 1)) (Some PInf) false true
  (bindv (match a0 with Some a => a | None => Fin 1 / (M_basic.mean x None - 1) end) (fun a0 =>
   bindv (match b0 with Some b => b | None => a0 * (a0 + 1) / 2 end) (fun b0 =>
   validate a0 b0
   (bind (findroot (mle_eqns x) (a0, b0)) (fun '(ah, bh) =>
    cif (ah <=? 0) (Err RuntimeError) (cif (bh <=? 0) (Err RuntimeError)
    (cif (bh >? ah * (ah + 1) / 2) (Err RuntimeError) (Ok (ah, bh))))))))).
