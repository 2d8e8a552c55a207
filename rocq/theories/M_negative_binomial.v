(** Model of /repo/mpsci/distributions/negative_binomial.py. *)
From Coq Require Import Reals List Bool ZArith.
From Verif Require Import Values SpecDisc M_common M_sfun M_disc M_fun.
From Verif Require M_basic.
Import ListNotations.
Local Open Scope R_scope.
Local Open Scope val_scope.

(** negative_binomial.py:23-32 [_validate_params]. *)
Definition validate {A} `{CanRaise A} (r p : val) (allow_noninteger_r : bool) (cont : A) : A :=
  RIF r <=? 0 THEN raise ValueError ELSE
  RIF (if allow_noninteger_r then CB false else vint r <>? r) THEN raise ValueError ELSE
  RIF cnot (cand (Fin 0 <=? p) (p <=? 1)) THEN raise ValueError ELSE cont.
(** negative_binomial.py:35-52. *)
Definition support (r p : val) : res isupport := Ok (Count 0).
(** negative_binomial.py:55-64 [_validate_x]. *)
Definition validate_x {A} `{CanRaise A} (x : list val) (cont : A) : A :=
  RIF cany (fun xi => (xi <? 0) || (xi <>? vint xi)) x THEN raise ValueError ELSE cont.
(** negative_binomial.py:68-83. *)
Definition logpmf (k r p : val) : val :=
  validate r p true
  (validate_int k
  (IF k <? 0 THEN NInf ELSE
   logbinomial vloggamma (k + r - 1) k + xlog1py r (- p) + xlogy k p)).
(** negative_binomial.py:87-98. *)
Definition pmf (k r p : val) : val := vexp (logpmf k r p).
(** negative_binomial.py:102-117. *)
Definition sf (k r p : val) : val :=
  validate r p true (validate_int k (IF k <? 0 THEN Fin 1 ELSE vbetainc_lower (k + 1) r p)).
(** negative_binomial.py:121-136. *)
Definition cdf (k r p : val) : val :=
  validate r p true (validate_int k (IF k <? 0 THEN Fin 0 ELSE vbetainc_upper (k + 1) r p)).
(** negative_binomial.py:140-152. *)
Definition mean (r p : val) : val := validate r p true (p * r / (Fin 1 - p)).
(** negative_binomial.py:156-163. *)
Definition mode (r p : val) : val :=
  validate r p true
  (IF r <=? 1 THEN Fin 0 ELSE vint (vceil ((r - 1) * p / (Fin 1 - p))) - 1).
(** negative_binomial.py:167-179. *)
Definition var (r p : val) : val := validate r p true (p * r / vpown (Fin 1 - p) 2).
(** negative_binomial.py:183-204. *)
Definition nll (x : list val) (r p : val) (counts : option (list val)) : val :=
  validate r p true
  (validate_x x
  (validate_counts x counts true (fun counts =>
   - vfsum (map (fun '(t, c) => c * logpmf t r p) (zip_counts x counts))))).
(** negative_binomial.py:208-276 [mle], the case r given, p free (lines 214-229).  The cases with r
    free solve an equation with [mp.findroot]; see [mle_free] and [mle_p]. *)
Definition mle_r (x : list val) (counts : option (list val)) (r : val) (allow_noninteger_r : bool) : res (val * val) :=
  validate_x x
  (validate_counts x counts false (fun counts =>
   validate r (Fin (1 / 2)%R) allow_noninteger_r
   (bindv (M_basic.mean x counts) (fun m => bindv (m / (r + m)) (fun phat => Ok (r, phat)))))).
(** negative_binomial.py:230-255 [mle], neither given.  [findroot f x0] is mpmath's solver; [r0] is the starting point. *)
Definition mle_free (findroot : (val -> val) -> val -> val) (x : list val) (counts : option (list val)) (r0 : val) (allow_noninteger_r : bool) : res (val * val) :=
  validate_x x
  (validate_counts x counts false (fun counts =>
   bindv (M_basic.mean x counts) (fun m =>
   let mle_r_eqn r := let p1 := m / (r + m) in
      M_basic.mean (map (fun xi => vdigamma (xi + r)) x) counts - vdigamma r + vlog1p (- p1) in
   bindv (findroot mle_r_eqn r0) (fun rhat =>
   bindv (m / (rhat + m)) (fun phat =>
   RIF (if allow_noninteger_r then CB true else rhat =? vint rhat) THEN Ok (rhat, phat) ELSE
   let rhat0 := vfloor rhat in
   let rhat1 := vceil rhat in
   bindv (m / (rhat0 + m)) (fun phat0 =>
   bindv (m / (rhat1 + m)) (fun phat1 =>
   RIF nll x rhat0 phat0 counts <=? nll x rhat1 phat1 counts THEN Ok (rhat0, phat0) ELSE Ok (rhat1, phat1)))))))).
(** negative_binomial.py:256-276 [mle], p given, r free. *)
Definition mle_p (findroot : (val -> val) -> val -> val) (x : list val) (counts : option (list val)) (p r0 : val) (allow_noninteger_r : bool) : res (val * val) :=
  validate_x x
  (validate_counts x counts false (fun counts =>
   validate (Fin 1) p true
   (bindv (M_basic.mean x counts) (fun _ =>
   let mle_r_eqn r :=
      M_basic.mean (map (fun xi => vdigamma (xi + r)) x) counts - vdigamma r + vlog1p (- p) in
   bindv (findroot mle_r_eqn r0) (fun rhat =>
   RIF (if allow_noninteger_r then CB true else rhat =? vint rhat) THEN Ok (rhat, p) ELSE
   let rhat0 := vfloor rhat in
   let rhat1 := vceil rhat in
   RIF nll x rhat0 p counts <=? nll x rhat1 p counts THEN Ok (rhat0, p) ELSE Ok (rhat1, p)))))).
