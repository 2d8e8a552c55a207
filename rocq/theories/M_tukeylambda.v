(** Model of /repo/mpsci/distributions/tukeylambda.py.
    [fr] is mpmath.findroot on a bracket, [fuel] bounds the refinement loop, [delta] is sqrt(mp.eps). *)
From Coq Require Import Reals List Arith.
From Verif Require Import Values M_common SFun M_sfun.
Import ListNotations.
Local Open Scope R_scope.
Local Open Scope val_scope.

(** tukeylambda.py:21-24. *)
Definition validate_params {A} `{CanRaise A} (lam loc scale : val) (k : A) : A := validate_loc_scale loc scale k.
(** tukeylambda.py:150-168. *)
Definition invcdf (p lam loc scale : val) : val :=
  validate_p p (validate_params lam loc scale
  (IF (lam <? 0) && (p =? 0) THEN NInf ELSE IF (lam <? 0) && (p =? 1) THEN PInf ELSE
   let z := IF lam =? 0 THEN vlog p - vlog1p (- p) ELSE (vpow p lam - vexp (lam * vlog1p (- p))) / lam in
   loc + scale * z)).
(** tukeylambda.py:171-176. *)
Definition invsf (p lam loc scale : val) : val := - invcdf p lam (- loc) scale.
(** tukeylambda.py:55-83. *)
Definition cdf_solver_bracket (z lam : val) : val * val :=
  let lamrecip := Fin 1 / lam in
  let neg := lam <? 0 in
  (IF neg THEN
     IF z <? 0 THEN (IF z <? (- vpow 2 (- lam - 1)) THEN 0 ELSE Fin 1 / 2 + vpow 2 lam * z)
     ELSE (IF z >? (- vpow 2 (- lam) / lam) THEN - vexpm1 (vlog (- lam * z) / lam) ELSE Fin (1/2))
   ELSE 0,
   IF neg THEN
     IF z <? 0 THEN (IF z <? (vpow 2 (- lam) / lam) THEN vpow (lam * z) lamrecip ELSE Fin (1/2))
     ELSE (IF z >? vpow 2 (- lam - 1) THEN 1 ELSE Fin 1 / 2 + vpow 2 lam * z)
   ELSE 1).
(** tukeylambda.py:90-104: the loop; [m] is the midpoint of the initial bracket. *)
Fixpoint refine_loop (fuel : nat) (delta m sign_min z lam pmin pmax : val) : res (val * val) :=
  match fuel with
  | O => Err NonTermination
  | S n =>
      RIF (pmax - pmin) / m >? delta THEN
        let pmid := (pmin + pmax) / 2 in
        bindv (vsign (invcdf pmid lam 0 1 - z)) (fun sign_mid =>
        RIF sign_mid =? 0 THEN Ok (pmid, pmid) ELSE
        RIF sign_mid =? sign_min THEN refine_loop n delta m sign_min z lam pmid pmax
        ELSE refine_loop n delta m sign_min z lam pmin pmid)
      ELSE Ok (pmin, pmax)
  end.
(** tukeylambda.py:86-104; [sign_max] is computed and not used. *)
Definition refine_bracket (fuel : nat) (delta pmin pmax z lam : val) : res (val * val) :=
  bindv ((pmin + pmax) / 2) (fun m =>
  bindv (vsign (invcdf pmin lam 0 1 - z)) (fun sign_min =>
  bindv (vsign (invcdf pmax lam 0 1 - z)) (fun _ =>
  refine_loop fuel delta m sign_min z lam pmin pmax))).
(** tukeylambda.py:107-137. *)
Definition cdf (fr : (val -> val) -> val * val -> val) (fuel : nat) (delta x lam loc scale : val) : val :=
  validate_params lam loc scale
  (let z := (x - loc) / scale in
   IF z =? 0 THEN Fin (1/2) ELSE
   IF (lam >? 0) && (z <=? (- (Fin 1 / lam))) THEN 0 ELSE
   IF (lam >? 0) && (z >=? (Fin 1 / lam)) THEN 1 ELSE
   IF lam =? 0 THEN Fin 1 / (vexp (- z) + 1) ELSE
   let '(pmin, pmax) := cdf_solver_bracket z lam in
   bindv pmin (fun pmin => bindv pmax (fun pmax =>
   match refine_bracket fuel delta pmin pmax z lam with
   | Err e => Exc e
   | Ok b => fr (fun t => invcdf t lam 0 1 - z) b
   end))).
(** tukeylambda.py:140-147. *)
Definition sf (fr : (val -> val) -> val * val -> val) (fuel : nat) (delta x lam loc scale : val) : val :=
  cdf fr fuel delta (- x) lam (- loc) scale.
(** tukeylambda.py:27-40. *)
Definition pdf (fr : (val -> val) -> val * val -> val) (fuel : nat) (delta x lam loc scale : val) : val :=
  validate_params lam loc scale
  (let z := (x - loc) / scale in
   IF (lam >? 0) && ((z <=? (- (Fin 1 / lam))) || (z >=? (Fin 1 / lam))) THEN 0 ELSE
   let c := cdf fr fuel delta z lam 0 1 in
   let p := Fin 1 / (vpow c (lam - 1) + vexp ((lam - 1) * vlog1p (- c))) in
   p / scale).
(** tukeylambda.py:43-52. *)
Definition logpdf (fr : (val -> val) -> val * val -> val) (fuel : nat) (delta x lam loc scale : val) : val :=
  validate_params lam loc scale (vlog (pdf fr fuel delta x lam loc scale)).
(** tukeylambda.py:179-188. *)
Definition support (lam loc scale : val) : res (val * val) :=
  validate_params lam loc scale
  (RIF lam <=? 0 THEN Ok (NInf, PInf) ELSE Ok (loc - scale / lam, loc + scale / lam)).
(** tukeylambda.py:191-201. *)
Definition mean (lam loc scale : val) : val :=
  validate_params lam loc scale (IF lam >? Fin (-1) THEN loc ELSE NaN).
(** tukeylambda.py:204-219. *)
Definition var (lam loc scale : val) : val :=
  validate_params lam loc scale
  (IF lam <=? Fin (-1/2) THEN NaN ELSE
   IF lam =? 0 THEN vpown (scale * vpi) 2 / 3 ELSE
   let g1 := vgamma (lam + 1) in let g2 := vgamma (2 * lam + 2) in
   let v0 := (Fin 2 / vpown lam 2) * (Fin 1 / (Fin 1 + 2 * lam) - vpown g1 2 / g2) in
   vpown scale 2 * v0).
(** tukeylambda.py:222-237. *)
Definition standard_noncentral_moment (n : nat) (lam : val) : val :=
  if Nat.eqb n 0 then Fin 1 else if Nat.odd n then Fin 0 else
  IF lam * Fin (INR n) <=? Fin (-1) THEN NaN ELSE
  vfsum (map (fun k => Fin ((-1) ^ k) * Fin (C n k) * vbeta (lam * Fin (INR k) + 1) (Fin (INR (n - k)) * lam + 1)) (seq 0 (n + 1)))
  / vpown lam n.
(** tukeylambda.py:240-254; [n] has passed [_validate_moment_n]. *)
Definition noncentral_moment (n : nat) (lam loc scale : val) : val :=
  validate_params lam loc scale
  (if Nat.eqb n 0 then Fin 1 else
   vfsum (map (fun i => Fin (C n i) * vpown loc (n - i) * vpown scale i * standard_noncentral_moment i lam) (seq 0 (n + 1)))).
