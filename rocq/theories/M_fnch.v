(** Model of /repo/mpsci/distributions/fishers_noncentral_hypergeometric.py.  The memo table of
    [_support_pmf] is modelled separately, in M_fnch_cache.v; here every call recomputes. *)
From Coq Require Import Reals List Bool ZArith.
From Verif Require Import Values SpecDisc M_common M_sfun M_disc.
From Verif Require M_hypergeometric.
Import ListNotations.
Local Open Scope R_scope.
Local Open Scope val_scope.

(** A list display or comprehension: the first element that raises, raises. *)
Fixpoint vlist (l : list val) : res (list val) :=
  match l with
  | [] => Ok []
  | Exc e :: _ => Err e
  | a :: l' => match vlist l' with Ok r => Ok (a :: r) | Err e => Err e end
  end.
(** fishers_noncentral_hypergeometric.py:18-30. *)
Definition support (nc ntotal ngood nsample : val) : res isupport := M_hypergeometric.support ntotal ngood nsample.
(** fishers_noncentral_hypergeometric.py:33-70 [_support_pmf], without the cache. *)
Definition support_pmf0 (nc ntotal ngood nsample : val) : res (isupport * list val) :=
  bindr (M_hypergeometric.support ntotal ngood nsample) (fun sup =>
  match sup with
  | Range a b =>
      bindr (vlist (map (fun k => M_hypergeometric.logpmf (Fin (IZR k)) ntotal ngood nsample) (zrange a b))) (fun lpmf =>
      bindr (vlist (map (fun k => nth (Z.to_nat (k - a)) lpmf (Exc IndexError) + vlog nc * Fin (IZR k)) (zrange a b))) (fun g =>
      bindv (vmaxl g) (fun gmax =>
      bindr (vlist (map (fun v => vexp (v - gmax)) g)) (fun eg =>
      bindv (vfsum eg) (fun egsum =>
      bindr (vlist (map (fun v => v / egsum) eg)) (fun values => Ok (sup, values)))))))
  | Count _ => Err NonTermination
  end).
(** fishers_noncentral_hypergeometric.py:73-120. *)
Definition support_pmf (nc ntotal ngood nsample : val) : res (isupport * list val) :=
  M_hypergeometric.validate ntotal ngood nsample (support_pmf0 nc ntotal ngood nsample).

(** What pmf, cdf, sf and mean do with the pair (sup, p); [k] as a Python int ([k in sup] is
    False and a slice raises TypeError for anything else). *)
Definition as_int (k : val) : option Z :=
  match k with Fin x => if is_intb x then Some (Int_part x) else None | _ => None end.
Definition pmf_of (k : val) (r : isupport * list val) : val :=
  match r, as_int k with
  | (Range a b, p), Some z => if (Z.leb a z && Z.ltb z b)%bool then nth (Z.to_nat (z - a)) p (Exc IndexError) else 0
  | _, _ => 0
  end.
Definition cdf_of (k : val) (r : isupport * list val) : val :=
  match r with
  | (Range a b, p) =>
      IF k <? Fin (IZR a) THEN 0 ELSE IF k >=? Fin (IZR (b - 1)) THEN 1 ELSE
      match as_int k with Some z => vfsum (firstn (Z.to_nat (z - a + 1)) p) | None => Exc TypeError end
  | _ => Exc NonTermination
  end.
Definition sf_of (k : val) (r : isupport * list val) : val :=
  match r with
  | (Range a b, p) =>
      IF k <? Fin (IZR a) THEN 1 ELSE IF k >=? Fin (IZR (b - 1)) THEN 0 ELSE
      match as_int k with Some z => vfsum (skipn (Z.to_nat (z - a + 1)) p) | None => Exc TypeError end
  | _ => Exc NonTermination
  end.
Definition mean_of (r : isupport * list val) : val :=
  match r with
  | (Range a b, p) => vfsum (map (fun k => Fin (IZR (a + Z.of_nat k)) * nth k p (Exc IndexError)) (seq 0 (length p)))
  | _ => Exc NonTermination
  end.
(** fishers_noncentral_hypergeometric.py:159-168. *)
Definition pmf (k nc ntotal ngood nsample : val) : val :=
  M_hypergeometric.validate ntotal ngood nsample (bindr (support_pmf nc ntotal ngood nsample) (pmf_of k)).
(** fishers_noncentral_hypergeometric.py:171-182. *)
Definition cdf (k nc ntotal ngood nsample : val) : val :=
  M_hypergeometric.validate ntotal ngood nsample (bindr (support_pmf nc ntotal ngood nsample) (cdf_of k)).
(** fishers_noncentral_hypergeometric.py:185-196. *)
Definition sf (k nc ntotal ngood nsample : val) : val :=
  M_hypergeometric.validate ntotal ngood nsample (bindr (support_pmf nc ntotal ngood nsample) (sf_of k)).
(** fishers_noncentral_hypergeometric.py:199-243. *)
Definition mode (nc ntotal ngood nsample : val) : val :=
  M_hypergeometric.validate ntotal ngood nsample
  (let A := nc - 1 in
   let B := ngood + nsample - ntotal - (ngood + nsample + 2) * nc in
   let C := (ngood + 1) * (nsample + 1) * nc in
   vint (vfloor (- Fin 2 * C / (B - vsqrt (vpown B 2 - 4 * A * C))))).
(** fishers_noncentral_hypergeometric.py:246-270. *)
Definition mean (nc ntotal ngood nsample : val) : val :=
  M_hypergeometric.validate ntotal ngood nsample (bindr (support_pmf nc ntotal ngood nsample) mean_of).
