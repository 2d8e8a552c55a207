(** Model of /repo/mpsci/stats/_odds_ratio.py.  Tables are lists of rows of Python ints.  A
    [while] loop gets fuel (see M_bracket).  mp.findroot is the parameter [findroot], applied to
    the function and the bracket (line 78, the only call). *)
From Coq Require Import Reals List Bool ZArith String QArith.
From Coq Require Import Qreals.
From Verif Require Import Values SpecDisc M_common M_sfun M_bracket.
From Verif Require M_fnch M_hypergeometric M_fisher M_normal.
Import ListNotations.
Local Open Scope R_scope.
Local Open Scope val_scope.

Definition vZ (z : Z) : val := Fin (IZR z).
(** _odds_ratio.py:23-26. *)
Definition row_or_column_zero (a b c d : Z) : bool :=
  ((Z.eqb a b && Z.eqb b 0) || (Z.eqb c d && Z.eqb d 0) || (Z.eqb a c && Z.eqb c 0) || (Z.eqb b d && Z.eqb d 0))%bool.
(** _odds_ratio.py:29-44. *)
Definition sample_odds_ratio (a b c d : Z) : val :=
  IF (vZ c >? 0) && (vZ b >? 0) THEN vZ a * vZ d / (vZ c * vZ b) ELSE
  IF (vZ a =? 0) || (vZ d =? 0) THEN NaN ELSE PInf.

Section Solver.
Variable findroot : (val -> val) -> val * val -> val.
Variable fuel : nat.
(** A value of type val where a loop may run out of fuel or a condition may raise. *)
Definition of_res (r : res val) : val := match r with Ok v => v | Err e => Exc e end.
(** _odds_ratio.py:47-79. *)
Definition solve (func : val -> val) : val :=
  bindv (func (Fin 1)) (fun value =>
  IF value =? 0 THEN Fin 1 ELSE
  let factor := Fin 2 in
  of_res (
  bind (RIF value >? 0 THEN
          bind (while fuel (fun nc => func nc >? 0) (fun nc => nc / factor) (Fin 1 / factor)) (fun nc => Ok (nc, factor * nc))
        ELSE
          bind (while fuel (fun nc => func nc <? 0) (fun nc => nc * factor) (Fin 1 * factor)) (fun nc => Ok (nc / factor, nc))) (fun s =>
  Ok (findroot func s)))).
(** _odds_ratio.py:82-89. *)
Definition nc_hypergeom_mean_inverse (x total ngood nsample : val) : val :=
  solve (fun nc => M_fnch.mean nc total ngood nsample - x).
(** _odds_ratio.py:92-113 [_ci_upper], with the parameters of [_hypergeom_params_from_table]. *)
Definition ci_upper (a b c d : Z) (alpha : val) : val :=
  match sample_odds_ratio a b c d with
  | PInf => PInf
  | _ => solve (fun nc => - M_fnch.cdf (vZ a) nc (vZ (a + b + c + d)) (vZ (a + b)) (vZ (a + c)) + alpha)
  end.
(** _odds_ratio.py:116-126. *)
Definition ci_lower (a b c d : Z) (alpha : val) : val :=
  IF sample_odds_ratio a b c d =? 0 THEN Fin 0 ELSE
  solve (fun nc => M_fnch.sf (vZ (a - 1)) nc (vZ (a + b + c + d)) (vZ (a + b)) (vZ (a + c)) - alpha).
(** _odds_ratio.py:129-147. *)
Definition conditional_oddsratio (a b c d : Z) : val :=
  match M_hypergeometric.support_pmf (vZ (a + b + c + d)) (vZ (a + b)) (vZ (a + c)) with
  | Err e => Exc e
  | Ok (Count _, _) => Exc NonTermination
  | Ok (Range l h, _) =>
      if Z.leb h l then Exc IndexError
      else if Z.eqb a l then Fin 0
      else if Z.eqb a (h - 1) then PInf
      else nc_hypergeom_mean_inverse (vZ a) (vZ (a + b + c + d)) (vZ (a + b)) (vZ (a + c))
  end.
(** A pair of numbers: an exception in either is raised. *)
Definition pair_of (l h : val) : res (val * val) := bindv l (fun l => bindv h (fun h => Ok (l, h))).
(** _odds_ratio.py:150-188. *)
Definition conditional_oddsratio_ci (a b c d : Z) (confidence_level : val) (alternative : string) : res (val * val) :=
  if String.eqb alternative "two-sided" then
    bindv ((Fin 1 - confidence_level) / Fin 2) (fun alpha => pair_of (ci_lower a b c d alpha) (ci_upper a b c d alpha))
  else if String.eqb alternative "less" then
    pair_of (Fin 0) (ci_upper a b c d (Fin 1 - confidence_level))
  else pair_of (ci_lower a b c d (Fin 1 - confidence_level)) PInf.
(** _odds_ratio.py:191-213: the built-in [sum] is applied to a number (line 197), so everything
    after it is unreachable. *)
Definition sample_odds_ratio_ci (a b c d : Z) (confidence_level : val) (alternative : string) : res (val * val) :=
  bindv (vlog (sample_odds_ratio a b c d)) (fun log_or =>
  bindv (Fin 1 / vZ a + Fin 1 / vZ b + Fin 1 / vZ c + Fin 1 / vZ d) (fun _ => Err TypeError)).
(** _odds_ratio.py:216-251: the class OddsRatioResult.  The table has passed the shape check. *)
Record result := Result { tab : Z * Z * Z * Z; kind : string; alternative : string; or_value : val; pvalue : val }.
(** _odds_ratio.py:253-340 [odds_ratio_ci] with the two methods it calls. *)
Definition odds_ratio_ci (r : result) (confidence_level : val) : res (val * val) :=
  let '(a, b, c, d) := tab r in
  RIF (confidence_level <? 0) || (confidence_level >? 1) THEN Err ValueError ELSE
  if row_or_column_zero a b c d then Ok (Fin 0, PInf)
  else if String.eqb (kind r) "conditional" then conditional_oddsratio_ci a b c d confidence_level (alternative r)
  else sample_odds_ratio_ci a b c d confidence_level (alternative r).
(** _odds_ratio.py:343-458. *)
Definition odds_ratio (table : list (list Z)) (kind alternative : string) : res result :=
  if negb (String.eqb kind "conditional" || String.eqb kind "sample")%bool then Err ValueError
  else if negb (String.eqb alternative "two-sided" || String.eqb alternative "less" || String.eqb alternative "greater")%bool then Err ValueError
  else
  match table with
  | [[a; b]; [c; d]] =>
      if (Z.ltb a 0 || Z.ltb b 0 || Z.ltb c 0 || Z.ltb d 0)%bool then Err ValueError
      else if row_or_column_zero a b c d then Ok (Result (a, b, c, d) kind alternative NaN (Fin 1))
      else if String.eqb kind "sample" then
        bindv (sample_odds_ratio a b c d) (fun oddsratio =>
        bindv (vlog oddsratio) (fun log_or =>
        bindv (vsqrt (Fin 1 / vZ a + Fin 1 / vZ b + Fin 1 / vZ c + Fin 1 / vZ d)) (fun se =>
        bindv (if String.eqb alternative "two-sided" then Fin 2 * vncdf (- vabs log_or / se) (Fin 0) (Fin 1)
               else if String.eqb alternative "less" then vncdf (log_or / se) (Fin 0) (Fin 1)
               else vncdf (- log_or / se) (Fin 0) (Fin 1)) (fun pvalue =>
        Ok (Result (a, b, c, d) kind alternative oddsratio pvalue)))))
      else
        bindv (conditional_oddsratio a b c d) (fun oddsratio =>
        bind (M_fisher.fisher_exact a b c d alternative) (fun p =>
        Ok (Result (a, b, c, d) kind alternative oddsratio (Fin (Q2R (snd p))))))
  | _ => Err ValueError
  end.
End Solver.
