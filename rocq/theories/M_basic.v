(** Model of /repo/mpsci/stats/_basic.py (means and variances).  [mp.extraprec]
    only changes the working precision. *)
From Coq Require Import Reals List Bool Arith.
From Verif Require Import Values M_fun.
Import ListNotations.
Local Open Scope R_scope.
Local Open Scope val_scope.

(** _basic.py:36-54 [mean]. *)
Definition mean (x : list val) (weights : option (list val)) : val :=
  match weights with
  | None => vfsum x / vlen x
  | Some w =>
      if negb (Nat.eqb (length w) (length x)) then Exc ValueError
      else IF vfsum w =? 0 THEN Exc ZeroDivisionError
      ELSE vfsum (map (fun '(t, w) => t * w) (combine x w)) / vfsum w
  end.

(** _basic.py:57-66 [var]. *)
Definition var (x : list val) (ddof : val) : val :=
  let meanx := vfsum x / vlen x in
  bindv meanx (fun meanx =>
  vfsum (map (fun t => vpown (t - meanx) 2) x) / (vlen x - ddof)).

(** _basic.py:69-74 [std]. *)
Definition std (x : list val) (ddof : val) : val := vsqrt (var x ddof).

(** _basic.py:77-105 [variation]. *)
Definition variation (x : list val) (ddof : val) : val :=
  bindv (std x ddof) (fun s => bindv (mean x None) (fun m => s / m)).

(** _basic.py:108-131 [gmean]. *)
Definition gmean (x : list val) (weights : option (list val)) : val :=
  IF cany (fun t => t <? 0) x THEN Exc ValueError
  ELSE match weights with
  | None => IF cany (fun t => t =? 0) x THEN Fin 0 ELSE vexp (mean (map vlog x) None)
  | Some w =>
      let wsum := vfsum w in
      IF wsum =? 0 THEN Exc ValueError
      ELSE vexp (vfsum (map (fun '(xi, wi) => xlogy wi xi) (combine x w)) / wsum)
  end.

(** _basic.py:134-200 [hmean].  A nan counts as a zero (neither > 0 nor < 0). *)
Definition hmean (x : list val) (weights : option (list val)) : val :=
  IF cany (fun t => cnot (cor (t >? 0) (t <? 0))) x THEN Fin 0
  ELSE
    let npos := cany (fun t => t >? 0) x in
    let nneg := cany (fun t => t <? 0) x in
    bindv (mean (map (fun t => Fin 1 / t) x) weights) (fun m =>
    IF m =? 0 THEN
      (IF npos && nneg THEN NaN ELSE IF npos THEN PInf ELSE NInf)
    ELSE Fin 1 / m).

(** _basic.py:203-223 [pmean]. *)
Definition pmean (x : list val) (p : val) (weights : option (list val)) : val :=
  IF p =? 0 THEN gmean x weights
  ELSE IF p =? 1 THEN mean x weights
  ELSE IF p =? (-1)%R THEN hmean x weights
  ELSE IF visinf p THEN (IF p >? 0 THEN vmaxl x ELSE vminl x)
  ELSE vpow (mean (map (fun t => vpow t p) x) weights) (Fin 1 / p).

(** _basic.py:226-290 [lehmer_mean]. *)
Definition lehmer_mean (x : list val) (p : val) (weights : option (list val)) : val :=
  IF cany (fun t => t <=? 0) x THEN Exc ValueError
  ELSE IF p =? 0 THEN hmean x weights
  ELSE IF p =? (1/2)%R THEN gmean x weights
  ELSE IF p =? 1 THEN mean x weights
  ELSE IF visinf p THEN (IF p <? 0 THEN vminl x ELSE vmaxl x)
  ELSE mean (map (fun t => vpow t p) x) weights / mean (map (fun t => vpow t (p - 1)) x) weights.
