(** Model of /repo/mpsci/distributions/_common.py, validators. *)
From Coq Require Import Reals List Bool ZArith.
From Verif Require Import Values.
Import ListNotations.
Local Open Scope R_scope.
Local Open Scope val_scope.

(** _common.py:22-27 [_validate_loc_scale] (the conversion [mp.mpf] is the
    identity on the model's numbers; the continuation is the rest of the caller). *)
Definition validate_loc_scale {A} `{CanRaise A} (loc scale : val) (k : A) : A :=
  RIF scale <=? 0 THEN raise ValueError ELSE k.

(** _common.py:30-33 [_validate_p]. *)
Definition validate_p {A} `{CanRaise A} (p : val) (k : A) : A :=
  RIF (p <? 0) || (p >? 1) THEN raise ValueError ELSE k.

(** "[param] must be positive": the pattern [if param <= 0: raise ValueError],
    e.g. benini.py:80-84 [_validate_positive]. *)
Definition validate_positive {A} `{CanRaise A} (v : val) (k : A) : A :=
  RIF v <=? 0 THEN raise ValueError ELSE k.

(** _common.py:64-97 [_validate_x_bounds]; [None] is an absent bound. *)
Definition validate_x_bounds {A} `{CanRaise A} (x : list val) (low high : option val)
    (strict_low strict_high : bool) (k : A) : A :=
  RIF match low with
      | None => CB false
      | Some l => cany (fun t => if strict_low then t <=? l else t <? l) x
      end THEN raise ValueError ELSE
  RIF match high with
      | None => CB false
      | Some h => cany (fun t => if strict_high then t >=? h else t >? h) x
      end THEN raise ValueError ELSE k.
