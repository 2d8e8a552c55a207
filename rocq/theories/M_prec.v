(** The global precision of mpmath and the control flow of the package around it.
    A function is reduced to its precision skeleton: which package functions its expressions
    may call, its branches, loops, exits, exception handlers, and the decorators and with-statements
    that change mp.prec or mp.dps.  What is kept is every way control can reach or leave a change
    of precision; values are dropped, so every branch may go either way, every loop may run any
    number of times and every expression may raise.  The skeletons of all functions in /repo/mpsci are
    generated into M_prec_table.v. *)
From Coq Require Import List String ZArith Bool.
Import ListNotations.
Local Open Scope Z_scope.

(** mpmath's context: mp.prec and mp.dps.  mpmath/libmp: dps_to_prec(n) =
    max(1, round((n+1)*3.3219280948873626)), prec_to_dps(n) = max(1, round(n/3.3219280948873626) - 1).
    The constant is taken as an exact decimal and rounding as floor(x + 1/2): Python's half-even
    rounding and the rounding of the float product can differ only where the product is within a few
    ulps of a half-integer. *)
Definition c_num := 33219280948873626.
Definition c_den := 10000000000000000.
Definition dps_to_prec (n : Z) : Z := Z.max 1 ((2 * (n + 1) * c_num + c_den) / (2 * c_den)).
Definition prec_to_dps (n : Z) : Z := Z.max 1 ((2 * n * c_den + c_num) / (2 * c_num) - 1).
Record ctx := Ctx { prec : Z; dps : Z }.
(** mpmath: the setters of mp.prec and mp.dps. *)
Definition set_prec (n : Z) : ctx := Ctx (Z.max 1 n) (prec_to_dps (Z.max 1 n)).
Definition set_dps (n : Z) : ctx := Ctx (dps_to_prec n) (Z.max 1 n).
(** A state that assignments to mp.prec or (integer) mp.dps produce. *)
Definition settled (s : ctx) : Prop := 1 <= prec s /\ dps s = prec_to_dps (prec s).

(** The arguments of mp.extradps etc. in the package. *)
Inductive pexp := Num (n : Z) | Prec | Dps | Add (a b : pexp) | Mul (a b : pexp) | Div (a b : pexp) | Min (a b : pexp) | Max (a b : pexp).
Fixpoint peval (s : ctx) (e : pexp) : Z :=
  match e with
  | Num n => n | Prec => prec s | Dps => dps s
  | Add a b => peval s a + peval s b
  | Mul a b => peval s a * peval s b
  | Div a b => peval s a / peval s b
  | Min a b => Z.min (peval s a) (peval s b)
  | Max a b => Z.max (peval s a) (peval s b)
  end.
(** mpmath's PrecisionManager, as decorator or context manager. *)
Inductive manager := ExtraDps (e : pexp) | ExtraPrec (e : pexp) | WorkPrec (e : pexp) | WorkDps (e : pexp).
Definition enter (m : manager) (s : ctx) : ctx :=
  match m with
  | ExtraDps e => set_dps (dps s + peval s e)
  | ExtraPrec e => set_prec (prec s + peval s e)
  | WorkPrec e => set_prec (peval s e)
  | WorkDps e => set_dps (peval s e)
  end.
(** On exit, normal or not, mp.prec is set to the value saved on entry. *)
Definition leave (s0 : ctx) : ctx := set_prec (prec s0).

Inductive stmt :=
| Skip
| Eval (callees : list string)     (* an expression that may call these functions; "?" = any function *)
| Seq (a b : stmt) | If (a b : stmt) | Loop (a : stmt)
| With (m : manager) (a : stmt)
| Try (body handlers final : stmt)
| Return | Raise | Break | Continue
| Yield                            (* suspends; resumed at the same precision *)
| SetPrec (e : pexp) | SetDps (e : pexp).   (* plain assignments; the package has none *)
Definition program := list (string * stmt).
Definition may_call (fs : list string) (f : string) : Prop := In f fs \/ In "?"%string fs.

(** How a statement ends: normally, or by return, raise, break or continue. *)
Inductive outcome := Normal | Abrupt.

(** [exec P a s tr o s']: statement [a] can run from context [s] to [s'], ending with [o]; [tr]
    lists the precisions at which expressions are evaluated.  [evals P fs s tr s']: evaluating an
    expression, which makes any number of calls to the functions in [fs], directly or from inside an
    mpmath function (findroot, quad, diff, ...) that raises the precision for its own work
    and restores it. *)
Inductive exec (P : program) : stmt -> ctx -> list Z -> outcome -> ctx -> Prop :=
| E_skip s : exec P Skip s [] Normal s
| E_eval fs s tr s' o : evals P fs s tr s' -> exec P (Eval fs) s tr o s'
| E_seq a b s t1 s1 t2 o s2 : exec P a s t1 Normal s1 -> exec P b s1 t2 o s2 -> exec P (Seq a b) s (t1 ++ t2) o s2
| E_seq_abrupt a b s t1 s1 : exec P a s t1 Abrupt s1 -> exec P (Seq a b) s t1 Abrupt s1
| E_if_l a b s t o s' : exec P a s t o s' -> exec P (If a b) s t o s'
| E_if_r a b s t o s' : exec P b s t o s' -> exec P (If a b) s t o s'
| E_loop_end a s : exec P (Loop a) s [] Normal s
| E_loop a s t1 s1 t2 o s2 : exec P a s t1 Normal s1 -> exec P (Loop a) s1 t2 o s2 -> exec P (Loop a) s (t1 ++ t2) o s2
| E_loop_exit a s t1 s1 o : exec P a s t1 Abrupt s1 -> exec P (Loop a) s t1 o s1                       (* break, return or raise *)
| E_loop_continue a s t1 s1 t2 o s2 : exec P a s t1 Abrupt s1 -> exec P (Loop a) s1 t2 o s2 -> exec P (Loop a) s (t1 ++ t2) o s2
| E_with m a s t o s' : exec P a (enter m s) t o s' -> exec P (With m a) s t o (leave s)
| E_try b h f s t1 o1 s1 t3 o3 s3 : exec P b s t1 o1 s1 -> exec P f s1 t3 o3 s3 ->
    exec P (Try b h f) s (t1 ++ t3) (match o3 with Abrupt => Abrupt | Normal => o1 end) s3
| E_try_handle b h f s t1 s1 t2 o2 s2 t3 o3 s3 : exec P b s t1 Abrupt s1 -> exec P h s1 t2 o2 s2 -> exec P f s2 t3 o3 s3 ->
    exec P (Try b h f) s (t1 ++ t2 ++ t3) (match o3 with Abrupt => Abrupt | Normal => o2 end) s3
| E_return s : exec P Return s [] Abrupt s
| E_raise s : exec P Raise s [] Abrupt s
| E_break s : exec P Break s [] Abrupt s
| E_continue s : exec P Continue s [] Abrupt s
| E_yield s : exec P Yield s [] Normal s
| E_setprec e s : exec P (SetPrec e) s [] Normal (set_prec (peval s e))
| E_setdps e s : exec P (SetDps e) s [] Normal (set_dps (peval s e))
with evals (P : program) : list string -> ctx -> list Z -> ctx -> Prop :=
| V_end fs s : evals P fs s [prec s] s
| V_call fs f body s t1 o s1 t2 s2 : may_call fs f -> In (f, body) P -> exec P body s t1 o s1 -> evals P fs s1 t2 s2 ->
    evals P fs s (prec s :: t1 ++ t2) s2
| V_callback fs f body s q t1 o s1 t2 s2 : may_call fs f -> In (f, body) P -> prec s <= q ->
    exec P body (set_prec q) t1 o s1 -> evals P fs (leave s) t2 s2 ->
    evals P fs s (prec s :: t1 ++ t2) s2.

(** A client that makes calls to the package one after the other, catching exceptions. *)
Inductive session (P : program) : list string -> ctx -> list Z -> ctx -> Prop :=
| S_nil s : session P [] s [] s
| S_call f body fs s t1 o s1 t2 s2 : In (f, body) P -> exec P body s t1 o s1 -> session P fs s1 t2 s2 -> session P (f :: fs) s (t1 ++ t2) s2.
