(** Model of the memo table of /repo/mpsci/distributions/fishers_noncentral_hypergeometric.py:
    lru_cache (default size 128) on [_support_pmf] (35-70), with the lists it returns kept as
    mutable objects in a heap.  The arithmetic of [_support_pmf] at a given precision is a
    parameter [compute], so nothing here depends on how it rounds; M_fnch.support_pmf0 is one
    instance.  [up] is the precision inside @mp.extradps(5), as a function of the outer one. *)
From Coq Require Import Reals List Bool ZArith.
From Verif Require Import Values SpecDisc.
From Verif Require M_hypergeometric.
From Verif Require Import M_fnch.
Import ListNotations.

Definition args := (val * val * val * val)%type.  (* nc, ntotal, ngood, nsample *)
Definition key := (args * nat)%type.               (* with mp.prec; _support_pmf's parameters, line 37 *)
(** Python equality of numbers (nan differs from itself). *)
Definition veqb (a b : val) : bool :=
  match a, b with
  | Fin x, Fin y => Reqb x y
  | PInf, PInf | NInf, NInf => true
  | _, _ => false
  end.
Definition keyb (a b : key) : bool :=
  let '(x1, x2, x3, x4, p) := a in
  let '(y1, y2, y3, y4, q) := b in
  veqb x1 y1 && veqb x2 y2 && veqb x3 y3 && veqb x4 y4 && Nat.eqb p q.

(** A list object is an address in the heap; the cache is in most-recently-used order. *)
Definition addr := nat.
Record state := St { heap : list (list val); cache : list (key * (isupport * addr)); prec : nat }.
Definition maxsize : nat := 128.
Definition init (p : nat) : state := St [] [] p.

Fixpoint lookup (k : key) (c : list (key * (isupport * addr))) : option (isupport * addr) :=
  match c with [] => None | (k', v) :: c' => if keyb k k' then Some v else lookup k c' end.
Fixpoint remove (k : key) (c : list (key * (isupport * addr))) : list (key * (isupport * addr)) :=
  match c with [] => [] | (k', v) :: c' => if keyb k k' then c' else (k', v) :: remove k c' end.
Fixpoint set_nth (i : nat) (v : val) (l : list val) : list val :=
  match l, i with [], _ => [] | _ :: l', O => v :: l' | a :: l', S j => a :: set_nth j v l' end.
Fixpoint set_heap (a : addr) (l : list val) (h : list (list val)) : list (list val) :=
  match h, a with [], _ => [] | _ :: h', O => l :: h' | x :: h', S b => x :: set_heap b l h' end.

(** What a client can do: call the API, change mp.prec, or assign to an element of a list that
    support_pmf returned. *)
Inductive op :=
| SupportPmf (a : args)
| Pmf (k : val) (a : args)
| Cdf (k : val) (a : args)
| Sf (k : val) (a : args)
| Mean (a : args)
| SetPrec (p : nat)
| Assign (l : addr) (i : nat) (v : val).
(** What the client sees: a number, the support and the elements of the returned list (and
    which object it is), or nothing. *)
Inductive obs := Num (v : val) | Lst (r : res (isupport * list val)) (a : option addr) | Nothing.

Section Cache.
Variable compute : nat -> args -> res (isupport * list val).
Variable up : nat -> nat.

(** [_support_pmf] through the cache (35-70): a hit returns the stored object, a miss computes,
    stores and evicts the least recently used entry; an exception is not stored. *)
Definition cached (a : args) (s : state) : state * res (isupport * addr) :=
  let k := (a, prec s) in
  match lookup k (cache s) with
  | Some v => (St (heap s) ((k, v) :: remove k (cache s)) (prec s), Ok v)
  | None =>
      match compute (prec s) a with
      | Err e => (s, Err e)
      | Ok (sup, l) =>
          let v := (sup, length (heap s)) in
          (St (heap s ++ [l]) (firstn maxsize ((k, v) :: cache s)) (prec s), Ok v)
      end
  end.
Definition valid (a : args) : res unit := let '(_, N, K, n) := a in M_hypergeometric.validate N K n (Ok tt).
(** [support_pmf] (73-120). *)
Definition support_pmf (a : args) (s : state) : state * res (isupport * addr) :=
  match valid a with Err e => (s, Err e) | Ok _ => cached a s end.
Definition deref (s : state) (r : res (isupport * addr)) : res (isupport * list val) :=
  match r with Ok (sup, l) => Ok (sup, nth l (heap s) []) | Err e => Err e end.
Definition with_pair (f : isupport * list val -> val) (a : args) (s : state) : state * obs :=
  let '(s', r) := support_pmf a s in (s', Num (match deref s' r with Ok p => f p | Err e => Exc e end)).
(** pmf 159-168, cdf 171-182, sf 185-196, mean 246-270 (the last under extradps(5)). *)
Definition step (o : op) (s : state) : state * obs :=
  match o with
  | SupportPmf a => let '(s', r) := support_pmf a s in
                    (s', Lst (deref s' r) (match r with Ok (_, l) => Some l | _ => None end))
  | Pmf k a => with_pair (pmf_of k) a s
  | Cdf k a => with_pair (cdf_of k) a s
  | Sf k a => with_pair (sf_of k) a s
  | Mean a => let '(s', v) := with_pair mean_of a (St (heap s) (cache s) (up (prec s))) in
              (St (heap s') (cache s') (prec s), v)
  | SetPrec p => (St (heap s) (cache s) p, Nothing)
  | Assign l i v => (St (set_heap l (set_nth i v (nth l (heap s) [])) (heap s)) (cache s) (prec s), Nothing)
  end.
Fixpoint run (os : list op) (s : state) : state :=
  match os with [] => s | o :: os' => run os' (fst (step o s)) end.
End Cache.
