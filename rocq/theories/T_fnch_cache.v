(** C28 for mpsci.distributions.fishers_noncentral_hypergeometric: results and call history. *)
From Coq Require Import Reals Lra Lia List Bool ZArith.
From Verif Require Import Values SpecDisc M_fnch M_fnch_cache SpecCache.
From Verif Require P_fnch P_fnch_cache P_hypergeometric.
Import ListNotations.
Local Open Scope R_scope.

(** C28: whatever [_support_pmf] computes at each precision, after any history of calls and
    precision changes (with any number of cache hits and evictions) in which the client does
    not assign into a returned list, every call observes what it would in a fresh process. *)
Theorem C28_fnch_partial : forall compute up p0 os o,
  forallb (fun o => negb (is_assign o)) os = true -> history_independent compute up p0 os o.
Proof. exact P_fnch_cache.no_assign. Qed.
Print Assumptions C28_fnch_partial.
Example C28_fnch_partial_instance := C28_fnch_partial P_fnch_cache.exact (fun p => (p + 17)%nat) 53
  [Pmf (Fin 1) (Fin 2, Fin 20, Fin 7, Fin 12); SetPrec 100; Mean (Fin 2, Fin 20, Fin 7, Fin 12); SupportPmf (Fin 3, Fin 9, Fin 7, Fin 2)]
  (Cdf (Fin 1) (Fin 2, Fin 20, Fin 7, Fin 12)) eq_refl.

(** C28: in exact arithmetic those observations are the values of the functions modelled in M_fnch. *)
Theorem C28_fnch_values_partial : forall up p0 os k nc N K n,
  forallb (fun o => negb (is_assign o)) os = true ->
  let compute (p : nat) (a : args) := let '(nc, N, K, n) := a in support_pmf0 nc N K n in
  let s := run compute up os (init p0) in
  snd (step compute up (Pmf k (nc, N, K, n)) s) = Num (pmf k nc N K n) /\
  snd (step compute up (Cdf k (nc, N, K, n)) s) = Num (cdf k nc N K n) /\
  snd (step compute up (Sf k (nc, N, K, n)) s) = Num (sf k nc N K n) /\
  snd (step compute up (Mean (nc, N, K, n)) s) = Num (mean nc N K n) /\
  exists a, snd (step compute up (SupportPmf (nc, N, K, n)) s) = Lst (M_fnch.support_pmf nc N K n) a.
Proof. exact P_fnch_cache.exact_calls. Qed.
Print Assumptions C28_fnch_values_partial.
Example C28_fnch_values_partial_instance := C28_fnch_values_partial (fun p => (p + 17)%nat) 53
  [Pmf (Fin 1) (Fin 2, Fin 20, Fin 7, Fin 12); SetPrec 100; Mean (Fin 2, Fin 20, Fin 7, Fin 12)] (Fin 1) (Fin 2) (Fin 20) (Fin 7) (Fin 12) eq_refl.

(** C28 fails in general: support_pmf hands out the cached list itself, so assigning to element
    [i] of it makes a later pmf call return the assigned value, for all valid parameters. *)
Theorem C28_fnch_refuted : forall compute up p nc (N K n : nat) lo hi xs i v,
  (K <= N)%nat -> (n <= N)%nat -> compute p (Fin nc, Fin (INR N), Fin (INR K), Fin (INR n)) = Ok (Range lo hi, xs) ->
  (i < length xs)%nat -> (Z.of_nat i < hi - lo)%Z ->
  snd (step compute up (Pmf (Fin (IZR (lo + Z.of_nat i))) (Fin nc, Fin (INR N), Fin (INR K), Fin (INR n)))
    (run compute up [SupportPmf (Fin nc, Fin (INR N), Fin (INR K), Fin (INR n)); Assign O i v] (init p))) = Num v.
Proof. exact P_fnch_cache.assigned. Qed.
Print Assumptions C28_fnch_refuted.
(** With ntotal = 20, ngood = 7, nsample = 12, nc = 2: the first element set to 5 is returned as a probability. *)
Example C28_fnch_refuted_instance : forall up, ~ history_independent P_fnch_cache.exact up 53
  [SupportPmf (Fin 2, Fin (INR 20), Fin (INR 7), Fin (INR 12)); Assign O O (Fin 5)] (Pmf (Fin 0) (Fin 2, Fin (INR 20), Fin (INR 7), Fin (INR 12))).
Proof.
  intros up H. unfold history_independent in H.
  pose proof (P_fnch.spmf0 20 7 12 2 ltac:(lia) ltac:(lia) ltac:(lra)) as E.
  pose proof (C28_fnch_refuted P_fnch_cache.exact up 53 2 20 7 12 _ _ _ O (Fin 5) ltac:(lia) ltac:(lia) E) as R.
  specialize (R ltac:(rewrite map_length, P_fnch.zrange_len; apply Nat.ltb_lt; vm_compute; reflexivity) ltac:(vm_compute; reflexivity)).
  change (P_hypergeometric.lo 20 7 12 + Z.of_nat O)%Z with 0%Z in R. rewrite R in H.
  set (p1 := prec _) in H.
  destruct (P_fnch_cache.exact_calls up p1 [] (Fin 0) (Fin 2) (Fin (INR 20)) (Fin (INR 7)) (Fin (INR 12)) eq_refl) as [P _].
  change (run P_fnch_cache.exact up [] (init p1)) with (init p1) in P. rewrite P in H. cbn [same_obs] in H.
  destruct (P_fnch.mass_ok 20 7 12 2 ltac:(lia) ltac:(lia) ltac:(lra)) as [_ [[A B] _]].
  pose proof (P_fnch.cdf_ok 20 7 12 2 ltac:(lia) ltac:(lia) ltac:(lra) 0) as [C D].
  assert (X : P_fnch.q 20 7 12 2 0 <= 1).
  {
    pose proof (P_fnch.pmf_in 20 7 12 2 ltac:(lia) ltac:(lia) ltac:(lra) 0 ltac:(vm_compute; intuition congruence)) as Q. rewrite <- H in Q. injection Q as Q. 
    pose proof (P_fnch.W_zsum 20 7 12 2 ltac:(lia) ltac:(lia)) as WZ. pose proof (P_fnch.zsum_q 20 7 12 2 0 8) as ZQ. pose proof (P_fnch.W_pos 20 7 12 2 ltac:(lia) ltac:(lia) ltac:(lra)) as WP.
    change (P_hypergeometric.lo 20 7 12) with 0%Z in WZ. change (P_hypergeometric.hi 7 12 + 1)%Z with 8%Z in WZ. rewrite WZ in ZQ.
    replace (P_fnch.W 20 7 12 2 / P_fnch.W 20 7 12 2) with 1 in ZQ by (field; lra). unfold zsum in ZQ. change (zrange 0 8) with [0;1;2;3;4;5;6;7]%Z in ZQ. unfold SpecStat.sum in ZQ. cbn [map fold_right] in ZQ.
    pose proof (fun k => P_fnch.q_nn 20 7 12 2 ltac:(lia) ltac:(lia) ltac:(lra) k) as NN.
    pose proof (NN 1%Z). pose proof (NN 2%Z). pose proof (NN 3%Z). pose proof (NN 4%Z). pose proof (NN 5%Z). pose proof (NN 6%Z). pose proof (NN 7%Z). lra. }
  pose proof (P_fnch.pmf_in 20 7 12 2 ltac:(lia) ltac:(lia) ltac:(lra) 0 ltac:(vm_compute; intuition congruence)) as Q. rewrite <- H in Q. injection Q as Q. lra.
Qed.
