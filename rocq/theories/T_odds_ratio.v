(** C22, C23, C69 and C70 for mpsci.stats.odds_ratio.  [findroot] is any solver that returns a root
    of a continuous function with a sign change on the given interval ([bracket_solver]); [fuel]
    bounds the number of doublings and halvings of the code's while loops, so "for all large
    enough fuel" says that the loops end. *)
From Coq Require Import Reals Lra Lia List ZArith String Qreals.
From Verif Require Import Values SFun SpecStat SpecDisc SpecRoot SpecOdds M_odds_ratio.
From Verif Require M_fnch M_fisher RootLib DiscLib P_odds_ratio2 P_odds_ratio3.
Import ListNotations.
Local Open Scope R_scope.

(** C22: bad kind, bad alternative, or not a 2x2 table of nonnegative integers. *)
Theorem C22_odds_ratio_invalid : forall findroot fuel table kind alternative,
  ~ good_kind kind \/ ~ good_alt alternative \/ ~ (exists a b c d, table = zt a b c d) ->
  odds_ratio findroot fuel table kind alternative = Err ValueError.
Proof. exact P_odds_ratio2.invalid. Qed.
Print Assumptions C22_odds_ratio_invalid.
Example C22_odds_ratio_invalid_instance : odds_ratio RootLib.ref_root 5 [[1; 2]; [3; -4]]%Z "conditional" "less" = Err ValueError.
Proof. apply C22_odds_ratio_invalid. right. right. intros [a [b [c [d E]]]]. unfold zt in E. injection E. lia. Qed.

(** C22: the confidence level must be in [0, 1]. *)
Theorem C22_odds_ratio_level : forall findroot fuel r x, x < 0 \/ 1 < x -> odds_ratio_ci findroot fuel r (Fin x) = Err ValueError.
Proof. exact P_odds_ratio2.ci_reject. Qed.
Print Assumptions C22_odds_ratio_level.
Example C22_odds_ratio_level_instance := C22_odds_ratio_level RootLib.ref_root 5 (Result (1, 2, 3, 4)%Z "sample" "less" (Fin 1) (Fin 1)) 2 (or_intror (IZR_lt 1 2 eq_refl)).

(** C22: a zero row or column. *)
Theorem C22_odds_ratio_degenerate : forall findroot fuel a b c d kind alternative,
  good_kind kind -> good_alt alternative -> degenerate a b c d ->
  exists r, odds_ratio findroot fuel (zt a b c d) kind alternative = Ok r /\ or_value r = NaN /\ pvalue r = Fin 1 /\
    forall x, 0 <= x <= 1 -> odds_ratio_ci findroot fuel r (Fin x) = Ok (Fin 0, PInf).
Proof. exact P_odds_ratio2.degenerate_case. Qed.
Print Assumptions C22_odds_ratio_degenerate.
Example C22_odds_ratio_degenerate_instance := C22_odds_ratio_degenerate RootLib.ref_root 5 0 3 0 7 "sample" "less"
  (or_intror eq_refl) (or_intror (or_introl eq_refl)) ltac:(unfold degenerate; lia).

(** C22: kind='conditional'.  The odds ratio is 0 (inf) exactly when no table with the same margins
    has a smaller (larger) first entry; otherwise it is the only odds ratio at which the mean of the
    noncentral hypergeometric distribution is the observed count, and it maximises the
    probability of that count.  The p-value is that of Fisher's exact test. *)
Theorem C22_odds_ratio_conditional : forall a b c d findroot alternative,
  ~ degenerate a b c d -> bracket_solver findroot -> good_alt alternative ->
  exists k o p v, M_fisher.fisher_exact (Z.of_nat a) (Z.of_nat b) (Z.of_nat c) (Z.of_nat d) alternative = Ok (o, p) /\
  (forall fuel, (k <= fuel)%nat -> exists r, odds_ratio findroot fuel (zt a b c d) "conditional" alternative = Ok r /\ or_value r = v /\ pvalue r = Fin (Q2R p)) /\
  (v = Fin 0 <-> (a = 0 \/ d = 0)%nat) /\ (v = PInf <-> (b = 0 \/ c = 0)%nat) /\
  ((0 < a)%nat -> (0 < b)%nat -> (0 < c)%nat -> (0 < d)%nat -> exists t, v = Fin t /\ 0 < t /\
     let mean s := M_fnch.mean (Fin s) (Fin (INR (a + b + c + d))) (Fin (INR (a + b))) (Fin (INR (a + c))) in
     let pmf s := M_fnch.pmf (Fin (INR a)) (Fin s) (Fin (INR (a + b + c + d))) (Fin (INR (a + b))) (Fin (INR (a + c))) in
     mean t = Fin (INR a) /\ (forall s, 0 < s -> mean s = Fin (INR a) -> s = t) /\
     forall s, 0 < s -> exists ps pt, pmf s = Fin ps /\ pmf t = Fin pt /\ ps <= pt).
Proof. intros a b c d fr alt ND FR HA. exact (P_odds_ratio2.conditional_ok a b c d ND fr FR alt HA). Qed.
Print Assumptions C22_odds_ratio_conditional.
Example C22_odds_ratio_conditional_instance := C22_odds_ratio_conditional 8 2 1 5 RootLib.ref_root "two-sided"
  ltac:(unfold degenerate; lia) RootLib.ref_root_ok (or_introl eq_refl).

(** C22: kind='sample' for positive entries. *)
Theorem C22_odds_ratio_sample_partial : forall findroot fuel a b c d alternative,
  (0 < a)%nat -> (0 < b)%nat -> (0 < c)%nat -> (0 < d)%nat -> good_alt alternative ->
  let theta := INR a * INR d / (INR b * INR c) in
  let z := ln theta / sqrt (1 / INR a + 1 / INR b + 1 / INR c + 1 / INR d) in
  exists r, odds_ratio findroot fuel (zt a b c d) "sample" alternative = Ok r /\ or_value r = Fin theta /\
    pvalue r = Fin (if String.eqb alternative "two-sided" then 2 * ncdf (- Rabs z) else if String.eqb alternative "less" then ncdf z else ncdf (- z)).
Proof. exact P_odds_ratio2.sample_ok. Qed.
Print Assumptions C22_odds_ratio_sample_partial.
Example C22_odds_ratio_sample_partial_instance := C22_odds_ratio_sample_partial RootLib.ref_root 5 8 2 1 5 "less"
  ltac:(lia) ltac:(lia) ltac:(lia) ltac:(lia) (or_intror (or_introl eq_refl)).

(** C22 fails for kind='sample' with a zero entry: the call raises ZeroDivisionError. *)
Theorem C22_odds_ratio_sample_refuted : forall findroot fuel a b c d alternative,
  ~ degenerate a b c d -> (a = 0 \/ b = 0 \/ c = 0 \/ d = 0)%nat -> good_alt alternative ->
  odds_ratio findroot fuel (zt a b c d) "sample" alternative = Err ZeroDivisionError.
Proof. exact P_odds_ratio2.sample_zero. Qed.
Print Assumptions C22_odds_ratio_sample_refuted.
Example C22_odds_ratio_sample_refuted_instance := C22_odds_ratio_sample_refuted RootLib.ref_root 5 0 2 1 5 "less"
  ltac:(unfold degenerate; lia) (or_introl eq_refl) (or_intror (or_introl eq_refl)).

(** C23 fails for every table of positive integers and every confidence level: TypeError. *)
Theorem C23_odds_ratio_refuted : forall findroot fuel a b c d alternative x,
  (0 < a)%nat -> (0 < b)%nat -> (0 < c)%nat -> (0 < d)%nat -> good_alt alternative -> 0 <= x <= 1 ->
  exists r, odds_ratio findroot fuel (zt a b c d) "sample" alternative = Ok r /\ odds_ratio_ci findroot fuel r (Fin x) = Err TypeError.
Proof. exact P_odds_ratio2.sample_ci. Qed.
Print Assumptions C23_odds_ratio_refuted.
Example C23_odds_ratio_refuted_instance := C23_odds_ratio_refuted RootLib.ref_root 5 8 2 1 5 "less" (95 / 100)
  ltac:(lia) ltac:(lia) ltac:(lia) ltac:(lia) (or_intror (or_introl eq_refl)) ltac:(lra).

(** The interval computed for a table. *)
Definition interval (findroot : (val -> val) -> val * val -> val) (fuel : nat) (a b c d : nat) (alternative : string) (x : R) : res (val * val) :=
  bind (odds_ratio findroot fuel (zt a b c d) "conditional" alternative) (fun r => odds_ratio_ci findroot fuel r (Fin x)).

(** C69: the limits of the conditional interval. *)
Theorem C69_odds_ratio_limits : forall a b c d findroot x,
  ~ degenerate a b c d -> bracket_solver findroot -> 0 < x < 1 ->
  let sf k t := M_fnch.sf k t (Fin (INR (a + b + c + d))) (Fin (INR (a + b))) (Fin (INR (a + c))) in
  let cdf k t := M_fnch.cdf k t (Fin (INR (a + b + c + d))) (Fin (INR (a + b))) (Fin (INR (a + c))) in
  (exists k l h, lower_limit sf a d ((1 - x) / 2) l /\ upper_limit cdf a b c ((1 - x) / 2) h /\ clt l h = CB true /\
     forall fuel, (k <= fuel)%nat -> interval findroot fuel a b c d "two-sided" x = Ok (l, h)) /\
  (exists k h, upper_limit cdf a b c (1 - x) h /\ forall fuel, (k <= fuel)%nat -> interval findroot fuel a b c d "less" x = Ok (Fin 0, h)) /\
  (exists k l, lower_limit sf a d (1 - x) l /\ forall fuel, (k <= fuel)%nat -> interval findroot fuel a b c d "greater" x = Ok (l, PInf)).
Proof.
  intros a b c d fr x ND FR X sf cdf. split; [|split].
  - destruct (P_odds_ratio3.two_sided a b c d ND fr FR x) as [k [l [h [L [H E]]]]]; [lra|]. exists k, l, h.
    split; [apply P_odds_ratio3.low_api; auto|]. split; [apply P_odds_ratio3.upp_api; auto|]. split; auto. exact (P_odds_ratio3.ordered a b c d ND x l h X L H).
  - destruct (P_odds_ratio3.less a b c d ND fr FR x X) as [k [h [H E]]]. exists k, h. split; [apply P_odds_ratio3.upp_api; auto|]. auto.
  - destruct (P_odds_ratio3.greater a b c d ND fr FR x X) as [k [l [H E]]]. exists k, l. split; [apply P_odds_ratio3.low_api; auto|]. auto.
Qed.
Print Assumptions C69_odds_ratio_limits.
Example C69_odds_ratio_limits_instance := C69_odds_ratio_limits 8 2 1 5 RootLib.ref_root (95 / 100)
  ltac:(unfold degenerate; lia) RootLib.ref_root_ok ltac:(lra).

(** C69: exact coverage.  Fix the margins (rows r1 and r2, first column n) and the true odds ratio
    theta, so that the first entry has the noncentral hypergeometric distribution.  The
    probability of the tables whose interval contains theta is at least the confidence level. *)
Theorem C69_odds_ratio_coverage : forall (r1 r2 n : nat) findroot theta alternative conf,
  (n <= r1 + r2)%nat -> bracket_solver findroot -> 0 < theta -> good_alt alternative -> 0 < conf < 1 ->
  exists k, forall fuel, (k <= fuel)%nat -> forall hit : nat -> bool,
  (forall x, (x <= r1)%nat -> (x <= n)%nat -> (n - x <= r2)%nat ->
     (hit x = true <-> covers (interval findroot fuel x (r1 - x) (n - x) (r2 - (n - x)) alternative conf) theta)) ->
  conf <= sum (map (fun x => if hit x then at_int (fun k => M_fnch.pmf k (Fin theta) (Fin (INR (r1 + r2))) (Fin (INR r1)) (Fin (INR n))) (Z.of_nat x) else 0) (seq 0 (S n))).
Proof.
  intros r1 r2 n fr th alt conf Hn FR TH HA C. destruct (P_odds_ratio3.coverage r1 r2 n Hn fr FR th TH alt conf HA C) as [k H].
  exists k. intros fuel Hf hit HH. rewrite DiscLib.sum_seq. exact (H fuel Hf hit HH).
Qed.
Print Assumptions C69_odds_ratio_coverage.
Example C69_odds_ratio_coverage_instance := C69_odds_ratio_coverage 10 6 9 RootLib.ref_root 3 "two-sided" (95 / 100)
  ltac:(lia) RootLib.ref_root_ok ltac:(lra) (or_introl eq_refl) ltac:(lra).

(** C70 fails at the accepted confidence levels 1 and, for one-sided intervals, 0: the search for a
    bracket runs for ever, whatever the fuel. *)
Theorem C70_odds_ratio_refuted : forall a b c d findroot alternative x,
  ~ degenerate a b c d -> bracket_solver findroot -> good_alt alternative ->
  (alternative = "two-sided"%string /\ x = 1) \/
  (alternative = "less"%string /\ (0 < b)%nat /\ (0 < c)%nat /\ (x = 0 \/ x = 1)) \/
  (alternative = "greater"%string /\ (0 < a)%nat /\ (0 < d)%nat /\ (x = 0 \/ x = 1)) ->
  exists k r, (forall fuel, (k <= fuel)%nat -> odds_ratio findroot fuel (zt a b c d) "conditional" alternative = Ok r) /\
    forall fuel, odds_ratio_ci findroot fuel r (Fin x) = Err NonTermination.
Proof. intros a b c d fr alt x ND FR HA H. exact (P_odds_ratio3.never a b c d ND fr FR alt x HA H). Qed.
Print Assumptions C70_odds_ratio_refuted.
Example C70_odds_ratio_refuted_instance := C70_odds_ratio_refuted 8 2 1 5 RootLib.ref_root "two-sided" 1
  ltac:(unfold degenerate; lia) RootLib.ref_root_ok (or_introl eq_refl) (or_introl (conj eq_refl eq_refl)).

(** C70: the two-sided interval exists for every level in [0, 1) and the one-sided ones for every
    level in (0, 1). *)
Theorem C70_odds_ratio_partial : forall a b c d findroot alternative x,
  bracket_solver findroot -> good_alt alternative -> 0 < x < 1 \/ (alternative = "two-sided"%string /\ x = 0) ->
  exists k l h, forall fuel, (k <= fuel)%nat -> interval findroot fuel a b c d alternative x = Ok (l, h).
Proof.
  intros a b c d fr alt x FR HA X. destruct (Bool.bool_dec (row_or_column_zero (Z.of_nat a) (Z.of_nat b) (Z.of_nat c) (Z.of_nat d)) true) as [D|D].
  - exists O, (Fin 0), PInf. intros fuel _. apply P_odds_ratio2.rcz in D.
    destruct (P_odds_ratio2.degenerate_case fr fuel a b c d "conditional" alt (or_introl eq_refl) HA D) as [r [R1 [_ [_ R2]]]]. unfold interval. rewrite R1. apply R2. destruct X as [X|[_ X]]; lra.
  - rewrite P_odds_ratio2.rcz in D. destruct X as [X|[-> ->]].
    + destruct HA as [->|[->| ->]].
      * destruct (P_odds_ratio3.two_sided a b c d D fr FR x) as [k [l [h [_ [_ E]]]]]; [lra|]. exists k, l, h. exact E.
      * destruct (P_odds_ratio3.less a b c d D fr FR x X) as [k [h [_ E]]]. exists k, (Fin 0), h. exact E.
      * destruct (P_odds_ratio3.greater a b c d D fr FR x X) as [k [l [_ E]]]. exists k, l, PInf. exact E.
    + destruct (P_odds_ratio3.two_sided a b c d D fr FR 0) as [k [l [h [_ [_ E]]]]]; [lra|]. exists k, l, h. exact E.
Qed.
Print Assumptions C70_odds_ratio_partial.
Example C70_odds_ratio_partial_instance : exists k l h, forall fuel, (k <= fuel)%nat -> interval RootLib.ref_root fuel 8 2 1 5 "greater" (9 / 10) = Ok (l, h).
Proof. apply C70_odds_ratio_partial; [exact RootLib.ref_root_ok|right; right; reflexivity|left; lra]. Qed.
