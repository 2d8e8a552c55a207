(** Proofs about M_odds_ratio: confidence intervals. *)
From Coq Require Import Reals Lra Lia List ZArith Arith Bool String QArith Qreals.
From Coquelicot Require Import Coquelicot.
From Verif Require Import Values VTac Spec SpecStat SpecDisc SpecRoot SpecOdds SpecInt RootLib LLib XLib PLib DiscLib TiltLib M_common SFun M_sfun P_sfun M_bracket M_odds_ratio P_odds_ratio P_odds_ratio2.
From Verif Require M_fnch P_fnch M_hypergeometric P_hypergeometric M_fisher.
Import ListNotations.
Local Open Scope R_scope.
Set Bullet Behavior "Strict Subproofs".

Section CI.
Variables a b c d : nat.
Hypothesis ND : ~ degenerate a b c d.
Notation N := (N a b c d). Notation K := (K a b). Notation n := (n a c).
Variable fr : (val -> val) -> val * val -> val.
Hypothesis FR : bracket_solver fr.
Definition low_is (al : R) (l : val) : Prop := ((a = 0 \/ d = 0)%nat -> l = Fin 0) /\ ((0 < a)%nat -> (0 < d)%nat -> exists t, l = Fin t /\ 0 < t /\ S_ N K n (a - 1) t = al).
Definition upp_is (al : R) (h : val) : Prop := ((b = 0 \/ c = 0)%nat -> h = PInf) /\ ((0 < b)%nat -> (0 < c)%nat -> exists t, h = Fin t /\ 0 < t /\ S_ N K n a t = 1 - al).
Lemma low_num al l : low_is al l -> forall e, l <> Exc e.
Proof.
  intros [H1 H2] e. destruct (Nat.eq_dec a 0); [rewrite H1 by auto; discriminate|]. destruct (Nat.eq_dec d 0); [rewrite H1 by auto; discriminate|].
  destruct H2 as [t [-> _]]; try lia. discriminate.
Qed.
Lemma upp_num al l : upp_is al l -> forall e, l <> Exc e.
Proof.
  intros [H1 H2] e. destruct (Nat.eq_dec b 0); [rewrite H1 by auto; discriminate|]. destruct (Nat.eq_dec c 0); [rewrite H1 by auto; discriminate|].
  destruct H2 as [t [-> _]]; try lia. discriminate.
Qed.
Lemma pair_num l h : (forall e, l <> Exc e) -> (forall e, h <> Exc e) -> pair_of l h = Ok (l, h).
Proof. intros A B. unfold pair_of. rewrite !bindv_num by auto. reflexivity. Qed.
Definition CI (fuel : nat) (alt : string) (conf : val) := bind (odds_ratio fr fuel (zt a b c d) "conditional" alt) (fun r => odds_ratio_ci fr fuel r conf).
Lemma CI_eq alt : good_alt alt -> exists k, forall fuel x, (k <= fuel)%nat -> 0 <= x <= 1 -> CI fuel alt (Fin x) = conditional_oddsratio_ci fr fuel (Z.of_nat a) (Z.of_nat b) (Z.of_nat c) (Z.of_nat d) (Fin x) alt.
Proof.
  intros HA. destruct (cond_val a b c d ND fr FR) as [v [k [E [V0 [VI VP]]]]].
  destruct (or_cond a b c d ND fr v alt k HA E (cond_ne a b c d v V0 VI VP)) as [o [p [F O]]]. exists k. intros fuel x Hf Hx. unfold CI. rewrite O by auto. cbn [bind]. unfold odds_ratio_ci. cbn [tab kind alternative].
  rewrite conf_ok by auto. rewrite rcz_false by auto. reflexivity.
Qed.
Lemma two_sided x : 0 <= x < 1 -> exists k l h, low_is ((1 - x) / 2) l /\ upp_is ((1 - x) / 2) h /\ forall fuel, (k <= fuel)%nat -> CI fuel "two-sided" (Fin x) = Ok (l, h).
Proof.
  intros X. destruct (CI_eq "two-sided") as [k0 C0]; [left; auto|]. destruct (lower a b c d ND fr FR ((1 - x) / 2)) as [l [k1 [L1 L2]]]; [lra|]. destruct (upper a b c d ND fr FR ((1 - x) / 2)) as [h [k2 [H1 H2]]]; [lra|].
  exists (k0 + k1 + k2)%nat, l, h. split; [exact L2|]. split; [exact H2|]. intros fuel Hf. rewrite C0 by (lia || lra). unfold conditional_oddsratio_ci. cbn [String.eqb Ascii.eqb Bool.eqb]. change (vsub (Fin 1) (Fin x)) with (Fin (1 - x)). rewrite vdiv_Fin by lra. cbn [bindv]. rewrite L1, H1 by lia.
  apply pair_num; [eapply low_num; exact L2|eapply upp_num; exact H2].
Qed.
Lemma less x : 0 < x < 1 -> exists k h, upp_is (1 - x) h /\ forall fuel, (k <= fuel)%nat -> CI fuel "less" (Fin x) = Ok (Fin 0, h).
Proof.
  intros X. destruct (CI_eq "less") as [k0 C0]; [right; auto|]. destruct (upper a b c d ND fr FR (1 - x)) as [h [k2 [H1 H2]]]; [lra|].
  exists (k0 + k2)%nat, h. split; [exact H2|]. intros fuel Hf. rewrite C0 by (lia || lra). unfold conditional_oddsratio_ci. cbn [String.eqb Ascii.eqb Bool.eqb]. change (vsub (Fin 1) (Fin x)) with (Fin (1 - x)). rewrite H1 by lia.
  apply pair_num; [discriminate|eapply upp_num; exact H2].
Qed.
Lemma greater x : 0 < x < 1 -> exists k l, low_is (1 - x) l /\ forall fuel, (k <= fuel)%nat -> CI fuel "greater" (Fin x) = Ok (l, PInf).
Proof.
  intros X. destruct (CI_eq "greater") as [k0 C0]; [right; auto|]. destruct (lower a b c d ND fr FR (1 - x)) as [l [k2 [H1 H2]]]; [lra|].
  exists (k0 + k2)%nat, l. split; [exact H2|]. intros fuel Hf. rewrite C0 by (lia || lra). unfold conditional_oddsratio_ci. cbn [String.eqb Ascii.eqb Bool.eqb]. change (vsub (Fin 1) (Fin x)) with (Fin (1 - x)). rewrite H1 by lia.
  apply pair_num; [eapply low_num; exact H2|discriminate].
Qed.
(** In terms of the API. *)
Lemma low_api al l : low_is al l -> lower_limit (fun k t => M_fnch.sf k t (Fin (INR (a + b + c + d))) (Fin (INR (a + b))) (Fin (INR (a + c)))) a d al l.
Proof.
  intros [H1 H2]. split; auto. intros A D. destruct (H2 A D) as [t [-> [T E]]]. exists t. split; auto. split; auto.
  replace (INR a - 1) with (INR (a - 1)) by (rewrite minus_INR by lia; reflexivity). fold N K n. rewrite sf_S; [f_equal; exact E|apply HK|apply Hn|auto|]. unfold P_odds_ratio2.n. lia.
Qed.
Lemma upp_api al l : upp_is al l -> upper_limit (fun k t => M_fnch.cdf k t (Fin (INR (a + b + c + d))) (Fin (INR (a + b))) (Fin (INR (a + c)))) a b c al l.
Proof.
  intros [H1 H2]. split; auto. intros A D. destruct (H2 A D) as [t [-> [T E]]]. exists t. split; auto. split; auto.
  fold N K n. rewrite cdf_S; [f_equal; rewrite E; ring|apply HK|apply Hn|auto|]. unfold P_odds_ratio2.n. lia.
Qed.
Lemma S_mono k t : 0 < t -> (k < n)%nat -> S_ N K n (S k) t <= S_ N K n k t.
Proof.
  intros T H. pose proof (S_low N K n (HK a b c d) (Hn a b c d) k t T ltac:(lia)) as E1. pose proof (S_low N K n (HK a b c d) (Hn a b c d) (S k) t T ltac:(lia)) as E2.
  pose proof (P_fnch.W_pos N K n t (HK a b c d) (Hn a b c d) T) as W. unfold P_fnch.W in W.
  assert (TiltLib.low (P_fnch.w N K n) (S k) t / TiltLib.tot (P_fnch.w N K n) (S n) t <= TiltLib.low (P_fnch.w N K n) (S (S k)) t / TiltLib.tot (P_fnch.w N K n) (S n) t); [|lra].
  apply Rmult_le_compat_r; [left; apply Rinv_0_lt_compat; auto|]. unfold TiltLib.low. cbn [nsum].
  assert (0 <= P_fnch.w N K n (S k) * t ^ (S k)); [|lra]. apply Rmult_le_pos; [apply P_fnch.w_nn; [apply HK|apply Hn|lia]|left; apply pow_lt; auto].
Qed.
Lemma ordered x l h : 0 < x < 1 -> low_is ((1 - x) / 2) l -> upp_is ((1 - x) / 2) h -> clt l h = CB true.
Proof.
  intros X [L1 L2] [H1 H2]. unfold degenerate in ND.
  assert (L : l = Fin 0 \/ (0 < a)%nat /\ (0 < d)%nat /\ exists t, l = Fin t /\ 0 < t /\ S_ N K n (a - 1) t = (1 - x) / 2).
  { destruct (Nat.eq_dec a 0); [left; auto|]. destruct (Nat.eq_dec d 0); [left; auto|]. right. split; [lia|]. split; [lia|]. apply L2; lia. }
  assert (H : h = PInf \/ (0 < b)%nat /\ (0 < c)%nat /\ exists t, h = Fin t /\ 0 < t /\ S_ N K n a t = 1 - (1 - x) / 2).
  { destruct (Nat.eq_dec b 0); [left; auto|]. destruct (Nat.eq_dec c 0); [left; auto|]. right. split; [lia|]. split; [lia|]. apply H2; lia. }
  destruct H as [->|[B [C [u [-> [U E2]]]]]].
  - destruct L as [->|[A [D [t [-> _]]]]]; reflexivity.
  - destruct L as [->|[A [D [t [-> [T E1]]]]]]; unfold clt, cmp, ltb; rewrite Rltb_true; auto.
    destruct (Rlt_le_dec t u) as [|G]; auto. exfalso.
    pose proof (S_le N K n (HK a b c d) (Hn a b c d) a u t U G) as M. rewrite nlo_v, nhi_v in M. specialize (M ltac:(lia)).
    pose proof (S_mono (a - 1) t T) as M2. replace (S (a - 1)) with a in M2 by lia. specialize (M2 ltac:(unfold P_odds_ratio2.n; lia)). lra.
Qed.
(** Levels 0 and 1. *)
Lemma lower_never fuel al : (0 < a)%nat -> (0 < d)%nat -> al = 0 \/ al = 1 -> ci_lower fr fuel (Z.of_nat a) (Z.of_nat b) (Z.of_nat c) (Z.of_nat d) (Fin al) = Exc NonTermination.
Proof.
  intros A D AL. unfold degenerate in ND. unfold ci_lower.
  assert (E : ceq (sample_odds_ratio (Z.of_nat a) (Z.of_nat b) (Z.of_nat c) (Z.of_nat d)) (Fin 0) = CB false).
  { destruct (Nat.eq_dec b 0) as [B|B]; [rewrite sor_inf by auto; reflexivity|]. destruct (Nat.eq_dec c 0) as [C|C]; [rewrite sor_inf by auto; reflexivity|].
    rewrite sor_pos by lia. rewrite zero_test, Reqb_false; auto. rewrite sor_zero; unfold degenerate; lia. }
  rewrite E. cbn [cif]. rewrite vN_, vK_, vn_. replace (Z.of_nat a - 1)%Z with (Z.of_nat (a - 1)) by lia. rewrite vZ_nat.
  assert (G : forall t, 0 < t -> vsub (M_fnch.sf (Fin (INR (a - 1))) (Fin t) (Fin (INR N)) (Fin (INR K)) (Fin (INR n))) (Fin al) = Fin (S_ N K n (a - 1) t - al)).
  { intros t T. rewrite sf_S; [reflexivity|apply HK|apply Hn|auto|]. unfold P_odds_ratio2.n. lia. }
  assert (Q : forall t, 0 < t -> 0 < S_ N K n (a - 1) t < 1).
  { intros t T. pose proof (S_01 N K n (HK a b c d) (Hn a b c d) (a - 1) t T) as Q. rewrite nlo_v, nhi_v in Q. apply Q. lia. }
  destruct AL as [-> | ->]; [apply (solve_never_down _ (fun t => S_ N K n (a - 1) t - 0))|apply (solve_never_up _ (fun t => S_ N K n (a - 1) t - 1))]; auto; intros t T; specialize (Q t T); lra.
Qed.
Lemma upper_never fuel al : (0 < b)%nat -> (0 < c)%nat -> al = 0 \/ al = 1 -> ci_upper fr fuel (Z.of_nat a) (Z.of_nat b) (Z.of_nat c) (Z.of_nat d) (Fin al) = Exc NonTermination.
Proof.
  intros B C AL. unfold degenerate in ND. unfold ci_upper. rewrite sor_pos by lia. rewrite vN_, vK_, vn_, vZ_nat. cbn [ceq cmp eqb cif].
  assert (G : forall t, 0 < t -> vadd (vneg (M_fnch.cdf (Fin (INR a)) (Fin t) (Fin (INR N)) (Fin (INR K)) (Fin (INR n)))) (Fin al) = Fin (S_ N K n a t - 1 + al)).
  { intros t T. rewrite cdf_S; [cbn [vneg vadd]; f_equal; ring|apply HK|apply Hn|auto|]. unfold P_odds_ratio2.n. lia. }
  assert (Q : forall t, 0 < t -> 0 < S_ N K n a t < 1).
  { intros t T. pose proof (S_01 N K n (HK a b c d) (Hn a b c d) a t T) as Q. rewrite nlo_v, nhi_v in Q. apply Q. lia. }
  destruct AL as [-> | ->]; [apply (solve_never_up _ (fun t => S_ N K n a t - 1 + 0))|apply (solve_never_down _ (fun t => S_ N K n a t - 1 + 1))]; auto; intros t T; specialize (Q t T); lra.
Qed.
Lemma never alt x : good_alt alt ->
  (alt = "two-sided"%string /\ x = 1) \/ (alt = "less"%string /\ (0 < b)%nat /\ (0 < c)%nat /\ (x = 0 \/ x = 1)) \/ (alt = "greater"%string /\ (0 < a)%nat /\ (0 < d)%nat /\ (x = 0 \/ x = 1)) ->
  exists k r, (forall fuel, (k <= fuel)%nat -> odds_ratio fr fuel (zt a b c d) "conditional" alt = Ok r) /\
    forall fuel, odds_ratio_ci fr fuel r (Fin x) = Err NonTermination.
Proof.
  intros HA H. destruct (cond_val a b c d ND fr FR) as [v [k [E [V0 [VI VP]]]]].
  destruct (or_cond a b c d ND fr v alt k HA E (cond_ne a b c d v V0 VI VP)) as [o [p [F O]]]. exists k. eexists. split; [exact O|].
  intros fuel. assert (X : 0 <= x <= 1) by (destruct H as [[_ ->]|[[_ [_ [_ [-> | ->]]]]|[_ [_ [_ [-> | ->]]]]]]; lra).
  unfold odds_ratio_ci. cbn [tab kind M_odds_ratio.alternative]. rewrite conf_ok by auto. rewrite rcz_false by auto. change (String.eqb "conditional" "conditional") with true. cbn iota. unfold conditional_oddsratio_ci.
  assert (ND' := ND). unfold degenerate in ND'.
  destruct H as [[-> ->]|[[-> [B [C H]]]|[-> [A [D H]]]]]; cbn [String.eqb Ascii.eqb Bool.eqb].
  - change (vsub (Fin 1) (Fin 1)) with (Fin (1 - 1)). rewrite vdiv_Fin by lra. cbn [bindv].
    assert (LZ : (a = 0 \/ d = 0)%nat -> ci_lower fr fuel (Z.of_nat a) (Z.of_nat b) (Z.of_nat c) (Z.of_nat d) (Fin ((1 - 1) / 2)) = Fin 0).
    { intros Z. unfold ci_lower. rewrite sor_pos by lia. rewrite zero_test, Reqb_true by (apply sor_zero; auto; lia). reflexivity. }
    destruct (Nat.eq_dec a 0) as [A|A]; [|destruct (Nat.eq_dec d 0) as [D|D]].
    + rewrite LZ, (upper_never fuel) by (lia || lra). reflexivity.
    + rewrite LZ, (upper_never fuel) by (lia || lra). reflexivity.
    + rewrite (lower_never fuel) by (lia || lra). reflexivity.
  - change (vsub (Fin 1) (Fin x)) with (Fin (1 - x)). rewrite (upper_never fuel) by (lia || lra). reflexivity.
  - change (vsub (Fin 1) (Fin x)) with (Fin (1 - x)). rewrite (lower_never fuel) by (lia || lra). reflexivity.
Qed.
End CI.

(** Coverage. *)
Lemma sum_low (p : nat -> R) al (q : nat -> bool) m : (forall i, (i < m)%nat -> 0 <= p i) -> 0 <= al ->
  (forall i, (i < m)%nat -> q i = true -> nsum p (S i) < al) -> nsum (fun i => if q i then p i else 0) m <= al.
Proof.
  intros P A H. assert (X : nsum (fun i => if q i then p i else 0) m <= nsum p m /\ nsum (fun i => if q i then p i else 0) m <= al); [|tauto].
  induction m as [|m IH]; [simpl; lra|]. destruct IH as [I1 I2]; [auto|auto|]. pose proof (P m ltac:(lia)). cbn [nsum]. destruct (q m) eqn:E; [|lra]. specialize (H m ltac:(lia) E). cbn [nsum] in H. lra.
Qed.
Lemma sum_upp (p : nat -> R) al (q : nat -> bool) m : (forall i, (i < m)%nat -> 0 <= p i) -> 0 <= al ->
  (forall i, (i < m)%nat -> q i = true -> nsum p m - nsum p i < al) -> nsum (fun i => if q i then p i else 0) m <= al.
Proof.
  intros P A H. assert (X : forall j, (j <= m)%nat -> nsum (fun i => if q i then p i else 0) j <= Rmax 0 (nsum p j - (nsum p m - al))).
  { induction j as [|j IH]; intros J; [simpl; apply Rmax_l|]. specialize (IH ltac:(lia)). pose proof (P j ltac:(lia)). cbn [nsum]. destruct (q j) eqn:E.
    - specialize (H j ltac:(lia) E). rewrite Rmax_right in IH by lra. pose proof (Rmax_r 0 (nsum p j + p j - (nsum p m - al))). lra.
    - rewrite Rplus_0_r. apply (Rle_trans _ _ _ IH). apply Rle_max_compat_l. lra. }
  specialize (X m (le_n m)). replace (nsum p m - (nsum p m - al)) with al in X by ring. rewrite Rmax_right in X by lra. exact X.
Qed.
Lemma finite_fuel (P : nat -> nat -> Prop) m : (forall x, (x < m)%nat -> exists k, forall j, (k <= j)%nat -> P x j) -> exists k, forall x j, (x < m)%nat -> (k <= j)%nat -> P x j.
Proof.
  induction m as [|m IH]; intros H; [exists 0%nat; intros; lia|]. destruct IH as [k1 I]; [auto|]. destruct (H m ltac:(lia)) as [k2 J]. exists (k1 + k2)%nat. intros x j Hx Hj. destruct (Nat.eq_dec x m) as [->|]; [apply J; lia|apply I; lia].
Qed.
Section Cover.
Variables r1 r2 n : nat.
Hypothesis Hn' : (n <= r1 + r2)%nat.
Variable fr : (val -> val) -> val * val -> val.
Hypothesis FR : bracket_solver fr.
Variable th : R.
Hypothesis TH : 0 < th.
Notation N := (r1 + r2)%nat.
Definition feas (x : nat) := (x <= r1 /\ x <= n /\ n - x <= r2)%nat.
Notation w := (P_fnch.w N r1 n).
Definition p (x : nat) := w x * th ^ x / TiltLib.tot w (S n) th.
Lemma HK1 : (r1 <= N)%nat. Proof. lia. Qed.
Lemma W0 : 0 < TiltLib.tot w (S n) th.
Proof. apply (P_fnch.W_pos N r1 n th HK1 Hn' TH). Qed.
Lemma p_nn x : (x < S n)%nat -> 0 <= p x.
Proof. intros H. apply Rdiv_le_0_compat; [|apply W0]. apply Rmult_le_pos; [apply P_fnch.w_nn; auto; lia|left; apply pow_lt; auto]. Qed.
Lemma p_sum k : nsum p k = TiltLib.low w k th / TiltLib.tot w (S n) th.
Proof. unfold p, TiltLib.low, Rdiv. rewrite (nsum_ext _ (fun i => / TiltLib.tot w (S n) th * (w i * th ^ i))) by (intros; ring). rewrite nsum_scal. ring. Qed.
Lemma p_tot : nsum p (S n) = 1. Proof. rewrite p_sum. change (TiltLib.low w (S n) th) with (TiltLib.tot w (S n) th). field. pose proof W0. lra. Qed.
Lemma p_S k : (k <= n)%nat -> nsum p (S k) = 1 - S_ N r1 n k th. Proof. intros H. rewrite p_sum. apply S_low; auto. apply HK1. Qed.
Lemma p_feas x : (x < S n)%nat -> ~ feas x -> p x = 0.
Proof.
  intros H F. unfold p. rewrite P_fnch.w_0; [unfold Rdiv; ring|apply HK1|apply Hn'| |lia]. unfold feas in F. unfold P_fnch.nlo, P_fnch.nhi, P_hypergeometric.lo, P_hypergeometric.hi. lia.
Qed.
Lemma p_pmf x : (x < S n)%nat -> at_int (fun k => M_fnch.pmf k (Fin th) (Fin (INR N)) (Fin (INR r1)) (Fin (INR n))) (Z.of_nat x) = p x.
Proof.
  intros H. unfold at_int. destruct (Z_le_gt_dec (P_hypergeometric.lo N r1 n) (Z.of_nat x)) as [A|A]; [destruct (Z_le_gt_dec (Z.of_nat x) (P_hypergeometric.hi r1 n)) as [B|B]|].
  - rewrite P_fnch.pmf_in by (auto; lia). unfold P_fnch.q. rewrite Nat2Z.id. reflexivity.
  - rewrite P_fnch.pmf_out by (auto; lia). rewrite p_feas; auto. unfold feas, P_hypergeometric.hi in *. lia.
  - rewrite P_fnch.pmf_out by (auto; lia). rewrite p_feas; auto. unfold feas, P_hypergeometric.lo in *. lia.
Qed.
Notation ci x fuel alt conf := (CI x (r1 - x) (n - x) (r2 - (n - x)) fr fuel alt (Fin conf)).
(** What the limits exclude. *)
Definition lo_out (al : R) (x : nat) := nsum p (S n) - nsum p x < al.
Definition hi_out (al : R) (x : nat) := nsum p (S x) < al.
Lemma margins x : feas x -> P_odds_ratio2.N x (r1 - x) (n - x) (r2 - (n - x)) = N /\ P_odds_ratio2.K x (r1 - x) = r1 /\ P_odds_ratio2.n x (n - x) = n.
Proof. unfold feas, P_odds_ratio2.N, P_odds_ratio2.K, P_odds_ratio2.n. lia. Qed.
Lemma S_lt_low x t : feas x -> x <> 0%nat -> (r2 - (n - x))%nat <> 0%nat -> th < t -> S_ N r1 n (x - 1) th < S_ N r1 n (x - 1) t.
Proof.
  intros F X Y G. apply (S_lt N r1 n HK1 Hn' (x - 1) th t TH G). unfold feas in F. unfold P_fnch.nlo, P_fnch.nhi, P_hypergeometric.lo, P_hypergeometric.hi. clear - F X Y Hn'. lia.
Qed.
Lemma S_lt_upp x t : feas x -> (r1 - x)%nat <> 0%nat -> (n - x)%nat <> 0%nat -> 0 < t -> t < th -> S_ N r1 n x t < S_ N r1 n x th.
Proof.
  intros F X Y T G. apply (S_lt N r1 n HK1 Hn' x t th T G). unfold feas in F. unfold P_fnch.nlo, P_fnch.nhi, P_hypergeometric.lo, P_hypergeometric.hi. clear - F X Y Hn'. lia.
Qed.
Lemma lo_S x : feas x -> x <> 0%nat -> nsum p x = 1 - S_ N r1 n (x - 1) th.
Proof. intros F X. unfold feas in F. rewrite <- (p_S (x - 1)) by lia. f_equal. lia. Qed.
Lemma low_miss al x l : feas x -> 0 <= al -> ~ degenerate x (r1 - x) (n - x) (r2 - (n - x)) -> low_is x (r1 - x) (n - x) (r2 - (n - x)) al l ->
  lo_out al x \/ exists t, l = Fin t /\ t <= th.
Proof.
  intros F A D [L1 L2]. destruct (margins x F) as [M1 [M2 M3]]. rewrite M1, M2, M3 in L2. unfold degenerate in D.
  destruct (Nat.eq_dec x 0) as [X|X]; [right; exists 0; split; [apply L1; auto|lra]|]. destruct (Nat.eq_dec (r2 - (n - x)) 0) as [Y|Y]; [right; exists 0; split; [apply L1; auto|lra]|].
  destruct L2 as [t [-> [T E]]]; [clear - X; lia|clear - Y; lia|]. destruct (Rle_lt_dec t th) as [G|G]; [right; exists t; auto|]. left. unfold lo_out. rewrite p_tot, (lo_S x F X).
  pose proof (S_lt_low x t F X Y G) as M. rewrite E in M. revert M. generalize (S_ N r1 n (x - 1) th). clear. intros u M. lra.
Qed.
Lemma upp_miss al x l : feas x -> ~ degenerate x (r1 - x) (n - x) (r2 - (n - x)) -> upp_is x (r1 - x) (n - x) (r2 - (n - x)) al l ->
  hi_out al x \/ l = PInf \/ exists t, l = Fin t /\ th <= t.
Proof.
  intros F D [L1 L2]. destruct (margins x F) as [M1 [M2 M3]]. rewrite M1, M2, M3 in L2. unfold degenerate in D.
  destruct (Nat.eq_dec (r1 - x) 0) as [X|X]; [right; left; apply L1; auto|]. destruct (Nat.eq_dec (n - x) 0) as [Y|Y]; [right; left; apply L1; auto|].
  destruct L2 as [t [-> [T E]]]; [clear - X; lia|clear - Y; lia|]. destruct (Rle_lt_dec th t) as [G|G]; [right; right; exists t; auto|]. left. unfold hi_out. rewrite p_S by (unfold feas in F; clear - F; lia).
  pose proof (S_lt_upp x t F X Y T G) as M. revert E M. generalize (S_ N r1 n x th) (S_ N r1 n x t). clear. intros u v E M. lra.
Qed.
Lemma miss alt conf x : good_alt alt -> 0 < conf < 1 -> feas x -> exists k, forall fuel, (k <= fuel)%nat ->
  covers (ci x fuel alt conf) th \/ ~ degenerate x (r1 - x) (n - x) (r2 - (n - x)) /\
  ((alt = "two-sided"%string /\ (lo_out ((1 - conf) / 2) x \/ hi_out ((1 - conf) / 2) x)) \/ (alt = "less"%string /\ hi_out (1 - conf) x) \/ (alt = "greater"%string /\ lo_out (1 - conf) x)).
Proof.
  intros HA C F. destruct (Nat.eq_dec r1 0) as [D1|D1]; [|destruct (Nat.eq_dec r2 0) as [D2|D2]; [|destruct (Nat.eq_dec n 0) as [D3|D3]; [|destruct (Nat.eq_dec n N) as [D4|D4]]]].
  1-4: exists 0%nat; intros fuel _; left; destruct (degenerate_case fr fuel x (r1 - x) (n - x) (r2 - (n - x)) "conditional" alt) as [r [R1 [_ [_ R2]]]]; [left; auto|auto|unfold degenerate, feas in *; lia|];
    exists (Fin 0), PInf; (split; [unfold CI; rewrite R1; cbn [bind]; apply R2; lra|split; [lra|auto]]).
  assert (ND : ~ degenerate x (r1 - x) (n - x) (r2 - (n - x))) by (unfold degenerate, feas in *; lia).
  destruct HA as [->|[->| ->]].
  - destruct (two_sided _ _ _ _ ND fr FR conf) as [k [l [h [L [H E]]]]]; [lra|]. exists k. intros fuel Hf. rewrite E by auto.
    destruct (low_miss ((1 - conf) / 2) x l F ltac:(lra) ND L) as [O|[t [-> T]]]; [right; split; auto|]. destruct (upp_miss _ x h F ND H) as [O|O]; [right; split; auto|]. left. exists (Fin t), h. split; auto. split; auto. destruct O as [->|[u [-> U]]]; auto.
  - destruct (less _ _ _ _ ND fr FR conf C) as [k [h [H E]]]. exists k. intros fuel Hf. rewrite E by auto.
    destruct (upp_miss _ x h F ND H) as [O|O]; [right; split; auto|]. left. exists (Fin 0), h. split; auto. split; [lra|]. destruct O as [->|[u [-> U]]]; auto.
  - destruct (greater _ _ _ _ ND fr FR conf C) as [k [l [L E]]]. exists k. intros fuel Hf. rewrite E by auto.
    destruct (low_miss (1 - conf) x l F ltac:(lra) ND L) as [O|[t [-> T]]]; [right; split; auto; right; right; auto|]. left. exists (Fin t), PInf. auto.
Qed.
Lemma coverage alt conf : good_alt alt -> 0 < conf < 1 -> exists k, forall fuel, (k <= fuel)%nat -> forall hit : nat -> bool,
  (forall x, (x <= r1)%nat -> (x <= n)%nat -> (n - x <= r2)%nat -> (hit x = true <-> covers (ci x fuel alt conf) th)) ->
  conf <= nsum (fun x => if hit x then at_int (fun k => M_fnch.pmf k (Fin th) (Fin (INR N)) (Fin (INR r1)) (Fin (INR n))) (Z.of_nat x) else 0) (S n).
Proof.
  intros HA C. destruct (finite_fuel (fun x fuel => feas x -> covers (ci x fuel alt conf) th \/
    ((alt = "two-sided"%string /\ (lo_out ((1 - conf) / 2) x \/ hi_out ((1 - conf) / 2) x)) \/ (alt = "less"%string /\ hi_out (1 - conf) x) \/ (alt = "greater"%string /\ lo_out (1 - conf) x))) (S n)) as [k Hk].
  { intros x Hx. destruct (le_dec x r1) as [X1|X1]; [|exists 0%nat; unfold feas; intros; lia]. destruct (le_dec (n - x) r2) as [X2|X2]; [|exists 0%nat; unfold feas; intros; lia].
    destruct (miss alt conf x HA C) as [k H]; [unfold feas; lia|]. exists k. intros j Hj _. destruct (H j Hj) as [A|[_ A]]; auto. }
  exists k. intros fuel Hf hit HH.
  rewrite (nsum_ext _ (fun x => p x + (-1) * (if hit x then 0 else p x))) by (intros i I; rewrite p_pmf by auto; destruct (hit i); ring).
  rewrite nsum_plus, nsum_scal, p_tot. assert (X : nsum (fun x => if hit x then 0 else p x) (S n) <= 1 - conf); [|lra].
  set (qlo := fun al x => if Rlt_dec (nsum p (S n) - nsum p x) al then true else false). set (qhi := fun al x => if Rlt_dec (nsum p (S x)) al then true else false).
  assert (QL : forall al, 0 <= al -> nsum (fun x => if qlo al x then p x else 0) (S n) <= al).
  { intros al A. apply sum_upp; auto; [apply p_nn|]. intros i I. unfold qlo. destruct (Rlt_dec _ _); auto. discriminate. }
  assert (QH : forall al, 0 <= al -> nsum (fun x => if qhi al x then p x else 0) (S n) <= al).
  { intros al A. apply sum_low; auto; [apply p_nn|]. intros i I. unfold qhi. destruct (Rlt_dec _ _); auto. discriminate. }
  assert (B : forall x, (x < S n)%nat -> hit x = false -> p x = 0 \/ 
    ((alt = "two-sided"%string /\ (lo_out ((1 - conf) / 2) x \/ hi_out ((1 - conf) / 2) x)) \/ (alt = "less"%string /\ hi_out (1 - conf) x) \/ (alt = "greater"%string /\ lo_out (1 - conf) x))).
  { intros x Hx Ht. destruct (le_dec x r1) as [X1|X1]; [|left; apply p_feas; auto; unfold feas; lia]. destruct (le_dec (n - x) r2) as [X2|X2]; [|left; apply p_feas; auto; unfold feas; lia].
    destruct (Hk x fuel Hx Hf) as [Q|Q]; [unfold feas; lia| |auto]. apply HH in Q; try lia. congruence. }
  assert (LO : forall al x, lo_out al x -> qlo al x = true) by (intros al x O; unfold qlo; destruct (Rlt_dec _ _); auto; exfalso; auto).
  assert (HO : forall al x, hi_out al x -> qhi al x = true) by (intros al x O; unfold qhi; destruct (Rlt_dec _ _); auto; exfalso; auto).
  destruct HA as [E|[E|E]].
  - apply Rle_trans with (nsum (fun x => (if qlo ((1 - conf) / 2) x then p x else 0) + (if qhi ((1 - conf) / 2) x then p x else 0)) (S n)).
    + apply nsum_le. intros x Hx. pose proof (p_nn x Hx). assert (Y : hit x = false -> p x = 0 \/ qlo ((1 - conf) / 2) x = true \/ qhi ((1 - conf) / 2) x = true).
      { intros Ht. destruct (B x Hx Ht) as [O|[[_ [O|O]]|[[O _]|[O _]]]]; auto; rewrite E in O; discriminate. }
      destruct (hit x); [destruct (qlo _ x), (qhi _ x); lra|]. destruct (Y eq_refl) as [->|[->| ->]]; [|destruct (qhi _ x); lra|destruct (qlo _ x); lra]. destruct (qlo _ x), (qhi _ x); lra.
    + rewrite nsum_plus. pose proof (QL ((1 - conf) / 2) ltac:(lra)). pose proof (QH ((1 - conf) / 2) ltac:(lra)). lra.
  - apply Rle_trans with (nsum (fun x => if qhi (1 - conf) x then p x else 0) (S n)); [|apply QH; lra]. apply nsum_le. intros x Hx. pose proof (p_nn x Hx).
    destruct (hit x) eqn:Ht; [destruct (qhi _ x); lra|]. destruct (B x Hx Ht) as [->|[[O _]|[[_ O]|[O _]]]]; try (rewrite E in O; discriminate); [destruct (qhi _ x); lra|]. rewrite HO by auto. lra.
  - apply Rle_trans with (nsum (fun x => if qlo (1 - conf) x then p x else 0) (S n)); [|apply QL; lra]. apply nsum_le. intros x Hx. pose proof (p_nn x Hx).
    destruct (hit x) eqn:Ht; [destruct (qlo _ x); lra|]. destruct (B x Hx Ht) as [->|[[O _]|[[O _]|[_ O]]]]; try (rewrite E in O; discriminate); [destruct (qlo _ x); lra|]. rewrite LO by auto. lra.
Qed.
End Cover.
