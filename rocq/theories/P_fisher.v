(** Proofs about M_fisher. *)
From Coq Require Import List Arith ZArith QArith Lia Bool String Factorial Permutation.
From Verif Require Import Values SpecInt BinLib M_fisher.
Import ListNotations.
Local Open Scope Z_scope.
Set Bullet Behavior "Strict Subproofs".

(** * _comb *)
Lemma comb_loop n j : (j <= n)%nat ->
  fold_left (fun '(ntok, ktok, n) t => (ntok * n, ktok * t, n - 1))
    (map (fun i => 1 + Z.of_nat i) (seq 0 j)) (1, 1, Z.of_nat n)
  = (Z.of_nat (choose n j * fact j), Z.of_nat (fact j), Z.of_nat (n - j)).
Proof.
  induction j as [|j IH]; intros H.
  - simpl. rewrite choose_0. f_equal. lia.
  - rewrite seq_S, map_app, fold_left_app, IH by lia. cbn [map fold_left]. rewrite Nat.add_0_l.
    pose proof (choose_ratio n j ltac:(lia)) as R.
    change (fact (S j)) with (S j * fact j)%nat.
    f_equal; [f_equal|].
    + rewrite <- Nat2Z.inj_mul. f_equal.
      transitivity ((S j * choose n (S j)) * fact j)%nat; [rewrite R|]; ring.
    + rewrite Nat2Z.inj_mul, Nat2Z.inj_succ. ring.
    + lia.
Qed.

Lemma comb_spec n k : (k <= n)%nat -> comb (Z.of_nat n) (Z.of_nat k) = Z.of_nat (choose n k).
Proof.
  intros H. unfold comb.
  replace ((0 <=? Z.of_nat k) && (Z.of_nat k <=? Z.of_nat n)) with true
    by (symmetry; apply andb_true_iff; split; apply Z.leb_le; lia).
  unfold zrange.
  replace (Z.to_nat (Z.min (Z.of_nat k) (Z.of_nat n - Z.of_nat k) + 1 - 1)) with (Nat.min k (n - k)) by lia.
  rewrite comb_loop by lia.
  rewrite Nat2Z.inj_mul, Z.div_mul by (pose proof (lt_O_fact (Nat.min k (n - k))); lia).
  f_equal. destruct (Nat.le_ge_cases k (n - k)).
  - rewrite Nat.min_l by lia. reflexivity.
  - rewrite Nat.min_r by lia. apply choose_sym; auto.
Qed.

(** * Loops *)
Lemma count_loop_spec num t l : forall c v,
  exists l1 l2, l = l1 ++ l2 /\ (forall x, In x l1 -> num x <= t) /\
    fst (count_loop num t l c v) = c + sumf num l1 /\
    match l2 with
    | [] => snd (count_loop num t l c v) = match rev l1 with [] => v | x :: _ => Some x end
    | m :: _ => t < num m /\ snd (count_loop num t l c v) = Some m
    end.
Proof.
  induction l as [|x l IH]; intros c v.
  - exists [], []. split; [reflexivity|]. split; [intros ? []|]. split; [|reflexivity].
    unfold sumf; simpl; lia.
  - simpl. destruct (num x >? t) eqn:E.
    + exists [], (x :: l). split; [reflexivity|]. split; [intros ? []|].
      split; [unfold sumf; simpl; lia|]. split; [lia|reflexivity].
    + destruct (IH (c + num x) (Some x)) as [l1 [l2 [E1 [E2 [E3 E4]]]]].
      exists (x :: l1), l2. split; [simpl; congruence|]. split; [|split].
      * intros y [<-|Hy]; [lia|auto].
      * rewrite E3, sumf_cons. lia.
      * destruct l2; auto. rewrite E4. simpl rev. destruct (rev l1); reflexivity.
Qed.

Lemma filter_all {A} (P : A -> bool) l : (forall x, In x l -> P x = true) -> filter P l = l.
Proof.
  induction l as [|x l IH]; intros H; auto. simpl. rewrite H by (simpl; auto).
  f_equal. apply IH. intros; apply H; simpl; auto.
Qed.
Lemma filter_none {A} (P : A -> bool) l : (forall x, In x l -> P x = false) -> filter P l = [].
Proof.
  induction l as [|x l IH]; intros H; auto. simpl. rewrite H by (simpl; auto).
  apply IH. intros; apply H; simpl; auto.
Qed.

Definition zseq (lo len : nat) : list Z := map Z.of_nat (seq lo len).
Lemma zrange_zseq lo hi : zrange (Z.of_nat lo) (Z.of_nat hi) = zseq lo (hi - lo).
Proof.
  unfold zrange, zseq. replace (Z.to_nat (Z.of_nat hi - Z.of_nat lo)) with (hi - lo)%nat by lia.
  generalize (hi - lo)%nat as n. intros n.
  assert (G : forall n s, map (fun i => Z.of_nat lo + Z.of_nat i) (seq s n) = map Z.of_nat (seq (lo + s) n)).
  { clear. induction n as [|n IH]; intros s; simpl; auto. f_equal; [lia|].
    rewrite IH. do 2 f_equal. lia. }
  rewrite G, Nat.add_0_r. reflexivity.
Qed.
Lemma zseq_app lo n m : zseq lo (n + m) = zseq lo n ++ zseq (lo + n) m.
Proof. unfold zseq. rewrite seq_app, map_app. reflexivity. Qed.
Lemma in_zseq lo n x : In x (zseq lo n) <-> Z.of_nat lo <= x < Z.of_nat (lo + n).
Proof.
  unfold zseq. rewrite in_map_iff. split.
  - intros [y [<- H]]. apply in_seq in H. lia.
  - intros H. exists (Z.to_nat x). split; [lia|]. apply in_seq. lia.
Qed.
Lemma nodup_zseq lo n : NoDup (zseq lo n).
Proof.
  unfold zseq. apply FinFun.Injective_map_NoDup; [|apply seq_NoDup].
  intros x y; lia.
Qed.
(** A split of an interval is a split into intervals. *)
Lemma zseq_split lo n l1 l2 : zseq lo n = l1 ++ l2 ->
  l1 = zseq lo (List.length l1) /\ l2 = zseq (lo + List.length l1) (n - List.length l1) /\
  (List.length l1 <= n)%nat.
Proof.
  intros E. assert (L : (List.length l1 + List.length l2 = n)%nat).
  { rewrite <- app_length, <- E. unfold zseq. rewrite map_length, seq_length. reflexivity. }
  replace n with (List.length l1 + (n - List.length l1))%nat in E by lia.
  rewrite zseq_app in E.
  assert (LL : List.length (zseq lo (List.length l1)) = List.length l1)
    by (unfold zseq; rewrite map_length, seq_length; reflexivity).
  split; [|split; [|lia]].
  - apply (f_equal (firstn (List.length l1))) in E.
    rewrite !firstn_app, LL, !Nat.sub_diag in E.
    rewrite <- LL in E at 1. rewrite !firstn_all in E. simpl in E. rewrite !app_nil_r in E. auto.
  - apply (f_equal (skipn (List.length l1))) in E.
    rewrite !skipn_app, LL, !Nat.sub_diag in E.
    rewrite <- LL in E at 1. rewrite !skipn_all in E. simpl in E. auto.
Qed.

Section Two.
Variable num : Z -> Z.
Variable t : Z.
Variables lo hi : nat.
Hypothesis Hlh : (lo <= hi)%nat.
Hypothesis U : forall i j k, Z.of_nat lo <= i -> i < j -> j < k -> k <= Z.of_nat hi ->
  t < num i -> t < num k -> t < num j.

Definition ok x := num x <=? t.

Lemma two_loops : exists m c1,
  count_loop num t (zrange (Z.of_nat lo) (Z.of_nat hi + 1)) 0 None = (c1, Some m) /\
  fst (count_loop num t (zrange_down (Z.of_nat hi) m) c1 None)
    = sumf num (filter ok (zseq lo (hi + 1 - lo))).
Proof.
  replace (Z.of_nat hi + 1) with (Z.of_nat (hi + 1)) by lia. rewrite zrange_zseq.
  destruct (count_loop_spec num t (zseq lo (hi + 1 - lo)) 0 None) as [l1 [l2 [E [A [B C]]]]].
  pose proof (zseq_split _ _ _ _ E) as [S1 [S2 S3]].
  destruct l2 as [|m l2].
  - assert (L : List.length l1 = (hi + 1 - lo)%nat).
    { rewrite app_nil_r in E. rewrite <- E. unfold zseq. rewrite map_length, seq_length. reflexivity. }
    assert (R : rev l1 = Z.of_nat hi :: rev (zseq lo (hi - lo))).
    { rewrite S1, L. replace (hi + 1 - lo)%nat with ((hi - lo) + 1)%nat by lia.
      rewrite zseq_app, rev_app_distr. unfold zseq at 1. simpl. f_equal. lia. }
    rewrite R in C. exists (Z.of_nat hi), (sumf num l1). split.
    + rewrite (surjective_pairing (count_loop _ _ _ _ _)), B, C. reflexivity.
    + unfold zrange_down. unfold zrange at 1.
      replace (Z.to_nat (Z.of_nat hi + 1 - (Z.of_nat hi + 1))) with 0%nat by lia. simpl.
      rewrite E, app_nil_r, filter_all; auto.
      intros x Hx. apply Z.leb_le. auto.
  - destruct C as [C1 C2].
    exists m, (sumf num l1). split.
    { rewrite (surjective_pairing (count_loop _ _ _ _ _)), B, C2. reflexivity. }
    assert (Hm : m = Z.of_nat (lo + List.length l1) /\
                 l2 = zseq (lo + List.length l1 + 1) (hi - lo - List.length l1)).
    { assert (K : (hi + 1 - lo - List.length l1 <> 0)%nat).
      { intros K. rewrite K in S2. discriminate. }
      replace (hi + 1 - lo - List.length l1)%nat with (1 + (hi - lo - List.length l1))%nat in S2 by lia.
      rewrite zseq_app in S2. simpl in S2. inversion S2. auto. }
    destruct Hm as [Hm Hl2].
    assert (D : zrange_down (Z.of_nat hi) m = rev l2).
    { unfold zrange_down. rewrite Hm, Hl2.
      replace (Z.of_nat (lo + List.length l1) + 1) with (Z.of_nat (lo + List.length l1 + 1)) by lia.
      replace (Z.of_nat hi + 1) with (Z.of_nat (hi + 1)) by lia.
      rewrite zrange_zseq. do 2 f_equal. lia. }
    rewrite D.
    destruct (count_loop_spec num t (rev l2) (sumf num l1) None) as [l3 [l4 [E' [A' [B' C']]]]].
    rewrite B', E, filter_app, sumf_app. f_equal.
    { f_equal. symmetry. apply filter_all. intros x Hx. apply Z.leb_le; auto. }
    simpl filter. unfold ok at 1. replace (num m <=? t) with false by (symmetry; apply Z.leb_gt; lia).
    assert (E2 : l2 = rev l4 ++ rev l3).
    { rewrite <- rev_app_distr, <- E', rev_involutive. reflexivity. }
    rewrite E2, filter_app, sumf_app.
    rewrite (filter_all _ (rev l3)), sumf_rev.
    2:{ intros x Hx. apply in_rev in Hx. apply Z.leb_le; auto. }
    rewrite (filter_none _ (rev l4)); [unfold sumf at 2; simpl; lia|].
    intros x Hx. apply Z.leb_gt.
    destruct l4 as [|m' l4]; [destruct Hx|]. destruct C' as [C' _].
    simpl in Hx. apply in_app_or in Hx. destruct Hx as [Hx|[<-|[]]]; [|lia].
    assert (I1 : In x l2) by (rewrite E2; apply in_or_app; left; simpl; apply in_or_app; auto).
    assert (I2 : In m' l2) by (rewrite E2; apply in_or_app; left; simpl; apply in_or_app; simpl; auto).
    rewrite Hl2 in I1, I2. apply in_zseq in I1. apply in_zseq in I2.
    (* x < m': order in the interval *)
    assert (x < m').
    { rewrite Hl2 in E2. simpl in E2. rewrite <- app_assoc in E2.
      destruct (zseq_split _ _ _ _ E2) as [T1 [T2 _]].
      rewrite T1 in Hx. apply in_zseq in Hx.
      set (q := List.length (rev l4)) in *. 
      assert (K : (hi - lo - List.length l1 - q <> 0)%nat).
      { intros K. rewrite K in T2. discriminate. }
      replace (hi - lo - List.length l1 - q)%nat with (1 + (hi - lo - List.length l1 - q - 1))%nat in T2 by lia.
      rewrite zseq_app in T2. simpl in T2. inversion T2. lia. }
    apply (U m x m'); try lia.
Qed.
End Two.

(** * Hypergeometric weights *)
Lemma arith_D r0 r1 c0 m : (c0 <= r0 + r1)%nat -> (c0 - r1 <= m)%nat -> (m < Nat.min r0 c0)%nat ->
  (S m * (r1 + S m - c0) <= (r0 - m) * (c0 - m))%nat <-> (S m * (r0 + r1 + 2) <= (r0 + 1) * (c0 + 1))%nat.
Proof.
  intros H1 H2 H3.
  assert (exists p, r0 = m + p)%nat as [p Ep] by (exists (r0 - m)%nat; lia).
  assert (exists q, c0 = m + q)%nat as [q Eq] by (exists (c0 - m)%nat; lia).
  assert (exists s, r1 + S m - c0 = s)%nat as [s Es] by eauto.
  rewrite Es. assert (r1 + 1 = q + s)%nat by lia.
  subst r0 c0. replace (m + p - m)%nat with p by lia. replace (m + q - m)%nat with q by lia.
  split; intros; nia.
Qed.

Section W.
Variables r0 r1 c0 : nat.
Hypothesis Hc : (c0 <= r0 + r1)%nat.
Definition W (m : nat) : nat := (choose r0 m * choose r1 (c0 - m))%nat.
Definition lo := (c0 - r1)%nat.
Definition hi := Nat.min r0 c0.

Lemma lo_hi : (lo <= hi)%nat. Proof. unfold lo, hi. lia. Qed.

Lemma W_pos m : (lo <= m <= hi)%nat -> (0 < W m)%nat.
Proof.
  unfold lo, hi, W. intros H. 
  pose proof (choose_pos r0 m ltac:(lia)). pose proof (choose_pos r1 (c0 - m) ltac:(lia)). nia.
Qed.

Lemma W_ratio m : (lo <= m < hi)%nat ->
  (W (S m) * (S m * (r1 + S m - c0)) = W m * ((r0 - m) * (c0 - m)))%nat.
Proof.
  unfold lo, hi, W. intros H.
  pose proof (choose_ratio r0 m ltac:(lia)) as R1.
  pose proof (choose_ratio r1 (c0 - S m) ltac:(lia)) as R2.
  replace (S (c0 - S m)) with (c0 - m)%nat in R2 by lia.
  replace (r1 - (c0 - S m))%nat with (r1 + S m - c0)%nat in R2 by lia.
  transitivity ((S m * choose r0 (S m)) * ((r1 + S m - c0) * choose r1 (c0 - S m)))%nat; [ring|].
  rewrite R1, <- R2. ring.
Qed.

Definition D m := (S m * (r0 + r1 + 2) <= (r0 + 1) * (c0 + 1))%nat.
Lemma W_up m : (lo <= m < hi)%nat -> D m -> (W m <= W (S m))%nat.
Proof.
  intros H HD. pose proof (W_ratio m H) as R. unfold D in HD. unfold lo, hi in H.
  assert (L : (S m * (r1 + S m - c0) <= (r0 - m) * (c0 - m))%nat).
  { apply arith_D; auto; lia. }
  assert (0 < S m * (r1 + S m - c0))%nat by nia.
  apply Nat.nlt_ge. intros C. 
  assert (W (S m) * (S m * (r1 + S m - c0)) < W m * (S m * (r1 + S m - c0)))%nat
    by (apply Nat.mul_lt_mono_pos_r; auto).
  assert (W m * (S m * (r1 + S m - c0)) <= W m * ((r0 - m) * (c0 - m)))%nat
    by (apply Nat.mul_le_mono_l; auto). lia.
Qed.
Lemma W_down m : (lo <= m < hi)%nat -> ~ D m -> (W (S m) < W m)%nat.
Proof.
  intros H HD. pose proof (W_ratio m H) as R. unfold D in HD. unfold lo, hi in H.
  assert (L : ((r0 - m) * (c0 - m) < S m * (r1 + S m - c0))%nat).
  { apply Nat.nle_gt. intros C. apply HD. apply arith_D in C; auto; lia. }
  assert (0 < W m)%nat by (apply W_pos; unfold lo, hi; lia).
  apply Nat.nle_gt. intros C. 
  assert (W m * ((r0 - m) * (c0 - m)) < W m * (S m * (r1 + S m - c0)))%nat
    by (apply Nat.mul_lt_mono_pos_l; auto).
  assert (W m * (S m * (r1 + S m - c0)) <= W (S m) * (S m * (r1 + S m - c0)))%nat
    by (apply Nat.mul_le_mono_r; auto). lia.
Qed.
Lemma D_dec m : {D m} + {~ D m}.
Proof. unfold D. apply le_dec. Qed.
Lemma D_down m m' : (m' <= m)%nat -> D m -> D m'.
Proof. unfold D. nia. Qed.

Lemma W_left i j : (lo <= i)%nat -> (i <= j)%nat -> (j <= hi)%nat ->
  (forall q, (i <= q < j)%nat -> D q) -> (W i <= W j)%nat.
Proof.
  intros H1 H2 H3 HD. induction H2 as [|j H2 IH]; auto.
  etransitivity; [apply IH; [lia|intros; apply HD; lia]|]. apply W_up; [lia|]. apply HD; lia.
Qed.
Lemma W_right i j : (lo <= i)%nat -> (i <= j)%nat -> (j <= hi)%nat ->
  (forall q, (i <= q < j)%nat -> ~ D q) -> (W j <= W i)%nat.
Proof.
  intros H1 H2 H3 HD. induction H2 as [|j H2 IH]; auto.
  etransitivity; [|apply IH; [lia|intros; apply HD; lia]].
  pose proof (W_down j ltac:(lia) ltac:(apply HD; lia)). lia.
Qed.
Lemma W_unimodal t i j k : (lo <= i)%nat -> (i < j)%nat -> (j < k)%nat -> (k <= hi)%nat ->
  (t < W i)%nat -> (t < W k)%nat -> (t < W j)%nat.
Proof.
  intros H1 H2 H3 H4 Hi Hk. destruct (D_dec (j - 1)) as [d|d].
  - assert (W i <= W j)%nat; [|lia]. apply W_left; try lia.
    intros q Hq. apply (D_down (j - 1)); auto; lia.
  - assert (W k <= W j)%nat; [|lia]. apply W_right; try lia.
    intros q Hq Dq. apply d. apply (D_down q); auto; lia.
Qed.

Lemma num_combs_W m : (lo <= m <= hi)%nat ->
  num_combs (Z.of_nat m) (Z.of_nat r0) (Z.of_nat c0) (Z.of_nat (r0 + r1)) = Z.of_nat (W m).
Proof.
  unfold lo, hi, num_combs, W. intros H.
  replace (Z.of_nat m + (Z.of_nat r0 - Z.of_nat m)) with (Z.of_nat r0) by lia.
  replace (Z.of_nat c0 - Z.of_nat m + (Z.of_nat (r0 + r1) - (Z.of_nat r0 + (Z.of_nat c0 - Z.of_nat m))))
    with (Z.of_nat r1) by lia.
  replace (Z.of_nat c0 - Z.of_nat m) with (Z.of_nat (c0 - m)) by lia.
  rewrite !comb_spec by lia. lia.
Qed.

Lemma W_sum : sumf (fun m => Z.of_nat (W m)) (seq lo (hi + 1 - lo)) = Z.of_nat (choose (r0 + r1) c0).
Proof.
  rewrite <- vandermonde. fold W.
  assert (G : forall n, Z.of_nat (sumn W n) = sumf (fun m => Z.of_nat (W m)) (seq 0 (S n))).
  { induction n as [|n IH]; [simpl; unfold sumf; simpl; lia|].
    rewrite seq_S, sumf_app, <- IH. simpl sumn. unfold sumf; simpl. lia. }
  assert (Z0 : forall l, (forall x, In x l -> W x = 0%nat) -> sumf (fun m => Z.of_nat (W m)) l = 0).
  { intros l H. induction l as [|x l IH]; auto. rewrite sumf_cons, H, IH; simpl; auto.
    intros; apply H; simpl; auto. }
  transitivity (Z.of_nat (sumn W c0)); [|reflexivity]. rewrite G.
  pose proof lo_hi as LH.
  replace (S c0) with (lo + ((hi + 1 - lo) + (c0 - hi)))%nat by (unfold lo, hi in *; lia).
  rewrite seq_app, seq_app, !sumf_app. rewrite (Z0 (seq 0 lo)), (Z0 (seq _ (c0 - hi))).
  - simpl. lia.
  - intros x Hx. apply in_seq in Hx. unfold W. rewrite choose_gt; [reflexivity|]. unfold lo, hi in *; lia.
  - intros x Hx. apply in_seq in Hx. unfold W. rewrite (choose_gt r1); [lia|]. unfold lo, hi in *; lia.
Qed.
End W.
