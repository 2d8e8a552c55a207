(** Proofs about unique_counts and _median. *)
From Coq Require Import Reals Lra List Arith Bool Permutation Sorted Lia.
From Verif Require Import Values VTac LLib M_seq.
Import ListNotations.
Local Open Scope R_scope.
Set Bullet Behavior "Strict Subproofs".

Lemma insert_perm x l : Permutation (x :: l) (insert x l).
Proof.
  induction l as [|y l IH]; simpl; [auto|]. destruct (Rleb x y); auto.
  rewrite perm_swap. constructor. auto.
Qed.
Lemma sorted_perm l : Permutation l (sorted l).
Proof. induction l as [|x l IH]; simpl; auto. rewrite <- insert_perm. constructor. auto. Qed.
Lemma insert_in x y l : In y (insert x l) <-> y = x \/ In y l.
Proof.
  split; intros H.
  - apply (Permutation_in _ (Permutation_sym (insert_perm x l))) in H. destruct H; auto.
  - apply (Permutation_in _ (insert_perm x l)). simpl. destruct H; auto.
Qed.
Lemma insert_sorted x l : StronglySorted Rle l -> StronglySorted Rle (insert x l).
Proof.
  induction 1 as [|y l S IH F]; simpl; [repeat constructor|].
  destruct (Rleb_spec x y) as [[H ->]|[H ->]].
  - constructor; [constructor; auto|]. constructor; auto.
    rewrite Forall_forall in *. intros z Hz. specialize (F z Hz). lra.
  - constructor; auto. rewrite Forall_forall in *. intros z Hz. apply insert_in in Hz.
    destruct Hz as [->|Hz]; [lra|auto].
Qed.
Lemma sorted_sorted l : StronglySorted Rle (sorted l).
Proof. induction l; simpl; [constructor|]. apply insert_sorted; auto. Qed.

Lemma sorted_unique l1 : forall l2, StronglySorted Rle l1 -> StronglySorted Rle l2 -> Permutation l1 l2 -> l1 = l2.
Proof.
  induction l1 as [|x l1 IH]; intros l2 S1 S2 P.
  - apply Permutation_nil in P. auto.
  - destruct l2 as [|y l2]; [apply Permutation_sym, Permutation_nil in P; discriminate|].
    inversion S1 as [|? ? S1' F1]; subst. inversion S2 as [|? ? S2' F2]; subst.
    rewrite Forall_forall in F1, F2.
    assert (E : x = y).
    { assert (I1 : In x (y :: l2)) by (apply (Permutation_in _ P); simpl; auto).
      assert (I2 : In y (x :: l1)) by (apply (Permutation_in _ (Permutation_sym P)); simpl; auto).
      destruct I1 as [->|I1]; auto. destruct I2 as [->|I2]; auto.
      specialize (F1 _ I2). specialize (F2 _ I1). lra. }
    subst y. f_equal. apply IH; auto. eapply Permutation_cons_inv; eauto.
Qed.
Lemma sorted_ext l l' : Permutation l l' -> sorted l = sorted l'.
Proof.
  intros P. apply sorted_unique; try apply sorted_sorted.
  rewrite <- sorted_perm, P. apply sorted_perm.
Qed.

(** groupby on a sorted list. *)
Lemma groupby_head l g : groupby l = g -> match g, l with
  | [], [] => True | (k, n) :: _, x :: _ => k = x | _, _ => False end.
Proof.
  intros <-. destruct l as [|x l]; simpl; auto. destruct (groupby l) as [|[k n] r]; auto.
  destruct (Reqb x k); auto.
Qed.

Lemma groupby_spec l : StronglySorted Rle l ->
  StronglySorted Rlt (map fst (groupby l)) /\
  (forall v, In v (map fst (groupby l)) <-> In v l) /\
  (forall v n, In (v, n) (groupby l) -> n = count_occ Req_EM_T l v).
Proof.
  induction 1 as [|x l S IH F]; simpl.
  - split; [constructor|]. split; [tauto|]. intros v n [].
  - destruct IH as [I1 [I2 I3]].
    destruct (groupby l) as [|[k n] r] eqn:G.
    + pose proof (groupby_head l _ G) as GH. destruct l; [|simpl in GH; contradiction]. simpl. split; [repeat constructor|]. split; [tauto|].
      intros v n [E|[]]. injection E as -> ->. destruct (Req_EM_T v v); congruence.
    + pose proof (groupby_head l _ G) as GH. destruct l as [|y l]; [contradiction|]. subst k. rewrite Forall_forall in F.
      assert (xy : x <= y) by (apply F; simpl; auto).
      destruct (Reqb_spec x y) as [[E ->]|[E ->]].
      * subst y. simpl. simpl in I1, I2. split; [exact I1|]. split.
        -- intros v. specialize (I2 v). simpl in *. tauto.
        -- intros v m [Em|Hm].
           ++ injection Em as <- <-. destruct (Req_EM_T x x); [|congruence]. f_equal.
              rewrite (I3 x n) by (simpl; auto). simpl. destruct (Req_EM_T x x); congruence.
           ++ specialize (I3 v m (or_intror Hm)). simpl in I3.
              assert (N : x <> v).
              { intros ->. apply StronglySorted_inv in I1. destruct I1 as [_ FF]. rewrite Forall_forall in FF.
                specialize (FF v). assert (v < v); [|lra]. apply FF. apply in_map_iff. exists (v, m). auto. }
              destruct (Req_EM_T x v); [congruence|]. exact I3.
      * assert (xy' : x < y) by lra.
        assert (LT : forall v, In v (y :: l) -> x < v).
        { inversion S as [|? ? S' F']; subst. rewrite Forall_forall in F'.
          intros v [<-|Hv]; auto. specialize (F' v Hv). lra. }
        change (map fst ((x, 1%nat) :: (y, n) :: r)) with (x :: map fst ((y, n) :: r)).
        split; [|split].
        -- constructor; auto. rewrite Forall_forall. intros v Hv. apply LT. apply I2. auto.
        -- intros v. specialize (I2 v). simpl in *. tauto.
        -- intros v m [Em|Hm].
           ++ injection Em as <- <-. destruct (Req_EM_T x x); [|congruence].
              rewrite (proj1 (count_occ_not_In Req_EM_T (y :: l) x)); auto.
              intros C. specialize (LT x C). lra.
           ++ rewrite (I3 v m Hm).
              destruct (Req_EM_T x v); [|reflexivity].
              subst v. assert (In x (y :: l)).
              { apply I2. apply in_map_iff. exists (x, m). auto. }
              specialize (LT x H). lra.
Qed.

Lemma count_occ_perm l l' v : Permutation l l' -> count_occ Req_EM_T l v = count_occ Req_EM_T l' v.
Proof.
  induction 1; simpl; auto.
  - destruct (Req_EM_T x v); auto.
  - destruct (Req_EM_T x v), (Req_EM_T y v); auto.
  - congruence.
Qed.

Lemma unique_counts_spec x : x <> [] -> exists vs cs, unique_counts x = Ok (vs, cs) /\
  StronglySorted Rlt vs /\ (forall v, In v vs <-> In v x) /\ cs = map (count_occ Req_EM_T x) vs.
Proof.
  intros N. destruct (groupby_spec (sorted x) (sorted_sorted x)) as [H1 [H2 H3]].
  unfold unique_counts.
  destruct (groupby (sorted x)) as [|g gs] eqn:G.
  - pose proof (groupby_head _ _ G) as GH. destruct (sorted x) eqn:E; [|contradiction]. pose proof (sorted_perm x) as P. rewrite E in P.
    apply Permutation_sym, Permutation_nil in P. congruence.
  - exists (map fst (g :: gs)), (map snd (g :: gs)). split; auto. split; auto. split.
    + intros v. rewrite H2. split; apply Permutation_in; [apply Permutation_sym|]; apply sorted_perm.
    + rewrite map_map. apply map_ext_in. intros [v n] Hv. simpl.
      rewrite (H3 v n Hv). apply count_occ_perm. apply Permutation_sym, sorted_perm.
Qed.
Lemma unique_counts_perm x y : Permutation x y -> unique_counts x = unique_counts y.
Proof. intros P. unfold unique_counts. rewrite (sorted_ext x y P). reflexivity. Qed.

(** * Median *)
Definition cntb (P : R -> bool) (l : list R) : nat := length (filter P l).
Lemma cntb_perm P l l' : Permutation l l' -> cntb P l = cntb P l'.
Proof. unfold cntb. induction 1; simpl; auto; try congruence; destruct (P x); simpl; auto; try congruence; destruct (P y); simpl; auto. Qed.
Lemma cntb_app P l l' : cntb P (l ++ l') = (cntb P l + cntb P l')%nat.
Proof. unfold cntb. rewrite filter_app, app_length. auto. Qed.
Lemma cntb_all P l : (forall x, In x l -> P x = true) -> cntb P l = length l.
Proof.
  unfold cntb. induction l as [|x l IH]; intros H; simpl; auto. rewrite H by (simpl; auto).
  simpl. rewrite IH; auto. intros; apply H; simpl; auto.
Qed.

Lemma ss_app_inv l1 l2 : StronglySorted Rle (l1 ++ l2) -> forall x y, In x l1 -> In y l2 -> x <= y.
Proof.
  induction l1 as [|a l1 IH]; intros S x y Hx Hy; [destruct Hx|].
  simpl in S. inversion S as [|? ? S' F]; subst. destruct Hx as [->|Hx].
  - rewrite Forall_forall in F. apply F. apply in_or_app. auto.
  - apply (IH S'); auto.
Qed.

Lemma median_split x : x <> [] -> exists m l1 l2, median x = Fin m /\ sorted x = l1 ++ l2 /\
  (length l1 = Nat.div2 (length x) \/ length l1 = Nat.div2 (length x) + 1)%nat /\
  (forall a, In a l1 -> a <= m) /\ (forall a, In a l2 -> m <= a) /\
  (Nat.odd (length x) = true -> length l1 = (Nat.div2 (length x) + 1)%nat /\ In m l1) /\
  (Nat.odd (length x) = false -> length l1 = Nat.div2 (length x)).
Proof.
  intros N. pose proof (sorted_sorted x) as S. pose proof (Permutation_length (sorted_perm x)) as L.
  assert (LP : (0 < length x)%nat) by (destruct x; [congruence|simpl; lia]).
  unfold median. rewrite <- L. set (k := Nat.div2 (length x)).
  pose proof (Nat.div2_odd (length x)) as D. fold k in D.
  set (xs := sorted x) in *.
  destruct (Nat.odd (length x)) eqn:O; simpl in D.
  - assert (K : (k < length xs)%nat) by lia.
    destruct (nth_split xs 0 K) as [l1 [l2 [E EL]]].
    exists (nth k xs 0), (l1 ++ [nth k xs 0]), l2. split; auto. split.
    { rewrite <- app_assoc. exact E. }
    rewrite app_length. simpl. split; [lia|]. split; [|split].
    + intros a Ha. apply in_app_or in Ha. destruct Ha as [Ha|[<-|[]]]; [|lra].
      rewrite E in S. apply (ss_app_inv _ _ S); simpl; auto.
    + intros a Ha. rewrite E in S.
      change (l1 ++ nth k xs 0 :: l2) with (l1 ++ [nth k xs 0] ++ l2) in S. rewrite app_assoc in S.
      apply (ss_app_inv _ _ S); auto. apply in_or_app; simpl; auto.
    + split; intros; try discriminate. split; [lia|]. apply in_or_app; simpl; auto.
  - assert (K : (k - 1 < length xs)%nat) by lia.
    destruct (nth_split xs 0 K) as [l1 [l2 [E EL]]].
    destruct l2 as [|b l2]. { apply (f_equal (@length R)) in E. rewrite app_length in E. simpl in E. lia. }
    set (a := nth (k - 1) xs 0) in *.
    assert (SK : skipn (k - 1) xs = a :: b :: l2).
    { rewrite E, skipn_app, <- EL, skipn_all, Nat.sub_diag. reflexivity. }
    rewrite SK. simpl firstn. rewrite vfsum_Fin. 
    assert (ab : a <= b).
    { rewrite E in S. change (l1 ++ a :: b :: l2) with (l1 ++ [a] ++ (b :: l2)) in S. rewrite app_assoc in S.
      apply (ss_app_inv _ _ S); simpl; auto. apply in_or_app; simpl; auto. }
    exists ((a + b) / 2), (l1 ++ [a]), (b :: l2). split.
    { unfold rsum; simpl. rewrite Reqb_false by lra. f_equal. lra. }
    split. { rewrite <- app_assoc. exact E. }
    rewrite app_length. simpl length. split; [lia|]. split; [|split; [|split]].
    + intros c Hc. assert (c <= a); [|lra]. apply in_app_or in Hc. destruct Hc as [Hc|[<-|[]]]; [|lra].
      rewrite E in S. apply (ss_app_inv _ _ S); simpl; auto.
    + intros c Hc. assert (b <= c); [|lra]. destruct Hc as [<-|Hc]; [lra|].
      rewrite E in S. change (l1 ++ a :: b :: l2) with (l1 ++ [a; b] ++ l2) in S. rewrite app_assoc in S.
      apply (ss_app_inv _ _ S); auto. apply in_or_app; simpl; auto.
    + intros; discriminate.
    + intros _. lia.
Qed.

Lemma median_half x : x <> [] -> exists m, median x = Fin m /\
  (length x <= 2 * cntb (fun t => Rleb t m) x)%nat /\ (length x <= 2 * cntb (fun t => Rleb m t) x)%nat.
Proof.
  intros N. destruct (median_split x N) as [m [l1 [l2 [E [Es [El [H1 [H2 [Ho He]]]]]]]]].
  exists m. split; auto.
  rewrite !(cntb_perm _ _ _ (sorted_perm x)), Es, !cntb_app.
  pose proof (Permutation_length (sorted_perm x)) as L. rewrite Es, app_length in L.
  pose proof (Nat.div2_odd (length x)) as D.
  rewrite (cntb_all (fun t => Rleb t m) l1) by (intros; apply Rleb_true; auto).
  rewrite (cntb_all (fun t => Rleb m t) l2) by (intros; apply Rleb_true; auto).
  destruct (Nat.odd (length x)) eqn:O; simpl in D.
  - destruct (Ho eq_refl) as [LL IM]. split; [lia|].
    assert (1 <= cntb (fun t => Rleb m t) l1)%nat; [|lia].
    unfold cntb. apply in_split in IM. destruct IM as [u [v ->]].
    rewrite filter_app, app_length. simpl. rewrite Rleb_true by lra. simpl. lia.
  - specialize (He eq_refl). lia.
Qed.

Lemma median_le x m c : m <= c -> 
  rsum (map (fun t => Rabs (t - m)) x) + (c - m) * (2 * INR (cntb (fun t => Rleb t m) x) - INR (length x))
  <= rsum (map (fun t => Rabs (t - c)) x).
Proof.
  intros H. induction x as [|t x IH]; [simpl; lra|].
  cbn [map length]. rewrite !rsum_cons, S_INR. unfold cntb in *. simpl filter.
  destruct (Rleb_spec t m) as [[T ->]|[T ->]]; cbn [length]; rewrite ?S_INR;
  set (S1 := rsum (map (fun t => Rabs (t - m)) x)) in *;
  set (S2 := rsum (map (fun t => Rabs (t - c)) x)) in *;
  unfold Rabs; destruct (Rcase_abs (t - m)), (Rcase_abs (t - c)); lra.
Qed.
Lemma median_ge x m c : c <= m -> 
  rsum (map (fun t => Rabs (t - m)) x) + (m - c) * (2 * INR (cntb (fun t => Rleb m t) x) - INR (length x))
  <= rsum (map (fun t => Rabs (t - c)) x).
Proof.
  intros H. induction x as [|t x IH]; [simpl; lra|].
  cbn [map length]. rewrite !rsum_cons, S_INR. unfold cntb in *. simpl filter.
  destruct (Rleb_spec m t) as [[T ->]|[T ->]]; cbn [length]; rewrite ?S_INR;
  set (S1 := rsum (map (fun t => Rabs (t - m)) x)) in *;
  set (S2 := rsum (map (fun t => Rabs (t - c)) x)) in *;
  unfold Rabs; destruct (Rcase_abs (t - m)), (Rcase_abs (t - c)); lra.
Qed.
Lemma half_min x m c : (length x <= 2 * cntb (fun t => Rleb t m) x)%nat ->
  (length x <= 2 * cntb (fun t => Rleb m t) x)%nat ->
  rsum (map (fun t => Rabs (t - m)) x) <= rsum (map (fun t => Rabs (t - c)) x).
Proof.
  intros H1 H2. apply le_INR in H1, H2. rewrite mult_INR in H1, H2. simpl in H1, H2.
  destruct (Rle_dec m c) as [H|H].
  - pose proof (median_le x m c H). nra.
  - pose proof (median_ge x m c ltac:(lra)). nra.
Qed.
Lemma median_min x : x <> [] -> exists m, median x = Fin m /\
  forall c, rsum (map (fun t => Rabs (t - m)) x) <= rsum (map (fun t => Rabs (t - c)) x).
Proof.
  intros N. destruct (median_half x N) as [m [E [H1 H2]]]. exists m. split; auto.
  intros c. apply half_min; auto.
Qed.
Lemma median_perm x y : Permutation x y -> median x = median y.
Proof. intros P. unfold median. rewrite (sorted_ext x y P). reflexivity. Qed.
Lemma median_nil : median [] = Fin 0.
Proof. unfold median. simpl. rewrite Reqb_false by lra. f_equal. lra. Qed.
