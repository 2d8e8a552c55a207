(** fisher_exact against the specification in SpecInt. *)
From Coq Require Import List Arith ZArith QArith Lia Bool String Factorial Permutation Setoid.
From Verif Require Import Values SpecInt BinLib M_fisher P_fisher.
Import ListNotations.
Local Open Scope Z_scope.
Set Bullet Behavior "Strict Subproofs".

Definition mk (t : table) (w : nat) : table :=
  mkT w (row0 t - w) (col0 t - w) (row1 t - (col0 t - w)).
Definition tlo t := lo (row1 t) (col0 t).
Definition thi t := hi (row0 t) (col0 t).
Definition range t := seq (tlo t) (thi t + 1 - tlo t).
Definition WT t m := W (row0 t) (row1 t) (col0 t) m.

Lemma col_le t : (col0 t <= row0 t + row1 t)%nat.
Proof. unfold col0, row0, row1. lia. Qed.

Lemma filter_seq P a n lo hi : (a <= lo)%nat -> (lo <= hi + 1)%nat -> (hi < a + n)%nat ->
  (forall x, (a <= x < a + n)%nat -> P x = true <-> (lo <= x <= hi)%nat) ->
  filter P (seq a n) = seq lo (hi + 1 - lo).
Proof.
  intros H1 H2 H3 H.
  replace n with ((lo - a) + ((hi + 1 - lo) + (a + n - hi - 1)))%nat by lia.
  rewrite !seq_app, !filter_app.
  rewrite (filter_none _ (seq a (lo - a))), (filter_none _ (seq _ (a + n - hi - 1))), filter_all.
  - rewrite app_nil_r. simpl. f_equal. lia.
  - intros x Hx. apply in_seq in Hx. apply H; lia.
  - intros x Hx. apply in_seq in Hx. apply not_true_is_false. intros C. apply H in C; lia.
  - intros x Hx. apply in_seq in Hx. apply not_true_is_false. intros C. apply H in C; lia.
Qed.

Lemma flat_map_filter {A B} (P : A -> bool) (g : A -> B) l :
  flat_map (fun x => if P x then [g x] else []) l = map g (filter P l).
Proof. induction l as [|x l IH]; simpl; auto. destruct (P x); simpl; rewrite IH; reflexivity. Qed.

Lemma tables_like_map t : tables_like t = map (mk t) (range t).
Proof.
  unfold tables_like.
  rewrite (flat_map_filter (fun w => (w <=? col0 t)%nat && (col0 t - w <=? row1 t)%nat) (mk t)).
  f_equal. unfold range, tlo, thi. pose proof (col_le t). unfold lo, hi.
  apply filter_seq; try lia.
  intros x Hx. rewrite andb_true_iff, !Nat.leb_le. lia.
Qed.

Lemma tables_like_spec t t' : In t' (tables_like t) <-> same_margins t t'.
Proof.
  rewrite tables_like_map, in_map_iff. unfold range, tlo, thi. pose proof (col_le t) as L. split.
  - intros [w [<- Hw]]. apply in_seq in Hw.
    unfold lo, hi, same_margins, row0, row1, col0, col1, mk in *. simpl.
    unfold lo, hi, same_margins, row0, row1, col0, col1, mk in *. simpl. lia.
  - intros [H1 [H2 [H3 H4]]]. exists (t00 t').
    unfold mk. rewrite H1, H2, H3. split.
    + destruct t'; unfold row0, row1, col0; simpl. f_equal; lia.
    + apply in_seq. unfold lo, hi, row0, row1, col0 in *. lia.
Qed.
Lemma tables_like_nodup t : NoDup (tables_like t).
Proof.
  rewrite tables_like_map. apply FinFun.Injective_map_NoDup; [|apply seq_NoDup].
  intros x y E. injection E. auto.
Qed.

Definition weight t := (choose (row0 t) (t00 t) * choose (row1 t) (t10 t))%nat.
Definition tot t := choose (total t) (col0 t).

Lemma tot_pos t : (0 < tot t)%nat.
Proof. apply choose_pos. unfold total. apply col_le. Qed.

Lemma weight_mk t m : In m (range t) -> weight (mk t m) = WT t m.
Proof.
  unfold range, tlo, thi, lo, hi. intros H. apply in_seq in H. pose proof (col_le t).
  unfold weight, WT, W. assert (R0 : row0 (mk t m) = row0 t) by (unfold row0 at 1, mk; simpl; lia).
  assert (R1 : row1 (mk t m) = row1 t) by (unfold row1 at 1, mk; simpl; lia).
  rewrite R0, R1. reflexivity.
Qed.
Lemma tot_same t t' : same_margins t t' -> tot t' = tot t.
Proof. intros [H1 [H2 [H3 H4]]]. unfold tot, total. rewrite H1, H2, H3. reflexivity. Qed.

Lemma inject_nat n : Qnat n = inject_Z (Z.of_nat n). Proof. reflexivity. Qed.
Lemma Qtot_nz t : ~ (Qnat (tot t) == 0)%Q.
Proof. pose proof (tot_pos t). unfold Qnat, Qeq. simpl. lia. Qed.

Lemma sumQ_weight t l : (forall x, In x l -> same_margins t x) ->
  (sumQ (map prob l) == inject_Z (sumf (fun x => Z.of_nat (weight x)) l) / Qnat (tot t))%Q.
Proof.
  induction l as [|x l IH]; intros H.
  - simpl. unfold sumf; simpl. unfold Qdiv. ring.
  - simpl. rewrite IH by (intros; apply H; simpl; auto).
    rewrite sumf_cons, inject_Z_plus. unfold prob at 1. fold (weight x). fold (tot x).
    rewrite (tot_same t x) by (apply H; simpl; auto).
    unfold Qdiv. change (Qnat (weight x)) with (inject_Z (Z.of_nat (weight x))). ring.
Qed.

Lemma prob_of_count t P :
  (prob_of t P == inject_Z (sumf (fun m => Z.of_nat (WT t m)) (filter (fun m => P (mk t m)) (range t)))
                  / Qnat (tot t))%Q.
Proof.
  unfold prob_of. rewrite (sumQ_weight t).
  - assert (E : forall l, incl l (range t) -> sumf (fun x => Z.of_nat (weight x)) (filter P (map (mk t) l))
                = sumf (fun m => Z.of_nat (WT t m)) (filter (fun m => P (mk t m)) l)).
    { induction l as [|m l IH]; intros I; auto. simpl.
      assert (In m (range t)) by (apply I; simpl; auto).
      assert (incl l (range t)) by (intros z Hz; apply I; simpl; auto).
      destruct (P (mk t m)); rewrite ?sumf_cons, IH; auto. rewrite weight_mk; auto. }
    rewrite tables_like_map, E by (intros z; auto). reflexivity.
  - intros x Hx. apply filter_In in Hx. apply tables_like_spec. tauto.
Qed.

Lemma prob_le t x : same_margins t x ->
  Qle_bool (prob x) (prob t) = (weight x <=? weight t)%nat.
Proof.
  intros H. apply eq_true_iff_eq. rewrite Qle_bool_iff, Nat.leb_le.
  unfold prob. fold (weight x) (weight t) (tot x) (tot t). rewrite (tot_same t x H).
  assert (P : (0 < Qnat (tot t))%Q).
  { unfold Qnat, Qlt. simpl. pose proof (tot_pos t). lia. }
  assert (P' : (0 < / Qnat (tot t))%Q) by (apply Qinv_lt_0_compat; auto).
  unfold Qdiv. rewrite Qmult_le_r by auto. unfold Qnat. rewrite <- Zle_Qle. lia.
Qed.

Lemma fraction_ok p q : q <> 0 -> exists r, fraction p q = Ok r /\ (r == inject_Z p / inject_Z q)%Q
  /\ r = Qred r.
Proof.
  intros H. unfold fraction. destruct (Z.eqb_spec q 0); [contradiction|].
  eexists; split; [reflexivity|]. split; [apply Qred_correct|].
  apply Qred_complete. symmetry. apply Qred_correct.
Qed.

Definition fe (t : table) (alt : string) : res (oddsr * Q) :=
  fisher_exact (Z.of_nat (t00 t)) (Z.of_nat (t01 t)) (Z.of_nat (t10 t)) (Z.of_nat (t11 t)) alt.

Lemma odds_ok a b c d : exists o, odds a b c d = Ok o.
Proof.
  unfold odds. destruct (Z.eqb_spec (b * c) 0); simpl.
  - destruct (a * d =? 0); simpl; eauto.
  - destruct (fraction_ok (a * d) (b * c)) as [r [-> _]]; auto. simpl. eauto.
Qed.


Section Fe.
Variable t : table.
Local Notation r0 := (row0 t). Local Notation r1 := (row1 t). Local Notation c0 := (col0 t).
Definition num m := num_combs m (Z.of_nat r0) (Z.of_nat c0) (Z.of_nat (r0 + r1)).

Lemma num_W m : In m (range t) -> num (Z.of_nat m) = Z.of_nat (WT t m).
Proof.
  intros H. unfold num. rewrite num_combs_W; [reflexivity|apply col_le|].
  unfold range, tlo, thi in H. apply in_seq in H. lia.
Qed.

Lemma zsum_range (P : Z -> bool) (R : nat -> bool) s n :
  (forall m, In m (seq s n) -> In m (range t)) ->
  (forall m, In m (seq s n) -> P (Z.of_nat m) = R m) ->
  sumf num (filter P (zseq s n)) = sumf (fun m => Z.of_nat (WT t m)) (filter R (seq s n)).
Proof.
  intros H1 H2. unfold zseq.
  assert (G : forall l, (forall m, In m l -> In m (range t)) -> (forall m, In m l -> P (Z.of_nat m) = R m) ->
     sumf num (filter P (map Z.of_nat l)) = sumf (fun m => Z.of_nat (WT t m)) (filter R l)); [|auto].
  clear. induction l as [|m l IH]; intros H1 H2; auto. simpl.
  rewrite H2 by (simpl; auto).
  destruct (R m); rewrite ?sumf_cons, IH; auto; try (intros; apply H1 || apply H2; simpl; auto; fail).
  rewrite num_W by (apply H1; simpl; auto). reflexivity.
Qed.

Lemma t00_range : In (t00 t) (range t).
Proof.
  unfold range, tlo, thi, lo, hi. apply in_seq. unfold row0, row1, col0. lia.
Qed.

Lemma margins_Z :
  Z.of_nat (t00 t) + Z.of_nat (t01 t) = Z.of_nat r0 /\
  Z.of_nat (t10 t) + Z.of_nat (t11 t) = Z.of_nat r1 /\
  Z.of_nat (t00 t) + Z.of_nat (t10 t) = Z.of_nat c0 /\
  Z.of_nat r0 + Z.of_nat r1 = Z.of_nat (r0 + r1) /\
  Z.min (Z.of_nat r0) (Z.of_nat c0) = Z.of_nat (thi t) /\
  Z.max 0 (Z.of_nat c0 - Z.of_nat r1) = Z.of_nat (tlo t).
Proof.
  unfold thi, tlo, hi, lo, row0, row1, col0. lia.
Qed.

Lemma tot_comb : comb (Z.of_nat (r0 + r1)) (Z.of_nat c0) = Z.of_nat (tot t).
Proof. rewrite comb_spec by apply col_le. reflexivity. Qed.

Lemma two_sided : exists o p, fe t "two-sided" = Ok (o, p) /\ p = Qred p /\
  (p == prob_of t (fun t' => Qle_bool (prob t') (prob t)))%Q.
Proof.
  destruct (odds_ok (Z.of_nat (t00 t)) (Z.of_nat (t01 t)) (Z.of_nat (t10 t)) (Z.of_nat (t11 t))) as [o Ho].
  destruct margins_Z as [M1 [M2 [M3 [M4 [M5 M6]]]]].
  assert (T : comb (Z.of_nat r0) (Z.of_nat (t00 t)) * comb (Z.of_nat r1) (Z.of_nat (t10 t))
              = Z.of_nat (weight t)).
  { rewrite !comb_spec by (unfold row0, row1; lia). unfold weight. lia. }
  assert (LH : (tlo t <= thi t)%nat) by (apply lo_hi; apply col_le).
  destruct (two_loops num (Z.of_nat (weight t)) (tlo t) (thi t) LH) as [m [c1 [E1 E2]]].
  { intros i j k Hi Hij Hjk Hk Ni Nk.
    rewrite <- (Z2Nat.id i) in Ni by lia. rewrite <- (Z2Nat.id k) in Nk by lia.
    rewrite <- (Z2Nat.id j) by lia.
    rewrite num_W in * by (apply in_seq; lia).
    assert ((weight t) < WT t (Z.to_nat j))%nat; [|lia].
    apply (W_unimodal r0 r1 c0 (col_le t) (weight t) (Z.to_nat i) (Z.to_nat j) (Z.to_nat k));
      unfold WT, tlo, thi in *; lia. }
  pose proof (tot_pos t) as TP.
  destruct (fraction_ok (sumf num (filter (ok num (Z.of_nat (weight t))) (zseq (tlo t) (thi t + 1 - tlo t))))
             (Z.of_nat (tot t)) ltac:(lia)) as [p [Ep [Ep2 Ep3]]].
  exists o, p. split; [|split; auto].
  - unfold fe, fisher_exact. rewrite Ho. cbn [bind]. rewrite M1, M2, M3, M4, M5, M6, T, tot_comb.
    replace (String.eqb "two-sided" "two-sided") with true by reflexivity. cbv iota.
    change (fun m00 : Z => num_combs m00 (Z.of_nat r0) (Z.of_nat c0) (Z.of_nat (r0 + r1))) with num.
    cbv zeta. rewrite E1.
    destruct (count_loop num (Z.of_nat (weight t)) (zrange_down (Z.of_nat (thi t)) m) c1 None) as [c2 v] eqn:E3.
    simpl in E2. rewrite E2, Ep. reflexivity.
  - rewrite Ep2, prob_of_count.
    rewrite (zsum_range _ (fun m => Qle_bool (prob (mk t m)) (prob t))); [reflexivity|auto|].
    intros q Hq. unfold ok.
    assert (I : In q (range t)) by exact Hq.
    rewrite num_W by auto.
    rewrite prob_le.
    + rewrite weight_mk by auto. 
      apply eq_true_iff_eq. rewrite Z.leb_le, Nat.leb_le. lia.
    + apply tables_like_spec. rewrite tables_like_map. apply in_map. auto.
Qed.

Lemma fold_sum (f : Z -> Z) l : forall c, fold_left (fun c m => c + f m) l c = c + sumf f l.
Proof.
  induction l as [|x l IH]; intros c; simpl; [unfold sumf; simpl; lia|].
  rewrite IH, sumf_cons. lia.
Qed.

Lemma one_sided (alt : string) s e R :
  (alt = "greater" /\ s = t00 t /\ e = thi t)%string \/ (alt = "less" /\ s = tlo t /\ e = t00 t)%string ->
  (forall m, In m (range t) -> R (mk t m) = true <-> (s <= m <= e)%nat) ->
  exists o p, fe t alt = Ok (o, p) /\ p = Qred p /\ (p == prob_of t R)%Q.
Proof.
  intros Halt HR.
  destruct (odds_ok (Z.of_nat (t00 t)) (Z.of_nat (t01 t)) (Z.of_nat (t10 t)) (Z.of_nat (t11 t))) as [o Ho].
  destruct margins_Z as [M1 [M2 [M3 [M4 [M5 M6]]]]].
  pose proof (tot_pos t) as TP. pose proof t00_range as T0. unfold range in T0. apply in_seq in T0.
  assert (SE : (tlo t <= s)%nat /\ (e <= thi t)%nat /\ (s <= e)%nat) by (destruct Halt as [[_ [-> ->]]|[_ [-> ->]]]; lia).
  destruct (fraction_ok (sumf num (zseq s (e + 1 - s))) (Z.of_nat (tot t)) ltac:(lia)) as [p [Ep [Ep2 Ep3]]].
  exists o, p. split; [|split; auto].
  - unfold fe, fisher_exact. rewrite Ho. cbn [bind]. rewrite M1, M2, M3, M4, M5, M6, tot_comb.
    assert (Z1 : forall x, Z.of_nat x + 1 = Z.of_nat (x + 1)) by (intros; lia).
    destruct Halt as [[-> [Es Ee]]|[-> [Es Ee]]]; cbn [String.eqb Ascii.eqb Bool.eqb].
    + cbv zeta. rewrite Z1, zrange_zseq, <- Es, <- Ee.
      change (fun count m00 : Z => count + num_combs m00 (Z.of_nat r0) (Z.of_nat c0) (Z.of_nat (r0 + r1)))
        with (fun count m00 => count + num m00).
      rewrite fold_sum, Z.add_0_l, Ep. reflexivity.
    + cbv zeta. rewrite Z1, zrange_zseq, <- Es, <- Ee.
      change (fun count m00 : Z => count + num_combs m00 (Z.of_nat r0) (Z.of_nat c0) (Z.of_nat (r0 + r1)))
        with (fun count m00 => count + num m00).
      rewrite fold_sum, Z.add_0_l, Ep. reflexivity.
  - rewrite Ep2, prob_of_count.
    assert (F : filter (fun m => R (mk t m)) (range t) = seq s (e + 1 - s)).
    { unfold range. apply filter_seq; try lia. intros x Hx. apply HR. apply in_seq. lia. }
    rewrite F. rewrite <- (filter_all (fun _ => true) (zseq s (e + 1 - s))) by auto.
    rewrite (zsum_range _ (fun _ => true)); [rewrite filter_all by auto; reflexivity| |auto].
    intros m Hm. apply in_seq in Hm. apply in_seq. lia.
Qed.

Lemma greater_ok : exists o p, fe t "greater" = Ok (o, p) /\ p = Qred p /\
  (p == prob_of t (fun t' => (t00 t <=? t00 t')%nat))%Q.
Proof.
  apply (one_sided "greater" (t00 t) (thi t)); [left; auto|].
  intros m Hm. simpl. rewrite Nat.leb_le. unfold range in Hm. apply in_seq in Hm. lia.
Qed.
Lemma less_ok : exists o p, fe t "less" = Ok (o, p) /\ p = Qred p /\
  (p == prob_of t (fun t' => (t00 t' <=? t00 t)%nat))%Q.
Proof.
  apply (one_sided "less" (tlo t) (t00 t)); [right; auto|].
  intros m Hm. simpl. rewrite Nat.leb_le. unfold range in Hm. apply in_seq in Hm. lia.
Qed.
End Fe.

(** * Bounds *)
Lemma count_tot t : sumf (fun m => Z.of_nat (WT t m)) (range t) = Z.of_nat (tot t).
Proof. apply W_sum. apply col_le. Qed.

Lemma prob_of_bounds t P : P t = true -> (0 < prob_of t P /\ prob_of t P <= 1)%Q.
Proof.
  intros HP. rewrite prob_of_count.
  pose proof (tot_pos t) as TP.
  assert (QP : (0 < Qnat (tot t))%Q) by (unfold Qnat, Qlt; simpl; lia).
  set (l := filter (fun m => P (mk t m)) (range t)).
  assert (L : sumf (fun m => Z.of_nat (WT t m)) l <= Z.of_nat (tot t)).
  { rewrite <- count_tot. apply sumf_filter_le. intros; lia. }
  assert (E : mk t (t00 t) = t).
  { destruct t; unfold mk, row0, row1, col0; simpl. f_equal; lia. }
  assert (G : 0 < sumf (fun m => Z.of_nat (WT t m)) l).
  { assert (I : In (t00 t) l).
    { apply filter_In. split; [apply t00_range|]. rewrite E. auto. }
    assert (NN : forall y, In y l -> 0 <= Z.of_nat (WT t y)) by (intros; lia).
    pose proof (sumf_in_le _ _ _ NN I) as SS. cbv beta in SS.
    assert (0 < WT t (t00 t))%nat; [|lia].
    pose proof (t00_range t) as R. unfold range, tlo, thi in R. apply in_seq in R.
    pose proof (col_le t) as CL. pose proof (lo_hi _ _ _ CL). apply W_pos; auto; lia. }
  split.
  - apply Qlt_shift_div_l; auto. rewrite Qmult_0_l. unfold Qlt; simpl. lia.
  - apply Qle_shift_div_r; auto. rewrite Qmult_1_l. unfold Qnat. rewrite <- Zle_Qle. auto.
Qed.

Lemma complement_sum t :
  (prob_of t (fun t' => (t00 t <=? t00 t')%nat) + prob_of t (fun t' => (t00 t' <=? t00 t)%nat)
   == 1 + prob t)%Q.
Proof.
  rewrite !prob_of_count. cbn [mk t00].
  pose proof (t00_range t) as R. 
  set (w := fun m => Z.of_nat (WT t m)).
  assert (E : forall l, NoDup l -> sumf w (filter (fun m => (t00 t <=? m)%nat) l) + sumf w (filter (fun m => (m <=? t00 t)%nat) l)
       = sumf w l + sumf w (filter (fun m => (m =? t00 t)%nat) l)).
  { induction l as [|x l IH]; intros N; auto. inversion N; subst. simpl.
    specialize (IH H2).
    destruct (Nat.leb_spec (t00 t) x), (Nat.leb_spec x (t00 t)), (Nat.eqb_spec x (t00 t)); try lia;
    rewrite ?sumf_cons; lia. }
  assert (E1 : forall l, NoDup l -> In (t00 t) l -> filter (fun m => (m =? t00 t)%nat) l = [t00 t]).
  { induction l as [|x l IH]; intros N I; [destruct I|]. inversion N; subst. simpl.
    destruct (Nat.eqb_spec x (t00 t)) as [->|NE].
    - f_equal. apply filter_none. intros z Hz. apply Nat.eqb_neq. intros ->. contradiction.
    - apply IH; auto. destruct I; congruence. }
  specialize (E (range t) (seq_NoDup _ _)).
  rewrite (E1 (range t) (seq_NoDup _ _) R) in E. unfold w in E at 3. rewrite count_tot in E.
  assert (Wt : w (t00 t) = Z.of_nat (weight t)).
  { unfold w. rewrite <- weight_mk by auto. do 2 f_equal.
    destruct t; unfold mk, row0, row1, col0; simpl. f_equal; lia. }
  unfold sumf at 3 in E. simpl in E. rewrite Wt in E.
  unfold prob. fold (weight t) (tot t).
  pose proof (Qtot_nz t).
  assert (EQ : (inject_Z (sumf w (filter (fun m => (t00 t <=? m)%nat) (range t))) +
    inject_Z (sumf w (filter (fun m => (m <=? t00 t)%nat) (range t))) == Qnat (tot t) + Qnat (weight t))%Q).
  { rewrite <- inject_Z_plus, E. unfold Qnat. rewrite <- inject_Z_plus. apply inject_Z_injective. lia. }
  unfold Qdiv. rewrite <- Qmult_plus_distr_l, EQ. field. auto.
Qed.

(** * Symmetries *)
Lemma sumQ_perm l1 l2 : Permutation l1 l2 -> (sumQ l1 == sumQ l2)%Q.
Proof.
  induction 1; simpl; try reflexivity.
  - rewrite IHPermutation. reflexivity.
  - ring.
  - etransitivity; eauto.
Qed.

Section Sym.
Variable s : table -> table.
Hypothesis s_inv : forall t, s (s t) = t.
Hypothesis s_marg : forall t t', same_margins t t' -> same_margins (s t) (s t').
Hypothesis s_prob : forall t, (prob (s t) == prob t)%Q.

Lemma sym_perm t : Permutation (map s (tables_like t)) (tables_like (s t)).
Proof.
  apply NoDup_Permutation.
  - apply FinFun.Injective_map_NoDup; [|apply tables_like_nodup].
    intros x y E. rewrite <- (s_inv x), <- (s_inv y), E. reflexivity.
  - apply tables_like_nodup.
  - intros x. rewrite in_map_iff, tables_like_spec. split.
    + intros [y [<- H]]. apply tables_like_spec in H. auto.
    + intros H. exists (s x). split; auto. apply tables_like_spec.
      apply s_marg in H. rewrite s_inv in H. auto.
Qed.

Lemma perm_filter {A} (P : A -> bool) l1 l2 : Permutation l1 l2 -> Permutation (filter P l1) (filter P l2).
Proof.
  induction 1; simpl; auto.
  - destruct (P x); auto.
  - destruct (P x), (P y); auto. constructor.
  - etransitivity; eauto.
Qed.

Lemma sym_prob_of t P P' : (forall x, same_margins t x -> P' (s x) = P x) ->
  (prob_of (s t) P' == prob_of t P)%Q.
Proof.
  intros H. unfold prob_of.
  rewrite <- (sumQ_perm _ _ (Permutation_map prob (perm_filter P' _ _ (sym_perm t)))).
  assert (G : forall l, (forall x, In x l -> same_margins t x) ->
    (sumQ (map prob (filter P' (map s l))) == sumQ (map prob (filter P l)))%Q).
  { induction l as [|x l IH]; intros I; simpl; [reflexivity|].
    rewrite H by (apply I; simpl; auto).
    destruct (P x); simpl; rewrite IH by (intros; apply I; simpl; auto); [|reflexivity].
    rewrite s_prob. reflexivity. }
  apply G. intros x Hx. apply tables_like_spec; auto.
Qed.

Lemma sym_two t : (prob_of (s t) (fun t' => Qle_bool (prob t') (prob (s t)))
                   == prob_of t (fun t' => Qle_bool (prob t') (prob t)))%Q.
Proof.
  apply sym_prob_of. intros x Hx. apply eq_true_iff_eq. rewrite !Qle_bool_iff, !s_prob. tauto.
Qed.
End Sym.

Lemma prob_swap_rows t : (prob (swap_rows t) == prob t)%Q.
Proof.
  unfold prob. destruct t as [a b c d]. unfold swap_rows, row0, row1, col0, total, row0, row1. simpl.
  rewrite (Nat.mul_comm (choose (c + d) c)). rewrite (Nat.add_comm (c + d)), (Nat.add_comm c a).
  reflexivity.
Qed.
Lemma prob_swap_cols t : (prob (swap_cols t) == prob t)%Q.
Proof.
  unfold prob. destruct t as [a b c d]. unfold swap_cols, row0, row1, col0, total, row0, row1. simpl.
  replace (b + a)%nat with (a + b)%nat by lia. replace (d + c)%nat with (c + d)%nat by lia.
  rewrite <- (choose_sym (a + b) b), <- (choose_sym (c + d) d) by lia.
  rewrite <- (choose_sym (a + b + (c + d)) (b + d)) by lia.
  replace (a + b - b)%nat with a by lia. replace (c + d - d)%nat with c by lia.
  replace (a + b + (c + d) - (b + d))%nat with (a + c)%nat by lia. reflexivity.
Qed.
Lemma prob_transpose t : (prob (transpose t) == prob t)%Q.
Proof.
  pose proof (Qtot_nz t) as N1. pose proof (Qtot_nz (transpose t)) as N2.
  unfold prob. fold (weight t) (weight (transpose t)) (tot t) (tot (transpose t)).
  assert (E : (weight (transpose t) * tot t = weight t * tot (transpose t))%nat).
  { clear N1 N2. destruct t as [a b c d].
    unfold weight, tot, transpose, total, row0, row1, col0, total, row0, row1. simpl.
    pose proof (choose_fact (a + b) a ltac:(lia)) as H1. replace (a + b - a)%nat with b in H1 by lia.
    pose proof (choose_fact (c + d) c ltac:(lia)) as H2. replace (c + d - c)%nat with d in H2 by lia.
    pose proof (choose_fact (a + c) a ltac:(lia)) as H3. replace (a + c - a)%nat with c in H3 by lia.
    pose proof (choose_fact (b + d) b ltac:(lia)) as H4. replace (b + d - b)%nat with d in H4 by lia.
    replace (a + c + (b + d))%nat with (a + b + (c + d))%nat by lia.
    pose proof (choose_fact (a + b + (c + d)) (a + c) ltac:(lia)) as H5.
    replace (a + b + (c + d) - (a + c))%nat with (b + d)%nat in H5 by lia.
    pose proof (choose_fact (a + b + (c + d)) (a + b) ltac:(lia)) as H6.
    replace (a + b + (c + d) - (a + b))%nat with (c + d)%nat in H6 by lia.
    set (n := (a + b + (c + d))%nat) in *.
    set (K := (fact a * fact b * fact c * fact d)%nat).
    assert (KP : K <> 0%nat).
    { unfold K. pose proof (lt_O_fact a). pose proof (lt_O_fact b). pose proof (lt_O_fact c). pose proof (lt_O_fact d). nia. }
    apply (Nat.mul_cancel_r _ _ K KP).
    transitivity (fact n).
    - rewrite <- H5, <- H3, <- H4. unfold K. ring.
    - rewrite <- H6, <- H1, <- H2. unfold K. ring. }
  assert (EQ : (Qnat (weight (transpose t)) * Qnat (tot t) == Qnat (weight t) * Qnat (tot (transpose t)))%Q).
  { unfold Qnat. rewrite <- !inject_Z_mult. apply inject_Z_injective. lia. }
  apply (Qmult_inj_r _ _ (Qnat (tot t))); auto.
  apply (Qmult_inj_r _ _ (Qnat (tot (transpose t)))); auto.
  transitivity (Qnat (weight (transpose t)) * Qnat (tot t))%Q; [field; auto|].
  rewrite EQ. field. auto.
Qed.

Lemma ok_eq (p q : Q) : p = Qred p -> q = Qred q -> (p == q)%Q -> p = q.
Proof. intros -> -> H. apply Qred_complete. rewrite !Qred_correct in H. exact H. Qed.

Lemma sym_result s (s_inv : forall t, s (s t) = t)
  (s_marg : forall t t', same_margins t t' -> same_margins (s t) (s t'))
  (s_prob : forall t, (prob (s t) == prob t)%Q) t :
  exists o o' p, fe t "two-sided" = Ok (o, p) /\ fe (s t) "two-sided" = Ok (o', p).
Proof.
  destruct (two_sided t) as [o [p [E1 [E2 E3]]]].
  destruct (two_sided (s t)) as [o' [p' [E1' [E2' E3']]]].
  assert (p' = p) as ->.
  { apply ok_eq; auto. rewrite E3, E3'. apply sym_two; auto. }
  eauto.
Qed.

Lemma inv_transpose t : transpose (transpose t) = t. Proof. destruct t; reflexivity. Qed.
Lemma inv_swap_rows t : swap_rows (swap_rows t) = t. Proof. destruct t; reflexivity. Qed.
Lemma inv_swap_cols t : swap_cols (swap_cols t) = t. Proof. destruct t; reflexivity. Qed.
Ltac marg := intros [? ? ? ?] [? ? ? ?]; unfold same_margins, row0, row1, col0, col1; simpl; lia.
Lemma marg_transpose : forall t t', same_margins t t' -> same_margins (transpose t) (transpose t'). Proof. marg. Qed.
Lemma marg_swap_rows : forall t t', same_margins t t' -> same_margins (swap_rows t) (swap_rows t'). Proof. marg. Qed.
Lemma marg_swap_cols : forall t t', same_margins t t' -> same_margins (swap_cols t) (swap_cols t'). Proof. marg. Qed.

Lemma symmetric t :
  (exists o o' p, fe t "two-sided" = Ok (o, p) /\ fe (transpose t) "two-sided" = Ok (o', p)) /\
  (exists o o' p, fe t "two-sided" = Ok (o, p) /\ fe (swap_rows t) "two-sided" = Ok (o', p)) /\
  (exists o o' p, fe t "two-sided" = Ok (o, p) /\ fe (swap_cols t) "two-sided" = Ok (o', p)).
Proof.
  repeat split.
  - apply (sym_result transpose); [apply inv_transpose|apply marg_transpose|apply prob_transpose].
  - apply (sym_result swap_rows); [apply inv_swap_rows|apply marg_swap_rows|apply prob_swap_rows].
  - apply (sym_result swap_cols); [apply inv_swap_cols|apply marg_swap_cols|apply prob_swap_cols].
Qed.

Lemma exchange t :
  (exists o o' p, fe t "greater" = Ok (o, p) /\ fe (swap_cols t) "less" = Ok (o', p)) /\
  (exists o o' p, fe t "less" = Ok (o, p) /\ fe (swap_cols t) "greater" = Ok (o', p)).
Proof.
  split.
  - destruct (greater_ok t) as [o [p [E1 [E2 E3]]]].
    destruct (less_ok (swap_cols t)) as [o' [p' [E1' [E2' E3']]]].
    assert (p' = p) as ->; [|eauto]. apply ok_eq; auto. rewrite E3, E3'.
    apply sym_prob_of; [apply inv_swap_cols|apply marg_swap_cols|apply prob_swap_cols|].
    intros x [H1 _]. destruct t, x; unfold row0 in H1; simpl in *.
    apply eq_true_iff_eq. rewrite !Nat.leb_le. lia.
  - destruct (less_ok t) as [o [p [E1 [E2 E3]]]].
    destruct (greater_ok (swap_cols t)) as [o' [p' [E1' [E2' E3']]]].
    assert (p' = p) as ->; [|eauto]. apply ok_eq; auto. rewrite E3, E3'.
    apply sym_prob_of; [apply inv_swap_cols|apply marg_swap_cols|apply prob_swap_cols|].
    intros x [H1 _]. destruct t, x; unfold row0 in H1; simpl in *.
    apply eq_true_iff_eq. rewrite !Nat.leb_le. lia.
Qed.

Lemma valid t alt : (alt = "two-sided" \/ alt = "greater" \/ alt = "less")%string ->
  exists o p, fe t alt = Ok (o, p) /\ (0 < p)%Q /\ (p <= 1)%Q.
Proof.
  intros [-> | [-> | ->]].
  - destruct (two_sided t) as [o [p [E1 [E2 E3]]]]. exists o, p. split; auto. rewrite E3.
    apply prob_of_bounds. apply Qle_bool_iff. apply Qle_refl.
  - destruct (greater_ok t) as [o [p [E1 [E2 E3]]]]. exists o, p. split; auto. rewrite E3.
    apply prob_of_bounds. apply Nat.leb_refl.
  - destruct (less_ok t) as [o [p [E1 [E2 E3]]]]. exists o, p. split; auto. rewrite E3.
    apply prob_of_bounds. apply Nat.leb_refl.
Qed.

Lemma tails t : exists o o' p p', fe t "greater" = Ok (o, p) /\ fe t "less" = Ok (o', p') /\
  (p == prob_of t (fun t' => (t00 t <=? t00 t')%nat))%Q /\
  (p' == prob_of t (fun t' => (t00 t' <=? t00 t)%nat))%Q /\
  (p + p' == 1 + prob t)%Q.
Proof.
  destruct (greater_ok t) as [o [p [E1 [E2 E3]]]].
  destruct (less_ok t) as [o' [p' [E1' [E2' E3']]]].
  exists o, o', p, p'. repeat split; auto. rewrite E3, E3'. apply complement_sum.
Qed.

(** * Odds ratio and alternatives *)
Lemma odds_cases a b c d o :
  odds a b c d = Ok o ->
  (b * c <> 0 -> exists q, o = ORfrac q /\ (q * inject_Z (b * c) == inject_Z (a * d))%Q) /\
  (b * c = 0 -> a * d <> 0 -> o = ORinf) /\ (b * c = 0 -> a * d = 0 -> o = ORnan).
Proof.
  unfold odds. intros E. destruct (Z.eqb_spec (b * c) 0) as [H|H]; simpl in E.
  - destruct (Z.eqb_spec (a * d) 0) as [H'|H']; simpl in E; inversion E; repeat split; intros; auto; contradiction.
  - destruct (fraction_ok (a * d) (b * c) H) as [r [Er [Er2 _]]]. rewrite Er in E. simpl in E. inversion E.
    repeat split; intros; try contradiction. exists r. split; auto. rewrite Er2.
    field. intros C. apply H. apply (inject_Z_injective (b * c) 0). exact C.
Qed.

Lemma odds_result a b c d alt o p : fisher_exact a b c d alt = Ok (o, p) -> odds a b c d = Ok o.
Proof.
  unfold fisher_exact. destruct (odds_ok a b c d) as [o' E]. rewrite E. cbn [bind].
  intros H. f_equal.
  destruct (String.eqb alt "two-sided").
  - cbv zeta in H. destruct (count_loop _ _ _ _ _) as [c1 [m|]]; [|discriminate].
    destruct (count_loop _ _ _ _ _) as [c2 v]. destruct (fraction _ _); simpl in H; inversion H; auto.
  - cbv zeta in H. destruct (String.eqb alt "greater"); [|destruct (String.eqb alt "less"); [|discriminate]].
    + destruct (fraction _ _); simpl in H; inversion H; auto.
    + destruct (fraction _ _); simpl in H; inversion H; auto.
Qed.

Lemma unknown_alt a b c d alt : (alt <> "two-sided" -> alt <> "greater" -> alt <> "less" ->
  fisher_exact a b c d alt = Err ValueError)%string.
Proof.
  intros H1 H2 H3. unfold fisher_exact. destruct (odds_ok a b c d) as [o' E]. rewrite E. cbn [bind].
  apply String.eqb_neq in H1, H2, H3. rewrite H1, H2, H3. reflexivity.
Qed.

(** Negative entries are not validated. *)
Lemma negative_entry : fisher_exact 1 (-1) 1 1 "two-sided" = Err ZeroDivisionError \/
  fisher_exact (-1) 0 0 0 "two-sided" = Err NameError.
Proof. right. reflexivity. Qed.
