(** Finite and infinite sums over integer supports. *)
From Coq Require Import Reals Lra Lia List ZArith Arith Bool.
From Coquelicot Require Import Coquelicot.
From Verif Require Import Values Spec SpecStat SpecInt BinLib SpecDisc LLib.
Import ListNotations.
Local Open Scope R_scope.
Set Bullet Behavior "Strict Subproofs".

(** f 0 + ... + f (n-1). *)
Fixpoint nsum (f : nat -> R) (n : nat) : R := match n with O => 0 | S k => nsum f k + f k end.
Lemma nsum_ext f g n : (forall i, (i < n)%nat -> f i = g i) -> nsum f n = nsum g n.
Proof. induction n as [|n IH]; intros H; simpl; auto. rewrite IH, H; auto. Qed.
Lemma nsum_plus f g n : nsum (fun i => f i + g i) n = nsum f n + nsum g n.
Proof. induction n as [|n IH]; simpl; lra. Qed.
Lemma nsum_scal c f n : nsum (fun i => c * f i) n = c * nsum f n.
Proof. induction n as [|n IH]; simpl; lra. Qed.
Lemma nsum_first f n : nsum f (S n) = f O + nsum (fun i => f (S i)) n.
Proof. induction n as [|n IH]; simpl in *; lra. Qed.
Lemma nsum_const c n : nsum (fun _ => c) n = INR n * c.
Proof. induction n as [|n IH]; [simpl; lra|]. rewrite S_INR. simpl nsum. lra. Qed.
Lemma nsum_0 f n : (forall i, (i < n)%nat -> f i = 0) -> nsum f n = 0.
Proof. intros H. rewrite (nsum_ext f (fun _ => 0)) by auto. rewrite nsum_const. lra. Qed.
Lemma nsum_app f n m : nsum f (n + m) = nsum f n + nsum (fun i => f (n + i)%nat) m.
Proof. induction m as [|m IH]; [rewrite Nat.add_0_r; simpl; lra|]. rewrite Nat.add_succ_r. simpl. lra. Qed.
Lemma nsum_sum_n f n : nsum f (S n) = sum_n f n.
Proof.
  induction n as [|n IH].
  - rewrite sum_O. simpl. lra.
  - rewrite sum_Sn, <- IH. reflexivity.
Qed.
Lemma nsum_INR f n : INR (sumn f n) = nsum (fun i => INR (f i)) (S n).
Proof. induction n as [|n IH]; [simpl; lra|]. simpl sumn. rewrite plus_INR, IH. reflexivity. Qed.
Lemma nsum_nonneg f n : (forall i, (i < n)%nat -> 0 <= f i) -> 0 <= nsum f n.
Proof. induction n as [|n IH]; intros H; simpl; [lra|]. pose proof (H n ltac:(lia)). assert (0 <= nsum f n) by auto. lra. Qed.
Lemma nsum_tele f n : nsum (fun i => f (S i) - f i) n = f n - f O.
Proof. induction n as [|n IH]; simpl; lra. Qed.

Lemma sum_seq f n : sum (map f (seq 0 n)) = nsum f n.
Proof.
  induction n as [|n IH]; [reflexivity|]. rewrite seq_S, map_app. simpl nsum. rewrite <- IH.
  unfold sum. rewrite fold_right_app. simpl. clear.
  induction (map f (seq 0 n)) as [|x l IH]; simpl; [lra|]. rewrite IH. lra.
Qed.
Lemma zsum_nsum g a b : zsum g a b = nsum (fun i => g (a + Z.of_nat i)%Z) (Z.to_nat (b - a)).
Proof. unfold zsum, zrange. rewrite map_map, sum_seq. reflexivity. Qed.
Lemma zsum_0 g (b : Z) : zsum g 0 b = nsum (fun i => g (Z.of_nat i)) (Z.to_nat b).
Proof. rewrite zsum_nsum. rewrite Z.sub_0_r. apply nsum_ext. intros. f_equal. Qed.
Lemma zsum_ext g h a b : (forall k, (a <= k < b)%Z -> g k = h k) -> zsum g a b = zsum h a b.
Proof. intros H. rewrite !zsum_nsum. apply nsum_ext. intros i Hi. apply H. lia. Qed.
Lemma zsum_nil g a b : (b <= a)%Z -> zsum g a b = 0.
Proof. intros H. rewrite zsum_nsum. replace (Z.to_nat (b - a)) with O by lia. reflexivity. Qed.
Lemma zsum_app g a b c : (a <= b <= c)%Z -> zsum g a c = zsum g a b + zsum g b c.
Proof.
  intros H. rewrite !zsum_nsum. replace (Z.to_nat (c - a)) with (Z.to_nat (b - a) + Z.to_nat (c - b))%nat by lia.
  rewrite nsum_app. f_equal. apply nsum_ext. intros i Hi. f_equal. lia.
Qed.
Lemma zsum_S g a b : (a <= b)%Z -> zsum g a (b + 1) = zsum g a b + g b.
Proof.
  intros H. rewrite (zsum_app g a b) by lia. f_equal. rewrite zsum_nsum.
  replace (Z.to_nat (b + 1 - b)) with 1%nat by lia. simpl. rewrite Z.add_0_r. lra.
Qed.
Lemma zsum_zero g a b : (forall k, (a <= k < b)%Z -> g k = 0) -> zsum g a b = 0.
Proof. intros H. rewrite zsum_nsum. apply nsum_0. intros i Hi. apply H. lia. Qed.
(** Enlarging a range where [g] vanishes. *)
Lemma zsum_widen g a b a' b' : (a' <= a)%Z -> (b <= b')%Z -> (a <= b)%Z -> (forall k, (a' <= k < a)%Z \/ (b <= k < b')%Z -> g k = 0) ->
  zsum g a' b' = zsum g a b.
Proof.
  intros A B C H. rewrite (zsum_app g a' a), (zsum_app g a b b') by lia.
  rewrite (zsum_zero g a' a), (zsum_zero g b b') by (intros; apply H; lia). lra.
Qed.
Lemma zsum_plus g h a b : zsum (fun k => g k + h k) a b = zsum g a b + zsum h a b.
Proof. rewrite !zsum_nsum. apply nsum_plus. Qed.
Lemma zsum_scal c g a b : zsum (fun k => c * g k) a b = c * zsum g a b.
Proof. rewrite !zsum_nsum. apply nsum_scal. Qed.

Lemma sums_ext s g h v : (forall k, in_support s k -> g k = h k) -> sums_to g s v -> sums_to h s v.
Proof.
  destruct s as [a b|a]; simpl; intros H S.
  - rewrite <- S. symmetry. apply zsum_ext. auto.
  - eapply is_series_ext; [|exact S]. intros n. simpl. apply H. lia.
Qed.
Lemma sums_plus s g h u v : sums_to g s u -> sums_to h s v -> sums_to (fun k => g k + h k) s (u + v).
Proof.
  destruct s as [a b|a]; simpl; intros A B.
  - rewrite zsum_plus. congruence.
  - apply (is_series_plus _ _ _ _ A B).
Qed.
Lemma sums_scal s c g v : sums_to g s v -> sums_to (fun k => c * g k) s (c * v).
Proof.
  destruct s as [a b|a]; simpl; intros A.
  - rewrite zsum_scal. congruence.
  - apply (is_series_scal c _ _ A).
Qed.

(** Partial sums with a vanishing remainder. *)
Lemma series_of_tail (g T : nat -> R) v : (forall n, nsum g n = v - T n) -> is_lim_seq T 0 -> is_series g v.
Proof.
  intros E L. unfold is_series. apply (filterlim_ext (fun n => v - T (S n))).
  - intros n. rewrite <- nsum_sum_n. auto.
  - apply is_lim_seq_incr_1 in L. pose proof (is_lim_seq_minus' (fun _ => v) (fun n => T (S n)) v 0 (is_lim_seq_const v) L) as H.
    rewrite Rminus_0_r in H. exact H.
Qed.
Lemma series_tail (g : nat -> R) v : is_series g v -> is_lim_seq (fun n => v - nsum g n) 0.
Proof.
  intros S. apply is_lim_seq_incr_1. apply (is_lim_seq_ext (fun n => v - sum_n g n)).
  - intros n. rewrite nsum_sum_n. reflexivity.
  - pose proof (is_lim_seq_minus' (fun _ => v) _ v v (is_lim_seq_const v) S) as H.
    replace (v - v) with 0 in H by ring. exact H.
Qed.
(** d'Alembert: terms with ratio tending below 1 tend to 0. *)
Lemma ratio_lim_0 (a : nat -> R) k : k < 1 -> (forall n, 0 < a n) -> is_lim_seq (fun n => a (S n) / a n) k -> is_lim_seq a 0.
Proof.
  intros K P L. apply ex_series_lim_0. apply ex_series_Rabs. apply (ex_series_DAlembert a k); auto.
  - intros n. apply Rgt_not_eq. apply P.
  - eapply is_lim_seq_ext; [|exact L]. intros n. simpl. rewrite Rabs_pos_eq; auto.
    apply Rlt_le. apply Rdiv_lt_0_compat; apply P.
Qed.
Lemma lim_inv_INR c : is_lim_seq (fun n => c / (INR n + 1)) 0.
Proof.
  replace (Finite 0) with (Rbar_mult c 0) by (simpl; f_equal; ring).
  unfold Rdiv. apply is_lim_seq_scal_l with (a := c) (lu := 0).
  apply (is_lim_seq_ext (fun n => / INR (S n))).
  - intros n. rewrite S_INR. reflexivity.
  - apply (is_lim_seq_incr_1 (fun n => / INR n)).
    apply (is_lim_seq_inv INR p_infty is_lim_seq_INR). discriminate.
Qed.

(** Supports 0..n-1 and 0,1,2,... indexed by the natural numbers. *)
Definition tot (N : option nat) (g : nat -> R) (v : R) : Prop :=
  match N with Some n => nsum g n = v | None => is_series g v end.
Definition sup0 (N : option nat) : isupport := match N with Some n => Range 0 (Z.of_nat n) | None => Count 0 end.
Definition below (N : option nat) (i : nat) := match N with Some n => (i < n)%nat | None => True end.
Lemma tot_ext N g h v : (forall i, below N i -> g i = h i) -> tot N g v -> tot N h v.
Proof.
  destruct N as [n|]; simpl; intros H T.
  - rewrite <- T. symmetry. apply nsum_ext. auto.
  - eapply is_series_ext; [|exact T]. intros; apply H; exact I.
Qed.
Lemma tot_plus N g h u v : tot N g u -> tot N h v -> tot N (fun i => g i + h i) (u + v).
Proof. destruct N as [n|]; simpl; intros A B; [rewrite nsum_plus; congruence|apply (is_series_plus _ _ _ _ A B)]. Qed.
Lemma tot_scal N c g v : tot N g v -> tot N (fun i => c * g i) (c * v).
Proof. destruct N as [n|]; simpl; intros A; [rewrite nsum_scal; congruence|apply (is_series_scal c _ _ A)]. Qed.
Lemma sums_tot N g v : tot N (fun i => g (Z.of_nat i)) v -> sums_to g (sup0 N) v.
Proof.
  destruct N as [n|]; simpl; intros T.
  - rewrite zsum_0, Nat2Z.id. exact T.
  - exact T.
Qed.
Lemma in_sup0 N k : in_support (sup0 N) k -> exists i, k = Z.of_nat i /\ below N i.
Proof. destruct N as [n|]; simpl; intros H; exists (Z.to_nat k); split; simpl; auto; lia. Qed.
Lemma sup0_in N i : below N i -> in_support (sup0 N) (Z.of_nat i).
Proof. destruct N as [n|]; simpl; lia. Qed.

(** [INR i * g i = c * g' (i-1)]: moments of [g] from those of [g']. *)
Lemma tot_shift N (g g' : nat -> R) c v : (forall i, below N i -> INR (S i) * g (S i) = c * g' i) -> tot N g' v ->
  tot (option_map S N) (fun i => INR i * g i) (c * v).
Proof.
  destruct N as [n|]; simpl option_map; intros H T; unfold tot in *.
  - rewrite nsum_first. simpl INR at 1. rewrite <- T, <- nsum_scal. 
    rewrite (nsum_ext (fun i => INR (S i) * g (S i)) (fun i => c * g' i)) by (intros; apply H; auto). lra.
  - apply is_series_decr_1.
    match goal with |- is_series _ ?w => replace w with (scal c v) by (unfold plus, opp, scal; simpl; unfold mult; simpl; ring) end.
    eapply is_series_ext; [|apply (is_series_scal c _ _ T)]. intros i. symmetry. apply (H i I).
Qed.

(** Raw moments give central moments. *)
Section Moments.
Variables (N : option nat) (g : nat -> R) (M : nat -> R).
Hypothesis (mom : forall n, (n <= 4)%nat -> tot N (fun i => INR i ^ n * g i) (M n)).
Hypothesis (M0 : M 0%nat = 1).
Definition dvar := M 2%nat - M 1%nat ^ 2.
Definition dcen3 := M 3%nat - 3 * M 1%nat * M 2%nat + 2 * M 1%nat ^ 3.
Definition dcen4 := M 4%nat - 4 * M 1%nat * M 3%nat + 6 * M 1%nat ^ 2 * M 2%nat - 3 * M 1%nat ^ 4.
Lemma cen2 : tot N (fun i => (INR i - M 1%nat) ^ 2 * g i) dvar.
Proof.
  eapply tot_ext; [|replace dvar with (M 2%nat + (- 2 * M 1%nat) * M 1%nat + M 1%nat ^ 2 * M 0%nat) by (unfold dvar; rewrite M0; ring)].
  2: apply tot_plus; [apply tot_plus; [|apply tot_scal]|apply tot_scal]; apply mom; lia.
  intros i _. simpl. ring.
Qed.
Lemma cen3 : tot N (fun i => (INR i - M 1%nat) ^ 3 * g i) dcen3.
Proof.
  eapply tot_ext; [|replace dcen3 with (M 3%nat + (- 3 * M 1%nat) * M 2%nat + (3 * M 1%nat ^ 2) * M 1%nat + - M 1%nat ^ 3 * M 0%nat) by (unfold dcen3; rewrite M0; ring)].
  2: apply tot_plus; [apply tot_plus; [apply tot_plus; [|apply tot_scal]|apply tot_scal]|apply tot_scal]; apply mom; lia.
  intros i _. simpl. ring.
Qed.
Lemma cen4 : tot N (fun i => (INR i - M 1%nat) ^ 4 * g i) dcen4.
Proof.
  eapply tot_ext; [|replace dcen4 with (M 4%nat + (- 4 * M 1%nat) * M 3%nat + (6 * M 1%nat ^ 2) * M 2%nat + (-4 * M 1%nat ^ 3) * M 1%nat + M 1%nat ^ 4 * M 0%nat) by (unfold dcen4; rewrite M0; ring)].
  2: apply tot_plus; [apply tot_plus; [apply tot_plus; [apply tot_plus; [|apply tot_scal]|apply tot_scal]|apply tot_scal]|apply tot_scal]; apply mom; lia.
  intros i _. simpl. ring.
Qed.
End Moments.

(** Raw moments from factorial moments. *)
Definition fall (x : R) (n : nat) : R := match n with O => 1 | 1%nat => x | 2%nat => x * (x - 1) | 3%nat => x * (x - 1) * (x - 2) | _ => x * (x - 1) * (x - 2) * (x - 3) end.
Definition raw_of (F : nat -> R) (n : nat) : R :=
  match n with O => F 0%nat | 1%nat => F 1%nat | 2%nat => F 2%nat + F 1%nat
  | 3%nat => F 3%nat + 3 * F 2%nat + F 1%nat | _ => F 4%nat + 6 * F 3%nat + 7 * F 2%nat + F 1%nat end.
Lemma raw_from_fall N g F : (forall n, (n <= 4)%nat -> tot N (fun i => fall (INR i) n * g i) (F n)) ->
  forall n, (n <= 4)%nat -> tot N (fun i => INR i ^ n * g i) (raw_of F n).
Proof.
  intros H n Hn. destruct n as [|[|[|[|[|n]]]]]; try lia; unfold raw_of.
  - eapply tot_ext; [|apply (H 0%nat); lia]. intros i _; simpl; ring.
  - eapply tot_ext; [|apply (H 1%nat); lia]. intros i _; simpl; ring.
  - eapply tot_ext; [|apply tot_plus; [apply (H 2%nat)|apply (H 1%nat)]; lia]. intros i _; simpl; ring.
  - eapply tot_ext; [|apply tot_plus; [apply tot_plus; [apply (H 3%nat); lia|apply tot_scal; apply (H 2%nat); lia]|apply (H 1%nat); lia]].
    intros i _; simpl; ring.
  - eapply tot_ext; [|apply tot_plus; [apply tot_plus; [apply tot_plus; [apply (H 4%nat); lia|apply tot_scal; apply (H 3%nat); lia]|apply tot_scal; apply (H 2%nat); lia]|apply (H 1%nat); lia]].
    intros i _; simpl; ring.
Qed.

(** From nat-indexed sums to the statements of SpecDisc. *)
Section Disc.
Variables (N : option nat) (pmf : val -> val) (g : nat -> R).
Hypothesis pmf_in : forall i, below N i -> pmf (Fin (IZR (Z.of_nat i))) = Fin (g i).
Lemma at_int_in i : below N i -> at_int pmf (Z.of_nat i) = g i.
Proof. intros H. unfold at_int. rewrite pmf_in by auto. reflexivity. Qed.
Lemma disc_mass : (forall i, below N i -> 0 <= g i) -> tot N g 1 -> mass_function pmf (sup0 N).
Proof.
  intros P T. split.
  - intros k K. destruct (in_sup0 _ _ K) as [i [-> B]]. eauto.
  - apply sums_tot. eapply tot_ext; [|exact T]. intros i B. simpl. rewrite at_int_in; auto.
Qed.
Lemma disc_moment c n v : tot N (fun i => (INR i - c) ^ n * g i) v -> dmoment pmf (sup0 N) c n v.
Proof.
  intros T. unfold dmoment. apply sums_tot. eapply tot_ext; [|exact T]. intros i B. simpl.
  rewrite at_int_in, <- INR_IZR_INZ by auto. reflexivity.
Qed.
Lemma disc_mean m : tot N (fun i => INR i * g i) m -> dmean_is pmf (sup0 N) (Fin m).
Proof. intros T. exists m. split; auto. apply disc_moment. eapply tot_ext; [|exact T]. intros i _. simpl. ring. Qed.
Lemma disc_var M : (forall n, (n <= 2)%nat -> tot N (fun i => INR i ^ n * g i) (M n)) -> M 0%nat = 1 -> dvar_is pmf (sup0 N) (Fin (dvar M)).
Proof.
  intros H M0. exists (M 1%nat), (dvar M). split; [|split; auto].
  - apply disc_moment. eapply tot_ext; [|apply (H 1%nat); lia]. intros i _. simpl. ring.
  - apply disc_moment. eapply tot_ext; [|replace (dvar M) with (M 2%nat + (- 2 * M 1%nat) * M 1%nat + M 1%nat ^ 2 * M 0%nat) by (unfold dvar; rewrite M0; ring)].
    2: apply tot_plus; [apply tot_plus; [|apply tot_scal]|apply tot_scal]; apply H; lia.
    intros i _. simpl. ring.
Qed.
Lemma disc_skewness M : (forall n, (n <= 4)%nat -> tot N (fun i => INR i ^ n * g i) (M n)) -> M 0%nat = 1 -> 0 < dvar M ->
  dskewness_is pmf (sup0 N) (Fin (dcen3 M / (dvar M * sqrt (dvar M)))).
Proof.
  intros H M0 P. exists (M 1%nat), (dvar M), (dcen3 M). split; [|split; [auto|split; [|split; [|auto]]]].
  - apply disc_moment. eapply tot_ext; [|apply (H 1%nat); lia]. intros i _. simpl. ring.
  - apply disc_moment. apply cen2; auto.
  - apply disc_moment. apply cen3; auto.
Qed.
Lemma disc_kurtosis M : (forall n, (n <= 4)%nat -> tot N (fun i => INR i ^ n * g i) (M n)) -> M 0%nat = 1 -> 0 < dvar M ->
  dkurtosis_is pmf (sup0 N) (Fin (dcen4 M / dvar M ^ 2 - 3)).
Proof.
  intros H M0 P. exists (M 1%nat), (dvar M), (dcen4 M). split; [|split; [auto|split; [|split; [|auto]]]].
  - apply disc_moment. eapply tot_ext; [|apply (H 1%nat); lia]. intros i _. simpl. ring.
  - apply disc_moment. apply cen2; auto.
  - apply disc_moment. apply cen4; auto.
Qed.
Lemma disc_upto k : sum_upto (at_int pmf) (sup0 N) k = nsum g (match N with Some n => Nat.min (Z.to_nat (k + 1)) n | None => Z.to_nat (k + 1) end).
Proof.
  pose proof at_int_in as A. destruct N as [n|]; simpl; rewrite zsum_0.
  - replace (Z.to_nat (Z.min (k + 1) (Z.of_nat n))) with (Nat.min (Z.to_nat (k + 1)) n) by lia.
    apply nsum_ext. intros i Hi. apply A. simpl. lia.
  - apply nsum_ext. intros i Hi. apply A. exact I.
Qed.
End Disc.

(** Unimodal sequences: increasing exactly below a threshold [r]. *)
Lemma threshold_smallest s pmf (g : Z -> R) (r : R) (j : Z) :
  (forall k, in_support s k -> pmf (Fin (IZR k)) = Fin (g k)) ->
  (forall k, in_support s k -> in_support s (k - 1) -> (IZR k < r -> g (k - 1)%Z < g k) /\ (r <= IZR k -> g k <= g (k - 1)%Z)) ->
  in_support s j ->
  (in_support s (j - 1) -> IZR j < r) ->
  (in_support s (j + 1) -> r <= IZR j + 1) ->
  smallest_mode pmf s (Fin (IZR j)).
Proof.
  intros HP HR HJ HL HU. exists j, (g j). split; [auto|]. split; [auto|]. split; [auto|].
  assert (DOWN : forall d k, Z.of_nat d = (j - k)%Z -> in_support s k -> g k <= g j /\ ((k < j)%Z -> g k < g j)).
  { induction d as [|d IH]; intros k E K.
    - assert (k = j) as -> by lia. split; [lra|lia].
    - assert (K' : in_support s (k + 1)) by (destruct s; simpl in *; lia).
      assert (JL : in_support s (j - 1)) by (destruct s; simpl in *; lia).
      destruct (IH (k + 1)%Z) as [A _]; [lia|auto|].
      destruct (HR (k + 1)%Z) as [B _]; [auto|replace (k + 1 - 1)%Z with k by lia; auto|].
      replace (k + 1 - 1)%Z with k in B by lia.
      assert (IZR (k + 1) <= IZR j) by (apply IZR_le; lia). specialize (HL JL).
      assert (g k < g (k + 1)%Z) by (apply B; lra). lra. }
  assert (UP : forall d k, Z.of_nat d = (k - j)%Z -> in_support s k -> g k <= g j).
  { induction d as [|d IH]; intros k E K.
    - assert (k = j) as -> by lia. lra.
    - assert (K' : in_support s (k - 1)) by (destruct s; simpl in *; lia).
      assert (JU : in_support s (j + 1)) by (destruct s; simpl in *; lia).
      assert (A := IH (k - 1)%Z ltac:(lia) K').
      destruct (HR k) as [_ B]; auto. specialize (HU JU).
      assert (IZR (j + 1) <= IZR k) by (apply IZR_le; lia). rewrite plus_IZR in H.
      assert (g k <= g (k - 1)%Z) by (apply B; lra). lra. }
  intros k K. exists (g k). split; [auto|]. destruct (Z_le_gt_dec k j) as [L|L].
  - apply (DOWN (Z.to_nat (j - k)) k); auto. lia.
  - split; [|lia]. apply (UP (Z.to_nat (k - j)) k); auto. lia.
Qed.
Lemma threshold_largest s pmf (g : Z -> R) (r : R) (j : Z) :
  (forall k, in_support s k -> pmf (Fin (IZR k)) = Fin (g k)) ->
  (forall k, in_support s k -> in_support s (k - 1) -> (IZR k <= r -> g (k - 1)%Z <= g k) /\ (r < IZR k -> g k < g (k - 1)%Z)) ->
  in_support s j ->
  (in_support s (j - 1) -> IZR j <= r) ->
  (in_support s (j + 1) -> r < IZR j + 1) ->
  largest_mode pmf s (Fin (IZR j)).
Proof.
  intros HP HR HJ HL HU. exists j, (g j). split; [auto|]. split; [auto|]. split; [auto|].
  assert (DOWN : forall d k, Z.of_nat d = (j - k)%Z -> in_support s k -> g k <= g j).
  { induction d as [|d IH]; intros k E K.
    - assert (k = j) as -> by lia. lra.
    - assert (K' : in_support s (k + 1)) by (destruct s; simpl in *; lia).
      assert (JL : in_support s (j - 1)) by (destruct s; simpl in *; lia).
      assert (A := IH (k + 1)%Z ltac:(lia) K').
      destruct (HR (k + 1)%Z) as [B _]; [auto|replace (k + 1 - 1)%Z with k by lia; auto|].
      replace (k + 1 - 1)%Z with k in B by lia.
      assert (IZR (k + 1) <= IZR j) by (apply IZR_le; lia). specialize (HL JL).
      assert (g k <= g (k + 1)%Z) by (apply B; lra). lra. }
  assert (UP : forall d k, Z.of_nat d = (k - j)%Z -> in_support s k -> g k <= g j /\ ((j < k)%Z -> g k < g j)).
  { induction d as [|d IH]; intros k E K.
    - assert (k = j) as -> by lia. split; [lra|lia].
    - assert (K' : in_support s (k - 1)) by (destruct s; simpl in *; lia).
      assert (JU : in_support s (j + 1)) by (destruct s; simpl in *; lia).
      destruct (IH (k - 1)%Z ltac:(lia) K') as [A _].
      destruct (HR k) as [_ B]; auto. specialize (HU JU).
      assert (IZR (j + 1) <= IZR k) by (apply IZR_le; lia). rewrite plus_IZR in H.
      assert (g k < g (k - 1)%Z) by (apply B; lra). lra. }
  intros k K. exists (g k). split; [auto|]. destruct (Z_le_gt_dec k j) as [L|L].
  - split; [|lia]. apply (DOWN (Z.to_nat (j - k)) k); auto. lia.
  - apply (UP (Z.to_nat (k - j)) k); auto. lia.
Qed.
