(** Facts about [choose] and finite integer sums. *)
From Coq Require Import List Arith ZArith Lia Factorial Permutation Bool.
From Verif Require Import SpecInt.
Import ListNotations.
Set Bullet Behavior "Strict Subproofs".

Lemma choose_0 n : choose n 0 = 1. Proof. destruct n; reflexivity. Qed.
Lemma choose_S n k : choose (S n) (S k) = choose n k + choose n (S k).
Proof. reflexivity. Qed.
Lemma choose_gt n : forall k, n < k -> choose n k = 0.
Proof.
  induction n as [|n IH]; intros [|k] H; try lia; simpl; auto.
  rewrite !IH by lia. reflexivity.
Qed.
Lemma choose_diag n : choose n n = 1.
Proof. induction n as [|n IH]; auto. rewrite choose_S, IH, choose_gt by lia. lia. Qed.
Lemma choose_pos n : forall k, k <= n -> 0 < choose n k.
Proof.
  induction n as [|n IH]; intros [|k] H; simpl; try lia.
  specialize (IH k). lia.
Qed.
Lemma choose_1 n : choose n 1 = n.
Proof. induction n as [|n IH]; auto. rewrite choose_S, IH, choose_0. lia. Qed.

(** (k+1) C(n+1,k+1) = (n+1) C(n,k). *)
Lemma choose_absorb n : forall k, S k * choose (S n) (S k) = S n * choose n k.
Proof.
  induction n as [|n IH]; intros k.
  - destruct k as [|k]; [reflexivity|]. rewrite !choose_gt by lia. lia.
  - rewrite choose_S. destruct k as [|k].
    + rewrite !choose_0, choose_1. lia.
    + pose proof (IH k) as H1. pose proof (IH (S k)) as H2.
      rewrite (choose_S n k) in H1 |- *. 
      rewrite (choose_S n (S k)) in H2 |- *.
      nia.
Qed.
(** (k+1) C(n,k+1) = (n-k) C(n,k). *)
Lemma choose_ratio n k : k <= n -> S k * choose n (S k) = (n - k) * choose n k.
Proof.
  intros H. pose proof (choose_absorb n k) as A. rewrite choose_S in A.
  assert (n = n - k + k) by lia. nia.
Qed.
Lemma choose_fact n : forall k, k <= n -> choose n k * (fact k * fact (n - k)) = fact n.
Proof.
  induction n as [|n IH]; intros [|k] H; try lia; try reflexivity.
  - rewrite choose_0. cbn [fact Nat.sub]. lia.
  - replace (S n - S k) with (n - k) by lia.
    change (fact (S k)) with (S k * fact k). change (fact (S n)) with (S n * fact n).
    rewrite <- (IH k) by lia.
    transitivity ((S k * choose (S n) (S k)) * (fact k * fact (n - k))); [ring|].
    rewrite choose_absorb. ring.
Qed.
Lemma choose_sym n k : k <= n -> choose n (n - k) = choose n k.
Proof.
  intros H. pose proof (choose_fact n k H) as A.
  pose proof (choose_fact n (n - k) ltac:(lia)) as B.
  replace (n - (n - k)) with k in B by lia.
  pose proof (lt_O_fact k). pose proof (lt_O_fact (n - k)).
  assert (0 < fact k * fact (n - k)) by nia.
  rewrite (Nat.mul_comm (fact (n - k))) in B. nia.
Qed.

(** Finite sums over nat: f 0 + ... + f n. *)
Fixpoint sumn (f : nat -> nat) (n : nat) : nat :=
  match n with O => f 0 | S k => sumn f k + f (S k) end.
Lemma sumn_ext f g n : (forall i, i <= n -> f i = g i) -> sumn f n = sumn g n.
Proof. induction n as [|n IH]; intros H; simpl; [apply H; lia|]. rewrite IH, H; auto. Qed.
Lemma sumn_plus f g n : sumn (fun i => f i + g i) n = sumn f n + sumn g n.
Proof. induction n as [|n IH]; simpl; lia. Qed.
Lemma sumn_S f n : sumn f (S n) = f 0 + sumn (fun i => f (S i)) n.
Proof. induction n as [|n IH]; simpl in *; lia. Qed.

Lemma vandermonde m n : forall k, sumn (fun j => choose m j * choose n (k - j)) k = choose (m + n) k.
Proof.
  induction m as [|m IH]; intros k.
  - destruct k as [|k]; [simpl; rewrite choose_0; lia|].
    rewrite sumn_S. rewrite (sumn_ext _ (fun _ => 0)) by (intros; reflexivity).
    assert (sumn (fun _ => 0) k = 0) as -> by (induction k; simpl; lia).
    simpl. lia.
  - destruct k as [|k].
    + simpl. rewrite !choose_0. lia.
    + rewrite sumn_S. rewrite choose_0.
      rewrite (sumn_ext _ (fun i => choose m i * choose n (k - i) + choose m (S i) * choose n (k - i))).
      * rewrite sumn_plus, IH. pose proof (IH (S k)) as H2. rewrite sumn_S in H2.
        rewrite choose_0 in H2.
        change (choose (S m + n) (S k)) with (choose (m + n) k + choose (m + n) (S k)).
        rewrite <- H2. replace (S k - 0) with (S k) by lia.
        simpl (S k - S _). lia.
      * intros i Hi. rewrite choose_S. replace (S k - S i) with (k - i) by lia. lia.
Qed.

(** Sums over lists. *)
Definition sumZ (l : list Z) : Z := fold_right Z.add 0%Z l.
Definition sumf {A} (f : A -> Z) (l : list A) : Z := sumZ (map f l).
Lemma sumZ_app l1 l2 : sumZ (l1 ++ l2) = (sumZ l1 + sumZ l2)%Z.
Proof. induction l1 as [|x l1 IH]; simpl; lia. Qed.
Lemma sumf_app {A} (f : A -> Z) l1 l2 : sumf f (l1 ++ l2) = (sumf f l1 + sumf f l2)%Z.
Proof. unfold sumf. rewrite map_app. apply sumZ_app. Qed.
Lemma sumf_cons {A} (f : A -> Z) x l : sumf f (x :: l) = (f x + sumf f l)%Z.
Proof. reflexivity. Qed.
Lemma sumZ_perm l1 l2 : Permutation l1 l2 -> sumZ l1 = sumZ l2.
Proof. induction 1; simpl; lia. Qed.
Lemma sumf_perm {A} (f : A -> Z) l1 l2 : Permutation l1 l2 -> sumf f l1 = sumf f l2.
Proof. intros H. apply sumZ_perm. apply Permutation_map. exact H. Qed.
Lemma sumf_ext {A} (f g : A -> Z) l : (forall x, In x l -> f x = g x) -> sumf f l = sumf g l.
Proof.
  induction l as [|x l IH]; intros H; auto. rewrite !sumf_cons, IH, H; simpl; auto.
  intros; apply H; simpl; auto.
Qed.
Lemma sumf_rev {A} (f : A -> Z) l : sumf f (rev l) = sumf f l.
Proof. apply sumf_perm. apply Permutation_sym. apply Permutation_rev. Qed.
Lemma sumf_nonneg {A} (f : A -> Z) l : (forall x, In x l -> 0 <= f x)%Z -> (0 <= sumf f l)%Z.
Proof.
  induction l as [|x l IH]; intros H; [reflexivity|]. rewrite sumf_cons.
  assert (0 <= f x)%Z by (apply H; simpl; auto).
  assert (0 <= sumf f l)%Z by (apply IH; intros; apply H; simpl; auto). lia.
Qed.
Lemma sumf_le {A} (f g : A -> Z) l : (forall x, In x l -> f x <= g x)%Z -> (sumf f l <= sumf g l)%Z.
Proof.
  induction l as [|x l IH]; intros H; [reflexivity|]. rewrite !sumf_cons.
  assert (f x <= g x)%Z by (apply H; simpl; auto).
  assert (sumf f l <= sumf g l)%Z by (apply IH; intros; apply H; simpl; auto). lia.
Qed.
Lemma sumf_in_le {A} (f : A -> Z) l y : (forall x, In x l -> 0 <= f x)%Z -> In y l -> (f y <= sumf f l)%Z.
Proof.
  induction l as [|x l IH]; intros H Hy; [destruct Hy|].
  destruct Hy as [->|Hy]; rewrite sumf_cons.
  - assert (0 <= sumf f l)%Z by (apply sumf_nonneg; intros; apply H; simpl; auto). lia.
  - assert (f y <= sumf f l)%Z by (apply IH; auto; intros; apply H; simpl; auto).
    assert (0 <= f x)%Z by (apply H; simpl; auto). lia.
Qed.
Lemma sumf_scal {A} (f : A -> Z) c l : sumf (fun x => c * f x)%Z l = (c * sumf f l)%Z.
Proof. induction l as [|x l IH]; [simpl; unfold sumf; simpl; lia|]. rewrite !sumf_cons, IH. lia. Qed.
Lemma sumf_filter_le {A} (f : A -> Z) (P : A -> bool) l :
  (forall x, In x l -> 0 <= f x)%Z -> (sumf f (filter P l) <= sumf f l)%Z.
Proof.
  induction l as [|x l IH]; intros H; [reflexivity|]. simpl filter.
  assert (0 <= f x)%Z by (apply H; simpl; auto).
  assert (sumf f (filter P l) <= sumf f l)%Z by (apply IH; intros; apply H; simpl; auto).
  destruct (P x); rewrite !sumf_cons; lia.
Qed.
(** Reindexing by a bijection. *)
Lemma sumf_bij {A B} (f : A -> Z) (g : B -> Z) (h : A -> B) l1 l2 :
  NoDup l1 -> NoDup l2 ->
  (forall x, In x l1 -> In (h x) l2) ->
  (forall x y, In x l1 -> In y l1 -> h x = h y -> x = y) ->
  (forall y, In y l2 -> exists x, In x l1 /\ h x = y) ->
  (forall x, In x l1 -> f x = g (h x)) ->
  sumf f l1 = sumf g l2.
Proof.
  intros N1 N2 H1 H2 H3 H4.
  assert (P : Permutation (map h l1) l2).
  { apply NoDup_Permutation; auto.
    - clear H1 H3 H4 N2. induction l1 as [|x l1 IH]; simpl; [constructor|].
      inversion N1; subst. constructor.
      + intros C. apply in_map_iff in C. destruct C as [z [E Z]].
        apply H2 in E; simpl; auto. subst; contradiction.
      + apply IH; auto. intros; apply H2; simpl; auto.
    - intros y. rewrite in_map_iff. split.
      + intros [x [<- Hx]]. auto.
      + intros Hy. destruct (H3 y Hy) as [x [Hx E]]. exists x; auto. }
  rewrite <- (sumf_perm g _ _ P). unfold sumf. rewrite map_map. 
  apply (sumf_ext f (fun x => g (h x))). exact H4.
Qed.
