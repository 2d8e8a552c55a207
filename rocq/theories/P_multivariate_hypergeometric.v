From Coq Require Import Reals Lra Lia List ZArith Arith Bool.
From Coquelicot Require Import Coquelicot.
From Verif Require Import Values VTac Spec SpecStat SpecDisc SpecMulti LLib XLib PLib SFun GammaLib GammaLib3 M_common M_sfun M_disc M_fun SpecInt BinLib DiscLib IncLib CountLib DiscLib2 HgLib P_logb M_multivariate_hypergeometric.
Import ListNotations.
Local Open Scope nat_scope.
Set Bullet Behavior "Strict Subproofs".

(** The generator on natural numbers. *)
Fixpoint gen (cs : list nat) (n : nat) : list (list nat) :=
  match cs with
  | [] => []
  | [_] => [[n]]
  | c :: rest => flat_map (fun k => map (cons k) (gen rest (n - k))) (seq (n - list_sum rest) (S (Nat.min c n) - (n - list_sum rest)))
  end.
Lemma gen_cons c d rest n : gen (c :: d :: rest) n = flat_map (fun k => map (cons k) (gen (d :: rest) (n - k))) (seq (n - list_sum (d :: rest)) (S (Nat.min c n) - (n - list_sum (d :: rest)))).
Proof. reflexivity. Qed.
Lemma sumZ_nat l : fold_right Z.add 0%Z (map Z.of_nat l) = Z.of_nat (list_sum l).
Proof. induction l as [|x l IH]; auto. simpl map. simpl fold_right. rewrite IH. change (list_sum (x :: l)) with (x + list_sum l). lia. Qed.
Lemma rconcat_ok {A B} (f : A -> res (list B)) (g : A -> list B) l : (forall a, In a l -> f a = Ok (g a)) -> rconcat (map f l) = Ok (flat_map g l).
Proof. induction l as [|a l IH]; intros H; auto. cbn [map rconcat flat_map]. rewrite (H a) by (left; auto). cbn [bind]. rewrite IH by (intros; apply H; right; auto). reflexivity. Qed.
Lemma flat_map_map {A B D} (f : B -> list D) (g : A -> B) l : flat_map f (map g l) = flat_map (fun a => f (g a)) l.
Proof. induction l as [|a l IH]; auto. simpl. rewrite IH. auto. Qed.
Lemma map_flat_map {A B D} (f : B -> D) (g : A -> list B) l : map f (flat_map g l) = flat_map (fun a => map f (g a)) l.
Proof. induction l as [|a l IH]; auto. simpl. rewrite map_app, IH. auto. Qed.
Lemma flat_map_ext_in {A B} (f g : A -> list B) l : (forall a, In a l -> f a = g a) -> flat_map f l = flat_map g l.
Proof. induction l as [|a l IH]; intros H; auto. simpl. rewrite (H a) by (left; auto). rewrite IH; auto. intros; apply H; right; auto. Qed.
Lemma seq_from a len : seq a len = map (fun i => a + i) (seq 0 len).
Proof.
  assert (Q : forall b, seq (a + b) len = map (fun i => a + i) (seq b len)); [|rewrite <- Q, Nat.add_0_r; auto].
  induction len as [|len IH]; intros b; auto. simpl. f_equal. rewrite <- IH. f_equal. lia.
Qed.
Lemma gen_model cs : cs <> [] -> forall n, n <= list_sum cs -> support_gen (map Z.of_nat cs) (Z.of_nat n) = Ok (map (map Z.of_nat) (gen cs n)).
Proof.
  induction cs as [|c cs IH]; [congruence|]. intros _ n H. destruct cs as [|d rest]; [reflexivity|].
  assert (SG : support_gen (map Z.of_nat (c :: d :: rest)) (Z.of_nat n) = rconcat (map (fun k => bind (support_gen (map Z.of_nat (d :: rest)) (Z.of_nat n - k)) (fun ts => Ok (map (cons k) ts)))
    (zrange (Z.max (Z.of_nat n - fold_right Z.add 0%Z (map Z.of_nat (d :: rest))) 0) (Z.min (Z.of_nat c) (Z.of_nat n) + 1)))) by reflexivity.
  rewrite SG. clear SG. rewrite sumZ_nat. change (list_sum (c :: d :: rest)) with (c + list_sum (d :: rest)) in H. rewrite gen_cons. set (s := list_sum (d :: rest)) in *.
  rewrite (rconcat_ok _ (fun k => map (fun t => map Z.of_nat (Z.to_nat k :: t)) (gen (d :: rest) (n - Z.to_nat k)))).
  - f_equal. unfold zrange. rewrite flat_map_map, map_flat_map.
    replace (Z.to_nat (Z.min (Z.of_nat c) (Z.of_nat n) + 1 - Z.max (Z.of_nat n - Z.of_nat s) 0)) with (S (Nat.min c n) - (n - s)) by lia.
    set (len := S (Nat.min c n) - (n - s)). clearbody len.
    rewrite (seq_from (n - s) len).
    rewrite flat_map_map. apply flat_map_ext_in. intros i _. rewrite map_map. replace (Z.to_nat (Z.max (Z.of_nat n - Z.of_nat s) 0 + Z.of_nat i)) with (n - s + i) by lia. reflexivity.
  - intros k K. unfold zrange in K. apply in_map_iff in K. destruct K as [i [<- I]]. apply in_seq in I. set (k := (Z.max (Z.of_nat n - Z.of_nat s) 0 + Z.of_nat i)%Z).
    replace (Z.of_nat n - k)%Z with (Z.of_nat (n - Z.to_nat k)) by lia. rewrite IH by (try discriminate; fold s; lia). cbn [bind]. rewrite map_map. f_equal. apply map_ext. intros t. simpl. f_equal. lia.
Qed.
(** What it yields. *)
Definition point (cs : list nat) (n : nat) (k : list nat) : Prop := Forall2 (fun c x => x <= c) cs k /\ list_sum k = n.
Lemma F2_sum cs k : Forall2 (fun c x => x <= c) cs k -> list_sum k <= list_sum cs.
Proof. induction 1; auto. change (y + list_sum l' <= x + list_sum l). lia. Qed.
Lemma gen_in cs : cs <> [] -> forall n k, n <= list_sum cs -> (In k (gen cs n) <-> point cs n k).
Proof.
  induction cs as [|c cs IH]; [congruence|]. intros _ n k H. destruct cs as [|d rest].
  - simpl in *. split.
    + intros [<-|[]]. split; [constructor; [lia|constructor]|]. simpl. lia.
    + intros [F E]. inversion F as [|? x ? l L F']; subst. inversion F'; subst. left. simpl. f_equal. lia.
  - change (list_sum (c :: d :: rest)) with (c + list_sum (d :: rest)) in H. rewrite gen_cons. set (s := list_sum (d :: rest)) in *. rewrite in_flat_map. split.
    + intros [x [X K]]. apply in_seq in X. apply in_map_iff in K. destruct K as [t [<- T]]. apply IH in T; [|discriminate|fold s; lia]. destruct T as [F E]. split; [constructor; auto; lia|]. change (list_sum (x :: t)) with (x + list_sum t). lia.
    + intros [F E]. inversion F as [|? x ? t L F']; subst k; subst. change (list_sum (x :: t)) with (x + list_sum t) in *. pose proof (F2_sum _ _ F') as Q. fold s in Q. exists x. split; [apply in_seq; lia|].
      apply in_map. apply IH; [discriminate|fold s; lia|]. split; auto. lia.
Qed.
Lemma inc_app {A} (lt : A -> A -> Prop) l1 l2 : increasing lt l1 -> increasing lt l2 -> (forall x y, In x l1 -> In y l2 -> lt x y) -> increasing lt (l1 ++ l2).
Proof.
  induction l1 as [|a l1 IH]; intros I1 I2 H; auto. simpl in *. destruct I1 as [A1 A2]. split.
  - intros y Y. apply in_app_iff in Y. destruct Y; auto.
  - apply IH; auto.
Qed.
Lemma gen_inc cs n : increasing lex_lt (map (map Z.of_nat) (gen cs n)).
Proof.
  revert n. induction cs as [|c cs IH]; intros n; [exact I|]. destruct cs as [|d rest]; [simpl; split; [intros y []|exact I]|].
  rewrite gen_cons. generalize (S (Nat.min c n) - (n - list_sum (d :: rest))) as len. generalize (n - list_sum (d :: rest)) as a. intros a len. revert a. induction len as [|len IHl]; intros a; [exact I|].
  cbn [seq flat_map]. rewrite map_app. apply inc_app; auto.
  - specialize (IH (n - a)). rewrite map_map. induction (gen (d :: rest) (n - a)) as [|t l IHt]; [exact I|]. cbn [map increasing] in *. destruct IH as [A1 A2]. split; auto.
    intros y Y. apply in_map_iff in Y. destruct Y as [t' [<- T]]. cbn [map lex_lt]. right. split; auto. apply A1. apply in_map. auto.
  - intros x y X Y. rewrite map_map in X. apply in_map_iff in X. destruct X as [t [<- T]]. apply in_map_iff in Y. destruct Y as [k [<- K]]. apply in_flat_map in K. destruct K as [b [B K]]. apply in_seq in B. apply in_map_iff in K. destruct K as [t' [<- T']].
    cbn [map lex_lt]. left. lia.
Qed.
(** Validation. *)
Lemma fsum_nat l : vfsum (vZs (map Z.of_nat l)) = Fin (INR (list_sum l)).
Proof.
  induction l as [|x l IH]; auto. unfold vZs in *. cbn [map vfsum]. rewrite IH. unfold vZ. cbn [vadd]. rewrite <- INR_IZR_INZ, <- plus_INR. reflexivity.
Qed.
Lemma any_nat l : cany (fun color => clt color (Fin 0)) (vZs (map Z.of_nat l)) = CB false.
Proof.
  induction l as [|x l IH]; auto. unfold vZs in *. cbn [map cany]. rewrite IH. unfold vZ, clt, cmp, ltb. rewrite <- INR_IZR_INZ, Rltb_false by (pose proof (pos_INR x); lra). reflexivity.
Qed.
Lemma ok {A} `{CanRaise A} cs n (k : A) : n <= list_sum cs -> validate (vZs (map Z.of_nat cs)) (vZ (Z.of_nat n)) k = k.
Proof.
  intros N. unfold validate. rewrite any_nat, fsum_nat. unfold vZ, cgt, cmp, ltb. cbn [cif]. rewrite <- INR_IZR_INZ, Rltb_false; auto. apply le_INR in N. lra.
Qed.
Lemma to_nat_out cs n k : outcome cs n k <-> exists k', k = map Z.of_nat k' /\ point cs n k'.
Proof.
  split.
  - intros [F E]. assert (G : exists k', k = map Z.of_nat k' /\ Forall2 (fun c x => x <= c) cs k').
    { clear E. induction F as [|c x cs l L F [k' [E Q]]]; [exists []; split; auto|]. exists (Z.to_nat x :: k'). split; [simpl; f_equal; auto; lia|]. constructor; auto. lia. }
    destruct G as [k' [-> Q]]. exists k'. split; auto. split; auto. rewrite sumZ_nat in E. lia.
  - intros [k' [-> [F E]]]. split; [clear E; induction F; simpl; constructor; auto; lia|]. rewrite sumZ_nat, E. auto.
Qed.
Lemma support_ok (cs : list nat) (n : nat) : cs <> [] -> (n <= list_sum cs)%nat ->
  exists L, support (map Z.of_nat cs) (Z.of_nat n) = Ok L /\ (forall k, In k L <-> outcome cs n k) /\ increasing lex_lt L.
Proof.
  intros H N. exists (map (map Z.of_nat) (gen cs n)). split; [|split; [|apply gen_inc]].
  - unfold support. rewrite ok by auto. apply gen_model; auto.
  - intros k. rewrite to_nat_out, in_map_iff. split; [intros [k' [<- K]]|intros [k' [-> K]]]; exists k'; (split; [auto|]); apply (gen_in cs H n); auto.
Qed.
(** Weighted sums over the support: falling factorial moments. *)
Fixpoint ff (n e : nat) : nat := match e with O => 1 | S e => n * ff (n - 1) e end.
Definition ch (e s n : nat) : nat := if n <? e then 0 else choose (s - e) (n - e).
Lemma ff_choose e : forall c k, ff k e * choose c k = ff c e * ch e c k.
Proof.
  induction e as [|e IH]; intros c k; [unfold ch; simpl; rewrite !Nat.sub_0_r; lia|]. destruct k as [|k]; [unfold ch; simpl; lia|]. destruct c as [|c]; [simpl; lia|].
  cbn [ff]. replace (S k - 1) with k by lia. replace (S c - 1) with c by lia. pose proof (choose_absorb c k) as Q. pose proof (IH c k) as P.
  replace (ch (S e) (S c) (S k)) with (ch e c k) by (unfold ch; destruct (Nat.ltb_spec k e), (Nat.ltb_spec (S k) (S e)); try lia; reflexivity). nia.
Qed.
Fixpoint pc (cs k : list nat) : nat := match cs, k with c :: cs, x :: k => choose c x * pc cs k | _, _ => 1 end.
Fixpoint FF (e : nat -> nat) (k : list nat) : nat := match k with [] => 1 | x :: k => ff x (e 0) * FF (fun t => e (S t)) k end.
Fixpoint tot_e (e : nat -> nat) (m : nat) : nat := match m with O => 0 | S m => e 0 + tot_e (fun t => e (S t)) m end.
Definition T (cs : list nat) (n : nat) (e : nat -> nat) : nat := list_sum (map (fun k => pc cs k * FF e k) (gen cs n)).
Lemma ff_lt c e : c < e -> ff c e = 0.
Proof. revert c. induction e as [|e IH]; intros c H; [lia|]. cbn [ff]. destruct c as [|c]; [lia|]. rewrite IH by lia. lia. Qed.
Lemma FF_small cs : forall e, list_sum cs < tot_e e (length cs) -> FF e cs = 0.
Proof.
  induction cs as [|c cs IH]; intros e H; simpl in H; [lia|]. change (list_sum (c :: cs)) with (c + list_sum cs) in H. cbn [FF]. destruct (Nat.le_gt_cases (e 0) c).
  - rewrite IH by lia. lia.
  - rewrite ff_lt by lia. lia.
Qed.
Lemma sumn_0 f n : (forall i, i <= n -> f i = 0) -> sumn f n = 0.
Proof. induction n as [|n IH]; intros H; simpl; [apply H; auto|]. rewrite IH by (intros; apply H; lia). rewrite H; auto. Qed.
Lemma sumn_scal c f n : sumn (fun i => c * f i) n = c * sumn f n.
Proof. induction n as [|n IH]; simpl; auto. rewrite IH. lia. Qed.
Lemma sumn_shift a f n : (forall i, i < a -> f i = 0) -> sumn f (a + n) = sumn (fun i => f (a + i)) n.
Proof.
  revert f. induction a as [|a IH]; intros f H; auto. change (S a + n) with (S (a + n)). rewrite sumn_S, H by lia. rewrite (IH (fun i => f (S i))); auto. intros i I. apply H. lia.
Qed.
Lemma sumn_cut b f n : (forall i, n < i <= n + b -> f i = 0) -> sumn f (n + b) = sumn f n.
Proof. induction b as [|b IH]; intros H; [rewrite Nat.add_0_r; auto|]. rewrite Nat.add_succ_r. simpl. rewrite IH, H by (intros; try apply H; lia). lia. Qed.
Lemma vander a b c s n : a <= c -> b <= s -> sumn (fun k => ch a c k * ch b s (n - k)) n = ch (a + b) (c + s) n.
Proof.
  intros A B. unfold ch at 3. destruct (Nat.ltb_spec n (a + b)) as [L|L].
  - apply sumn_0. intros i I. unfold ch. destruct (Nat.ltb_spec i a); [lia|]. destruct (Nat.ltb_spec (n - i) b); lia.
  - pose proof (sumn_shift a (fun k => ch a c k * ch b s (n - k)) (n - a - b + b)) as Q. replace (a + (n - a - b + b)) with n in Q by lia. rewrite Q; clear Q.
    + rewrite sumn_cut.
      * replace (c + s - (a + b)) with ((c - a) + (s - b)) by lia. rewrite <- (vandermonde (c - a) (s - b)). replace (n - (a + b)) with (n - a - b) by lia. apply sumn_ext. intros i I. unfold ch.
        destruct (Nat.ltb_spec (a + i) a), (Nat.ltb_spec (n - (a + i)) b); try lia. f_equal; f_equal; lia.
      * intros i I. unfold ch. destruct (Nat.ltb_spec (n - (a + i)) b); lia.
    + intros i I. unfold ch. destruct (Nat.ltb_spec i a); lia.
Qed.
Lemma list_sum_app' l1 l2 : list_sum (l1 ++ l2) = list_sum l1 + list_sum l2.
Proof. apply list_sum_app. Qed.
Lemma seq_sum f n : list_sum (map f (seq 0 (S n))) = sumn f n.
Proof. induction n as [|n IH]; [simpl; lia|]. rewrite seq_S, map_app, list_sum_app', IH. simpl. lia. Qed.
Lemma T_cons c d rest n e : T (c :: d :: rest) n e = list_sum (map (fun k => (ff k (e 0) * choose c k) * T (d :: rest) (n - k) (fun t => e (S t))) (seq (n - list_sum (d :: rest)) (S (Nat.min c n) - (n - list_sum (d :: rest))))).
Proof.
  unfold T at 1. rewrite gen_cons. generalize (seq (n - list_sum (d :: rest)) (S (Nat.min c n) - (n - list_sum (d :: rest)))) as l. intros l. induction l as [|k l IH]; auto.
  cbn [flat_map map]. rewrite map_app, list_sum_app', IH. change (list_sum (?a :: ?b)) with (a + list_sum b). f_equal. unfold T. rewrite map_map.
  induction (gen (d :: rest) (n - k)) as [|t l' IHt]; [simpl; lia|]. cbn [map]. change (list_sum (?a :: ?b)) with (a + list_sum b). rewrite IHt. set (r := d :: rest). cbn [pc FF]. lia.
Qed.
Lemma T_val cs : cs <> [] -> forall n e, n <= list_sum cs -> T cs n e = FF e cs * ch (tot_e e (length cs)) (list_sum cs) n.
Proof.
  induction cs as [|c cs IH]; [congruence|]. intros _ n e H. destruct cs as [|d rest].
  - unfold T. simpl in *. rewrite Nat.add_0_r in H |- *. rewrite !Nat.add_0_r. pose proof (ff_choose (e 0) c n) as Q. nia.
  - rewrite T_cons. change (list_sum (c :: d :: rest)) with (c + list_sum (d :: rest)) in *. set (s := list_sum (d :: rest)) in *. set (e' := fun t => e (S t)).
    set (E' := tot_e e' (length (d :: rest))). change (FF e (c :: d :: rest)) with (ff c (e 0) * FF e' (d :: rest)). change (tot_e e (length (c :: d :: rest))) with (e 0 + E').
    rewrite (map_ext_in _ (fun k => (ff c (e 0) * ch (e 0) c k) * (FF e' (d :: rest) * ch E' s (n - k)))).
    2:{ intros k K. apply in_seq in K. rewrite ff_choose. rewrite IH by (try discriminate; fold s; lia). reflexivity. }
    destruct (Nat.le_gt_cases (e 0) c) as [A|A]; [destruct (Nat.le_gt_cases E' s) as [B|B]|].
    + rewrite <- (vander (e 0) E' c s n A B).
      assert (W : list_sum (map (fun k => (ff c (e 0) * ch (e 0) c k) * (FF e' (d :: rest) * ch E' s (n - k))) (seq (n - s) (S (Nat.min c n) - (n - s)))) = sumn (fun k => (ff c (e 0) * FF e' (d :: rest)) * (ch (e 0) c k * ch E' s (n - k))) n).
      { set (h := fun k => (ff c (e 0) * FF e' (d :: rest)) * (ch (e 0) c k * ch E' s (n - k))).
        rewrite (map_ext _ h) by (intros k; unfold h; lia).
        assert (Z1 : forall k, k < n - s -> h k = 0). { intros k K. unfold h. assert (ch E' s (n - k) = 0) as ->; [|lia]. unfold ch. destruct (Nat.ltb_spec (n - k) E'); auto. apply choose_gt. lia. }
        assert (Z2 : forall k, Nat.min c n < k -> k <= n -> h k = 0). { intros k K K'. unfold h. assert (ch (e 0) c k = 0) as ->; [|lia]. unfold ch. destruct (Nat.ltb_spec k (e 0)); auto. apply choose_gt. lia. }
        clearbody h. rewrite <- seq_sum. replace (S n) with ((n - s) + ((S (Nat.min c n) - (n - s)) + (n - Nat.min c n))) by lia. rewrite !seq_app, !map_app, !list_sum_app'. rewrite Nat.add_0_l.
        assert (L0 : forall l, (forall k, In k l -> h k = 0) -> list_sum (map h l) = 0) by (clear; induction l as [|k l IHl]; intros X; auto; simpl; rewrite (X k (or_introl eq_refl)), IHl; [reflexivity|]; intros; apply X; right; auto).
        rewrite (L0 (seq 0 (n - s))) by (intros k K; apply in_seq in K; apply Z1; lia). rewrite (L0 (seq (n - s + _) _)) by (intros k K; apply in_seq in K; apply Z2; lia). lia. }
      rewrite W, sumn_scal. reflexivity.
    + assert (FF e' (d :: rest) = 0) as Z by (apply FF_small; exact B). rewrite (map_ext _ (fun _ => 0)) by (intros; rewrite Z; lia).
      assert (forall l : list nat, list_sum (map (fun _ => 0) l) = 0) as -> by (induction l; auto). rewrite Z. lia.
    + rewrite (ff_lt c) by auto. assert (forall (g : nat -> nat) l, list_sum (map (fun k => 0 * ch (e 0) c k * g k) l) = 0) as X by (induction l; auto). rewrite (X (fun k => FF e' (d :: rest) * ch E' s (n - k))). lia.
Qed.

(** Particular moments. *)
Definition dl (i t : nat) : nat := if Nat.eqb t i then 1 else 0.
Lemma FF_ext k : forall e e', (forall t, e t = e' t) -> FF e k = FF e' k.
Proof. induction k as [|x k IH]; intros e e' H; auto. cbn [FF]. rewrite H. f_equal. apply IH. intros t. apply H. Qed.
Lemma FF_zero k : FF (fun _ => 0) k = 1.
Proof. induction k as [|x k IH]; auto. cbn [FF ff]. rewrite IH. reflexivity. Qed.
Lemma FF_dl k : forall i, i < length k -> FF (dl i) k = nth i k 0.
Proof.
  induction k as [|x k IH]; intros i H; simpl in H; [lia|]. cbn [FF]. destruct i as [|i].
  - change (dl 0 0) with 1. rewrite (FF_ext k _ (fun _ => 0)), FF_zero by reflexivity. simpl. lia.
  - change (dl (S i) 0) with 0. change (FF (fun t => dl (S i) (S t)) k) with (FF (dl i) k). rewrite IH by lia. simpl. lia.
Qed.
Lemma FF_dl2 k : forall i j, i < length k -> j < length k -> i <> j -> FF (fun t => dl i t + dl j t) k = nth i k 0 * nth j k 0.
Proof.
  induction k as [|x k IH]; intros i j Hi Hj N; simpl in Hi, Hj; [lia|]. cbn [FF]. destruct i as [|i], j as [|j]; [lia| | |].
  - change (dl 0 0 + dl (S j) 0) with 1. rewrite (FF_ext k _ (dl j)) by reflexivity. rewrite FF_dl by lia. simpl. lia.
  - change (dl (S i) 0 + dl 0 0) with 1. rewrite (FF_ext k _ (dl i)) by (intros t; change (dl i t + 0 = dl i t); lia). rewrite FF_dl by lia. simpl. lia.
  - change (dl (S i) 0 + dl (S j) 0) with 0. change (FF (fun t => dl (S i) (S t) + dl (S j) (S t)) k) with (FF (fun t => dl i t + dl j t) k). rewrite IH by lia. simpl. lia.
Qed.
Lemma FF_dls k : forall i, i < length k -> FF (fun t => 2 * dl i t) k = nth i k 0 * (nth i k 0 - 1).
Proof.
  induction k as [|x k IH]; intros i H; simpl in H; [lia|]. cbn [FF]. destruct i as [|i].
  - change (2 * dl 0 0) with 2. rewrite (FF_ext k _ (fun _ => 0)), FF_zero by reflexivity. simpl. lia.
  - change (2 * dl (S i) 0) with 0. change (FF (fun t => 2 * dl (S i) (S t)) k) with (FF (fun t => 2 * dl i t) k). rewrite IH by lia. simpl. lia.
Qed.
Lemma te_ext m : forall e e', (forall t, e t = e' t) -> tot_e e m = tot_e e' m.
Proof. induction m as [|m IH]; intros e e' H; auto. cbn [tot_e]. rewrite H. f_equal. apply IH. intros t. apply H. Qed.
Lemma te_zero m : tot_e (fun _ => 0) m = 0.
Proof. induction m; auto. Qed.
Lemma te_dl m : forall i, i < m -> tot_e (dl i) m = 1.
Proof.
  induction m as [|m IH]; intros i H; [lia|]. cbn [tot_e]. destruct i as [|i].
  - change (dl 0 0) with 1. rewrite (te_ext m _ (fun _ => 0)), te_zero by reflexivity. reflexivity.
  - change (dl (S i) 0) with 0. change (tot_e (fun t => dl (S i) (S t)) m) with (tot_e (dl i) m). rewrite IH by lia. reflexivity.
Qed.
Lemma te_plus m : forall e e', tot_e (fun t => e t + e' t) m = tot_e e m + tot_e e' m.
Proof. induction m as [|m IH]; intros e e'; auto. cbn [tot_e]. rewrite (IH (fun t => e (S t)) (fun t => e' (S t))). lia. Qed.
Lemma te_2 m e : tot_e (fun t => 2 * e t) m = 2 * tot_e e m.
Proof. rewrite (te_ext m _ (fun t => e t + e t)) by (intros; lia). rewrite te_plus. lia. Qed.

Local Open Scope R_scope.
Lemma F2_len {A B} (R : A -> B -> Prop) a b : Forall2 R a b -> length b = length a.
Proof. induction 1; simpl; auto. Qed.
Section P.
Variables (cs : list nat) (n : nat).
Hypotheses (NE : cs <> []) (N : (n <= list_sum cs)%nat).
Let s := list_sum cs.
Let D := INR (choose s n).
Lemma D_pos : 0 < D. Proof. apply choose_INR_pos. exact N. Qed.
Lemma logsum : forall cs k a, Forall2 (fun c x => (x <= c)%nat) cs k ->
  fold_left (fun lognumer '(color, k) => vadd lognumer (logbinomial vloggamma color k)) (combine (vZs (map Z.of_nat cs)) (vZs (map Z.of_nat k))) (Fin a) = Fin (a + ln (INR (pc cs k))).
Proof.
  intros cs' k a F. revert a. induction F as [|c x cs' k L F IH]; intros a; [simpl; rewrite ln_1, Rplus_0_r; auto|].
  cbn [map vZs combine fold_left]. change (map vZ (map Z.of_nat ?l)) with (vZs (map Z.of_nat l)). unfold vZ at 1 2. rewrite <- !INR_IZR_INZ, lb_choose by auto. cbn [vadd]. rewrite IH. f_equal. cbn [pc]. rewrite mult_INR, ln_mult; [ring|apply choose_INR_pos; auto|].
  clear IH. induction F as [|c' x' cs' k L' F IH]; [simpl; lra|]. cbn [pc]. rewrite mult_INR. apply Rmult_lt_0_compat; auto. apply choose_INR_pos; auto.
Qed.
Lemma pc_pos : forall cs k, Forall2 (fun c x => (x <= c)%nat) cs k -> 0 < INR (pc cs k).
Proof. intros cs' k F. induction F as [|c x cs' k L F IH]; [simpl; lra|]. cbn [pc]. rewrite mult_INR. apply Rmult_lt_0_compat; auto. apply choose_INR_pos; auto. Qed.
Lemma lg_at k : point cs n k -> logpmf (vZs (map Z.of_nat k)) (vZs (map Z.of_nat cs)) (vZ (Z.of_nat n)) = Fin (ln (INR (pc cs k) / D)).
Proof.
  intros [F E]. unfold logpmf. rewrite ok by auto. rewrite fsum_nat. unfold vZ. rewrite <- INR_IZR_INZ, lb_choose by auto. cbn [bindv]. rewrite logsum by auto. cbn [vsub vadd vneg]. f_equal. unfold Rdiv. rewrite ln_mult, ln_Rinv; [unfold D, s; ring|exact D_pos|apply pc_pos; auto|apply Rinv_0_lt_compat; exact D_pos].
Qed.
Lemma pmf_at k : point cs n k -> pmf (vZs (map Z.of_nat k)) (vZs (map Z.of_nat cs)) (vZ (Z.of_nat n)) = Fin (INR (pc cs k) / D).
Proof. intros F. unfold pmf. rewrite lg_at by auto. cbn [vexp]. rewrite exp_ln; auto. apply Rdiv_lt_0_compat; [apply pc_pos; apply F|exact D_pos]. Qed.
Let L := map (map Z.of_nat) (gen cs n).
Let pr (k : list Z) := pmf (vZs k) (vZs (map Z.of_nat cs)) (vZ (Z.of_nat n)).
Lemma sup_L : support (map Z.of_nat cs) (Z.of_nat n) = Ok L.
Proof. unfold support. rewrite ok by auto. apply gen_model; auto. Qed.
Lemma expect_nat (f : list Z -> R) : expectation pr L f = sum (map (fun k => INR (pc cs k) / D * f (map Z.of_nat k)) (gen cs n)).
Proof.
  unfold expectation, L. rewrite map_map. f_equal. apply map_ext_in. intros k K. unfold pr. rewrite pmf_at; [reflexivity|]. apply gen_in; auto.
Qed.
Lemma expect_FF e (f : list Z -> R) : (forall k, point cs n k -> f (map Z.of_nat k) = INR (FF e k)) -> expectation pr L f = INR (T cs n e) / D.
Proof.
  intros H. rewrite expect_nat. unfold T. assert (Q : forall k, In k (gen cs n) -> point cs n k) by (intros k K; apply gen_in; auto). pose proof D_pos. revert Q. induction (gen cs n) as [|k l IH]; intros Q; [unfold sum; simpl; field; lra|].
  cbn [map]. change (list_sum (?a :: ?b)) with (a + list_sum b)%nat. rewrite plus_INR. unfold sum in *. cbn [fold_right]. rewrite IH by (intros; apply Q; right; auto). rewrite H by (apply Q; left; auto). rewrite mult_INR. field. lra.
Qed.
Lemma pt_len k : point cs n k -> length k = length cs.
Proof. intros [F _]. apply F2_len in F. auto. Qed.
Lemma coord_nat i k : coord i (map Z.of_nat k) = INR (nth i k 0%nat).
Proof. unfold coord. change 0%Z with (Z.of_nat 0). rewrite map_nth, <- INR_IZR_INZ. reflexivity. Qed.
Lemma E_one : expectation pr L (fun _ => 1) = 1.
Proof.
  rewrite (expect_FF (fun _ => 0%nat)) by (intros; rewrite FF_zero; reflexivity). rewrite T_val by auto. rewrite FF_zero, te_zero. unfold ch. destruct (Nat.ltb_spec n 0); [lia|]. rewrite !Nat.sub_0_r. replace (1 * choose (list_sum cs) n)%nat with (choose s n) by (unfold s; lia). fold D. pose proof D_pos. field. lra.
Qed.
Lemma ch1 : (0 < s)%nat -> INR s * INR (ch 1 s n) = INR n * D.
Proof.
  intros SP. unfold ch, D. destruct n as [|m]; [simpl; ring|]. destruct s as [|t] eqn:Es; [lia|]. destruct (Nat.ltb_spec (S m) 1); [lia|]. replace (S t - 1)%nat with t by lia. replace (S m - 1)%nat with m by lia. rewrite <- !mult_INR. f_equal. symmetry. apply choose_absorb.
Qed.
Lemma ch2 : (1 < s)%nat -> INR s * (INR s - 1) * INR (ch 2 s n) = INR n * (INR n - 1) * D.
Proof.
  intros SP. unfold ch, D. destruct n as [|[|m]]; [simpl; ring|simpl; ring|]. destruct s as [|[|t]] eqn:Es; [lia|lia|]. destruct (Nat.ltb_spec (S (S m)) 2); [lia|]. replace (S (S t) - 2)%nat with t by lia. replace (S (S m) - 2)%nat with m by lia.
  pose proof (choose_absorb (S t) (S m)) as A. pose proof (choose_absorb t m) as B. apply (f_equal INR) in A, B. rewrite !mult_INR in A, B. rewrite (S_INR (S t)), (S_INR (S m)) in A. rewrite (S_INR (S t)), (S_INR (S m)).
  set (a := INR (S t)) in *. set (b := INR (S m)) in *. set (D' := INR (choose (S (S t)) (S (S m)))) in *. transitivity ((a + 1) * (a * INR (choose t m))); [ring|]. rewrite <- B.
  transitivity (b * ((a + 1) * INR (choose (S t) (S m)))); [ring|]. rewrite <- A. ring.
Qed.
Lemma E_coord i : (i < length cs)%nat -> (0 < s)%nat -> expectation pr L (coord i) = INR n * INR (nth i cs 0%nat) / INR s.
Proof.
  intros I SP. rewrite (expect_FF (dl i)) by (intros k K; rewrite FF_dl by (rewrite pt_len; auto); apply coord_nat). rewrite T_val by auto. rewrite FF_dl, te_dl by auto. fold s. rewrite mult_INR. pose proof (ch1 SP) as Q. pose proof D_pos. assert (0 < INR s) by (apply lt_0_INR; auto).
  apply (Rmult_eq_reg_l (INR s)); [|lra]. unfold Rdiv. rewrite !(Rmult_comm (INR (nth i cs 0%nat))), <- !Rmult_assoc. rewrite Q. field. lra.
Qed.
Lemma E_two i j : (i < length cs)%nat -> (j < length cs)%nat -> i <> j -> (1 < s)%nat ->
  expectation pr L (fun k => coord i k * coord j k) = INR n * (INR n - 1) * INR (nth i cs 0%nat) * INR (nth j cs 0%nat) / (INR s * (INR s - 1)).
Proof.
  intros I J NE' SP. rewrite (expect_FF (fun t => dl i t + dl j t)%nat) by (intros k K; rewrite FF_dl2 by (auto; rewrite pt_len; auto); rewrite !coord_nat, mult_INR; auto). rewrite T_val by auto. rewrite FF_dl2, te_plus, !te_dl by auto. fold s.
  rewrite !mult_INR. pose proof (ch2 SP) as Q. pose proof D_pos. assert (1 < INR s) by (change 1 with (INR 1); apply lt_INR; auto). simpl (1 + 1)%nat.
  apply (Rmult_eq_reg_l (INR s * (INR s - 1))); [|apply Rmult_integral_contrapositive; lra].
  transitivity ((INR s * (INR s - 1) * INR (ch 2 s n)) * (INR (nth i cs 0%nat) * INR (nth j cs 0%nat)) / D); [unfold Rdiv; ring|]. rewrite Q. field. lra.
Qed.
Lemma sum_plus_map {A} (f g : A -> R) l : sum (map (fun x => f x + g x) l) = sum (map f l) + sum (map g l).
Proof. induction l as [|x l IH]; unfold sum in *; simpl; [ring|]. rewrite IH. ring. Qed.
Lemma E_plus f g : expectation pr L (fun k => f k + g k) = expectation pr L f + expectation pr L g.
Proof. unfold expectation. rewrite <- sum_plus_map. f_equal. apply map_ext. intros k. ring. Qed.
Lemma E_ext f g : (forall k, point cs n k -> f (map Z.of_nat k) = g (map Z.of_nat k)) -> expectation pr L f = expectation pr L g.
Proof. intros H. rewrite !expect_nat. f_equal. apply map_ext_in. intros k K. rewrite H; auto. apply gen_in; auto. Qed.
Lemma E_sq i : (i < length cs)%nat -> (1 < s)%nat ->
  expectation pr L (fun k => coord i k * coord i k) = INR n * (INR n - 1) * INR (nth i cs 0%nat) * (INR (nth i cs 0%nat) - 1) / (INR s * (INR s - 1)) + INR n * INR (nth i cs 0%nat) / INR s.
Proof.
  intros I SP. rewrite <- E_coord by (auto; lia). rewrite (E_ext _ (fun k => coord i k * (coord i k - 1) + coord i k)) by (intros; ring). rewrite E_plus. f_equal.
  assert (FN : forall x : nat, INR (x * (x - 1)) = INR x * (INR x - 1)). { intros [|x]; [simpl; ring|]. rewrite mult_INR. replace (S x - 1)%nat with x by lia. rewrite (S_INR x). ring. }
  rewrite (expect_FF (fun t => 2 * dl i t)%nat) by (intros k K; rewrite FF_dls by (rewrite pt_len; auto); rewrite !coord_nat, FN; auto). rewrite T_val by auto. rewrite FF_dls, te_2, te_dl by auto. fold s.
  rewrite mult_INR, FN. pose proof (ch2 SP) as Q. pose proof D_pos. assert (1 < INR s) by (change 1 with (INR 1); apply lt_INR; auto). simpl (2 * 1)%nat.
  apply (Rmult_eq_reg_l (INR s * (INR s - 1))); [|apply Rmult_integral_contrapositive; lra].
  transitivity ((INR s * (INR s - 1) * INR (ch 2 s n)) * (INR (nth i cs 0%nat) * (INR (nth i cs 0%nat) - 1)) / D); [unfold Rdiv; ring|]. rewrite Q. field. lra.
Qed.
End P.
Lemma ceq_nat n m : ceq (vZ (Z.of_nat n)) (Fin (INR m)) = CB (Reqb (INR n) (INR m)).
Proof. unfold vZ. rewrite <- INR_IZR_INZ. reflexivity. Qed.
Lemma vvec_map {A} (f : A -> R) l : vvec (map f l) = map (fun x => Fin (f x)) l.
Proof. unfold vvec. apply map_map. Qed.
Lemma vlist_fin l : vlist (vvec l) = Ok (vvec l).
Proof. induction l as [|x l IH]; auto. unfold vvec in *. cbn [map vlist bindv]. rewrite IH. reflexivity. Qed.
Lemma vZs_map cs : vZs (map Z.of_nat cs) = vvec (map INR cs).
Proof. unfold vZs, vvec. rewrite !map_map. apply map_ext. intros x. unfold vZ. rewrite <- INR_IZR_INZ. reflexivity. Qed.
Lemma sum_INR l : sum (map INR l) = INR (list_sum l).
Proof. induction l as [|x l IH]; auto. change (list_sum (x :: l)) with (x + list_sum l)%nat. rewrite plus_INR, <- IH. reflexivity. Qed.
Lemma sum_scal {A} c (f : A -> R) l : sum (map (fun x => c * f x) l) = c * sum (map f l).
Proof. induction l as [|x l IH]; unfold sum in *; simpl; [ring|]. rewrite IH. ring. Qed.
Lemma sum_seq_nth (f : nat -> R) m : sum (map f (seq 0 m)) = nsum f m.
Proof. apply sum_seq. Qed.
Lemma nth_seq_map {A} (f : nat -> A) m i d : (i < m)%nat -> nth i (map f (seq 0 m)) d = f i.
Proof. intros H. rewrite (nth_indep _ d (f 0%nat)) by (rewrite map_length, seq_length; auto). rewrite map_nth, seq_nth by auto. reflexivity. Qed.
Lemma full_point cs : forall k, point cs (list_sum cs) k -> k = cs.
Proof.
  intros k [F E]. induction F as [|c x cs k L F IH]; auto. change (list_sum (x :: k)) with (x + list_sum k)%nat in E. change (list_sum (c :: cs)) with (c + list_sum cs)%nat in E. pose proof (F2_sum _ _ F). f_equal; [lia|apply IH; lia].
Qed.
Lemma nsum_one (m i : nat) (a : R) : (i < m)%nat -> nsum (fun j => if Nat.eqb i j then a else 0) m = a.
Proof.
  induction m as [|m IH]; intros H; [lia|]. cbn [nsum]. destruct (Nat.eqb_spec i m).
  - subst. rewrite nsum_0; [ring|]. intros j J. destruct (Nat.eqb_spec m j); [lia|auto].
  - rewrite IH by lia. ring.
Qed.
Section P.
Variables (cs : list nat) (n : nat).
Hypotheses (NE : cs <> []) (N : (n <= list_sum cs)%nat).
Let s := list_sum cs.
Lemma mass_ok : exists L, support (map Z.of_nat cs) (Z.of_nat n) = Ok L /\
  (forall k, In k L -> exists p, pmf (vZs k) (vZs (map Z.of_nat cs)) (vZ (Z.of_nat n)) = Fin p /\ 0 < p /\ logpmf (vZs k) (vZs (map Z.of_nat cs)) (vZ (Z.of_nat n)) = Fin (ln p)) /\
  expectation (fun k => pmf (vZs k) (vZs (map Z.of_nat cs)) (vZ (Z.of_nat n))) L (fun _ => 1) = 1.
Proof.
  eexists. split; [apply sup_L; auto|]. split; [|apply E_one; auto]. intros k K. apply in_map_iff in K. destruct K as [k' [<- K]]. apply gen_in in K; auto. eexists. split; [apply pmf_at; auto|]. split; [|apply lg_at; auto].
  apply Rdiv_lt_0_compat; [apply pc_pos; apply K|apply D_pos; auto].
Qed.
Lemma E_full f : n = s -> expectation (fun k => pmf (vZs k) (vZs (map Z.of_nat cs)) (vZ (Z.of_nat n))) (map (map Z.of_nat) (gen cs n)) f = f (map Z.of_nat cs).
Proof.
  intros E. rewrite (E_ext cs n NE N f (fun _ => f (map Z.of_nat cs))) by (intros k K; rewrite E in K; apply full_point in K; rewrite K; auto).
  transitivity (f (map Z.of_nat cs) * expectation (fun k => pmf (vZs k) (vZs (map Z.of_nat cs)) (vZ (Z.of_nat n))) (map (map Z.of_nat) (gen cs n)) (fun _ => 1)).
  - unfold expectation. rewrite <- sum_scal. f_equal. apply map_ext. intros k. ring.
  - rewrite E_one by auto. ring.
Qed.
Lemma mean_ok : exists L m, support (map Z.of_nat cs) (Z.of_nat n) = Ok L /\ mean (vZs (map Z.of_nat cs)) (vZ (Z.of_nat n)) = Ok (vvec m) /\ length m = length cs /\
  (forall i, (i < length cs)%nat -> nth i m 0 = expectation (fun k => pmf (vZs k) (vZs (map Z.of_nat cs)) (vZ (Z.of_nat n))) L (coord i)) /\
  sum m = INR n.
Proof.
  unfold mean. rewrite ok by auto. rewrite fsum_nat. fold s. rewrite ceq_nat. destruct (Reqb_spec (INR n) (INR s)) as [[Q ->]|[Q ->]]; cbn [cif].
  - apply INR_eq in Q. eexists. exists (map INR cs). split; [apply sup_L; auto|]. split.
    + rewrite vZs_map. unfold vvec at 1. rewrite map_map. rewrite (map_ext _ (fun x => Fin x)) by (intros; cbn [vmul]; f_equal; ring). apply vlist_fin.
    + rewrite map_length. split; auto. split.
      * intros i I. rewrite E_full by auto. rewrite coord_nat. change 0 with (INR 0). apply map_nth.
      * rewrite sum_INR. fold s. rewrite Q. auto.
  - assert (SP : (0 < s)%nat). { destruct (Nat.eq_0_gt_0_cases s) as [Z|Z]; auto. unfold s in Z. assert (n = 0)%nat by lia. exfalso. apply Q. unfold s. rewrite Z, H. auto. }
    assert (0 < INR s) by (apply lt_0_INR; auto). eexists. exists (map (fun c => INR n * (INR c / INR s)) cs). split; [apply sup_L; auto|]. split.
    + rewrite vZs_map. unfold vvec at 1. rewrite map_map. rewrite map_map. unfold vZ. rewrite (map_ext _ (fun c => Fin (INR n * (INR c / INR s)))) by (intros; rewrite vdiv_Fin by lra; cbn [vmul]; rewrite <- INR_IZR_INZ; reflexivity).
      rewrite <- (map_map (fun c => INR n * (INR c / INR s)) Fin). apply vlist_fin.
    + rewrite map_length. split; auto. split.
      * intros i I. rewrite E_coord by auto. fold s. rewrite (nth_indep _ 0 (INR n * (INR 0 / INR s))) by (rewrite map_length; auto). rewrite (map_nth (fun c => INR n * (INR c / INR s))). unfold Rdiv. ring.
      * rewrite (map_ext _ (fun c => (INR n / INR s) * INR c)) by (intros; field; lra). rewrite sum_scal, sum_INR. fold s. field. lra.
Qed.
Lemma cov_ok : n = list_sum cs \/ (2 <= list_sum cs)%nat ->
  exists L c, support (map Z.of_nat cs) (Z.of_nat n) = Ok L /\ cov (vZs (map Z.of_nat cs)) (vZ (Z.of_nat n)) = Ok (vmat c) /\ square c (length cs) /\
  (forall i j, (i < length cs)%nat -> (j < length cs)%nat ->
     let E := expectation (fun k => pmf (vZs k) (vZs (map Z.of_nat cs)) (vZ (Z.of_nat n))) L in
     entry c i j = E (fun k => coord i k * coord j k) - E (coord i) * E (coord j) /\ entry c i j = entry c j i) /\
  (forall r, In r c -> sum r = 0).
Proof.
  set (pr := fun k : list Z => pmf (vZs k) (vZs (map Z.of_nat cs)) (vZ (Z.of_nat n))). intros H. unfold cov. rewrite ok by auto. rewrite fsum_nat. fold s. rewrite ceq_nat. fold s in H. set (m := length cs).
  assert (LM : length (vZs (map Z.of_nat cs)) = m) by (unfold vZs; rewrite !map_length; auto). rewrite LM.
  destruct (Reqb_spec (INR n) (INR s)) as [[Q ->]|[Q ->]]; cbn [cif].
  - apply INR_eq in Q. eexists. exists (repeat (repeat 0 m) m). split; [apply sup_L; auto|]. split; [|split; [|split]].
    + unfold vmat, vvec. rewrite map_repeat, map_repeat. reflexivity.
    + split; [apply repeat_length|]. intros r R. apply repeat_spec in R. subst r. apply repeat_length.
    + intros i j I J. assert (Z : forall a b, (a < m)%nat -> (b < m)%nat -> entry (repeat (repeat 0 m) m) a b = 0).
      { intros a b A B. unfold entry. destruct (nth_in_or_default a (repeat (repeat 0 m) m) []) as [R|R]; [apply repeat_spec in R; rewrite R; apply nth_repeat|rewrite R; destruct b; auto]. }
      rewrite !Z by auto. split; auto. unfold pr. rewrite !E_full by auto. ring.
    + intros r R. apply repeat_spec in R. subst r. clear. induction m as [|m IH]; unfold sum in *; simpl; [auto|]. rewrite IH. ring.
  - destruct H as [H|H]; [exfalso; apply Q; rewrite H; auto|]. apply le_INR in H as H'. simpl in H'. set (S := INR s) in *. set (u i := INR (nth i cs 0%nat) / S).
    rewrite vZs_map. unfold vvec at 1. rewrite !map_map. rewrite (map_ext _ (fun c => Fin (INR c / S))) by (intros; rewrite vdiv_Fin by lra; reflexivity).
    rewrite <- (map_map (fun c => INR c / S) Fin), vlist_fin. cbn [bind]. unfold vZ. rewrite <- INR_IZR_INZ. cbn [vsub vadd vneg vmul]. rewrite vdiv_Fin by lra. cbn [bindv]. set (f := INR n * (S + - INR n) / (S + - (1))).
    assert (UN : forall i, (i < m)%nat -> nth i (vvec (map (fun c => INR c / S) cs)) NaN = Fin (u i)).
    { intros i I. unfold vvec. rewrite map_map. rewrite (nth_indep _ NaN (Fin (INR 0 / S))) by (rewrite map_length; auto). rewrite (map_nth (fun c => Fin (INR c / S))). reflexivity. }
    set (g i j := if Nat.eqb i j then f * u i * (1 - u i) else - f * u i * u j).
    eexists. exists (map (fun i => map (g i) (seq 0 m)) (seq 0 m)). split; [apply sup_L; auto|]. split; [|split; [|split]].
    + f_equal. unfold vmat. rewrite (map_map (fun i => map (g i) (seq 0 m)) vvec). apply map_ext_in. intros i I. apply in_seq in I. rewrite (vvec_map (g i)). apply map_ext_in. intros j J. apply in_seq in J. rewrite !UN by lia. unfold g. destruct (Nat.eqb i j); cbn [vsub vadd vneg vmul]; reflexivity.
    + split; [rewrite map_length, seq_length; auto|]. intros r R. apply in_map_iff in R. destruct R as [i [<- _]]. rewrite map_length, seq_length. auto.
    + intros i j I J.
      assert (G : forall a b, (a < m)%nat -> (b < m)%nat -> entry (map (fun i => map (g i) (seq 0 m)) (seq 0 m)) a b = g a b) by (intros a b A B; unfold entry; rewrite !nth_seq_map by auto; reflexivity).
      rewrite !G by auto. split; [|unfold g; rewrite (Nat.eqb_sym j i); destruct (Nat.eqb_spec i j); [subst; auto|ring]].
      unfold pr. rewrite !E_coord by (auto; fold s; lia). fold s S. unfold g. destruct (Nat.eqb_spec i j) as [->|NJ].
      * rewrite E_sq by (auto; fold s; lia). fold s S. unfold f, u. field. lra.
      * rewrite E_two by (auto; fold s; lia). fold s S. unfold f, u. field. lra.
    + intros r R. apply in_map_iff in R. destruct R as [i [<- I]]. apply in_seq in I. rewrite sum_seq.
      rewrite (nsum_ext _ (fun j => (if Nat.eqb i j then f * u i else 0) + (- f * u i) * u j)) by (intros j J; unfold g; destruct (Nat.eqb_spec i j); [subst; ring|ring]).
      rewrite nsum_plus, nsum_scal, nsum_one by lia. assert (US : nsum u m = 1).
      { rewrite <- sum_seq. unfold u. rewrite (map_ext _ (fun i => / S * INR (nth i cs 0%nat))) by (intros; unfold Rdiv; ring). rewrite sum_scal.
        assert (map (fun i => INR (nth i cs 0%nat)) (seq 0 m) = map INR cs) as ->. { rewrite <- (map_map (fun i => nth i cs 0%nat) INR). f_equal. unfold m. clear. induction cs as [|c l IH]; auto. cbn [length seq map nth]. f_equal. rewrite <- seq_shift, map_map. exact IH. }
        rewrite sum_INR. fold s S. field. lra. }
      rewrite US. ring.
Qed.
Lemma entropy_ok : exists L, support (map Z.of_nat cs) (Z.of_nat n) = Ok L /\
  entropy (map Z.of_nat cs) (Z.of_nat n) = Fin (- sum (map (fun k => let p := toR (pmf (vZs k) (vZs (map Z.of_nat cs)) (vZ (Z.of_nat n))) in p * ln p) L)).
Proof.
  eexists. split; [apply sup_L; auto|]. unfold entropy. rewrite ok by auto. rewrite gen_model by auto. cbn [bindr].
  rewrite (vfsum_map _ (fun k => let p := toR (pmf (vZs k) (vZs (map Z.of_nat cs)) (vZ (Z.of_nat n))) in p * ln p)); [reflexivity|].
  intros k K. apply in_map_iff in K. destruct K as [k' [<- K]]. apply gen_in in K; auto. rewrite lg_at, pmf_at by auto. cbn [vexp vmul toR]. rewrite exp_ln; auto. apply Rdiv_lt_0_compat; [apply pc_pos; apply K|apply D_pos; auto].
Qed.
End P.
(** Rejection. *)
Lemma bad_params (cs : list R) (n : R) : (exists c, In c cs /\ c < 0) \/ sum cs < n ->
  (forall x, pmf x (vvec cs) (Fin n) = Exc ValueError /\ logpmf x (vvec cs) (Fin n) = Exc ValueError) /\ mean (vvec cs) (Fin n) = Err ValueError /\ cov (vvec cs) (Fin n) = Err ValueError.
Proof.
  intros H. assert (FS : vfsum (vvec cs) = Fin (sum cs)) by (unfold vvec; rewrite (vfsum_map _ (fun x => x)) by auto; rewrite map_id; auto).
  assert (B : forall A (X : CanRaise A) (k : A), validate (vvec cs) (Fin n) k = raise ValueError).
  { intros A X k. unfold validate. rewrite FS. destruct (cany (fun color => clt color (Fin 0)) (vvec cs)) as [[]|e] eqn:E.
    - reflexivity.
    - destruct H as [[c [I C]]|H]; [|unfold cgt, cmp, ltb; rewrite Rltb_true by lra; reflexivity].
      exfalso. clear - E I C. induction cs as [|x l IH]; [destruct I|]. unfold vvec in *. cbn [map cany] in E. unfold clt at 1, cmp, ltb in E. destruct I as [->|I].
      + rewrite Rltb_true in E by lra. discriminate.
      + destruct (Rltb_spec x 0) as [[? Q]|[? Q]]; rewrite Q in E; [discriminate|]. auto.
    - exfalso. clear - E. induction cs as [|x l IH]; [discriminate|]. unfold vvec in *. cbn [map cany] in E. unfold clt at 1, cmp, ltb in E. destruct (Rltb_spec x 0) as [[? Q]|[? Q]]; rewrite Q in E; [discriminate|auto]. }
  split; [intros x; split; [unfold pmf|]; unfold logpmf; rewrite B; reflexivity|]. split; [unfold mean|unfold cov]; rewrite B; reflexivity.
Qed.
(** What the code gets wrong. *)
Lemma cov_div (cs : list nat) : list_sum cs = 1%nat -> cov (vZs (map Z.of_nat cs)) (Fin 0) = Err ZeroDivisionError.
Proof.
  intros H. unfold cov. change (Fin 0) with (vZ (Z.of_nat 0)) at 1. rewrite ok by lia. rewrite fsum_nat, H. unfold ceq, cmp, eqb. simpl INR. rewrite Reqb_false by lra. cbn [cif].
  rewrite vZs_map. unfold vvec at 1. rewrite !map_map. rewrite (map_ext _ (fun c => Fin (INR c / 1))) by (intros; rewrite vdiv_Fin by lra; reflexivity).
  rewrite <- (map_map (fun c => INR c / 1) Fin), vlist_fin. cbn [bind vsub vadd vneg vmul]. unfold vdiv. rewrite Reqb_true by ring. reflexivity.
Qed.
Lemma support_negative (c : nat) (z : Z) : (z < 0)%Z -> support [Z.of_nat c] z = Ok [[z]].
Proof.
  intros H. unfold support, validate. pose proof (any_nat [c]) as A. simpl map in A. rewrite A. cbn [cif vZs map vfsum]. unfold vZ, cgt, cmp. cbn [vadd]. unfold ltb. rewrite Rltb_false; [reflexivity|]. apply IZR_lt in H. rewrite <- INR_IZR_INZ. pose proof (pos_INR c). lra.
Qed.
Lemma support_empty : support [] 0 = Err IndexError.
Proof. unfold support, validate. cbn [vZs map cany cif vfsum]. unfold vZ, cgt, cmp, ltb. rewrite Rltb_false by lra. reflexivity. Qed.
Lemma pmf_outside : ~ outcome [2; 2]%nat 1 [1; 1]%Z /\ pmf [Fin 1; Fin 1] [Fin 2; Fin 2] (Fin 1) = Fin 1.
Proof.
  split; [intros [_ E]; discriminate|]. assert (C : [Fin 2; Fin 2] = vZs (map Z.of_nat [2; 2]%nat)) by reflexivity. assert (P : [Fin 1; Fin 1] = vZs (map Z.of_nat [1; 1]%nat)) by reflexivity.
  unfold pmf, logpmf. rewrite C, P. change (Fin 1) with (vZ (Z.of_nat 1)). rewrite ok by (simpl; lia). rewrite fsum_nat. unfold vZ. rewrite <- INR_IZR_INZ, lb_choose by (simpl; lia). cbn [bindv]. fold vZ. rewrite logsum by (repeat constructor).
  cbn [vsub vadd vneg vexp]. simpl choose. simpl pc. f_equal. replace (0 + ln (INR 4) + - ln (INR 4)) with 0 by ring. apply exp_0.
Qed.
