From Coq Require Import Reals Lra Lia List ZArith Arith Bool.
From Coquelicot Require Import Coquelicot.
From Verif Require Import Values VTac Spec SpecStat SpecDisc LLib XLib PLib SFun GammaLib GammaLib3 M_common M_sfun M_disc M_fun SpecInt BinLib DiscLib IncLib DiscLib2 HgLib P_logb M_negative_hypergeometric.
From Verif Require P_hypergeometric.
Import ListNotations.
Local Open Scope R_scope.
Set Bullet Behavior "Strict Subproofs".

Definition nh (N K r i : nat) : R := INR (choose (i + r - 1) i) * (INR (choose (N - r - i) (K - i)) / INR (choose N K)).
Lemma choose_fact_R n k : (k <= n)%nat -> INR (choose n k) = INR (fact n) / (INR (fact k) * INR (fact (n - k))).
Proof.
  intros H. pose proof (choose_fact n k H) as F. apply (f_equal INR) in F. rewrite !mult_INR in F. pose proof (INR_fact_lt_0 k). pose proof (INR_fact_lt_0 (n - k)). rewrite <- F. field. lra.
Qed.
Lemma fact_S_R n : INR (fact (S n)) = (INR n + 1) * INR (fact n).
Proof. change (fact (S n)) with (S n * fact n)%nat. rewrite mult_INR, S_INR. reflexivity. Qed.
Lemma nh_nonneg N K r i : (K <= N)%nat -> 0 <= nh N K r i.
Proof. intros H. unfold nh. pose proof (choose_INR_pos _ _ H). apply Rmult_le_pos; [apply pos_INR|]. apply Rdiv_le_0_compat; auto. apply pos_INR. Qed.
Lemma nh_pos N K r i : (K + r <= N)%nat -> (1 <= r)%nat -> (i <= K)%nat -> 0 < nh N K r i.
Proof. intros H R I. unfold nh. apply Rmult_lt_0_compat; [|apply Rdiv_lt_0_compat]; apply choose_INR_pos; lia. Qed.
Lemma nh_r0 N K i : (K <= N)%nat -> nh N K 0 i = if Nat.eqb i 0 then 1 else 0.
Proof.
  intros H. unfold nh. pose proof (choose_INR_pos _ _ H). destruct i as [|i].
  - rewrite !Nat.sub_0_r. simpl. field. lra.
  - rewrite choose_gt by lia. simpl. ring.
Qed.
Lemma nh_K0 N r : nh N 0 r 0 = 1.
Proof. unfold nh. rewrite !choose_0. simpl. field. Qed.
Lemma nh_ratio N K r i : (K + r <= N)%nat -> (i < K)%nat -> (1 <= r)%nat ->
  (INR i + 1) * (INR N - INR r - INR i) * nh N K r (S i) = (INR i + INR r) * (INR K - INR i) * nh N K r i.
Proof.
  intros H I R. unfold nh. pose proof (choose_INR_pos N K ltac:(lia)). pose proof (choose_absorb (i + r - 1) i) as A. pose proof (choose_absorb (N - r - S i) (K - S i)) as C.
  apply (f_equal INR) in A, C. rewrite !mult_INR in A, C. replace (S (i + r - 1)) with (i + r)%nat in A by lia. replace (S (N - r - S i)) with (N - r - i)%nat in C by lia. replace (S (K - S i)) with (K - i)%nat in C by lia.
  replace (S i + r - 1)%nat with (i + r)%nat by lia. rewrite S_INR, plus_INR in A. rewrite !minus_INR in C by lia.
  transitivity ((INR i + 1) * INR (choose (i + r) (S i)) * ((INR N - INR r - INR i) * INR (choose (N - r - S i) (K - S i))) / INR (choose N K)); [unfold Rdiv; ring|].
  rewrite A, <- C. unfold Rdiv. ring.
Qed.
Lemma nh_hg N K r k : (K + r <= N)%nat -> (1 <= r)%nat -> (k <= K)%nat ->
  nh N K r k = hg (N - K) K (k + r - 1) (r - 1) * (INR (N - K) - INR (r - 1)) / (INR (N - K + K) - INR (k + r - 1)).
Proof.
  intros H R I. unfold nh, hg. rewrite <- !minus_INR by lia. replace (N - K + K)%nat with N by lia. replace (k + r - 1 - (r - 1))%nat with k by lia.
  rewrite !choose_fact_R by lia. replace (k + r - 1 - k)%nat with (r - 1)%nat by lia. replace (N - r - k - (K - k))%nat with (N - K - r)%nat by lia.
  replace (N - K - (r - 1))%nat with (S (N - K - r)) by lia. replace (N - (k + r - 1))%nat with (S (N - r - k)) by lia. rewrite !fact_S_R, !S_INR.
  pose proof (INR_fact_lt_0 k). pose proof (INR_fact_lt_0 (r - 1)). pose proof (INR_fact_lt_0 (K - k)). pose proof (INR_fact_lt_0 (N - K - r)). pose proof (INR_fact_lt_0 N). pose proof (INR_fact_lt_0 K). pose proof (INR_fact_lt_0 (N - K)).
  pose proof (INR_fact_lt_0 (N - r - k)). pose proof (INR_fact_lt_0 (k + r - 1)). pose proof (pos_INR (N - K - r)). pose proof (pos_INR (N - r - k)).
  field. repeat split; lra.
Qed.
Lemma psum N K r k : (K + r <= N)%nat -> (1 <= r)%nat -> (k <= K)%nat -> nsum (nh N K r) (S k) = tail (N - K) K (k + r) r.
Proof.
  intros H R. induction k as [|k IH]; intros I.
  - simpl nsum. rewrite Rplus_0_l. unfold tail. replace (S (0 + r) - r)%nat with 1%nat by lia. simpl nsum. rewrite Rplus_0_l, Nat.add_0_r.
    rewrite <- (hg_sym (N - K) r K (N - r) r) by lia. rewrite choose_diag. unfold nh. rewrite choose_0. replace (N - K + K)%nat with N by lia. rewrite (choose_sym N K) by lia.
    replace (N - K - r)%nat with (N - r - K)%nat by lia. rewrite (choose_sym (N - r) K) by lia. rewrite !Nat.sub_0_r. simpl (INR 1). unfold Rdiv. ring.
  - change (nsum (nh N K r) (S (S k))) with (nsum (nh N K r) (S k) + nh N K r (S k)). rewrite IH by lia. rewrite nh_hg by lia.
    replace (S k + r)%nat with (S (k + r)) by lia. destruct r as [|r]; [lia|]. rewrite tail_step by lia. replace (S (k + S r) - 1)%nat with (k + S r)%nat by lia. replace (S r - 1)%nat with r by lia. reflexivity.
Qed.
Lemma mass1 N K r : (K + r <= N)%nat -> (1 <= r)%nat -> nsum (nh N K r) (S K) = 1.
Proof.
  intros H R. rewrite psum by lia. assert (E := tail_split (N - K) K (K + r) r ltac:(lia) ltac:(lia)).
  rewrite nsum_0 in E; [lra|]. intros i I. unfold hg. rewrite (choose_gt K) by lia. simpl. unfold Rdiv. ring.
Qed.
Lemma nh_sb N K r i : (S K + r <= N)%nat -> (i <= K)%nat -> INR (S i) * nh N (S K) r (S i) = (INR r * INR (S K) / INR (N - K)) * nh N K (S r) i.
Proof.
  intros H I. unfold nh. pose proof (choose_INR_pos N (S K) ltac:(lia)). pose proof (choose_INR_pos N K ltac:(lia)).
  replace (S K - S i)%nat with (K - i)%nat by lia. replace (N - S r - i)%nat with (N - r - S i)%nat by lia. replace (S i + r - 1)%nat with (i + r)%nat by lia. replace (i + S r - 1)%nat with (i + r)%nat by lia.
  pose proof (choose_ratio_R (i + r) i) as A. rewrite plus_INR in A. pose proof (choose_ratio_R N K) as C. rewrite <- minus_INR in C by lia. assert (0 < INR (N - K)) by (apply lt_0_INR; lia). assert (0 < INR (S K)) by (apply lt_0_INR; lia).
  transitivity ((INR (S i) * INR (choose (i + r) (S i))) * (INR (choose (N - r - S i) (K - i)) / INR (choose N (S K)))); [ring|]. rewrite A.
  replace (INR (choose N (S K))) with (INR (N - K) * INR (choose N K) / INR (S K)) by (rewrite <- C; field; lra). field. lra.
Qed.
Lemma mean1 N K r : (K + r <= N)%nat -> (1 <= r)%nat -> nsum (fun i => INR i * nh N K r i) (S K) = INR r * INR K / (INR (N - K) + 1).
Proof.
  intros H R. destruct K as [|K]; [simpl; unfold Rdiv; ring|].
  pose proof (tot_shift (Some (S K)) (nh N (S K) r) (nh N K (S r)) (INR r * INR (S K) / INR (N - K)) 1) as T. rewrite Rmult_1_r in T.
  replace (INR (N - S K) + 1) with (INR (N - K)) by (rewrite <- S_INR; f_equal; lia). apply T.
  - intros i I. simpl in I. apply nh_sb; lia.
  - apply mass1; lia.
Qed.
Section P.
Variables (N K r : nat).
Hypothesis (H : (K + r <= N)%nat).
Lemma ok {A} `{CanRaise A} (k : A) : validate (Fin (INR N)) (Fin (INR K)) (Fin (INR r)) k = k.
Proof.
  unfold validate. rewrite !lt0_INR. cbn [cor]. change (cgt (Fin (INR K)) (Fin (INR N))) with (CB (Rltb (INR N) (INR K))). rewrite !Rltb_false by (apply le_INR; lia). rewrite sub_INR by lia. rewrite lt_INR_false by lia. reflexivity.
Qed.
Definition top : nat := if Nat.eqb r 0 then 0%nat else K.
Definition rng : isupport := Range 0 (if Nat.eqb r 0 then 1 else Z.of_nat K + 1).
Lemma rng0 : rng = sup0 (Some (S top)).
Proof. unfold rng, top. simpl. destruct (Nat.eqb r 0); f_equal; lia. Qed.
Lemma support_ok : support (Fin (INR N)) (Fin (INR K)) (Fin (INR r)) = Ok rng.
Proof.
  unfold support, rng. rewrite ok. unfold vrange. change (ceq (Fin (INR r)) (Fin 0)) with (CB (Reqb (INR r) 0)). destruct (Nat.eqb_spec r 0) as [E|E].
  - rewrite Reqb_true by (rewrite E; reflexivity). cbn [cif]. rewrite !is_intb_IZR, !Int_part_IZR. reflexivity.
  - rewrite Reqb_false by (apply not_0_INR; auto). cbn [cif vadd]. rewrite <- S_INR. rewrite is_intb_INR, Int_part_INR, is_intb_IZR, Int_part_IZR. do 2 f_equal. lia.
Qed.
Lemma pmf_nat i : (i <= K)%nat -> pmf (Fin (INR i)) (Fin (INR N)) (Fin (INR K)) (Fin (INR r)) = Fin (nh N K r i).
Proof.
  intros I. unfold pmf. rewrite ok, lt0_INR. change (cgt (Fin (INR i)) (Fin (INR K))) with (CB (Rltb (INR K) (INR i))). rewrite Rltb_false by (apply le_INR; auto). cbn [cor cif].
  rewrite (sub_INR N r), (sub_INR (N - r) i), (sub_INR K i), !vbinomial_choose by lia. cbn [vadd vsub vneg]. rewrite vdiv_Fin by (apply Rgt_not_eq, choose_INR_pos; lia).
  destruct (Nat.eq_dec (i + r) 0) as [E|E].
  - assert (i = 0 /\ r = 0)%nat as [Ei Er] by lia. unfold nh. rewrite Ei, Er. simpl INR. unfold vbinomial. rewrite Rltb_false by lra.
    replace (0 + 0 + - (1)) with (IZR (-1)) by (simpl; ring). rewrite !is_intb_IZR, Int_part_IZR. rewrite Rltb_true by (change (IZR 0) with 0; lra).
    simpl powerRZ. replace (binomR (IZR 0 - IZR (-1) - 1) (IZR 0)) with 1.
    + simpl. f_equal. ring.
    + unfold binomR. replace (0 - -1 - 1 + 1) with 1 by ring. replace (0 - -1 - 1 - 0 + 1) with 1 by ring. replace (0 + 1) with 1 by ring. rewrite Gamma_1. field.
  - replace (INR i + INR r + - (1)) with (INR (i + r - 1)) by (rewrite minus_INR, plus_INR by lia; simpl; ring). rewrite vbinomial_choose. reflexivity.
Qed.
Lemma pmf_in i : DiscLib.below (Some (S top)) i -> pmf (Fin (IZR (Z.of_nat i))) (Fin (INR N)) (Fin (INR K)) (Fin (INR r)) = Fin (nh N K r i).
Proof. intros I. simpl in I. rewrite <- INR_IZR_INZ. apply pmf_nat. unfold top in I. destruct (Nat.eqb r 0); lia. Qed.
Lemma pmf_out k : (k < 0)%Z \/ (Z.of_nat K < k)%Z -> pmf (Fin (IZR k)) (Fin (INR N)) (Fin (INR K)) (Fin (INR r)) = Fin 0.
Proof.
  intros O. unfold pmf. rewrite ok. change (cor (clt (Fin (IZR k)) (Fin 0)) (cgt (Fin (IZR k)) (Fin (INR K)))) with (cor (CB (Rltb (IZR k) 0)) (CB (Rltb (INR K) (IZR k)))).
  destruct O as [O|O].
  - rewrite Rltb_true by (apply IZR_lt; auto). reflexivity.
  - rewrite Rltb_false by (apply IZR_le; lia). rewrite Rltb_true by (rewrite INR_IZR_INZ; apply IZR_lt; auto). reflexivity.
Qed.
Lemma total : nsum (nh N K r) (S top) = 1.
Proof.
  unfold top. destruct (Nat.eqb_spec r 0) as [E|E]; [|apply mass1; lia]. simpl. rewrite E, nh_r0 by lia. simpl. ring.
Qed.
Lemma mass_ok : support (Fin (INR N)) (Fin (INR K)) (Fin (INR r)) = Ok (Range 0 (if Nat.eqb r 0 then 1 else Z.of_nat K + 1)) /\
  mass_function (fun k => pmf k (Fin (INR N)) (Fin (INR K)) (Fin (INR r))) (Range 0 (if Nat.eqb r 0 then 1 else Z.of_nat K + 1)) /\
  zero_outside (fun k => pmf k (Fin (INR N)) (Fin (INR K)) (Fin (INR r))) (Range 0 (if Nat.eqb r 0 then 1 else Z.of_nat K + 1)).
Proof.
  split; [apply support_ok|]. fold rng. split.
  - rewrite rng0. apply (disc_mass _ _ (nh N K r)); [apply pmf_in|intros; apply nh_nonneg; lia|apply total].
  - intros k O. destruct (Z_lt_dec k 0); [apply pmf_out; auto|]. destruct (Z_lt_dec (Z.of_nat K) k); [apply pmf_out; auto|].
    simpl in O. replace k with (Z.of_nat (Z.to_nat k)) by lia. rewrite <- INR_IZR_INZ, pmf_nat by lia. f_equal. destruct (Nat.eqb_spec r 0) as [E|E]; [|lia].
    rewrite E, nh_r0 by lia. destruct (Nat.eqb_spec (Z.to_nat k) 0); [lia|reflexivity].
Qed.
Lemma log_ok : (1 <= r)%nat -> log_law (fun k => pmf k (Fin (INR N)) (Fin (INR K)) (Fin (INR r))) (fun k => logpmf k (Fin (INR N)) (Fin (INR K)) (Fin (INR r))) (fun _ => True).
Proof.
  intros R k _. destruct (Z_lt_dec k 0) as [L|L]; [|destruct (Z_lt_dec (Z.of_nat K) k) as [L'|L']].
  1, 2: right; left; split; [apply pmf_out; auto|]; unfold logpmf; rewrite ok; change (cor (clt (Fin (IZR k)) (Fin 0)) (cgt (Fin (IZR k)) (Fin (INR K)))) with (cor (CB (Rltb (IZR k) 0)) (CB (Rltb (INR K) (IZR k)))).
  - rewrite Rltb_true by (apply IZR_lt; auto). reflexivity.
  - rewrite Rltb_false by (apply IZR_le; lia). rewrite Rltb_true by (rewrite INR_IZR_INZ; apply IZR_lt; auto). reflexivity.
  - left. replace k with (Z.of_nat (Z.to_nat k)) by lia. set (i := Z.to_nat k). assert (I : (i <= K)%nat) by lia. rewrite <- INR_IZR_INZ. exists (nh N K r i). split; [apply nh_pos; auto|]. split; [apply pmf_nat; auto|].
    unfold logpmf. rewrite ok, lt0_INR. change (cgt (Fin (INR i)) (Fin (INR K))) with (CB (Rltb (INR K) (INR i))). rewrite Rltb_false by (apply le_INR; auto). cbn [cor cif].
    rewrite (sub_INR N r), (sub_INR (N - r) i), (sub_INR K i) by lia. cbn [vadd vsub vneg]. replace (INR i + INR r + - (1)) with (INR (i + r - 1)) by (rewrite minus_INR, plus_INR by lia; simpl; ring).
    rewrite !lb_choose by lia. cbn [bindv]. unfold vfsum, fold_right. cbn [vneg vadd]. f_equal. unfold nh.
    pose proof (choose_INR_pos (i + r - 1) i ltac:(lia)). pose proof (choose_INR_pos (N - r - i) (K - i) ltac:(lia)). pose proof (choose_INR_pos N K ltac:(lia)).
    unfold Rdiv. rewrite !ln_mult, ln_Rinv; auto; [ring|apply Rinv_0_lt_compat; auto|apply Rmult_lt_0_compat; auto; apply Rinv_0_lt_compat; auto].
Qed.
Lemma cdf_ok (k : Z) :
  cumulative (fun k => pmf k (Fin (INR N)) (Fin (INR K)) (Fin (INR r))) (fun k => cdf k (Fin (INR N)) (Fin (INR K)) (Fin (INR r))) (fun k => sf k (Fin (INR N)) (Fin (INR K)) (Fin (INR r)))
    (Range 0 (if Nat.eqb r 0 then 1 else Z.of_nat K + 1)) k.
Proof.
  fold rng. rewrite rng0. unfold cumulative. rewrite (disc_upto _ (fun k => pmf k (Fin (INR N)) (Fin (INR K)) (Fin (INR r))) (nh N K r) pmf_in).
  unfold cdf, sf. rewrite !ok. change (clt (Fin (IZR k)) (Fin 0)) with (CB (Rltb (IZR k) 0)). change (cge (Fin (IZR k)) (Fin (INR K))) with (CB (Rleb (INR K) (IZR k))).
  destruct (Z_lt_dec k 0) as [L|L].
  { rewrite Rltb_true by (apply IZR_lt; auto). cbn [cif]. replace (Nat.min (Z.to_nat (k + 1)) (S top)) with 0%nat by lia. simpl. split; f_equal; ring. }
  rewrite Rltb_false by (apply IZR_le; lia). cbn [cif]. destruct (Z_le_dec (Z.of_nat K) k) as [L'|L'].
  { rewrite Rleb_true by (rewrite INR_IZR_INZ; apply IZR_le; auto). cbn [cif]. replace (Nat.min (Z.to_nat (k + 1)) (S top)) with (S top) by (unfold top; destruct (Nat.eqb r 0); lia). rewrite total. split; f_equal; ring. }
  rewrite Rleb_false by (rewrite INR_IZR_INZ; apply IZR_lt; lia). cbn [cif].
  replace k with (Z.of_nat (Z.to_nat k)) at 1 3 by lia. set (i := Z.to_nat k). rewrite <- INR_IZR_INZ. rewrite (sub_INR N K) by lia. cbn [vadd vsub vneg]. rewrite <- plus_INR.
  replace (INR r + - (1)) with (INR r - 1) by ring.
  unfold M_hypergeometric.cdf. rewrite P_hypergeometric.ok by lia. rewrite P_hypergeometric.sf_in by lia. replace (N - (N - K))%nat with K by lia.
  assert (E : tail (N - K) K (i + r) r = nsum (nh N K r) (Nat.min (Z.to_nat (k + 1)) (S top))).
  { unfold top. destruct (Nat.eqb_spec r 0) as [E|E].
    - rewrite E at 2. rewrite tail_0 by lia. replace (Nat.min (Z.to_nat (k + 1)) 1) with 1%nat by lia. simpl. rewrite E, nh_r0 by lia. simpl. ring.
    - replace (Nat.min (Z.to_nat (k + 1)) (S K)) with (S i) by lia. rewrite psum by lia. reflexivity. }
  rewrite E. cbn [vsub vadd vneg]. split; auto.
Qed.
Lemma moments_ok :
  dmean_is (fun k => pmf k (Fin (INR N)) (Fin (INR K)) (Fin (INR r))) (Range 0 (if Nat.eqb r 0 then 1 else Z.of_nat K + 1)) (mean (Fin (INR N)) (Fin (INR K)) (Fin (INR r))) /\
  dvar_is (fun k => pmf k (Fin (INR N)) (Fin (INR K)) (Fin (INR r))) (Range 0 (if Nat.eqb r 0 then 1 else Z.of_nat K + 1)) (var (Fin (INR N)) (Fin (INR K)) (Fin (INR r))).
Proof.
  fold rng. rewrite rng0. unfold mean, var. rewrite !ok. rewrite (sub_INR N K) by lia. pose proof (pos_INR (N - K)). cbn [vadd vmul vsub vneg]. rewrite !vdiv_Fin by lra. cbn [vmul vsub vneg vadd]. rewrite !vdiv_Fin by lra.
  destruct (Nat.eq_dec r 0) as [E|E]; [|destruct (Nat.eq_dec K 0) as [E'|E']].
  1, 2: destruct (delta_disc top (fun k => pmf k (Fin (INR N)) (Fin (INR K)) (Fin (INR r)))) as [M V];
    [intros i I; rewrite pmf_in by (simpl; lia); f_equal; unfold top in I| split; (eapply eq_ind; [eassumption|]); f_equal; rewrite ?E, ?E'; simpl; unfold Rdiv; ring].
  - rewrite E, nh_r0 by lia. reflexivity.
  - assert (i = 0)%nat as -> by (destruct (Nat.eqb r 0); lia). rewrite E', nh_K0. reflexivity.
  - destruct (sb_moments (Some K) (fun k => pmf k (Fin (INR N)) (Fin (INR K)) (Fin (INR r))) (nh N K r) (nh N (K - 1) (S r)) (INR r * INR K / (INR (N - K) + 1)) (INR (S r) * INR (K - 1) / (INR (N - K) + 2))) as [M V].
    + intros i I. apply pmf_in. unfold top. destruct (Nat.eqb_spec r 0); [lia|exact I].
    + intros i I. simpl in I. pose proof (nh_sb N (K - 1) r i ltac:(lia) ltac:(lia)) as X. replace (S (K - 1)) with K in X by lia. rewrite X. replace (N - (K - 1))%nat with (S (N - K)) by lia. rewrite S_INR. reflexivity.
    + unfold tot, option_map. apply mass1; lia.
    + unfold tot. pose proof (mass1 N (K - 1) (S r) ltac:(lia) ltac:(lia)) as X. replace (S (K - 1)) with K in X by lia. exact X.
    + unfold tot. pose proof (mean1 N (K - 1) (S r) ltac:(lia) ltac:(lia)) as X. replace (S (K - 1)) with K in X by lia. rewrite X. replace (N - (K - 1))%nat with (S (N - K)) by lia. rewrite (S_INR (N - K)). f_equal. ring.
    + unfold top. destruct (Nat.eqb_spec r 0); [lia|]. simpl option_map in *. split; [exact M|]. eapply eq_ind; [exact V|]. f_equal.
      rewrite S_INR, !minus_INR by lia. simpl (INR 1). assert (INR N - INR K = INR (N - K)) by (rewrite minus_INR by lia; ring). rewrite minus_INR in H0 by lia. field. lra.
Qed.
Lemma mode_small : ~ (N = K + 1 /\ 1 <= K /\ r = 1)%nat ->
  smallest_mode (fun k => pmf k (Fin (INR N)) (Fin (INR K)) (Fin (INR r))) (Range 0 (if Nat.eqb r 0 then 1 else Z.of_nat K + 1)) (mode (Fin (INR N)) (Fin (INR K)) (Fin (INR r))).
Proof.
  intros X. fold rng. unfold mode. rewrite ok. change (cor (ceq (Fin (INR r)) (Fin 0)) (ceq (Fin (INR K)) (Fin 0))) with (cor (CB (Reqb (INR r) 0)) (CB (Reqb (INR K) 0))).
  assert (PM : forall k, in_support rng k -> pmf (Fin (IZR k)) (Fin (INR N)) (Fin (INR K)) (Fin (INR r)) = Fin (nh N K r (Z.to_nat k))).
  { intros k I. rewrite rng0 in I. destruct (in_sup0 _ _ I) as [i [-> B]]. rewrite Nat2Z.id. apply pmf_in; auto. }
  assert (TR : top = 0%nat -> smallest_mode (fun k => pmf k (Fin (INR N)) (Fin (INR K)) (Fin (INR r))) rng (Fin 0)).
  { intros T. rewrite rng0, T. change 0 with (IZR 0). apply (threshold_smallest _ _ (fun k => nh N K r (Z.to_nat k)) 0); try (simpl; lia).
    intros k I. apply PM. rewrite rng0, T. auto. }
  destruct (Nat.eq_dec r 0) as [E|E]; [rewrite Reqb_true by (rewrite E; reflexivity); apply TR; unfold top; rewrite E; reflexivity|].
  rewrite Reqb_false by (apply not_0_INR; auto). destruct (Nat.eq_dec K 0) as [E'|E']; [rewrite Reqb_true by (rewrite E'; reflexivity); apply TR; unfold top; rewrite E'; destruct (Nat.eqb r 0); reflexivity|].
  rewrite Reqb_false by (apply not_0_INR; auto). cbn [cor cif orb].
  assert (G : (K + 1 < N)%nat) by lia. assert (GR : 0 < INR N - INR K - 1) by (apply lt_INR in G; rewrite plus_INR in G; simpl (INR 1) in G; lra).
  set (T := (INR r - 1) * (INR K + 1) / (INR N - INR K - 1)).
  assert (TE : T * (INR N - INR K - 1) = (INR r - 1) * (INR K + 1)) by (unfold T; field; lra).
  assert (ER : rng = Range 0 (Z.of_nat K + 1)) by (unfold rng; destruct (Nat.eqb_spec r 0); [lia|reflexivity]).
  assert (RT : forall k, in_support rng k -> in_support rng (k - 1) -> (IZR k < T -> nh N K r (Z.to_nat (k - 1)) < nh N K r (Z.to_nat k)) /\ (T <= IZR k -> nh N K r (Z.to_nat k) <= nh N K r (Z.to_nat (k - 1)))).
  { intros k I J. rewrite ER in I, J. simpl in I, J. set (i := Z.to_nat (k - 1)). assert (Ei : Z.to_nat k = S i) by lia. rewrite Ei. assert (Ek : IZR k = INR i + 1) by (unfold i; rewrite INR_IZR_INZ, Z2Nat.id, minus_IZR by lia; ring). rewrite Ek.
    pose proof (nh_ratio N K r i H ltac:(lia) ltac:(lia)) as Q. pose proof (nh_pos N K r i H ltac:(lia) ltac:(lia)). pose proof (pos_INR i).
    assert (0 < INR N - INR r - INR i) by (assert (r + i < N)%nat as Y by lia; apply lt_INR in Y; rewrite plus_INR in Y; lra).
    assert (D : (INR i + INR r) * (INR K - INR i) - (INR i + 1) * (INR N - INR r - INR i) = (T - (INR i + 1)) * (INR N - INR K - 1)) by nra.
    assert (PD : 0 < (INR i + 1) * (INR N - INR r - INR i)) by (apply Rmult_lt_0_compat; lra).
    set (a := (INR i + 1) * (INR N - INR r - INR i)) in *. set (b := (INR i + INR r) * (INR K - INR i)) in *. split; intros L.
    - apply (Rmult_lt_reg_l a); auto. rewrite Q. apply Rmult_lt_compat_r; auto. assert (0 < (T - (INR i + 1)) * (INR N - INR K - 1)) by (apply Rmult_lt_0_compat; lra). lra.
    - apply (Rmult_le_reg_l a); auto. rewrite Q. apply Rmult_le_compat_r; [lra|]. assert (0 <= (INR i + 1 - T) * (INR N - INR K - 1)) by (apply Rmult_le_pos; lra). lra. }
  cbn [vadd vmul vsub vneg]. change (cgt (Fin (INR N)) (Fin (INR r * (INR K + 1)))) with (CB (Rltb (INR r * (INR K + 1)) (INR N))).
  change (cgt (Fin (INR K + INR r + - (1))) (Fin ((INR N + - (INR K + INR r + - (1))) * INR K))) with (CB (Rltb ((INR N + - (INR K + INR r + - (1))) * INR K) (INR K + INR r + - (1)))).
  destruct (Rltb_spec (INR r * (INR K + 1)) (INR N)) as [[L ->]|[L ->]]; cbn [cif].
  { change 0 with (IZR 0). apply (threshold_smallest _ _ (fun k => nh N K r (Z.to_nat k)) T); auto; rewrite ER; simpl; try lia. intros _. apply (Rmult_le_reg_r (INR N - INR K - 1)); [lra|]. rewrite TE. lra. }
  destruct (Rltb_spec ((INR N + - (INR K + INR r + - (1))) * INR K) (INR K + INR r + - (1))) as [[L' ->]|[L' ->]]; cbn [cif].
  { enough (Q : smallest_mode (fun k => pmf k (Fin (INR N)) (Fin (INR K)) (Fin (INR r))) rng (Fin (IZR (Z.of_nat K)))) by (rewrite <- INR_IZR_INZ in Q; exact Q). apply (threshold_smallest _ _ (fun k => nh N K r (Z.to_nat k)) T); auto; rewrite ER; simpl; try lia. intros _. rewrite <- INR_IZR_INZ. apply (Rmult_lt_reg_r (INR N - INR K - 1)); [lra|]. rewrite TE. nra. }
  rewrite vdiv_Fin by lra. replace ((INR r * (INR K + 1) + - INR N) / (INR N + - INR K + - (1))) with (T - 1) by (unfold T; field; lra).
  destruct (vceil_spec (T - 1)) as [z [-> Hz]]. rewrite vint_IZR.
  assert (1 <= T) by (apply (Rmult_le_reg_r (INR N - INR K - 1)); [lra|]; rewrite TE; lra).
  assert (T <= INR K) by (apply (Rmult_le_reg_r (INR N - INR K - 1)); [lra|]; rewrite TE; nra).
  apply (threshold_smallest _ _ (fun k => nh N K r (Z.to_nat k)) T); auto; try lra. rewrite ER. simpl.
  assert (-1 < z)%Z by (apply lt_IZR; simpl; lra). assert (z < Z.of_nat K)%Z by (apply lt_IZR; rewrite <- INR_IZR_INZ; lra). lia.
Qed.
End P.
Lemma mode_div K : (1 <= K)%nat -> mode (Fin (INR (K + 1))) (Fin (INR K)) (Fin (INR 1)) = Exc ZeroDivisionError.
Proof.
  intros P. assert (1 <= INR K) by (change 1 with (INR 1); apply le_INR; auto). unfold mode. rewrite ok by lia. rewrite plus_INR. simpl (INR 1).
  cbn [vadd vmul vsub vneg]. vif. unfold vdiv. rewrite Reqb_true by ring. reflexivity.
Qed.
Lemma logpmf_zero N K : (K <= N)%nat -> pmf (Fin 0) (Fin (INR N)) (Fin (INR K)) (Fin 0) = Fin 1 /\ logpmf (Fin 0) (Fin (INR N)) (Fin (INR K)) (Fin 0) = Exc ValueError.
Proof.
  intros P. change (Fin 0) with (Fin (INR 0)). rewrite pmf_nat by lia. rewrite nh_r0 by auto. split; [reflexivity|]. unfold logpmf. rewrite ok by lia. pose proof (pos_INR K). simpl INR. 
  unfold clt, cgt, clt, cmp, ltb. rewrite !Rltb_false by lra. cbn [cor cif orb]. cbn [vadd vsub vneg]. rewrite (proj2 (lb_err _ _)); [reflexivity|]. left. lra.
Qed.
Lemma bad N K r : N < 0 \/ K < 0 \/ r < 0 \/ N < K \/ N - K < r -> forall A (H : CanRaise A) (k : A), validate (Fin N) (Fin K) (Fin r) k = raise ValueError.
Proof.
  intros H A CR k. unfold validate. cbn [vadd vsub vneg]. unfold cgt, clt, cmp, ltb.
  repeat match goal with |- context [Rltb ?a ?b] => destruct (Rltb_spec a b) as [[? ->]|[? ->]]; try reflexivity end. lra.
Qed.
Lemma bad_params N K r k : N < 0 \/ K < 0 \/ r < 0 \/ N < K \/ N - K < r ->
  pmf k (Fin N) (Fin K) (Fin r) = Exc ValueError /\ logpmf k (Fin N) (Fin K) (Fin r) = Exc ValueError /\ cdf k (Fin N) (Fin K) (Fin r) = Exc ValueError /\ sf k (Fin N) (Fin K) (Fin r) = Exc ValueError /\
  support (Fin N) (Fin K) (Fin r) = Err ValueError /\ support_pmf (Fin N) (Fin K) (Fin r) = Err ValueError /\ mean (Fin N) (Fin K) (Fin r) = Exc ValueError /\ mode (Fin N) (Fin K) (Fin r) = Exc ValueError /\ var (Fin N) (Fin K) (Fin r) = Exc ValueError.
Proof. intros H. pose proof (bad N K r H) as B. unfold pmf, logpmf, cdf, sf, support_pmf, support, mean, mode, var. repeat split; rewrite !B; reflexivity. Qed.
