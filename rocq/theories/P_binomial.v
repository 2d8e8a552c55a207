From Coq Require Import Reals Lra Lia List ZArith Arith Bool.
From Coquelicot Require Import Coquelicot.
From Verif Require Import Values VTac Spec SpecStat SpecEst SpecDisc LLib XLib PLib RLib DistLib SFun GammaLib GammaLib3 M_common M_sfun M_disc M_fun SpecInt BinLib DiscLib IncLib CountLib DiscLib2 P_logb M_binomial.
From Verif Require M_basic P_fun.
Import ListNotations.
Local Open Scope R_scope.
Set Bullet Behavior "Strict Subproofs".

Definition g (n : nat) (p : R) (i : nat) : R := INR (choose n i) * p ^ i * (1 - p) ^ (n - i).
Lemma g_nonneg n p i : 0 <= p <= 1 -> 0 <= g n p i.
Proof. intros H. unfold g. repeat apply Rmult_le_pos; [apply pos_INR|apply pow_le; lra|apply pow_le; lra]. Qed.
Lemma g_pos n p i : 0 < p < 1 -> (i <= n)%nat -> 0 < g n p i.
Proof. intros H I. unfold g. repeat apply Rmult_lt_0_compat; [apply lt_0_INR; apply choose_pos; auto|apply pow_lt; lra|apply pow_lt; lra]. Qed.
Lemma g_sb n p i : INR (S i) * g (S n) p (S i) = (INR (S n) * p) * g n p i.
Proof.
  unfold g. pose proof (choose_absorb n i) as A. apply (f_equal INR) in A. rewrite !mult_INR in A.
  replace (S n - S i)%nat with (n - i)%nat by lia.
  transitivity ((INR (S i) * INR (choose (S n) (S i))) * p ^ (S i) * (1 - p) ^ (n - i)); [ring|]. rewrite A. simpl pow. ring.
Qed.
Lemma g_ratio n p i : (i < n)%nat -> INR (S i) * (1 - p) * g n p (S i) = INR (n - i) * p * g n p i.
Proof.
  intros H. unfold g. pose proof (choose_ratio n i ltac:(lia)) as A. apply (f_equal INR) in A. rewrite !mult_INR in A.
  replace (n - i)%nat with (S (n - S i)) at 2 by lia.
  transitivity ((INR (S i) * INR (choose n (S i))) * p ^ (S i) * (1 - p) * (1 - p) ^ (n - S i)); [ring|]. rewrite A. simpl pow. ring.
Qed.
Lemma mass1 n p : nsum (g n p) (S n) = 1.
Proof. unfold g. rewrite binomial_nsum. replace (p + (1 - p)) with 1 by ring. apply pow1. Qed.
Lemma mean1 n p : nsum (fun i => INR i * g n p i) (S n) = INR n * p.
Proof.
  destruct n as [|n]; [simpl; ring|]. 
  pose proof (tot_shift (Some (S n)) (g (S n) p) (g n p) (INR (S n) * p) 1 (fun i _ => g_sb n p i) (mass1 n p)) as T.
  rewrite Rmult_1_r in T. exact T.
Qed.
Section P.
Variables (n : nat) (p : R).
Hypothesis P : 0 <= p <= 1.
Lemma ok {A} `{CanRaise A} (k : A) : validate_np (Fin (INR n)) (Fin p) k = k.
Proof. unfold validate_np. rewrite vp01 by auto. rewrite lt0_INR. cbn [cor]. rewrite vint_INR. unfold cne, cmp, eqb. rewrite Reqb_true by auto. reflexivity. Qed.
Lemma support_ok : support (Fin (INR n)) (Fin p) = Ok (Range 0 (Z.of_nat n + 1)).
Proof.
  unfold support. rewrite ok. cbn [vadd]. rewrite <- (S_INR n). unfold vrange. rewrite is_intb_INR, Int_part_INR.
  change 0 with (IZR 0). rewrite is_intb_IZR, Int_part_IZR. do 2 f_equal. lia.
Qed.
Lemma pmf_nat i : (i <= n)%nat -> pmf (Fin (INR i)) (Fin (INR n)) (Fin p) = Fin (g n p i).
Proof.
  intros I. unfold pmf. rewrite ok, vbinomial_choose, sub_INR by auto. cbn [vsub vadd vneg]. rewrite !vpow_nat by lra. reflexivity.
Qed.
Lemma pmf_in i : DiscLib.below (Some (S n)) i -> pmf (Fin (IZR (Z.of_nat i))) (Fin (INR n)) (Fin p) = Fin (g n p i).
Proof. simpl. intros I. rewrite <- INR_IZR_INZ. apply pmf_nat. lia. Qed.
Lemma rng : Range 0 (Z.of_nat n + 1) = sup0 (Some (S n)).
Proof. simpl. f_equal. lia. Qed.
Lemma mass : mass_function (fun k => pmf k (Fin (INR n)) (Fin p)) (Range 0 (Z.of_nat n + 1)).
Proof. rewrite rng. apply (disc_mass (Some (S n)) _ (g n p)); [apply pmf_in|intros; apply g_nonneg; auto|apply mass1]. Qed.
Lemma mass_ok : support (Fin (INR n)) (Fin p) = Ok (Range 0 (Z.of_nat n + 1)) /\
  mass_function (fun k => pmf k (Fin (INR n)) (Fin p)) (Range 0 (Z.of_nat n + 1)) /\
  (0 < p < 1 -> zero_outside (fun k => pmf k (Fin (INR n)) (Fin p)) (Range 0 (Z.of_nat n + 1))).
Proof.
  split; [apply support_ok|split; [apply mass|]]. intros P1 k K. simpl in K. unfold pmf. rewrite ok, vbinomial_nat.
  assert ((if (0 <=? k)%Z then INR (choose n (Z.to_nat k)) else 0) = 0) as ->.
  { destruct (Z.leb_spec 0 k); auto. rewrite choose_gt by lia. reflexivity. }
  cbn [vsub vadd vneg]. rewrite !vpow_Fin by lra. cbn [vmul]. f_equal. ring.
Qed.
Lemma lg_ok i : 0 < p < 1 -> (i <= n)%nat -> logpmf (Fin (INR i)) (Fin (INR n)) (Fin p) = Fin (ln (g n p i)).
Proof.
  intros P1 I. unfold logpmf. rewrite ok, lb_choose by auto. unfold vlog1p, vfsum, fold_right. cbn [vadd vneg]. rewrite !vlog_Fin by lra.
  cbn [vmul vadd]. f_equal. assert (0 < INR (choose n i)) by (apply lt_0_INR; apply choose_pos; auto).
  unfold g. rewrite !ln_mult; try (apply pow_lt; lra); auto; [|apply Rmult_lt_0_compat; auto; apply pow_lt; lra].
  rewrite <- !Rpower_INR by lra. unfold Rpower. rewrite !ln_exp. rewrite minus_INR by auto. replace (1 + - p) with (1 - p) by ring. ring.
Qed.
Lemma log_ok : 0 < p < 1 -> log_law (fun k => pmf k (Fin (INR n)) (Fin p)) (fun k => logpmf k (Fin (INR n)) (Fin p)) (fun k => 0 <= k <= Z.of_nat n)%Z.
Proof.
  intros P1 k K. left. assert (E : k = Z.of_nat (Z.to_nat k)) by lia. rewrite E. set (i := Z.to_nat k) in *. exists (g n p i).
  assert (i <= n)%nat by lia. split; [apply g_pos; auto|]. split; [apply pmf_in; simpl; lia|]. rewrite <- INR_IZR_INZ. apply lg_ok; auto.
Qed.
Lemma psum k : 0 < p < 1 -> (k < n)%nat -> nsum (g n p) (S k) = Ireg (INR n - INR k) (INR k + 1) (1 - p).
Proof.
  intros P1. induction k as [|k IH]; intros K.
  - simpl INR. rewrite Rminus_0_r. replace (0 + 1) with 1 by ring. assert (0 < INR n) by (apply lt_0_INR; lia). rewrite Ireg_1, Rpower_INR by lra. unfold g. simpl. rewrite choose_0. rewrite Nat.sub_0_r. simpl. ring.
  - change (nsum (g n p) (S (S k))) with (nsum (g n p) (S k) + g n p (S k)). rewrite IH by lia. rewrite S_INR.
    set (a := INR n - (INR k + 1)). set (b := INR k + 1). assert (0 < a) by (unfold a; rewrite <- S_INR, <- minus_INR by lia; apply lt_0_INR; lia).
    assert (0 < b) by (unfold b; pose proof (pos_INR k); lra).
    replace (INR n - INR k) with (a + 1) by (unfold a; ring). rewrite Ireg_up1, Ireg_up2 by lra. unfold g.
    rewrite choose_Gamma by lia. unfold binomR. rewrite S_INR. fold b.
    replace (INR n - b + 1) with (a + 1) by (unfold a, b; ring). replace (INR n + 1) with (a + b + 1) by (unfold a, b; ring).
    rewrite !Gamma_succ by lra. rewrite <- (Rpower_INR (S k)), <- (Rpower_INR (n - S k)) by lra. rewrite minus_INR, S_INR by lia.
    replace (INR n - (INR k + 1)) with a by reflexivity. fold b. unfold Beta. replace (1 - (1 - p)) with p by ring.
    pose proof (Gamma_pos a ltac:(lra)). pose proof (Gamma_pos b ltac:(lra)). pose proof (Gamma_pos (a + b) ltac:(lra)). field. repeat split; lra.
Qed.
Lemma g_0 i : p = 0 -> g n p i = if Nat.eqb i 0 then 1 else 0.
Proof. intros ->. unfold g. destruct i as [|i]; simpl. - rewrite choose_0. simpl. replace (1 - 0) with 1 by ring. rewrite pow1. ring. - ring. Qed.
Lemma g_1 i : p = 1 -> g n p i = if Nat.eqb i n then 1 else 0.
Proof.
  intros ->. unfold g. replace (1 - 1) with 0 by ring. destruct (Nat.eqb_spec i n) as [->|N].
  - rewrite choose_diag, Nat.sub_diag, pow1. simpl. ring.
  - destruct (Nat.le_gt_cases i n); [rewrite pow_i by lia; ring|rewrite choose_gt by lia; simpl; ring].
Qed.
Lemma cdf_lt k : (k < n)%nat -> cdf_incbeta (Fin (INR k)) (Fin (INR n)) (Fin p) = Fin (nsum (g n p) (S k)) /\
  sf_incbeta (Fin (INR k)) (Fin (INR n)) (Fin p) = Fin (1 - nsum (g n p) (S k)).
Proof.
  intros K. unfold cdf_incbeta, sf_incbeta. rewrite !ok, eq_INR_false by lia. cbn [cif]. rewrite sub_INR by lia. rewrite add1_INR. cbn [vsub vadd vneg].
  assert (0 < INR (n - k)) by (apply lt_0_INR; lia). assert (0 < INR (S k)) by (apply lt_0_INR; lia).
  unfold vbetainc_lower, vbetainc_upper. rewrite !Rltb_true by lra. destruct (Req_dec p 0) as [E|N0]; [|destruct (Req_dec p 1) as [E|N1]].
  - rewrite (Reqb_false (1 + - p) 0), Reqb_true by lra. rewrite (nsum_first (g n p)), (nsum_0 (fun i => g n p (S i))).
    + rewrite (g_0 O) by auto. simpl. split; f_equal; ring.
    + intros i _. rewrite g_0 by auto. reflexivity.
  - rewrite (Reqb_true (1 + - p) 0) by lra. rewrite (nsum_0 (g n p)).
    + split; f_equal; ring.
    + intros i I. rewrite g_1 by auto. destruct (Nat.eqb_spec i n); [lia|reflexivity].
  - assert (P1 : 0 < p < 1) by lra. rewrite (Reqb_false (1 + - p) 0), (Reqb_false (1 + - p) 1), !Rltb_true by lra. rewrite psum by auto.
    unfold Ireg. rewrite S_INR. rewrite minus_INR by lia. replace (1 + - p) with (1 - p) by ring. split; [reflexivity|].
    rewrite minus_INR in H by lia. rewrite S_INR in H0. rewrite upper_beta_eq by lra. f_equal. 
    pose proof (Beta_pos (INR n - INR k) (INR k + 1) ltac:(lra) ltac:(lra)). field. lra.
Qed.
Lemma cdf_ok (k : Z) : (0 <= k <= Z.of_nat n)%Z ->
  (cdf_incbeta (Fin (IZR k)) (Fin (INR n)) (Fin p) = Fin (sum_upto (at_int (fun k => pmf k (Fin (INR n)) (Fin p))) (Range 0 (Z.of_nat n + 1)) k)) /\
  ((k < Z.of_nat n)%Z -> sf_incbeta (Fin (IZR k)) (Fin (INR n)) (Fin p) = Fin (1 - sum_upto (at_int (fun k => pmf k (Fin (INR n)) (Fin p))) (Range 0 (Z.of_nat n + 1)) k)).
Proof.
  intros K. rewrite rng, (disc_upto (Some (S n)) (fun k => pmf k (Fin (INR n)) (Fin p)) (g n p) pmf_in). replace k with (Z.of_nat (Z.to_nat k)) at 1 3 by lia. set (i := Z.to_nat k). rewrite <- INR_IZR_INZ.
  replace (Nat.min (Z.to_nat (k + 1)) (S n)) with (S i) by lia.
  destruct (Nat.eq_dec i n) as [E|N].
  - split; [|lia]. rewrite E, mass1. unfold cdf_incbeta. rewrite ok, eq_INR_true by auto. reflexivity.
  - destruct (cdf_lt i ltac:(lia)) as [A B]. split; auto. intros _. replace (IZR k) with (INR i); auto. unfold i. rewrite INR_IZR_INZ, Z2Nat.id by lia. reflexivity.
Qed.
Lemma over_ok a b : 0 < p < 1 -> (0 <= a)%Z -> (b <= Z.of_nat n + 1)%Z ->
  over_range (fun t => vexp (logpmf t (Fin (INR n)) (Fin p))) (Ok (Range a b)) = Fin (zsum (at_int (fun k => pmf k (Fin (INR n)) (Fin p))) a b).
Proof.
  intros P1 A B. unfold over_range, zsum. apply (vfsum_map (fun t => vexp (logpmf (Fin (IZR t)) (Fin (INR n)) (Fin p)))). intros k K. unfold zrange in K. apply in_map_iff in K. destruct K as [j [<- J]]. apply in_seq in J.
  assert (E : (a + Z.of_nat j)%Z = Z.of_nat (Z.to_nat a + j)) by lia. rewrite E. unfold at_int. rewrite pmf_in by (simpl; lia). simpl toR.
  rewrite <- INR_IZR_INZ, lg_ok by (auto; lia). cbn [vexp]. rewrite exp_ln; auto. apply g_pos; auto; lia.
Qed.
Lemma sumpmf_ok (k : Z) : 0 < p < 1 -> (-1 <= k <= Z.of_nat n)%Z ->
  cumulative (fun k => pmf k (Fin (INR n)) (Fin p)) (fun k => cdf_sumpmf k (Fin (INR n)) (Fin p)) (fun k => sf_sumpmf k (Fin (INR n)) (Fin p)) (Range 0 (Z.of_nat n + 1)) k.
Proof.
  intros P1 K. unfold cumulative, cdf_sumpmf, sf_sumpmf. rewrite !ok. cbn [vadd]. rewrite <- (S_INR n).
  replace (IZR k + 1) with (IZR (k + 1)) by (rewrite plus_IZR; reflexivity).
  unfold vrange. rewrite is_intb_IZR, is_intb_INR, Int_part_IZR, Int_part_INR. change 0 with (IZR 0). rewrite is_intb_IZR, Int_part_IZR.
  rewrite !over_ok by (auto; lia). unfold sum_upto. rewrite Z.min_l by lia. split; auto. f_equal.
  destruct mass as [_ M]. simpl in M. rewrite (zsum_app _ 0 (k + 1) (Z.of_nat n + 1)) in M by lia. replace (Z.of_nat (S n)) with (Z.of_nat n + 1)%Z by lia. change (IZR 0) with 0. lra.
Qed.
Lemma mode_small : smallest_mode (fun k => pmf k (Fin (INR n)) (Fin p)) (Range 0 (Z.of_nat n + 1)) (mode (Fin (INR n)) (Fin p)).
Proof.
  assert (PM : forall k, in_support (Range 0 (Z.of_nat n + 1)) k -> pmf (Fin (IZR k)) (Fin (INR n)) (Fin p) = Fin (g n p (Z.to_nat k))).
  { intros k K. simpl in K. replace k with (Z.of_nat (Z.to_nat k)) at 1 by lia. apply pmf_in. simpl. lia. }
  assert (RT : p < 1 -> forall k, in_support (Range 0 (Z.of_nat n + 1)) k -> in_support (Range 0 (Z.of_nat n + 1)) (k - 1) ->
    (IZR k < (INR n + 1) * p -> g n p (Z.to_nat (k - 1)) < g n p (Z.to_nat k)) /\ ((INR n + 1) * p <= IZR k -> g n p (Z.to_nat k) <= g n p (Z.to_nat (k - 1)))).
  { intros P1 k K K'. simpl in K, K'. pose proof (g_ratio n p (Z.to_nat (k - 1)) ltac:(lia)) as E. replace (S (Z.to_nat (k - 1))) with (Z.to_nat k) in E by lia.
    replace (INR (n - Z.to_nat (k - 1))) with (INR n - IZR k + 1) in E by (rewrite minus_INR, (INR_IZR_INZ (Z.to_nat _)), Z2Nat.id, minus_IZR by lia; ring).
    rewrite INR_IZR_INZ, Z2Nat.id in E by lia. assert (0 < IZR k) by (apply IZR_lt; lia).
    assert (IZR k <= INR n) by (rewrite INR_IZR_INZ; apply IZR_le; lia).
    pose proof (g_nonneg n p (Z.to_nat (k - 1)) P). pose proof (g_nonneg n p (Z.to_nat k) P).
    set (u := g n p (Z.to_nat (k - 1))) in *. set (v := g n p (Z.to_nat k)) in *. set (q := IZR k * (1 - p)) in *. assert (0 < q) by (unfold q; apply Rmult_lt_0_compat; lra).
    split; intros H4.
    - assert (0 < p) by nra. assert (0 < u) by (apply g_pos; [lra|lia]). assert (q < (INR n - IZR k + 1) * p) by (unfold q; lra). apply (Rmult_lt_reg_l q); auto. rewrite E. apply Rmult_lt_compat_r; auto.
    - apply (Rmult_le_reg_l q); auto. rewrite E. apply Rmult_le_compat_r; auto. unfold q. lra. }
  unfold mode. rewrite ok.
  destruct (Nat.eq_dec n 0) as [N0|N0]; [|destruct (Req_dec p 0) as [P0|P0]; [|destruct (Req_dec p 1) as [P1|P1]]].
  - assert (ceq (Fin (INR n)) (Fin 0) = CB true) as -> by (apply (eq_INR_true n 0 N0)). cbn [cor cif]. exists 0%Z, (g n p 0). split; auto. simpl. split; [lia|]. split; [apply (PM 0%Z); simpl; lia|].
    intros k K. assert (k = 0)%Z as -> by lia. exists (g n p 0). split; [apply (PM 0%Z); simpl; lia|split; [lra|lia]].
  - assert (ceq (Fin p) (Fin 0) = CB true) as -> by (unfold ceq, cmp, eqb; rewrite Reqb_true; auto).
    assert (ceq (Fin (INR n)) (Fin 0) = CB false) as -> by (apply (eq_INR_false n 0 N0)). cbn [cor cif].
    apply (threshold_smallest _ _ (fun k => g n p (Z.to_nat k)) ((INR n + 1) * p) 0); auto; [apply RT; lra|simpl; lia|simpl; lia|]. intros _. rewrite P0. simpl. lra.
  - assert (ceq (Fin p) (Fin 0) = CB false) as -> by (unfold ceq, cmp, eqb; rewrite Reqb_false; auto).
    assert (ceq (Fin p) (Fin 1) = CB true) as -> by (unfold ceq, cmp, eqb; rewrite Reqb_true; auto).
    assert (ceq (Fin (INR n)) (Fin 0) = CB false) as -> by (apply (eq_INR_false n 0 N0)). cbn [cor cif]. rewrite vint_INR.
    exists (Z.of_nat n), 1. rewrite <- INR_IZR_INZ. split; auto. split; [simpl; lia|]. split; [rewrite pmf_nat by auto; rewrite g_1, Nat.eqb_refl by auto; reflexivity|].
    intros k K. exists (g n p (Z.to_nat k)). split; auto. rewrite g_1 by auto. destruct (Nat.eqb_spec (Z.to_nat k) n); simpl in K; split; try lra; intros; try lia; lra.
  - assert (ceq (Fin p) (Fin 0) = CB false) as -> by (unfold ceq, cmp, eqb; rewrite Reqb_false; auto).
    assert (ceq (Fin p) (Fin 1) = CB false) as -> by (unfold ceq, cmp, eqb; rewrite Reqb_false; auto).
    assert (ceq (Fin (INR n)) (Fin 0) = CB false) as -> by (apply (eq_INR_false n 0 N0)). cbn [cor cif vadd vmul].
    destruct (vceil_spec ((INR n + 1) * p)) as [z [-> Z]]. cbn [vsub vadd vneg]. replace (IZR z + - (1)) with (IZR (z - 1)) by (rewrite minus_IZR; ring). rewrite vint_IZR.
    assert (0 < INR n) by (apply lt_0_INR; lia).
    assert (0 < z)%Z by (apply lt_IZR; assert (0 < (INR n + 1) * p) by (apply Rmult_lt_0_compat; lra); lra).
    assert (z - 1 <= Z.of_nat n)%Z. { assert (z < Z.of_nat n + 2)%Z; [|lia]. apply lt_IZR. rewrite plus_IZR, <- INR_IZR_INZ. nra. }
    apply (threshold_smallest _ _ (fun k => g n p (Z.to_nat k)) ((INR n + 1) * p)); auto; [apply RT; lra|simpl; lia|rewrite minus_IZR; lra|rewrite minus_IZR; lra].
Qed.
Lemma moments_ok : dmean_is (fun k => pmf k (Fin (INR n)) (Fin p)) (Range 0 (Z.of_nat n + 1)) (mean (Fin (INR n)) (Fin p)) /\
  dvar_is (fun k => pmf k (Fin (INR n)) (Fin p)) (Range 0 (Z.of_nat n + 1)) (var (Fin (INR n)) (Fin p)).
Proof.
  pose proof pmf_in as PM. rewrite rng. unfold mean, var. rewrite !ok. cbn [vmul vsub vadd vneg]. clear P. destruct n as [|m].
  - split.
    + replace (INR 0 * p) with 0 by (simpl; ring). apply (disc_mean (Some 1%nat) _ (g 0 p) PM). simpl. ring.
    + replace (INR 0 * p * (1 + - p)) with (dvar (fun i => match i with O => 1 | _ => 0 end)) by (unfold dvar; simpl; ring).
      apply (disc_var (Some 1%nat) (fun k => pmf k (Fin (INR 0)) (Fin p)) (g 0 p) PM); auto. intros [|[|[|j]]] J; try lia; simpl; unfold g; simpl; ring.
  - pose proof (sb_moments (Some (S m)) (fun k => pmf k (Fin (INR (S m))) (Fin p)) (g (S m) p) (g m p) (INR (S m) * p) (INR m * p) PM (fun i _ => g_sb m p i) (mass1 (S m) p) (mass1 m p) (mean1 m p)) as [A B].
    split; [exact A|]. match goal with |- dvar_is _ _ (Fin ?v) => replace v with (INR (S m) * p * (INR m * p) + INR (S m) * p - (INR (S m) * p) ^ 2) by (rewrite S_INR; ring) end. exact B.
Qed.
Lemma nll_eval xs cs : 0 < p < 1 -> (forall x, In x xs -> (x <= n)%nat) -> good_counts xs cs ->
  nll (vNs xs) (Fin (INR n)) (Fin p) (vcounts cs) = Fin (- wsum (fun x => ln (g n p x)) xs (counts_for xs cs)).
Proof.
  intros P1 X G. unfold nll. rewrite ok, xb_nat by (intros x I; simpl; apply le_INR; auto). rewrite ints_nat. cbn [cnot negb cif].
  rewrite (counts_pass _ xs) by (auto; unfold vNs; apply map_length). rewrite zip_counts_pass, (zip_sum _ (fun x => ln (g n p x))) by (intros; apply lg_ok; auto). reflexivity.
Qed.
End P.
Lemma nll_laws (n : nat) (p : R) (xs cs : list nat) : 0 < p < 1 -> (forall x, In x xs -> (x <= n)%nat) ->
  nll (vNs xs) (Fin (INR n)) (Fin p) None = vneg (loglik (fun t => logpmf t (Fin (INR n)) (Fin p)) (map INR xs)) /\
  (length cs = length xs -> nll (vNs xs) (Fin (INR n)) (Fin p) (Some (vNs cs)) = nll (vNs (expand xs cs)) (Fin (INR n)) (Fin p) None) /\
  (forall bad, bad_counts xs bad -> nll (vNs xs) (Fin (INR n)) (Fin p) (Some (map Fin bad)) = Exc ValueError).
Proof.
  intros L X. assert (L' : 0 <= p <= 1) by lra. split; [|split].
  - change (@None (list val)) with (vcounts None). rewrite (nll_eval n p L' xs None) by (auto; unfold good_counts; simpl; apply repeat_length). simpl counts_for. rewrite wsum_expand, expand_ones.
    unfold loglik. rewrite map_map, (vfsum_map _ (fun x => ln (g n p x))); [reflexivity|]. intros x I. apply lg_ok; auto.
  - intros E. change (@None (list val)) with (vcounts None). change (Some (vNs cs)) with (vcounts (Some cs)). rewrite (nll_eval n p L' xs (Some cs)) by auto.
    rewrite (nll_eval n p L' _ None); [|auto|intros x I; apply X; eapply expand_in; eauto|unfold good_counts; simpl; apply repeat_length].
    rewrite (counts_of_expand (fun x => ln (g n p x)) xs (Some cs)). reflexivity.
  - intros bad B. unfold nll. rewrite ok, xb_nat by (auto; intros x I; simpl; apply le_INR; auto). rewrite ints_nat. cbn [cnot negb cif].
    apply counts_bad. destruct B as [B|B]; [left; unfold vNs; rewrite map_length; auto|right; auto].
Qed.
(** Estimation. *)
Lemma mean_f (f : nat -> R) xs cs : good_counts xs cs -> 0 < wtot xs (counts_for xs cs) ->
  M_basic.mean (map (fun x => Fin (f x)) xs) (vcounts cs) = Fin (wsum f xs (counts_for xs cs) / wtot xs (counts_for xs cs)).
Proof.
  intros G P. destruct cs as [c|]; simpl in *.
  - unfold M_basic.mean. unfold good_counts in G. simpl in G. unfold vNs at 1. rewrite !map_length, G, Nat.eqb_refl. cbn [negb].
    assert (E : vfsum (vNs c) = Fin (wtot xs c)).
    { rewrite vN_R, vfsum_Fin. rewrite wtot_sum by auto. reflexivity. }
    rewrite E.
    assert (vfsum (map (fun '(t, w) => vmul t w) (combine (map (fun x => Fin (f x)) xs) (vNs c))) = Fin (wsum f xs c)) as ->.
    { clear. unfold wsum. revert c. induction xs as [|x xs IH]; intros [|c cs]; try reflexivity. simpl combine. cbn [map vfsum]. rewrite IH.
      simpl. f_equal. unfold sum. simpl. rewrite (Rmult_comm (f x)). reflexivity. }
    unfold ceq, cmp, eqb. rewrite Reqb_false by lra. simpl. rewrite Reqb_false by lra. reflexivity.
  - unfold M_basic.mean. rewrite (vfsum_map _ f) by auto. unfold vlen. rewrite !map_length.
    rewrite wtot_len, expand_ones in *. rewrite vdiv_Fin by lra. rewrite wsum_expand, expand_ones. reflexivity.
Qed.
Lemma vfsum_Exc {A} (f : A -> val) l a e : In a l -> f a = Exc e -> exists e', vfsum (map f l) = Exc e'.
Proof.
  induction l as [|b l IH]; intros I E; [destruct I|]. cbn [map vfsum]. destruct I as [->|I].
  - rewrite E. simpl. eauto.
  - destruct (IH I E) as [e' ->]. destruct (f b) as [r| | | |e0]; simpl; eauto.
Qed.
Lemma mean_Exc (f : nat -> val) xs cs x e : good_counts xs cs -> In x xs -> f x = Exc e -> exists e', M_basic.mean (map f xs) (vcounts cs) = Exc e'.
Proof.
  intros G I E. destruct cs as [c|]; simpl in *.
  - unfold M_basic.mean. unfold good_counts in G. simpl in G. unfold vNs at 1. rewrite !map_length, G, Nat.eqb_refl. cbn [negb].
    rewrite vN_R, vfsum_Fin. unfold ceq, cmp, eqb. destruct (Reqb_spec (rsum (map INR c)) 0) as [[H ->]|[H ->]]; simpl; eauto.
    rewrite <- vN_R.
    enough (exists e', vfsum (map (fun '(t, w) => vmul t w) (combine (map f xs) (vNs c))) = Exc e') as [e' ->] by (simpl; eauto).
    revert c G H. clear - I E. induction xs as [|b xs IH]; intros [|c cs] G H; try discriminate; [destruct I|]. simpl combine. cbn [map vfsum].
    destruct I as [->|I].
    + rewrite E. simpl. eauto.
    + destruct (Req_dec (rsum (map INR cs)) 0).
      * assert (forall xs cs, In x xs -> length cs = length xs -> exists e', vfsum (map (fun '(t, w) => vmul t w) (combine (map f xs) (vNs cs))) = Exc e') as Q.
        { clear - E. induction xs as [|b xs IH]; intros [|c cs] I G; try discriminate; [destruct I|]. simpl combine. cbn [map vfsum]. destruct I as [->|I].
          - rewrite E. simpl. eauto.
          - destruct (IH cs I) as [e' ->]; [simpl in G; lia|]. destruct (vmul (f b) (vN c)); simpl; eauto. }
        destruct (Q xs cs I) as [e' ->]; [simpl in G; lia|]. destruct (vmul (f b) (vN c)); simpl; eauto.
      * destruct (IH I cs) as [e' ->]; [simpl in G; lia|auto|]. destruct (vmul (f b) (vN c)); simpl; eauto.
  - unfold M_basic.mean. destruct (vfsum_Exc f xs x e I E) as [e' ->]. simpl. eauto.
Qed.

(** Sums of reciprocals: digamma(t+1) - digamma(t-x+1). *)
Definition h (t : R) (x : nat) : R := nsum (fun j => / (t - INR j)) x.
Lemma digamma_h t x : INR x < t + 1 -> digamma (t + 1) - digamma (t - INR x + 1) = h t x.
Proof.
  unfold h. induction x as [|x IH]; intros H; [simpl; rewrite Rminus_0_r; ring|]. cbn [nsum]. rewrite S_INR in *. rewrite <- IH by lra.
  pose proof (digamma_succ (t - INR x) ltac:(lra)). replace (t - (INR x + 1) + 1) with (t - INR x) by ring. lra.
Qed.
Lemma h_mono t u x : INR x < t + 1 -> t <= u -> h u x <= h t x.
Proof.
  unfold h. induction x as [|x IH]; intros H L; cbn [nsum]; [lra|]. rewrite S_INR in H. specialize (IH ltac:(lra) L).
  assert (/ (u - INR x) <= / (t - INR x)) by (apply Rinv_le_contravar; lra). lra.
Qed.
Lemma ln_step u : 0 < u -> / (u + 1) <= ln (u + 1) - ln u <= / u.
Proof.
  intros U. pose proof (exp_ineq1_le (ln (u + 1) - ln u)) as A. pose proof (exp_ineq1_le (ln u - ln (u + 1))) as B.
  rewrite exp_minus, !exp_ln in A, B by lra. assert ((u + 1) / u = 1 + / u) by (field; lra). assert (u / (u + 1) = 1 - / (u + 1)) by (field; lra). lra.
Qed.
Lemma choose_step m x : (x <= m)%nat -> h (INR m + 1) x <= ln (INR (choose (S m) x)) - ln (INR (choose m x)) <= h (INR m) x.
Proof.
  intros X. assert (E : ln (INR (choose (S m) x)) - ln (INR (choose m x)) = nsum (fun j => ln (INR m + 1 - INR j) - ln (INR m - INR j)) x).
  { induction x as [|x IH].
    - rewrite !choose_0. simpl. ring.
    - cbn [nsum]. rewrite <- IH by lia. assert (forall M, (S x <= M)%nat -> ln (INR (choose M (S x))) = ln (INR (choose M x)) + ln (INR M - INR x) - ln (INR (S x))) as Q.
      { intros M L. pose proof (choose_ratio M x ltac:(lia)) as A. apply (f_equal INR) in A. rewrite !mult_INR, minus_INR in A by lia.
        pose proof (choose_pos M x ltac:(lia)) as p1. pose proof (choose_pos M (S x) L) as p2. apply lt_0_INR in p1, p2. assert (0 < INR (S x)) by (apply lt_0_INR; lia).
        assert (0 < INR M - INR x) by (rewrite <- minus_INR by lia; apply lt_0_INR; lia). apply (f_equal ln) in A. rewrite !ln_mult in A by auto. lra. }
      rewrite !Q by lia. rewrite S_INR. ring. }
  rewrite E. unfold h. assert (x <= m)%nat by auto. clear E. induction x as [|x IH]; [simpl; lra|]. cbn [nsum]. specialize (IH ltac:(lia) ltac:(lia)).
  assert (0 < INR m - INR x) by (rewrite <- minus_INR by lia; apply lt_0_INR; lia). pose proof (ln_step (INR m - INR x) ltac:(auto)) as L.
  replace (INR m - INR x + 1) with (INR m + 1 - INR x) in L by ring. lra.
Qed.
Lemma wsum_mono f f' xs cs : (forall x, In x xs -> f x <= f' x) -> wsum f xs cs <= wsum f' xs cs.
Proof.
  intros H. assert (0 <= wsum (fun x => f' x + -1 * f x) xs cs) as Q by (apply wsum_nonneg; intros x X; specialize (H x X); lra).
  rewrite wsum_plus, wsum_scal in Q. lra.
Qed.

(** nll as a function of n. *)
Section N.
Variables (p : R) (xs : list nat) (cs : option (list nat)) (K : nat).
Hypothesis P : 0 < p < 1.
Hypothesis G : good_counts xs cs.
Hypothesis W : 0 < wtot xs (counts_for xs cs).
Hypothesis XK : forall x, In x xs -> (x <= K)%nat.
Let c := counts_for xs cs.
Definition Fn (m : nat) : R := - wsum (fun x => ln (g m p x)) xs c.
Lemma ln_g m x : (x <= m)%nat -> ln (g m p x) = ln (INR (choose m x)) + INR x * ln p + INR (m - x) * ln (1 - p).
Proof.
  intros I. assert (0 < INR (choose m x)) by (apply lt_0_INR; apply choose_pos; auto).
  unfold g. rewrite !ln_mult; try (apply pow_lt; lra); auto; [|apply Rmult_lt_0_compat; auto; apply pow_lt; lra].
  rewrite <- !Rpower_INR by lra. unfold Rpower. rewrite !ln_exp. ring.
Qed.
Lemma F_step m : (K <= m)%nat -> wsum (h (INR m + 1)) xs c + ln (1 - p) * wtot xs c <= Fn m - Fn (S m) <= wsum (h (INR m)) xs c + ln (1 - p) * wtot xs c.
Proof.
  intros M. unfold Fn. rewrite (wsum_ext (fun x => ln (g (S m) p x)) (fun x => ln (g m p x) + ((ln (INR (choose (S m) x)) - ln (INR (choose m x))) + ln (1 - p)))).
  - rewrite !wsum_plus, wsum_const.
    pose proof (wsum_mono (h (INR m + 1)) (fun x => ln (INR (choose (S m) x)) - ln (INR (choose m x))) xs c) as A.
    pose proof (wsum_mono (fun x => ln (INR (choose (S m) x)) - ln (INR (choose m x))) (h (INR m)) xs c) as B.
    lapply A; [|intros x X; apply choose_step; specialize (XK x X); lia]. lapply B; [|intros x X; apply choose_step; specialize (XK x X); lia].
    intros. lra.
  - intros x X. specialize (XK x X). rewrite !ln_g by lia. replace (S m - x)%nat with (S (m - x)) by lia. rewrite S_INR. ring.
Qed.
Lemma up t m m' : INR K < t + 1 -> wsum (h t) xs c + ln (1 - p) * wtot xs c <= 0 -> t <= INR m -> (K <= m <= m')%nat -> Fn m <= Fn m'.
Proof.
  intros T E L [A B]. induction B as [|m' B IH]; [lra|]. destruct (F_step m' ltac:(lia)) as [_ S].
  assert (wsum (h (INR m')) xs c <= wsum (h t) xs c); [|lra]. apply wsum_mono. intros x X. specialize (XK x X). apply le_INR in XK, B. apply h_mono; lra.
Qed.
Lemma down t m m' : INR K < t + 1 -> 0 <= wsum (h t) xs c + ln (1 - p) * wtot xs c -> INR m' <= t -> (K <= m <= m')%nat -> Fn m' <= Fn m.
Proof.
  intros T E L [A B]. induction B as [|m' B IH]; [lra|]. rewrite S_INR in L. specialize (IH ltac:(lra)). destruct (F_step m' ltac:(lia)) as [S _].
  assert (wsum (h t) xs c <= wsum (h (INR m' + 1)) xs c); [|lra]. apply wsum_mono. intros x X. specialize (XK x X). assert (x <= m')%nat by lia. apply le_INR in H. apply h_mono; lra.
Qed.
Lemma F_nll m : (K <= m)%nat -> nll (vNs xs) (Fin (INR m)) (Fin p) (vcounts cs) = Fin (Fn m).
Proof. intros M. apply nll_eval; auto; [lra|]. intros x X. specialize (XK x X). lia. Qed.
End N.

Definition admissible (xs : list nat) (m : nat) : Prop := forall x, In x xs -> (x <= m)%nat.
Lemma maxn xs : xs <> [] -> exists K, vmaxl (vNs xs) = Fin (INR K) /\ In K xs /\ admissible xs K.
Proof.
  intros N. rewrite vN_R. destruct (P_fun.vmaxl_spec (map INR xs)) as [m [E [I L]]]; [destruct xs; [congruence|discriminate]|].
  apply in_map_iff in I. destruct I as [K [<- I]]. exists K. split; auto. split; auto. intros x X. apply INR_le. apply L. apply in_map. auto.
Qed.
Lemma head_ok xs cs K (k : val -> option (list val) -> res (val * val)) : vmaxl (vNs xs) = Fin (INR K) -> good_counts xs cs ->
  mle_head (vNs xs) (vcounts cs) k = k (Fin (INR K)) (vcounts cs).
Proof.
  intros E G. unfold mle_head. rewrite vint_eq_nat. cbn [cif]. rewrite xb_nat by (intros; simpl; auto). rewrite E. cbn [bindv].
  rewrite (counts_pass _ xs) by (auto; unfold vNs; apply map_length). destruct cs; reflexivity.
Qed.
Lemma thr_ok xs K : xs <> [] -> vmaxl (vNs xs) = Fin (INR K) -> admissible xs K ->
  p_threshold (vNs xs) = Fin (1 - exp (- (wsum (h (INR K)) xs (counts_for xs None) / wtot xs (counts_for xs None)))).
Proof.
  intros N E A. unfold p_threshold. rewrite E. cbn [bindv].
  assert (EE : map (fun ki => vsub (vdigamma (vadd (Fin (INR K)) (Fin 1))) (vdigamma (vadd (vsub (Fin (INR K)) ki) (Fin 1)))) (vNs xs) = map (fun x => Fin (h (INR K) x)) xs).
  { unfold vNs. rewrite map_map. apply map_ext_in. intros x X. pose proof (A x X) as L. apply le_INR in L. pose proof (pos_INR x).
    unfold vN. cbn [vsub vadd vneg vdigamma]. rewrite !Rltb_true by lra. cbn [vsub vadd vneg]. f_equal. apply (digamma_h (INR K) x). lra. }
  rewrite EE. change (@None (list val)) with (vcounts None).
  assert (0 < wtot xs (counts_for xs None)).
  { rewrite wtot_len. simpl. rewrite expand_ones. apply lt_0_INR. destruct xs; [congruence|simpl; lia]. }
  rewrite mean_f; auto; [|apply repeat_length]. cbn [vneg vexpm1]. f_equal. ring.
Qed.
Lemma eqn_ok xs cs t : good_counts xs cs -> 0 < wtot xs (counts_for xs cs) -> (forall x, In x xs -> INR x < t + 1) -> 0 < t + 1 -> forall q, 0 < 1 + - q ->
  vadd (vadd (vneg (M_basic.mean (map (fun xi => vdigamma (vadd (vsub (Fin t) xi) (Fin 1))) (vNs xs)) (vcounts cs))) (vdigamma (vadd (Fin t) (Fin 1)))) (vlog1p (vneg (Fin q)))
  = Fin (wsum (h t) xs (counts_for xs cs) / wtot xs (counts_for xs cs) + ln (1 - q)).
Proof.
  intros G W X T q Q.
  assert (EE : map (fun xi => vdigamma (vadd (vsub (Fin t) xi) (Fin 1))) (vNs xs) = map (fun x => Fin (digamma (t - INR x + 1))) xs).
  { unfold vNs. rewrite map_map. apply map_ext_in. intros x I. specialize (X x I). unfold vN. cbn [vsub vadd vneg vdigamma]. rewrite Rltb_true by lra. reflexivity. }
  rewrite EE, mean_f by auto. unfold vlog1p. cbn [vadd vdigamma vneg]. rewrite Rltb_true, vlog_Fin by lra. cbn [vadd]. f_equal.
  rewrite (wsum_ext (h t) (fun x => digamma (t + 1) + -1 * digamma (t - INR x + 1))) by (intros x I; rewrite <- digamma_h by auto; ring).
  rewrite wsum_plus, wsum_scal, wsum_const. replace (1 + - q) with (1 - q) by ring. field. lra.
Qed.
Lemma eqn_dom xs cs t x q : good_counts xs cs -> In x xs -> t + 1 <= INR x -> exists e,
  vadd (vadd (vneg (M_basic.mean (map (fun xi => vdigamma (vadd (vsub (Fin t) xi) (Fin 1))) (vNs xs)) (vcounts cs))) (vdigamma (vadd (Fin t) (Fin 1)))) (vlog1p (vneg (Fin q))) = Exc e.
Proof.
  intros G I L. unfold vNs. rewrite map_map. destruct (mean_Exc (fun x => vdigamma (vadd (vsub (Fin t) (vN x)) (Fin 1))) xs cs x NonReal G I) as [e ->].
  - unfold vN. cbn [vsub vadd vneg vdigamma]. rewrite Rltb_false by lra. reflexivity.
  - simpl. eauto.
Qed.
Lemma mle_p (findroot : (val -> val) -> val -> val) (xs : list nat) (cs : option (list nat)) (p : R) (nhat phat : val) :
  0 < p < 1 -> good_counts xs cs -> expand xs (counts_for xs cs) <> [] ->
  (forall f x0, (exists e, findroot f x0 = Exc e) \/ (exists r, findroot f x0 = Fin r /\ f (Fin r) = Fin 0)) ->
  (cs = None \/ exists pt, p_threshold (vNs xs) = Fin pt /\ p < pt) ->
  mle_fixed_p findroot (vNs xs) (vcounts cs) (Fin p) = Ok (nhat, phat) ->
  phat = Fin p /\ exists m : nat, nhat = Fin (INR m) /\ minimises (fun k => forall x, In x xs -> (x <= k)%nat) (fun k => nll (vNs xs) (Fin (INR k)) (Fin p) (vcounts cs)) m.
Proof.
  intros P G NE FR TH R.
  assert (NX : xs <> []) by (intros ->; apply NE; destruct cs as [[|c l]|]; reflexivity).
  assert (W : 0 < wtot xs (counts_for xs cs)) by (rewrite wtot_len; apply lt_0_INR; destruct (expand xs (counts_for xs cs)); [congruence|simpl; lia]).
  destruct (maxn xs NX) as [K [EK [IK AK]]].
  assert (MIN : forall m, (K <= m)%nat -> (forall m', (K <= m')%nat -> Fn p xs cs m <= Fn p xs cs m') ->
    minimises (fun k => forall x, In x xs -> (x <= k)%nat) (fun k => nll (vNs xs) (Fin (INR k)) (Fin p) (vcounts cs)) m).
  { intros m M L. split; [intros x X; specialize (AK x X); lia|]. exists (Fn p xs cs m). split; [apply (F_nll p xs cs K); auto|].
    intros k KK. specialize (KK K IK). exists (Fn p xs cs k). split; [apply (F_nll p xs cs K); auto|auto]. }
  unfold mle_fixed_p in R. rewrite (head_ok xs cs K) in R by auto.
  assert (VN : forall (k : res (val * val)), validate_np (Fin 1) (Fin p) k = k) by (intros k; apply (ok 1 p ltac:(lra) k)).
  rewrite VN in R. rewrite (thr_ok xs K) in R by auto. cbn [bindv] in R.
  set (d := wsum (h (INR K)) xs (counts_for xs None) / wtot xs (counts_for xs None)) in *.
  change (cge (Fin p) (Fin (1 - exp (- d)))) with (CB (Rleb (1 - exp (- d)) p)) in R. destruct (Rleb_spec (1 - exp (- d)) p) as [[L Lb]|[L Lb]]; rewrite Lb in R; cbn [cif] in R.
  - destruct TH as [->|[pt [TP Tl]]]; [|assert (TQ : Fin pt = Fin (1 - exp (- d))) by (rewrite <- TP; apply (thr_ok xs K); auto); clearbody d; injection TQ as TQ; lra].
    rewrite vint_INR in R. cbn [bindv] in R. injection R as <- <-. split; auto. exists K. split; auto. apply MIN; auto.
    intros m' M. apply (up p xs None K P AK (INR K)); auto; try lra; try lia.
    set (c := counts_for xs None) in *. assert (ln (1 - p) <= - d) by (rewrite <- (ln_exp (- d)); apply ln_le; lra).
    assert (E : wsum (h (INR K)) xs c = d * wtot xs c) by (unfold d; field; lra). rewrite E. nra.
  - match type of R with context [findroot ?f ?x] => destruct (FR f x) as [[e FE]|[r [FE ZE]]] end; rewrite FE in R; cbn [bindv] in R; [discriminate|].
    assert (DOM : forall x, In x xs -> INR x < r + 1).
    { intros x X. destruct (Rlt_le_dec (INR x) (r + 1)) as [Q|Q]; auto. exfalso. destruct (eqn_dom xs cs r x p G X Q) as [e E]. rewrite E in ZE. discriminate. }
    assert (RK := DOM K IK). pose proof (pos_INR K).
    assert (Z : wsum (h r) xs (counts_for xs cs) + ln (1 - p) * wtot xs (counts_for xs cs) = 0).
    { rewrite eqn_ok in ZE by (auto; lra). injection ZE as ZE. apply (Rmult_eq_reg_r (/ wtot xs (counts_for xs cs))); [|apply Rinv_neq_0_compat; lra].
      rewrite Rmult_0_l, <- ZE. field. lra. }
    change (clt (Fin r) (Fin (INR K))) with (CB (Rltb r (INR K))) in R. destruct (Rltb_spec r (INR K)) as [[Q Qb]|[Q Qb]]; rewrite Qb in R; cbn [cif] in R.
    { rewrite vint_INR in R. cbn [bindv] in R. injection R as <- <-. split; auto. exists K. split; auto. apply MIN; auto. intros m' M. apply (up p xs cs K P AK r); auto; lra. }
    assert (NR : vint (Fin r) = Fin (IZR (Int_part r))) by (unfold vint; rewrite Rltb_false by lra; reflexivity).
    assert (NRN : (Z.of_nat K <= Int_part r)%Z).
    { destruct (base_Int_part r) as [B1 B2]. assert (Z.of_nat K < Int_part r + 1)%Z; [|lia]. apply lt_IZR. rewrite plus_IZR, <- INR_IZR_INZ. lra. }
    set (m := Z.to_nat (Int_part r)). assert (EM : IZR (Int_part r) = INR m) by (unfold m; rewrite INR_IZR_INZ, Z2Nat.id by lia; reflexivity).
    assert (KM : (K <= m)%nat) by (unfold m; lia). destruct (base_Int_part r) as [B1 B2]. rewrite EM in B1, B2.
    rewrite NR, EM in R. change (ceq (Fin (INR m)) (Fin r)) with (CB (Reqb (INR m) r)) in R. destruct (Reqb_spec (INR m) r) as [[V Vb]|[V Vb]]; rewrite Vb in R; cbn [cif bindv] in R.
    { injection R as <- <-. split; auto. exists m. split; auto. apply MIN; auto. intros m' M. destruct (Nat.le_gt_cases m m').
      - apply (up p xs cs K P AK r); auto; lra.
      - apply (down p xs cs K P AK r); auto; try lra; try lia. }
    assert (VF : vint (vfloor (Fin r)) = Fin (INR m)) by (unfold vfloor; rewrite EM; apply vint_INR). rewrite VF in R. rewrite add1_INR in R.
    rewrite !(F_nll p xs cs K P G AK) in R by lia. cbn [bindv] in R.
    assert (DN : forall m', (K <= m' <= m)%nat -> Fn p xs cs m <= Fn p xs cs m') by (intros m' M; apply (down p xs cs K P AK r); auto; lra).
    assert (UP : forall m', (S m <= m')%nat -> Fn p xs cs (S m) <= Fn p xs cs m') by (intros m' M; apply (up p xs cs K P AK r); auto; try lra; try lia; rewrite S_INR; lra).
    unfold cle, cmp, leb in R. destruct (Rleb_spec (Fn p xs cs m) (Fn p xs cs (S m))) as [[U Ub]|[U Ub]]; rewrite Ub in R; cbn [cif] in R; injection R as <- <-; (split; [auto|]).
    + exists m. split; auto. apply MIN; auto. intros m' M. destruct (Nat.le_gt_cases m' m); [apply DN; lia|]. apply Rle_trans with (Fn p xs cs (S m)); auto.
    + exists (S m). split; auto. apply MIN; [lia|]. intros m' M. destruct (Nat.le_gt_cases m' m); [|apply UP; lia]. apply Rle_trans with (Fn p xs cs m); [lra|apply DN; lia].
Qed.

Lemma mle_n (xs : list nat) (cs : option (list nat)) (n : nat) : good_counts xs cs -> (forall x, In x xs -> (x <= n)%nat) ->
  0 < sum (map INR (expand xs (counts_for xs cs))) < INR n * INR (length (expand xs (counts_for xs cs))) ->
  exists p, mle_fixed_n (vNs xs) (vcounts cs) (Fin (INR n)) = Ok (Fin (INR n), Fin p) /\
    minimises (fun q => 0 < q < 1) (fun q => nll (vNs xs) (Fin (INR n)) (Fin q) (vcounts cs)) p.
Proof.
  intros G X [S1 S2]. rewrite <- wsum_expand, <- wtot_len in *. set (c := counts_for xs cs) in *.
  pose proof (pos_INR n) as Hn. assert (W : 0 < wtot xs c). { rewrite wtot_len in *. pose proof (pos_INR (length (expand xs c))). nra. }
  assert (NN : 0 < INR n) by nra.
  set (m := wsum INR xs c / wtot xs c). assert (M : 0 < m < INR n).
  { unfold m. split; [apply Rdiv_lt_0_compat; auto|]. apply Rlt_div_l; auto. }
  exists (m / INR n). assert (Q : 0 < m / INR n < 1) by (split; [apply Rdiv_lt_0_compat; lra|apply Rlt_div_l; lra]). split.
  - destruct xs as [|x0 xs']; [unfold wsum in S1; simpl in S1; unfold sum in S1; destruct c; simpl in S1; lra|].
    destruct (maxn (x0 :: xs') ltac:(discriminate)) as [K [EK [IK AK]]]. set (xs := x0 :: xs') in *.
    unfold mle_fixed_n. rewrite (head_ok xs cs K) by auto.
    assert (cgt (Fin (INR K)) (Fin (INR n)) = CB false) as ->.
    { unfold cgt, cmp, ltb. rewrite Rltb_false; auto. apply le_INR. auto. }
    cbn [cif]. rewrite (ok n (1 / 2) ltac:(lra)). rewrite mean_counts by auto. cbn [bindv]. fold c. fold m. rewrite vdiv_Fin by lra. cbn [bindv]. rewrite vint_INR. reflexivity.
  - assert (V : forall q, 0 < q < 1 -> nll (vNs xs) (Fin (INR n)) (Fin q) (vcounts cs) = Fin (- wsum (fun x => ln (INR (choose n x))) xs c - wtot xs c * (m * ln q + (INR n - m) * ln (1 - q)))).
    { intros q Hq. rewrite nll_eval by (auto; lra). f_equal. fold c.
      rewrite (wsum_ext _ (fun x => ln (INR (choose n x)) + (ln q * INR x + (INR n * ln (1 - q) + - ln (1 - q) * INR x)))).
      - rewrite !wsum_plus, !wsum_scal, wsum_const. unfold m. field. lra.
      - intros x I. rewrite ln_g by auto. rewrite minus_INR by auto. ring. }
    split; [exact Q|]. eexists. split; [apply V; exact Q|]. intros q Hq. eexists. split; [apply V; exact Hq|].
    set (r := m / INR n) in *. assert (ME : m = r * INR n) by (unfold r; field; lra).
    apply Rplus_le_compat_l. apply Ropp_le_contravar. apply Rmult_le_compat_l; [lra|].
    assert (LL : forall a b, 0 < a -> 0 < b -> ln a - ln b <= a / b - 1).
    { intros a b A B. pose proof (exp_ineq1_le (ln a - ln b)) as E. rewrite exp_minus, !exp_ln in E by auto. lra. }
    pose proof (LL q r ltac:(lra) ltac:(lra)) as L1. pose proof (LL (1 - q) (1 - r) ltac:(lra) ltac:(lra)) as L2.
    rewrite ME. replace (INR n - r * INR n) with ((1 - r) * INR n) by ring.
    assert (r * (ln q - ln r) <= q - r). { apply Rle_trans with (r * (q / r - 1)); [apply Rmult_le_compat_l; lra|]. right. field. lra. }
    assert ((1 - r) * (ln (1 - q) - ln (1 - r)) <= (1 - q) - (1 - r)). { apply Rle_trans with ((1 - r) * ((1 - q) / (1 - r) - 1)); [apply Rmult_le_compat_l; lra|]. right. field. lra. }
    assert (INR n * (r * (ln q - ln r) + (1 - r) * (ln (1 - q) - ln (1 - r))) <= INR n * 0) by (apply Rmult_le_compat_l; lra). nra.
Qed.

(** What the code gets wrong. *)
Lemma logpmf_nan (n : nat) : pmf (Fin 0) (Fin (INR n)) (Fin 0) = Fin 1 /\ logpmf (Fin 0) (Fin (INR n)) (Fin 0) = NaN /\
  pmf (Fin (INR n)) (Fin (INR n)) (Fin 1) = Fin 1 /\ logpmf (Fin (INR n)) (Fin (INR n)) (Fin 1) = NaN.
Proof.
  assert (P0 : 0 <= 0 <= 1) by lra. assert (P1 : 0 <= 1 <= 1) by lra. split; [|split; [|split]].
  - change (Fin 0) with (Fin (INR 0)) at 1. rewrite (pmf_nat n 0 P0) by lia. rewrite g_0 by auto. reflexivity.
  - unfold logpmf. rewrite ok by auto. change (logbinomial vloggamma (Fin (INR n)) (Fin 0)) with (logbinomial vloggamma (Fin (INR n)) (Fin (INR 0))). rewrite lb_choose by lia.
    rewrite vlog_0. cbn [vmul]. rewrite scale_inf_0. unfold vlog1p, vfsum. cbn [vadd vneg]. rewrite (vlog_Fin (1 + - 0)) by lra. reflexivity.
  - rewrite (pmf_nat n 1 P1) by lia. rewrite g_1, Nat.eqb_refl by auto. reflexivity.
  - unfold logpmf. rewrite ok by auto. rewrite lb_choose by lia. rewrite vlog_Fin by lra. rewrite ln_1. cbn [vmul vadd]. unfold vlog1p, vfsum. cbn [vadd vneg].
    rewrite (vlog_0' (1 + - (1))) by lra. cbn [vmul]. rewrite scale_inf_0' by lra. reflexivity.
Qed.
Lemma pmf_outside_raises (n k : nat) : pmf (Fin (- INR (S k))) (Fin (INR n)) (Fin 0) = Exc ZeroDivisionError /\
  pmf (Fin (INR (n + S k))) (Fin (INR n)) (Fin 1) = Exc ZeroDivisionError.
Proof.
  assert (V : forall k, vpow (Fin 0) (Fin (- INR (S k))) = Exc ZeroDivisionError).
  { intros j. unfold vpow. assert (0 < INR (S j)) by (apply lt_0_INR; lia). rewrite Rltb_false, Reqb_true, Reqb_false, Rltb_false by lra.
    replace (2 * - INR (S j)) with (IZR (- (2 * Z.of_nat (S j)))) by (rewrite opp_IZR, mult_IZR, <- INR_IZR_INZ; ring). rewrite is_intb_IZR. reflexivity. }
  split; unfold pmf; rewrite ok by lra.
  - replace (- INR (S k)) with (IZR (- Z.of_nat (S k))) at 1 by (rewrite opp_IZR, <- INR_IZR_INZ; reflexivity). rewrite vbinomial_nat.
    rewrite V. reflexivity.
  - rewrite vbinomial_choose. cbn [vsub vadd vneg]. replace (INR n + - INR (n + S k)) with (- INR (S k)) by (rewrite plus_INR; ring). replace (1 + - (1)) with 0 by ring. rewrite V.
    rewrite vpow_Fin by lra. reflexivity.
Qed.
Lemma mle_counts_wrong (findroot : (val -> val) -> val -> val) :
  mle_fixed_p findroot (vNs [0; 1]%nat) (Some (vNs [0; 1]%nat)) (Fin (9/20)) = Ok (Fin 1, Fin (9/20)) /\
  exists a b, nll (vNs [0; 1]%nat) (Fin 2) (Fin (9/20)) (Some (vNs [0; 1]%nat)) = Fin a /\
    nll (vNs [0; 1]%nat) (Fin 1) (Fin (9/20)) (Some (vNs [0; 1]%nat)) = Fin b /\ a < b.
Proof.
  set (xs := [0; 1]%nat). assert (A1 : admissible xs 1) by (intros x [<-|[<-|[]]]; lia).
  assert (EK : vmaxl (vNs xs) = Fin (INR 1)). { unfold xs, vNs, vN; simpl. unfold vmax2, cgt, cmp, ltb. rewrite Rltb_true by lra. reflexivity. }
  assert (G : good_counts xs (Some xs)) by reflexivity. split.
  - change (Some (vNs xs)) with (vcounts (Some xs)). unfold mle_fixed_p. rewrite (head_ok xs (Some xs) 1) by auto.
    change (Fin 1) with (Fin (INR 1)). rewrite (ok 1 (9/20) ltac:(lra)). rewrite (thr_ok xs 1) by (auto; discriminate). cbn [bindv].
    assert (E : wsum (h (INR 1)) xs (counts_for xs None) / wtot xs (counts_for xs None) = 1 / 2).
    { unfold wtot, wsum, h, xs, sum. simpl. field. }
    rewrite E. assert (1 - exp (- (1 / 2)) <= 9 / 20).
    { assert (exp (1/2) * exp (1/2) <= 3). { rewrite <- exp_plus. replace (1/2 + 1/2) with 1 by field. apply exp_le_3. }
      pose proof (exp_pos (1/2)). assert (exp (1/2) <= 20/11) by nra. rewrite exp_Ropp.
      assert (/ (20/11) <= / exp (1/2)) by (apply Rinv_le_contravar; lra). lra. }
    change (cge (Fin (9/20)) (Fin (1 - exp (- (1 / 2))))) with (CB (Rleb (1 - exp (- (1/2))) (9/20))). rewrite Rleb_true by auto. cbn [cif]. rewrite vint_INR. reflexivity.
  - exists (Fn (9/20) xs (Some xs) 2), (Fn (9/20) xs (Some xs) 1). assert (P : 0 < 9/20 < 1) by lra. 
    pose proof (F_nll (9/20) xs (Some xs) 1 P G A1) as FE. pose proof (FE 2%nat ltac:(lia)) as F2. pose proof (FE 1%nat ltac:(lia)) as F1.
    split; [exact F2|]. split; [exact F1|]. unfold Fn, wsum, xs, sum. simpl. unfold g. simpl.
    assert (ln ((1 + 1) * (9 / 20 * 1) * ((1 - 9 / 20) * 1)) > ln (1 * (9 / 20 * 1) * 1)); [|lra].
    apply ln_increasing; lra.
Qed.
Lemma mle_p_case : mle_fixed_p (fun _ _ => Exc RuntimeError) (vNs [1; 1]%nat) None (Fin (3/4)) = Ok (Fin 1, Fin (3/4)).
Proof.
  set (xs := [1; 1]%nat). assert (A1 : admissible xs 1) by (intros x [<-|[<-|[]]]; lia).
  assert (EK : vmaxl (vNs xs) = Fin (INR 1)). { unfold xs, vNs, vN; simpl. unfold vmax2, cgt, cmp, ltb. rewrite Rltb_false by lra. reflexivity. }
  change (@None (list val)) with (vcounts None). unfold mle_fixed_p. rewrite (head_ok xs None 1) by (auto; reflexivity).
  change (Fin 1) with (Fin (INR 1)). rewrite (ok 1 (3/4) ltac:(lra)). rewrite (thr_ok xs 1) by (auto; discriminate). cbn [bindv].
  assert (E : wsum (h (INR 1)) xs (counts_for xs None) / wtot xs (counts_for xs None) = 1).
  { unfold wtot, wsum, h, xs, sum. simpl. field. }
  rewrite E. assert (1 - exp (- (1)) <= 3 / 4).
  { pose proof exp_le_3. pose proof (exp_pos 1). rewrite exp_Ropp. assert (/ 3 <= / exp 1) by (apply Rinv_le_contravar; lra). lra. }
  change (cge (Fin (3/4)) (Fin (1 - exp (- (1))))) with (CB (Rleb (1 - exp (- (1))) (3/4))). rewrite Rleb_true by auto. cbn [cif]. rewrite vint_INR. reflexivity.
Qed.
(** Invalid parameters. *)
Lemma bad_params (n p : val) : isnum n -> (exists r, p = Fin r /\ (r < 0 \/ 1 < r)) \/ (exists q r, p = Fin q /\ 0 <= q <= 1 /\ n = Fin r /\ (r < 0 \/ r <> IZR (Int_part r))) ->
  support n p = Err ValueError /\
  always_ValueError [(fun x => pmf x n p); (fun x => logpmf x n p); (fun x => cdf_incbeta x n p); (fun x => sf_incbeta x n p); (fun x => cdf_sumpmf x n p); (fun x => sf_sumpmf x n p)] /\
  mean n p = Exc ValueError /\ mode n p = Exc ValueError /\ var n p = Exc ValueError.
Proof.
  intros N H. assert (B : forall A (HA : CanRaise A) (k : A), validate_np n p k = raise ValueError).
  { intros A HA k. unfold validate_np. destruct H as [[r [-> Hr]]|[q [r [-> [Hq [-> Hr]]]]]].
    - apply vpp_bad; auto.
    - rewrite vp01 by auto. unfold clt, cmp, ltb, cor. destruct (Rltb_spec r 0) as [[R1 ->]|[R1 ->]]; [reflexivity|].
      unfold vint. rewrite Rltb_false by auto. unfold cne, cmp, eqb. rewrite Reqb_false by (destruct Hr; [lra|auto]). reflexivity. }
  unfold mean, mode, var, support. rewrite !B. repeat split; auto. 
  repeat constructor; intros x _; unfold pmf, logpmf, cdf_incbeta, sf_incbeta, cdf_sumpmf, sf_sumpmf; rewrite B; reflexivity.
Qed.
