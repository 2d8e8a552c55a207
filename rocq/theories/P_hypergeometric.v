From Coq Require Import Reals Lra Lia List ZArith Arith Bool.
From Coquelicot Require Import Coquelicot.
From Verif Require Import Values VTac Spec SpecStat SpecDisc LLib XLib PLib SFun GammaLib GammaLib3 M_common M_sfun M_disc M_fun SpecInt BinLib DiscLib IncLib DiscLib2 HgLib P_logb M_hypergeometric.
Import ListNotations.
Local Open Scope R_scope.
Set Bullet Behavior "Strict Subproofs".

(** Narrowing a range to where the terms are non-zero. *)
Lemma narrow_mass pmf a b a' b' : (a' <= a)%Z -> (b <= b')%Z -> (a <= b)%Z -> zero_outside pmf (Range a b) -> mass_function pmf (Range a' b') -> mass_function pmf (Range a b).
Proof.
  intros A B C Z [P S]. split; [intros k K; apply P; simpl in *; lia|]. simpl in *. rewrite <- S. symmetry. apply zsum_widen; auto.
  intros k K. unfold at_int. rewrite Z; [reflexivity|]. simpl. lia.
Qed.
Lemma narrow_moment pmf a b a' b' c n v : (a' <= a)%Z -> (b <= b')%Z -> (a <= b)%Z -> zero_outside pmf (Range a b) -> dmoment pmf (Range a' b') c n v -> dmoment pmf (Range a b) c n v.
Proof.
  intros A B C Z M. unfold dmoment in *. simpl in *. rewrite <- M. symmetry. apply zsum_widen; auto. intros k K. unfold at_int. rewrite Z; [simpl; ring|]. simpl. lia.
Qed.
Lemma narrow_mean pmf a b a' b' v : (a' <= a)%Z -> (b <= b')%Z -> (a <= b)%Z -> zero_outside pmf (Range a b) -> dmean_is pmf (Range a' b') v -> dmean_is pmf (Range a b) v.
Proof. intros A B C Z [r [E M]]. exists r. split; auto. eapply narrow_moment; eauto. Qed.
Lemma narrow_var pmf a b a' b' v : (a' <= a)%Z -> (b <= b')%Z -> (a <= b)%Z -> zero_outside pmf (Range a b) -> dvar_is pmf (Range a' b') v -> dvar_is pmf (Range a b) v.
Proof. intros A B C Z [m [q [M [Q E]]]]. exists m, q. repeat split; auto; eapply narrow_moment; eauto. Qed.

Lemma wide n : sup0 (Some (S n)) = Range 0 (Z.of_nat n + 1). Proof. simpl. f_equal. lia. Qed.
Section P.
Variables (N K n : nat).
Hypotheses (HK : (K <= N)%nat) (Hn : (n <= N)%nat).
Let B := (N - K)%nat.
Let EN : (K + B)%nat = N. Proof. unfold B. lia. Qed.
Let NB : INR N = INR K + INR B. Proof. rewrite <- plus_INR, EN. reflexivity. Qed.
Lemma ok {A} `{CanRaise A} (k : A) : validate (Fin (INR N)) (Fin (INR K)) (Fin (INR n)) k = k.
Proof.
  unfold validate. rewrite !lt0_INR. cbn [cor]. change (cgt (Fin (INR K)) (Fin (INR N))) with (CB (Rltb (INR N) (INR K))). change (cgt (Fin (INR n)) (Fin (INR N))) with (CB (Rltb (INR N) (INR n))).
  rewrite !Rltb_false by (apply le_INR; auto). reflexivity.
Qed.
Definition lo : Z := Z.max 0 (Z.of_nat n - Z.of_nat (N - K)).
Definition hi : Z := Z.min (Z.of_nat n) (Z.of_nat K).
Lemma support_ok : support (Fin (INR N)) (Fin (INR K)) (Fin (INR n)) = Ok (Range lo (hi + 1)).
Proof.
  unfold support. rewrite ok. cbn [vsub vadd vneg]. unfold vmax2, vmin2. replace (INR n + - (INR N + - INR K)) with (IZR (Z.of_nat n - Z.of_nat (N - K))) by (rewrite minus_IZR, <- !INR_IZR_INZ, minus_INR by auto; ring).
  unfold cgt, clt, cmp, ltb. replace 0 with (IZR 0) at 1 by reflexivity.
  assert (E1 : (if Rltb (IZR 0) (IZR (Z.of_nat n - Z.of_nat (N - K))) then Fin (IZR (Z.of_nat n - Z.of_nat (N - K))) else Fin 0) = Fin (IZR lo)).
  { unfold lo. destruct (Rltb_spec (IZR 0) (IZR (Z.of_nat n - Z.of_nat (N - K)))) as [[L ->]|[L ->]]; [apply lt_IZR in L; rewrite Z.max_r by lia|apply le_IZR in L; rewrite Z.max_l by lia]; reflexivity. }
  assert (E2 : (if Rltb (INR K) (INR n) then Fin (INR K) else Fin (INR n)) = Fin (IZR hi)).
  { unfold hi. destruct (Rltb_spec (INR K) (INR n)) as [[L ->]|[L ->]]; [apply INR_lt in L; rewrite Z.min_r by lia|apply INR_le in L; rewrite Z.min_l by lia]; rewrite <- INR_IZR_INZ; reflexivity. }
  cbn [cif]. rewrite E1, E2. cbn [vadd]. replace (IZR hi + 1) with (IZR (hi + 1)) by (rewrite plus_IZR; reflexivity). unfold vrange. rewrite !is_intb_IZR, !Int_part_IZR. reflexivity.
Qed.
Lemma pmf_Z k : pmf (Fin (IZR k)) (Fin (INR N)) (Fin (INR K)) (Fin (INR n)) =
  Fin (if (0 <=? k)%Z && (k <=? Z.of_nat n)%Z then hg K B n (Z.to_nat k) else 0).
Proof.
  unfold pmf. rewrite ok. cbn [vsub vadd vneg].
  pose proof (vbeta_Z N (Z.of_nat (N - n))) as V0. pose proof (vbeta_Z K k) as V1. pose proof (vbeta_Z B (Z.of_nat n - k)) as V2.
  rewrite minus_IZR, <- INR_IZR_INZ in V2. rewrite <- INR_IZR_INZ, minus_INR in V0 by auto.
  replace (INR N + - INR n + 1) with (INR N - INR n + 1) by ring. replace (INR n + 1) with (INR N - (INR N - INR n) + 1) by ring. rewrite V0.
  rewrite Nat2Z.id, choose_sym by auto. replace ((0 <=? Z.of_nat (N - n))%Z && (Z.of_nat (N - n) <=? Z.of_nat N)%Z) with true by (symmetry; apply andb_true_intro; split; apply Z.leb_le; lia).
  replace (INR K + - IZR k + 1) with (INR K - IZR k + 1) by ring. rewrite V1.
  replace (INR n + - IZR k + 1) with (INR n - IZR k + 1) by ring. replace (INR N + - INR K + - INR n + IZR k + 1) with (INR B - (INR n - IZR k) + 1) by (rewrite NB; ring). rewrite V2.
  cbn [vmul]. pose proof (choose_INR_pos N n Hn) as C0. pose proof (pos_INR N). pose proof (pos_INR K). pose proof (pos_INR B).
  replace (INR N + - INR K + 1) with (INR B + 1) by (rewrite NB; ring).
  assert (PK : 0 < (INR K + 1) * (INR B + 1)) by (apply Rmult_lt_0_compat; lra).
  assert (SI : forall c, 0 < c -> scale_inf c PInf = PInf) by (intros c Hc; apply scale_inf_pos; auto).
  destruct ((0 <=? k)%Z && (k <=? Z.of_nat K)%Z) eqn:E1; destruct ((0 <=? Z.of_nat n - k)%Z && (Z.of_nat n - k <=? Z.of_nat B)%Z) eqn:E2.
  - apply andb_prop in E1, E2. destruct E1 as [E1 E1'], E2 as [E2 E2']. apply Z.leb_le in E1, E1', E2, E2'.
    replace ((0 <=? k)%Z && (k <=? Z.of_nat n)%Z) with true by (symmetry; apply andb_true_intro; split; apply Z.leb_le; lia).
    pose proof (choose_INR_pos K (Z.to_nat k) ltac:(lia)) as C1. pose proof (choose_INR_pos B (Z.to_nat (Z.of_nat n - k)) ltac:(lia)) as C2.
    cbn [vmul]. rewrite vdiv_Fin.
    + f_equal. unfold hg. rewrite EN. replace (n - Z.to_nat k)%nat with (Z.to_nat (Z.of_nat n - k)) by lia. field. repeat split; lra.
    + apply Rgt_not_eq. assert (forall x y, 0 < x -> 0 < y -> 0 < / ((x + 1) * y)) as Q by (intros; apply Rinv_0_lt_compat, Rmult_lt_0_compat; lra). repeat apply Rmult_lt_0_compat; try lra; apply Rinv_0_lt_compat, Rmult_lt_0_compat; lra.
  - cbn [vmul]. rewrite SI; [|apply Rmult_lt_0_compat; auto; apply Rinv_0_lt_compat, Rmult_lt_0_compat; [lra|apply choose_INR_pos; apply andb_prop in E1; destruct E1 as [E1 E1']; apply Z.leb_le in E1, E1'; lia]].
    cbn [vdiv]. f_equal. destruct ((0 <=? k)%Z && (k <=? Z.of_nat n)%Z) eqn:E3; auto. apply andb_prop in E1, E3. destruct E1 as [E1 E1'], E3 as [E3 E3']. apply Z.leb_le in E1, E1', E3, E3'.
    unfold hg. rewrite (choose_gt B) by (apply andb_false_iff in E2; destruct E2 as [E2|E2]; apply Z.leb_gt in E2; lia). simpl. unfold Rdiv. ring.
  - cbn [vmul]. rewrite SI by auto. cbn [vmul]. rewrite SI by (apply Rinv_0_lt_compat, Rmult_lt_0_compat; [lra|apply choose_INR_pos; apply andb_prop in E2; destruct E2 as [E2 E2']; apply Z.leb_le in E2, E2'; lia]).
    cbn [vdiv]. f_equal. destruct ((0 <=? k)%Z && (k <=? Z.of_nat n)%Z) eqn:E3; auto. apply andb_prop in E3. destruct E3 as [E3 E3']. apply Z.leb_le in E3, E3'.
    unfold hg. rewrite (choose_gt K) by (apply andb_false_iff in E1; destruct E1 as [E1|E1]; apply Z.leb_gt in E1; lia). simpl. unfold Rdiv. ring.
  - cbn [vmul]. rewrite SI by auto. cbn [vmul vdiv]. f_equal. destruct ((0 <=? k)%Z && (k <=? Z.of_nat n)%Z) eqn:E3; auto. apply andb_prop in E3. destruct E3 as [E3 E3']. apply Z.leb_le in E3, E3'.
    unfold hg. rewrite (choose_gt K) by (apply andb_false_iff in E1; destruct E1 as [E1|E1]; apply Z.leb_gt in E1; lia). simpl. unfold Rdiv. ring.
Qed.
Lemma pmf_nat i : (i <= n)%nat -> pmf (Fin (INR i)) (Fin (INR N)) (Fin (INR K)) (Fin (INR n)) = Fin (hg K B n i).
Proof. intros I. rewrite INR_IZR_INZ, pmf_Z, Nat2Z.id. replace ((0 <=? Z.of_nat i)%Z && (Z.of_nat i <=? Z.of_nat n)%Z) with true by (symmetry; apply andb_true_intro; split; apply Z.leb_le; lia). reflexivity. Qed.
Lemma pmf_in i : DiscLib.below (Some (S n)) i -> pmf (Fin (IZR (Z.of_nat i))) (Fin (INR N)) (Fin (INR K)) (Fin (INR n)) = Fin (hg K B n i).
Proof. simpl. intros I. rewrite <- INR_IZR_INZ. apply pmf_nat. lia. Qed.
Lemma zero_out : zero_outside (fun k => pmf k (Fin (INR N)) (Fin (INR K)) (Fin (INR n))) (Range lo (hi + 1)).
Proof.
  intros k H. simpl in H. unfold lo, hi in H. rewrite pmf_Z. f_equal. destruct ((0 <=? k)%Z && (k <=? Z.of_nat n)%Z) eqn:E3; auto. apply andb_prop in E3. destruct E3 as [E3 E3']. apply Z.leb_le in E3, E3'.
  unfold hg. destruct (Nat.le_gt_cases (Z.to_nat k) K); [rewrite (choose_gt B) by lia|rewrite (choose_gt K) by lia]; simpl; unfold Rdiv; ring.
Qed.
Lemma rng : (0 <= lo)%Z /\ (hi + 1 <= Z.of_nat n + 1)%Z /\ (lo <= hi + 1)%Z. Proof. unfold lo, hi. lia. Qed.
Lemma mass_wide : mass_function (fun k => pmf k (Fin (INR N)) (Fin (INR K)) (Fin (INR n))) (Range 0 (Z.of_nat n + 1)).
Proof. rewrite <- wide. apply (disc_mass (Some (S n)) _ (hg K B n)); [apply pmf_in|intros; apply hg_nonneg; lia|apply hg_mass; lia]. Qed.
Lemma mass_ok : support (Fin (INR N)) (Fin (INR K)) (Fin (INR n)) = Ok (Range (Z.max 0 (Z.of_nat n - Z.of_nat (N - K))) (Z.min (Z.of_nat n) (Z.of_nat K) + 1)) /\
  mass_function (fun k => pmf k (Fin (INR N)) (Fin (INR K)) (Fin (INR n))) (Range (Z.max 0 (Z.of_nat n - Z.of_nat (N - K))) (Z.min (Z.of_nat n) (Z.of_nat K) + 1)) /\
  zero_outside (fun k => pmf k (Fin (INR N)) (Fin (INR K)) (Fin (INR n))) (Range (Z.max 0 (Z.of_nat n - Z.of_nat (N - K))) (Z.min (Z.of_nat n) (Z.of_nat K) + 1)) /\
  (forall i, (i <= n)%nat -> pmf (Fin (INR i)) (Fin (INR N)) (Fin (INR K)) (Fin (INR n)) = Fin (INR (choose K i) * INR (choose (N - K) (n - i)) / INR (choose N n))).
Proof.
  destruct rng as [R1 [R2 R3]]. split; [apply support_ok|]. split; [|split; [apply zero_out|]].
  - apply (narrow_mass _ lo (hi + 1) 0 (Z.of_nat n + 1)); auto; [apply zero_out|apply mass_wide].
  - intros i I. rewrite pmf_nat by auto. unfold hg. rewrite EN. reflexivity.
Qed.
Lemma spmf_ok : support_pmf (Fin (INR N)) (Fin (INR K)) (Fin (INR n)) =
  Ok (Range lo (hi + 1), map (fun k => pmf (Fin (IZR k)) (Fin (INR N)) (Fin (INR K)) (Fin (INR n))) (zrange lo (hi + 1))).
Proof. unfold support_pmf. rewrite support_ok. reflexivity. Qed.
Lemma lg_ok i : (i <= K)%nat -> (i <= n)%nat -> (n - i <= B)%nat -> logpmf (Fin (INR i)) (Fin (INR N)) (Fin (INR K)) (Fin (INR n)) = Fin (ln (hg K B n i)).
Proof.
  intros I J L. unfold logpmf. rewrite ok. assert (INR i <= INR K) by (apply le_INR; auto). assert (INR i <= INR n) by (apply le_INR; auto). assert (INR n <= INR N) by (apply le_INR; auto).
  assert (INR n - INR i <= INR B) by (rewrite <- minus_INR by auto; apply le_INR; auto). pose proof (pos_INR i). pose proof (pos_INR B).
  cbn [vsub vadd vneg]. rewrite !logbeta_fin by lra. rewrite !vlog_Fin by lra. unfold vfsum, fold_right. cbn [vneg vadd]. f_equal.
  replace (INR N + - INR n + 1) with (INR (N - n) + 1) by (rewrite minus_INR by auto; ring). replace (INR n + 1) with (INR N - INR (N - n) + 1) by (rewrite minus_INR by auto; ring).
  replace (INR n + - INR i + 1) with (INR (n - i) + 1) by (rewrite minus_INR by auto; ring). replace (INR N + - INR K + - INR n + INR i + 1) with (INR B - INR (n - i) + 1) by (rewrite minus_INR, NB by auto; ring).
  replace (INR N + - INR K + 1) with (INR B + 1) by (rewrite NB; ring). replace (INR K + - INR i + 1) with (INR K - INR i + 1) by ring.
  pose proof (Beta_choose N (N - n) ltac:(lia)) as B0. pose proof (Beta_choose K i I) as B1. pose proof (Beta_choose B (n - i) L) as B2. rewrite choose_sym in B0 by auto.
  assert (Q : forall a b c, a * b = / c -> 0 < a -> 0 < b -> 0 < c -> ln b = - ln c - ln a).
  { intros a b c E Ha Hb Hc. assert (X : ln (a * b) = - ln c) by (rewrite E; apply ln_Rinv; auto). rewrite ln_mult in X by auto. lra. }
  pose proof (choose_INR_pos N n Hn). pose proof (choose_INR_pos K i I). pose proof (choose_INR_pos B (n - i) L). pose proof (pos_INR N). pose proof (pos_INR n).
  assert (0 <= INR (N - n) <= INR N) by (rewrite minus_INR by auto; lra). assert (0 <= INR (n - i) <= INR B) by (rewrite minus_INR by auto; lra).
  rewrite (Q _ _ _ B0), (Q _ _ _ B1), (Q _ _ _ B2); auto; try lra; try (apply Beta_pos; lra).
  unfold hg. rewrite EN. unfold Rdiv. rewrite !ln_mult, ln_Rinv; auto; [ring|apply Rmult_lt_0_compat; auto|apply Rinv_0_lt_compat; auto].
Qed.
Lemma log_ok : log_law (fun k => pmf k (Fin (INR N)) (Fin (INR K)) (Fin (INR n))) (fun k => logpmf k (Fin (INR N)) (Fin (INR K)) (Fin (INR n)))
  (fun k => Z.max 0 (Z.of_nat n - Z.of_nat (N - K)) <= k <= Z.min (Z.of_nat n) (Z.of_nat K))%Z.
Proof.
  intros k H. left. fold B in H. assert (E : k = Z.of_nat (Z.to_nat k)) by lia. rewrite E. set (i := Z.to_nat k) in *. exists (hg K B n i).
  split; [apply hg_pos; lia|]. split; [apply pmf_in; simpl; lia|]. rewrite <- INR_IZR_INZ. apply lg_ok; lia.
Qed.
(** Tails. *)
Lemma degree_2 (a b : nat) : degree 1 (- INR a) (- INR b) = Some (Nat.min a b).
Proof.
  unfold degree. rewrite polb_false by lra. rewrite (INR_IZR_INZ a), (INR_IZR_INZ b), <- !opp_IZR, !polb_IZR.
  replace (- Z.of_nat a <=? 0)%Z with true by (symmetry; apply Z.leb_le; lia). replace (- Z.of_nat b <=? 0)%Z with true by (symmetry; apply Z.leb_le; lia).
  rewrite !Int_part_IZR. do 2 f_equal; lia.
Qed.
Lemma sf_in m : (m <= K)%nat -> (m <= n)%nat -> (n <= B + m)%nat -> sf (Fin (INR m - 1)) (Fin (INR N)) (Fin (INR K)) (Fin (INR n)) = Fin (tail K B n m).
Proof.
  intros M M' L. unfold sf. rewrite ok. cbn [vsub vadd vneg].
  replace (INR m - 1 + 1 + - INR K) with (- INR (K - m)) by (rewrite minus_INR by auto; ring). replace (INR m - 1 + 1 + - INR n) with (- INR (n - m)) by (rewrite minus_INR by auto; ring).
  unfold vhyp3f2_1. cbn [bindv CanRaise_val]. 
  rewrite degree_2. replace (INR m - 1 + 2) with (INR m + 1) by ring. replace (INR N + (INR m - 1) + 2 + - INR K + - INR n) with (INR B + INR m + 1 - INR n) by (rewrite NB; ring).
  assert (0 < INR B + INR m + 1 - INR n) by (apply le_INR in L; rewrite plus_INR in L; lra). pose proof (pos_INR m).
  rewrite !Reqb_false by (apply Rgt_not_eq, rising_pos; lra). cbn [bindv CanRaise_val].
  replace (INR m - 1 + 1) with (INR m) by ring. rewrite vbinomial_choose. replace (INR N + - INR n) with (INR (N - n)) by (rewrite minus_INR by auto; ring).
  replace (INR K + - (INR m - 1) + - (1)) with (INR (K - m)) by (rewrite minus_INR by auto; ring). rewrite !vbinomial_choose. cbn [vmul].
  rewrite vdiv_Fin by (apply Rgt_not_eq, choose_INR_pos; auto). cbn [vmul]. f_equal. 
  assert (E := hg_sym K n B (N - n) m ltac:(lia) M M'). rewrite EN in E. rewrite E. rewrite <- nsum_sum_n. rewrite <- nsum_scal.
  unfold tail. set (d := Nat.min (K - m) (n - m)). replace (S n - m)%nat with (S d + (n - m - d))%nat by lia. rewrite nsum_app.
  rewrite (nsum_0 (fun i => hg K B n (m + (S d + i)))).
  - rewrite Rplus_0_r. apply nsum_ext. intros j J. rewrite <- hg_series by lia. replace (- INR (K - m)) with (INR m - INR K) by (rewrite minus_INR by auto; ring). replace (- INR (n - m)) with (INR m - INR n) by (rewrite minus_INR by auto; ring). reflexivity.
  - intros i I. unfold hg. rewrite (choose_gt K) by lia. simpl. unfold Rdiv. ring.
Qed.
Lemma rising_zero (j m : nat) : (j < m)%nat -> rising (- INR j) m = 0.
Proof.
  revert j; induction m as [|m IH]; intros j H; [lia|]. cbn [rising]. destruct j as [|j]; [simpl; ring|].
  replace (- INR (S j) + 1) with (- INR j) by (rewrite S_INR; ring). rewrite IH by lia. ring.
Qed.
Lemma hyp_fin a2 a3 b1 b2 : 0 < b1 -> 0 < b2 -> 1 + a2 + a3 < b1 + b2 -> exists h, vhyp3f2_1 (Fin 1) (Fin a2) (Fin a3) (Fin b1) (Fin b2) = Fin h.
Proof.
  intros H1 H2 H3. unfold vhyp3f2_1. cbn [bindv]. destruct (degree 1 a2 a3) as [m|].
  - rewrite !Reqb_false by (apply Rgt_not_eq, rising_pos; lra). eauto.
  - rewrite !polb_false, Rltb_true by lra. eauto.
Qed.
Lemma sf_hi m : (K < m)%nat \/ (n < m)%nat -> sf (Fin (INR m - 1)) (Fin (INR N)) (Fin (INR K)) (Fin (INR n)) = Fin 0.
Proof.
  intros H. unfold sf. rewrite ok. cbn [vsub vadd vneg]. assert (n < B + m + 1)%nat by lia. apply lt_INR in H0. rewrite !plus_INR in H0. simpl (INR 1) in H0. pose proof (pos_INR m).
  destruct (hyp_fin (INR m - 1 + 1 + - INR K) (INR m - 1 + 1 + - INR n) (INR m - 1 + 2) (INR N + (INR m - 1) + 2 + - INR K + - INR n)) as [h ->]; try (rewrite NB; lra); try lra.
  { pose proof (pos_INR N). lra. }
  cbn [bindv]. replace (INR m - 1 + 1) with (INR m) by ring. rewrite vbinomial_choose. replace (INR N + - INR n) with (INR (N - n)) by (rewrite minus_INR by auto; ring).
  replace (INR K + - (INR m - 1) + - (1)) with (IZR (Z.of_nat K - Z.of_nat m)) by (rewrite minus_IZR, <- !INR_IZR_INZ; ring). rewrite vbinomial_nat, vbinomial_choose. cbn [vmul].
  rewrite vdiv_Fin by (apply Rgt_not_eq, choose_INR_pos; auto). cbn [vmul]. f_equal. destruct H as [H|H].
  - replace (0 <=? Z.of_nat K - Z.of_nat m)%Z with false by (symmetry; apply Z.leb_gt; lia). unfold Rdiv. ring.
  - rewrite (choose_gt n m) by auto. simpl. unfold Rdiv. ring.
Qed.
Lemma cdf_ok (k : Z) : (Z.max 0 (Z.of_nat n - Z.of_nat (N - K)) - 1 <= k)%Z ->
  cumulative (fun k => pmf k (Fin (INR N)) (Fin (INR K)) (Fin (INR n))) (fun k => cdf k (Fin (INR N)) (Fin (INR K)) (Fin (INR n))) (fun k => sf k (Fin (INR N)) (Fin (INR K)) (Fin (INR n)))
    (Range (Z.max 0 (Z.of_nat n - Z.of_nat (N - K))) (Z.min (Z.of_nat n) (Z.of_nat K) + 1)) k.
Proof.
  intros H. destruct rng as [R1 [R2 R3]]. change (cumulative (fun k => pmf k (Fin (INR N)) (Fin (INR K)) (Fin (INR n))) (fun k => cdf k (Fin (INR N)) (Fin (INR K)) (Fin (INR n))) (fun k => sf k (Fin (INR N)) (Fin (INR K)) (Fin (INR n))) (Range lo (hi + 1)) k).
  change (lo - 1 <= k)%Z in H. set (pm := fun k => pmf k (Fin (INR N)) (Fin (INR K)) (Fin (INR n))).
  assert (Z0 : forall j, (j < lo)%Z \/ (hi + 1 <= j)%Z -> at_int pm j = 0).
  { intros j J. unfold at_int, pm. rewrite zero_out; [reflexivity|]. simpl. lia. }
  assert (E : sum_upto (at_int pm) (Range lo (hi + 1)) k = nsum (hg K B n) (Nat.min (Z.to_nat (k + 1)) (S n))).
  { rewrite <- (disc_upto (Some (S n)) pm (hg K B n) pmf_in k). rewrite wide. unfold sum_upto. symmetry.
    destruct (Z.le_gt_cases (k + 1) (hi + 1)).
    - rewrite !Z.min_l by lia. apply zsum_widen; try lia. intros j J. apply Z0. lia.
    - rewrite (Z.min_r (k + 1) (hi + 1)) by lia. apply zsum_widen; try lia. intros j J. apply Z0. lia. }
  unfold cumulative. rewrite E. set (m := Z.to_nat (k + 1)).
  assert (S1 : sf (Fin (IZR k)) (Fin (INR N)) (Fin (INR K)) (Fin (INR n)) = Fin (1 - nsum (hg K B n) (Nat.min m (S n)))).
  { replace (IZR k) with (INR m - 1) by (unfold m; rewrite INR_IZR_INZ, Z2Nat.id, plus_IZR by lia; ring).
    unfold lo in H. fold B in H. destruct (le_gt_dec m K) as [M1|M1]; [destruct (le_gt_dec m n) as [M2|M2]|].
    - rewrite sf_in by lia. rewrite Nat.min_l by lia. rewrite tail_split by lia. f_equal. ring.
    - rewrite sf_hi by lia. rewrite Nat.min_r by lia. rewrite hg_mass by lia. f_equal. ring.
    - rewrite sf_hi by lia. destruct (le_gt_dec m n) as [M2|M2].
      + rewrite Nat.min_l by lia. rewrite tail_split by lia. unfold tail. rewrite nsum_0; [f_equal; ring|]. intros i _. unfold hg. rewrite (choose_gt K) by lia. simpl. unfold Rdiv. ring.
      + rewrite Nat.min_r by lia. rewrite hg_mass by lia. f_equal. ring. }
  split; auto. unfold cdf. rewrite ok, S1. cbn [vsub vadd vneg]. f_equal. ring.
Qed.
Lemma sf_low (k : Z) : (k < Z.max 0 (Z.of_nat n - Z.of_nat (N - K)) - 1)%Z ->
  sf (Fin (IZR k)) (Fin (INR N)) (Fin (INR K)) (Fin (INR n)) = Exc ZeroDivisionError /\ cdf (Fin (IZR k)) (Fin (INR N)) (Fin (INR K)) (Fin (INR n)) = Exc ZeroDivisionError.
Proof.
  intros H. assert (S1 : sf (Fin (IZR k)) (Fin (INR N)) (Fin (INR K)) (Fin (INR n)) = Exc ZeroDivisionError).
  { unfold sf. rewrite ok. cbn [vsub vadd vneg].
    replace (IZR k + 1 + - INR K) with (- INR (Z.to_nat (Z.of_nat K - k - 1))) by (rewrite (INR_IZR_INZ (Z.to_nat _)), Z2Nat.id, !minus_IZR, <- INR_IZR_INZ by lia; ring).
    replace (IZR k + 1 + - INR n) with (- INR (Z.to_nat (Z.of_nat n - k - 1))) by (rewrite (INR_IZR_INZ (Z.to_nat _)), Z2Nat.id, !minus_IZR, <- INR_IZR_INZ by lia; ring).
    unfold vhyp3f2_1. cbn [bindv]. rewrite degree_2. fold B in H.
    set (m := Nat.min _ _). destruct (Reqb_spec (rising (IZR k + 2) m) 0) as [[Q ->]|[Q ->]]; [reflexivity|]. 
    destruct (Z_le_gt_dec (Z.of_nat n - Z.of_nat B) 0) as [L|L].
    - exfalso. apply Q. replace (IZR k + 2) with (- INR (Z.to_nat (- k - 2))) by (rewrite INR_IZR_INZ, Z2Nat.id, minus_IZR, opp_IZR by lia; ring). apply rising_zero. unfold m. lia.
    - rewrite Reqb_true; [reflexivity|]. replace (INR N + IZR k + 2 + - INR K + - INR n) with (- INR (Z.to_nat (Z.of_nat n - Z.of_nat B - k - 2))) by (rewrite (INR_IZR_INZ (Z.to_nat _)), Z2Nat.id, !minus_IZR, <- !INR_IZR_INZ, NB by lia; ring).
      apply rising_zero. unfold m. lia. }
  split; auto. unfold cdf. rewrite ok, S1. reflexivity.
Qed.
Lemma mode_small : smallest_mode (fun k => pmf k (Fin (INR N)) (Fin (INR K)) (Fin (INR n))) (Range (Z.max 0 (Z.of_nat n - Z.of_nat (N - K))) (Z.min (Z.of_nat n) (Z.of_nat K) + 1)) (mode (Fin (INR N)) (Fin (INR K)) (Fin (INR n))).
Proof.
  set (r := (INR n + 1) * (INR K + 1) / (INR N + 2)). pose proof (pos_INR N). pose proof (pos_INR K). pose proof (pos_INR n). pose proof (pos_INR B).
  assert (INR K <= INR N) by (apply le_INR; auto). assert (INR n <= INR N) by (apply le_INR; auto).
  unfold mode. rewrite ok. cbn [vadd vmul]. rewrite vdiv_Fin by lra. fold r. destruct (vceil_spec r) as [z [-> Hz]]. rewrite vint_IZR. cbn [vsub vadd vneg].
  assert (R : r * (INR N + 2) = (INR n + 1) * (INR K + 1)) by (unfold r; field; lra).
  replace (IZR z + - (1)) with (IZR (z - 1)) by (rewrite minus_IZR; ring).
  fold B. apply (threshold_smallest _ _ (fun k => hg K B n (Z.to_nat k)) r).
  - intros k I. simpl in I. rewrite pmf_Z. replace ((0 <=? k)%Z && (k <=? Z.of_nat n)%Z) with true by (symmetry; apply andb_true_intro; split; apply Z.leb_le; lia). reflexivity.
  - intros k I J. simpl in I, J. set (i := Z.to_nat (k - 1)). assert (Ei : Z.to_nat k = S i) by lia. rewrite Ei. assert (Ek : IZR k = INR i + 1) by (unfold i; rewrite INR_IZR_INZ, Z2Nat.id, minus_IZR by lia; ring). rewrite Ek.
    pose proof (hg_ratio K B n i ltac:(lia) ltac:(lia)) as T. pose proof (hg_pos K B n i ltac:(lia) ltac:(lia) ltac:(lia)). pose proof (pos_INR i).
    assert (0 < INR B - INR n + INR i + 1) by (assert (n < B + i + 1)%nat as X by lia; apply lt_INR in X; rewrite !plus_INR in X; simpl (INR 1) in X; lra).
    assert (D : (INR K - INR i) * (INR n - INR i) - (INR i + 1) * (INR B - INR n + INR i + 1) = (r - (INR i + 1)) * (INR N + 2)) by (rewrite NB in *; nra).
    assert (PD : 0 < (INR i + 1) * (INR B - INR n + INR i + 1)) by (apply Rmult_lt_0_compat; lra).
    set (a := (INR i + 1) * (INR B - INR n + INR i + 1)) in *. set (b := (INR K - INR i) * (INR n - INR i)) in *.
    split; intros L.
    + apply (Rmult_lt_reg_l a); auto. rewrite T. apply Rmult_lt_compat_r; auto. assert (0 < (r - (INR i + 1)) * (INR N + 2)) by (apply Rmult_lt_0_compat; lra). lra.
    + apply (Rmult_le_reg_l a); auto. rewrite T. apply Rmult_le_compat_r; [lra|]. assert (0 <= (INR i + 1 - r) * (INR N + 2)) by (apply Rmult_le_pos; lra). lra.
  - assert (A1 : r < INR n + 1) by (apply (Rmult_lt_reg_r (INR N + 2)); [lra|]; rewrite R; apply Rmult_lt_compat_l; lra).
    assert (A2 : r < INR K + 1) by (apply (Rmult_lt_reg_r (INR N + 2)); [lra|]; rewrite R, (Rmult_comm (INR n + 1)); apply Rmult_lt_compat_l; lra).
    assert (A3 : 0 < r) by (unfold r; apply Rdiv_lt_0_compat; [apply Rmult_lt_0_compat|]; lra).
    assert (A4 : INR n - INR B < r).
    { apply (Rmult_lt_reg_r (INR N + 2)); [lra|]. rewrite R. set (x := INR N - INR n). set (y := INR N - INR K). assert (0 <= x) by (unfold x; lra). assert (0 <= y) by (unfold y; lra).
      assert (0 <= x * y) by (apply Rmult_le_pos; auto). assert (En : INR n = INR N - x) by (unfold x; ring). assert (EK : INR K = INR N - y) by (unfold y; ring). assert (EB : INR B = y) by (unfold y; rewrite NB; ring). clearbody x y. rewrite En, EK, EB. nra. }
    simpl. rewrite INR_IZR_INZ in A1, A2, A4. rewrite (INR_IZR_INZ B) in A4. 
    assert (z < Z.of_nat n + 2)%Z by (apply lt_IZR; rewrite plus_IZR; lra). assert (z < Z.of_nat K + 2)%Z by (apply lt_IZR; rewrite plus_IZR; lra).
    assert (0 < z)%Z by (apply lt_IZR; lra). assert (Z.of_nat n - Z.of_nat B < z)%Z by (apply lt_IZR; rewrite minus_IZR; lra). lia.
  - intros _. rewrite minus_IZR. lra.
  - intros _. rewrite minus_IZR. lra.
Qed.
End P.
Lemma mean_div : mean (Fin 0) (Fin 0) (Fin 0) = Exc ZeroDivisionError.
Proof.
  unfold mean. change (Fin 0) with (Fin (INR 0)). rewrite ok by auto. simpl INR. cbn [vmul]. unfold vdiv. rewrite Reqb_true by ring. reflexivity.
Qed.
Lemma hg_trivial K B n i : (n <= K + B)%nat -> (K = 0 \/ n = 0)%nat -> (i <= n)%nat -> hg K B n i = if Nat.eqb i 0 then 1 else 0.
Proof.
  intros H T I. unfold hg. pose proof (choose_INR_pos _ _ H). destruct T as [->| ->].
  - destruct i as [|i]; simpl in *; [rewrite Nat.sub_0_r; field; lra|unfold Rdiv; ring].
  - assert (i = 0)%nat as -> by lia. simpl. rewrite !choose_0. simpl. field.
Qed.
Lemma mean1 K B n : (n <= K + B)%nat -> (0 < K + B)%nat -> nsum (fun i => INR i * hg K B n i) (S n) = INR n * INR K / INR (K + B).
Proof.
  intros H Q. assert (0 < INR (K + B)) by (apply lt_0_INR; auto).
  destruct n as [|n]; [simpl; unfold Rdiv; ring|]. destruct K as [|K].
  - rewrite (nsum_ext _ (fun _ => 0)); [rewrite nsum_const; simpl; unfold Rdiv; ring|]. intros i I. rewrite hg_trivial by (auto; lia). destruct i; simpl; ring.
  - pose proof (tot_shift (Some (S n)) (hg (S K) B (S n)) (hg K B n) (INR (S n) * INR (S K) / INR (S (K + B))) 1) as T.
    rewrite Rmult_1_r in T. apply T.
    + intros i I. simpl in I. apply hg_sb; lia.
    + apply hg_mass. lia.
Qed.
Section P.
Variables (N K n : nat).
Hypotheses (HK : (K <= N)%nat) (Hn : (n <= N)%nat).
Lemma mean_val : (0 < N)%nat -> mean (Fin (INR N)) (Fin (INR K)) (Fin (INR n)) = Fin (INR n * INR K / INR N).
Proof. intros H. unfold mean. rewrite ok by auto. cbn [vmul]. rewrite vdiv_Fin; auto. apply not_0_INR. lia. Qed.
Lemma mean_ok : (0 < N)%nat -> dmean_is (fun k => pmf k (Fin (INR N)) (Fin (INR K)) (Fin (INR n))) (Range (Z.max 0 (Z.of_nat n - Z.of_nat (N - K))) (Z.min (Z.of_nat n) (Z.of_nat K) + 1)) (mean (Fin (INR N)) (Fin (INR K)) (Fin (INR n))).
Proof.
  intros H. rewrite mean_val by auto. eapply (narrow_mean _ _ _ 0 (Z.of_nat n + 1)); try (unfold lo, hi; lia); [apply zero_out; auto|].
  rewrite <- wide. apply (disc_mean (Some (S n)) _ (hg K (N - K) n)); [apply pmf_in; auto|]. unfold tot. rewrite mean1 by lia. replace (K + (N - K))%nat with N by lia. reflexivity.
Qed.
Lemma var_ok : (1 < N)%nat -> dvar_is (fun k => pmf k (Fin (INR N)) (Fin (INR K)) (Fin (INR n))) (Range (Z.max 0 (Z.of_nat n - Z.of_nat (N - K))) (Z.min (Z.of_nat n) (Z.of_nat K) + 1)) (var (Fin (INR N)) (Fin (INR K)) (Fin (INR n))).
Proof.
  intros H. assert (1 < INR N) by (change 1 with (INR 1); apply lt_INR; auto).
  eapply (narrow_var _ _ _ 0 (Z.of_nat n + 1)); try (unfold lo, hi; lia); [apply zero_out; auto|]. rewrite <- wide.
  unfold var. rewrite ok by auto. cbn [vsub vadd vneg]. rewrite !vdiv_Fin by lra. cbn [vmul].
  destruct (Nat.eq_dec K 0) as [E|E]; [|destruct (Nat.eq_dec n 0) as [E'|E']].
  3:{ destruct (sb_moments (Some n) (fun k => pmf k (Fin (INR N)) (Fin (INR K)) (Fin (INR n))) (hg K (N - K) n) (hg (K - 1) (N - K) (n - 1)) (INR n * INR K / INR N) (INR (n - 1) * INR (K - 1) / INR (N - 1))) as [_ V].
    - apply pmf_in; auto.
    - intros i I. simpl in I. pose proof (hg_sb (K - 1) (N - K) (n - 1) i ltac:(lia) ltac:(lia)) as X. replace (S (n - 1)) with n in X by lia. replace (S (K - 1)) with K in X by lia. replace (S (K - 1 + (N - K))) with N in X by lia. exact X.
    - unfold tot, option_map. apply (hg_mass K (N - K) n). lia.
    - unfold tot. pose proof (hg_mass (K - 1) (N - K) (n - 1) ltac:(lia)) as X. replace (S (n - 1)) with n in X by lia. exact X.
    - unfold tot. pose proof (mean1 (K - 1) (N - K) (n - 1) ltac:(lia) ltac:(lia)) as X. replace (S (n - 1)) with n in X by lia. rewrite X. replace (K - 1 + (N - K))%nat with (N - 1)%nat by lia. reflexivity.
    - simpl option_map in V. rewrite !minus_INR in V by lia. simpl (INR 1) in V. eapply eq_ind; [exact V|]. f_equal. field. lra. }
  all: destruct (delta_disc n (fun k => pmf k (Fin (INR N)) (Fin (INR K)) (Fin (INR n)))) as [_ V]; [intros i I; rewrite pmf_in by (simpl; auto; lia); rewrite hg_trivial by lia; reflexivity|].
  all: eapply eq_ind; [exact V|]; f_equal; rewrite ?E, ?E'; simpl; unfold Rdiv; ring.
Qed.
Lemma moments_ok : (1 < N)%nat ->
  dmean_is (fun k => pmf k (Fin (INR N)) (Fin (INR K)) (Fin (INR n))) (Range (Z.max 0 (Z.of_nat n - Z.of_nat (N - K))) (Z.min (Z.of_nat n) (Z.of_nat K) + 1)) (mean (Fin (INR N)) (Fin (INR K)) (Fin (INR n))) /\
  dvar_is (fun k => pmf k (Fin (INR N)) (Fin (INR K)) (Fin (INR n))) (Range (Z.max 0 (Z.of_nat n - Z.of_nat (N - K))) (Z.min (Z.of_nat n) (Z.of_nat K) + 1)) (var (Fin (INR N)) (Fin (INR K)) (Fin (INR n))).
Proof. intros H. split; [apply mean_ok; lia|apply var_ok; auto]. Qed.
End P.
(** [var] raises for every valid population of size 0 or 1. *)
Lemma var_div (N K n : nat) : (K <= N)%nat -> (n <= N)%nat -> (N <= 1)%nat -> var (Fin (INR N)) (Fin (INR K)) (Fin (INR n)) = Exc ZeroDivisionError.
Proof.
  intros HK Hn H. unfold var. rewrite ok by auto. destruct N as [|[|N]]; [| |lia]; cbn [vsub vadd vneg].
  - unfold vdiv at 1. simpl INR. rewrite Reqb_true by ring. reflexivity.
  - simpl INR. rewrite !vdiv_Fin by lra. unfold vdiv. rewrite Reqb_true by ring. reflexivity.
Qed.
(** Rejection of invalid parameters. *)
Lemma bad N K n : N < 0 \/ K < 0 \/ n < 0 \/ N < K \/ N < n -> forall A (H : CanRaise A) (k : A), validate (Fin N) (Fin K) (Fin n) k = raise ValueError.
Proof.
  intros H A CR k. unfold validate, cgt, clt, cmp, ltb.
  repeat match goal with |- context [Rltb ?a ?b] => destruct (Rltb_spec a b) as [[? ->]|[? ->]]; try reflexivity end. lra.
Qed.
Lemma bad_params (N K n : R) (k : val) : N < 0 \/ K < 0 \/ n < 0 \/ N < K \/ N < n ->
  pmf k (Fin N) (Fin K) (Fin n) = Exc ValueError /\ logpmf k (Fin N) (Fin K) (Fin n) = Exc ValueError /\ cdf k (Fin N) (Fin K) (Fin n) = Exc ValueError /\ sf k (Fin N) (Fin K) (Fin n) = Exc ValueError /\
  support (Fin N) (Fin K) (Fin n) = Err ValueError /\ support_pmf (Fin N) (Fin K) (Fin n) = Err ValueError /\ mean (Fin N) (Fin K) (Fin n) = Exc ValueError /\ mode (Fin N) (Fin K) (Fin n) = Exc ValueError /\ var (Fin N) (Fin K) (Fin n) = Exc ValueError.
Proof. intros H. pose proof (bad N K n H) as B. unfold pmf, logpmf, cdf, sf, support_pmf, support, mean, mode, var. repeat split; rewrite !B; reflexivity. Qed.
