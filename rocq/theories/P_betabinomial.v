(** Proofs about M_betabinomial. *)
From Coq Require Import Reals Lra Lia List ZArith Arith Bool.
From Coquelicot Require Import Coquelicot.
From Verif Require Import Values VTac Spec SpecStat SpecEst SpecDisc SpecInt LLib XLib PLib RLib LimLib DistLib SFun GammaLib GammaLib2 GammaLib3 GammaLib4 GamLib M_common M_sfun M_disc M_fun BinLib DiscLib IncLib CountLib HgLib BetaLib M_betabinomial.
From Verif Require Import P_logb SpecInv.
From Verif Require P_beta.
Import ListNotations.
Local Open Scope R_scope.
Set Bullet Behavior "Strict Subproofs".

Definition g (n : nat) (a b : R) (i : nat) : R := INR (choose n i) * Beta (INR i + a) (INR n - INR i + b) / Beta a b.
Lemma Beta_split a b : 0 < a -> 0 < b -> Beta (a + 1) b + Beta a (b + 1) = Beta a b.
Proof. intros A B. rewrite Beta_succ, Beta_succ_r by auto. field. lra. Qed.
Lemma bsum n : forall a b, 0 < a -> 0 < b -> nsum (fun i => INR (choose n i) * Beta (INR i + a) (INR n - INR i + b)) (S n) = Beta a b.
Proof.
  induction n as [|n IH]; intros a b A B.
  - simpl. replace (0 + a) with a by ring. replace (0 - 0 + b) with b by ring. ring.
  - set (H := fun i => Beta (INR i + a) (INR (S n) - INR i + b)).
    change (nsum (fun i => INR (choose (S n) i) * H i) (S (S n)) = Beta a b). rewrite nsum_first.
    rewrite (nsum_ext _ (fun i => INR (choose n i) * H (S i) + INR (choose n (S i)) * H (S i))) by (intros i _; rewrite choose_S, plus_INR; ring).
    rewrite nsum_plus. assert (E : INR (choose (S n) 0) * H O + nsum (fun i => INR (choose n (S i)) * H (S i)) (S n) = nsum (fun i => INR (choose n i) * H i) (S n)).
    { transitivity (nsum (fun i => INR (choose n i) * H i) (S (S n))); [rewrite (nsum_first _ (S n)), !choose_0; auto|]. cbn [nsum]. rewrite (choose_gt n (S n)) by lia. simpl (INR 0). ring. }
    rewrite <- (Beta_split a b), <- (IH (a + 1) b), <- (IH a (b + 1)) by lra.
    rewrite (nsum_ext (fun i => INR (choose n i) * Beta (INR i + (a + 1)) (INR n - INR i + b)) (fun i => INR (choose n i) * H (S i))).
    2:{ intros i _. unfold H. f_equal. f_equal; rewrite ?S_INR; ring. }
    rewrite (nsum_ext (fun i => INR (choose n i) * Beta (INR i + a) (INR n - INR i + (b + 1))) (fun i => INR (choose n i) * H i)).
    2:{ intros i _. unfold H. f_equal. f_equal; rewrite ?S_INR; ring. }
    lra.
Qed.
Lemma mass1 n a b : 0 < a -> 0 < b -> nsum (g n a b) (S n) = 1.
Proof.
  intros A B. pose proof (Beta_pos a b A B). rewrite (nsum_ext _ (fun i => / Beta a b * (INR (choose n i) * Beta (INR i + a) (INR n - INR i + b)))) by (intros; unfold g, Rdiv; ring).
  rewrite nsum_scal, bsum by auto. field. lra.
Qed.
Lemma g_pos n a b i : 0 < a -> 0 < b -> (i <= n)%nat -> 0 < g n a b i.
Proof.
  intros A B I. pose proof (choose_INR_pos n i I). apply le_INR in I. pose proof (pos_INR i). apply Rdiv_pos; [apply Rmult_lt_0_compat; auto|]; apply Beta_pos; lra.
Qed.
Lemma g_shift n a b i : 0 < a -> 0 < b -> INR (S i) * g (S n) a b (S i) = INR (S n) * a / (a + b) * g n (a + 1) b i.
Proof.
  intros A B. pose proof (Beta_pos a b A B). unfold g. rewrite (Beta_succ a b) by auto. replace (INR (S i) + a) with (INR i + (a + 1)) by (rewrite S_INR; ring). replace (INR (S n) - INR (S i)) with (INR n - INR i) by (rewrite !S_INR; ring).
  pose proof (choose_absorb n i) as E. apply (f_equal INR) in E. rewrite !mult_INR in E. set (X := Beta (INR i + (a + 1)) (INR n - INR i + b)).
  transitivity (INR (S i) * INR (choose (S n) (S i)) * X / Beta a b); [unfold Rdiv; ring|]. rewrite E. field. repeat split; lra.
Qed.
Lemma g_ratio n a b i : 0 < a -> 0 < b -> (i < n)%nat -> INR (S i) * (INR n - INR i - 1 + b) * g n a b (S i) = (INR n - INR i) * (INR i + a) * g n a b i.
Proof.
  intros A B I. assert (Q : INR i + 1 <= INR n) by (rewrite <- S_INR; apply le_INR; lia). pose proof (pos_INR i). pose proof (Beta_pos a b A B). unfold g.
  replace (INR (S i) + a) with (INR i + a + 1) by (rewrite S_INR; ring). replace (INR n - INR i + b) with ((INR n - INR (S i) + b) + 1) by (rewrite S_INR; ring).
  rewrite (Beta_succ (INR i + a)), Beta_succ_r by (rewrite ?S_INR; lra). pose proof (choose_ratio_R n i) as E. set (X := Beta (INR i + a) (INR n - INR (S i) + b)).
  replace (INR n - INR i - 1 + b) with (INR n - INR (S i) + b) by (rewrite S_INR; ring).
  transitivity (INR (S i) * INR (choose n (S i)) * ((INR n - INR (S i) + b) * (INR i + a) / (INR i + a + (INR n - INR (S i) + b)) * X) / Beta a b); [unfold Rdiv; ring|]. rewrite E. unfold Rdiv. ring.
Qed.
(** Factorial moments. *)
Fixpoint ff (x : R) (r : nat) : R := match r with O => 1 | S r => x * ff (x - 1) r end.
Fixpoint Fm (r n : nat) (a b : R) : R := match r with O => 1 | S r => INR n * a / (a + b) * Fm r (n - 1) (a + 1) b end.
Lemma ffsum r : forall n a b, 0 < a -> 0 < b -> nsum (fun i => ff (INR i) r * g n a b i) (S n) = Fm r n a b.
Proof.
  induction r as [|r IH]; intros n a b A B.
  - cbn [ff Fm]. rewrite (nsum_ext _ (g n a b)) by (intros; ring). apply mass1; auto.
  - destruct n as [|n]; [simpl; unfold Rdiv; ring|]. rewrite nsum_first. cbn [ff Fm]. simpl (INR 0).
    rewrite (nsum_ext _ (fun i => INR (S n) * a / (a + b) * (ff (INR i) r * g n (a + 1) b i))).
    + rewrite nsum_scal, IH by lra. replace (S n - 1)%nat with n by lia. ring.
    + intros i _. replace (INR (S i) - 1) with (INR i) by (rewrite S_INR; ring). transitivity (ff (INR i) r * (INR (S i) * g (S n) a b (S i))); [ring|]. rewrite g_shift by auto. ring.
Qed.
Section P.
Variables (n : nat) (a b : R).
Hypothesis HA : 0 < a.
Hypothesis HB : 0 < b.
Lemma ok {A} `{CanRaise A} (c : A) : validate_params (Fin (INR n)) (Fin a) (Fin b) c = c.
Proof. unfold validate_params. rewrite vint_INR. unfold cne, clt, cle, cmp, eqb, ltb, leb. rewrite Reqb_true by auto. pose proof (pos_INR n). rewrite Rltb_false, !Rleb_false by lra. reflexivity. Qed.
Lemma k_in (i : nat) : (i <= n)%nat -> clt (Fin (INR i)) (Fin 0) = CB false /\ cgt (Fin (INR i)) (Fin (INR n)) = CB false.
Proof. intros I. apply le_INR in I. pose proof (pos_INR i). unfold clt, cgt, cmp, ltb. rewrite !Rltb_false by lra. auto. Qed.
Lemma k_neg (k : Z) : (k < 0)%Z -> clt (Fin (IZR k)) (Fin 0) = CB true.
Proof. intros H. apply IZR_lt in H. unfold clt, cmp, ltb. rewrite Rltb_true by lra. auto. Qed.
Lemma k_big (k : Z) : (Z.of_nat n < k)%Z -> clt (Fin (IZR k)) (Fin 0) = CB false /\ cgt (Fin (IZR k)) (Fin (INR n)) = CB true.
Proof. intros H. apply IZR_lt in H. rewrite <- INR_IZR_INZ in H. pose proof (pos_INR n). unfold clt, cgt, cmp, ltb. rewrite Rltb_false, Rltb_true by lra. auto. Qed.
Lemma ln_Beta' x y : 0 < x -> 0 < y -> ln (Beta x y) = loggamma x + loggamma y - loggamma (x + y).
Proof. intros. apply ln_Beta; auto. Qed.
Lemma lg_ok i : (i <= n)%nat -> logpmf (Fin (INR i)) (Fin (INR n)) (Fin a) (Fin b) = Fin (ln (g n a b i)).
Proof.
  intros I. unfold logpmf. rewrite ok. destruct (k_in i I) as [-> ->]. cbn [cif]. rewrite lb_choose by auto. pose proof (choose_INR_pos n i I). apply le_INR in I. pose proof (pos_INR i). cbn [vadd vsub vneg].
  rewrite !logbeta_fin by lra. cbn [vadd vsub vneg]. f_equal. unfold g. pose proof (Beta_pos a b HA HB). pose proof (Beta_pos (INR i + a) (INR n - INR i + b) ltac:(lra) ltac:(lra)).
  rewrite ln_div, ln_mult by (auto; apply Rmult_lt_0_compat; auto). unfold Rminus. ring.
Qed.
Lemma pmf_nat i : (i <= n)%nat -> pmf (Fin (INR i)) (Fin (INR n)) (Fin a) (Fin b) = Fin (g n a b i).
Proof. intros I. unfold pmf. rewrite ok, lg_ok by auto. destruct (k_in i I) as [-> ->]. cbn [cif vexp]. rewrite exp_ln by (apply g_pos; auto). auto. Qed.
Lemma pmf_in i : DiscLib.below (Some (S n)) i -> pmf (Fin (IZR (Z.of_nat i))) (Fin (INR n)) (Fin a) (Fin b) = Fin (g n a b i).
Proof. simpl. intros I. rewrite <- INR_IZR_INZ. apply pmf_nat. lia. Qed.
Lemma rng : Range 0 (Z.of_nat n + 1) = sup0 (Some (S n)).
Proof. unfold sup0. f_equal. lia. Qed.
Lemma mass_ok : support (Fin (INR n)) (Fin a) (Fin b) = Ok (Range 0 (Z.of_nat n + 1)) /\ mass_function (fun k => pmf k (Fin (INR n)) (Fin a) (Fin b)) (Range 0 (Z.of_nat n + 1)) /\
  zero_outside (fun k => pmf k (Fin (INR n)) (Fin a) (Fin b)) (Range 0 (Z.of_nat n + 1)).
Proof.
  split; [|split].
  - unfold support. rewrite ok. cbn [vadd]. unfold vrange. change 0 with (IZR 0). replace (INR n + 1) with (IZR (Z.of_nat n + 1)) by (rewrite plus_IZR, <- INR_IZR_INZ; auto). rewrite !is_intb_IZR, !Int_part_IZR. auto.
  - rewrite rng. apply (disc_mass (Some (S n)) _ (g n a b)); [apply pmf_in|simpl; intros; left; apply g_pos; auto; lia|]. apply mass1; auto.
  - intros k K. simpl in K. unfold pmf. rewrite ok. destruct (Z_lt_dec k 0) as [H|H]; [rewrite k_neg by auto; auto|]. destruct (k_big k ltac:(lia)) as [-> ->]. auto.
Qed.
Lemma log_ok : log_law (fun k => pmf k (Fin (INR n)) (Fin a) (Fin b)) (fun k => logpmf k (Fin (INR n)) (Fin a) (Fin b)) (fun _ => True).
Proof.
  intros k _. destruct (Z_lt_dec k 0) as [K|K]; [|destruct (Z_le_dec k (Z.of_nat n)) as [K'|K']].
  - right; left. unfold pmf, logpmf. rewrite !ok, k_neg by auto. auto.
  - left. replace k with (Z.of_nat (Z.to_nat k)) by lia. exists (g n a b (Z.to_nat k)). split; [apply g_pos; auto; lia|]. split; [apply pmf_in; simpl; lia|]. rewrite <- INR_IZR_INZ. apply lg_ok; lia.
  - right; left. unfold pmf, logpmf. rewrite !ok. destruct (k_big k ltac:(lia)) as [-> ->]. auto.
Qed.
(** Tails. *)
Lemma degree_1 (m : nat) x : 0 < x -> degree 1 (- INR m) x = Some m.
Proof.
  intros X. unfold degree. rewrite (polb_false 1), (polb_false x) by lra. rewrite (INR_IZR_INZ m), <- opp_IZR, polb_IZR. replace (- Z.of_nat m <=? 0)%Z with true by (symmetry; apply Z.leb_le; lia). rewrite <- opp_IZR, Int_part_IZR. f_equal; lia.
Qed.
Lemma rising_neg x m : x + INR m - 1 < 0 -> rising x m <> 0.
Proof.
  revert x; induction m as [|m IH]; intros x H; [simpl; lra|]. cbn [rising]. rewrite S_INR in H. pose proof (pos_INR m). apply Rmult_integral_contrapositive. split; [lra|]. apply IH. lra.
Qed.
Lemma hterm k i : (k + 1 + i <= n)%nat -> g n a b (k + 1 + i) = g n a b (k + 1) * hyp_term 1 (- INR (n - k - 1)) (a + INR k + 1) (INR k + 2) (- INR n - b + INR k + 2) i.
Proof.
  induction i as [|i IH]; intros I.
  - rewrite Nat.add_0_r. unfold hyp_term. simpl. field.
  - pose proof (pos_INR k). pose proof (pos_INR i). pose proof (g_ratio n a b (k + 1 + i) HA HB ltac:(lia)) as R. rewrite IH in R by lia. replace (k + 1 + S i)%nat with (S (k + 1 + i)) by lia.
    assert (E : INR (k + 1 + i) = INR k + 1 + INR i) by (rewrite !plus_INR; auto). rewrite S_INR, E in R. assert (L : INR (S (k + 1 + i)) <= INR n) by (apply le_INR; lia). rewrite S_INR, E in L.
    assert (EM : INR (n - k - 1) = INR n - INR k - 1) by (rewrite !minus_INR by lia; simpl; ring). rewrite EM in *.
    unfold hyp_term in *. rewrite !rising_last, !rising_1 in *. rewrite !fact_simpl, !mult_INR, S_INR.
    assert (R2 : rising (- INR n - b + INR k + 2) i <> 0) by (apply rising_neg; lra). assert (R1 : 0 < rising (INR k + 2) i) by (apply rising_pos; lra). pose proof (INR_fact_lt_0 i).
    apply (Rmult_eq_reg_l ((INR k + 1 + INR i + 1) * (INR n - (INR k + 1 + INR i) - 1 + b))); [|apply Rgt_not_eq; apply Rmult_lt_0_compat; lra].
    rewrite R. field. repeat split; lra.
Qed.
Lemma tail_ok k : (k < n)%nat -> nsum (g n a b) (S k) + g n a b (k + 1) * sum_n (hyp_term 1 (- INR (n - k - 1)) (a + INR k + 1) (INR k + 2) (- INR n - b + INR k + 2)) (n - k - 1) = 1.
Proof.
  intros K. transitivity (nsum (g n a b) (S n)); [|apply mass1; auto]. replace (S n) with (S k + S (n - k - 1))%nat by lia. rewrite nsum_app. f_equal. rewrite <- nsum_sum_n, <- nsum_scal. apply nsum_ext. intros i I. cbv beta. rewrite <- hterm by lia. f_equal. lia.
Qed.
Lemma sf_lt k : (k < n)%nat -> sf (Fin (INR k)) (Fin (INR n)) (Fin a) (Fin b) = Fin (1 - nsum (g n a b) (S k)) /\ cdf (Fin (INR k)) (Fin (INR n)) (Fin a) (Fin b) = Fin (nsum (g n a b) (S k)).
Proof.
  intros K. pose proof (tail_ok k K) as T. unfold sf, cdf. rewrite !ok. assert (L : INR k + 1 <= INR n) by (rewrite <- S_INR; apply le_INR; lia). pose proof (pos_INR k).
  unfold clt, cge, cmp, ltb, leb. rewrite Rltb_false, Rleb_false by lra. cbn [cif]. cbv zeta. cbn [vadd vsub vneg]. rewrite !vbet by lra. unfold vhyp3f2_1. cbn [bindv CanRaise_val].
  assert (EM : - INR n + INR k + 1 = - INR (n - k - 1)) by (rewrite !minus_INR by lia; simpl; ring). rewrite EM.
  change (- INR n + - b + INR k + 2) with (- INR n - b + INR k + 2). rewrite degree_1 by lra.
  rewrite (Reqb_false (rising (INR k + 2) _)) by (apply Rgt_not_eq, rising_pos; lra). rewrite (Reqb_false (rising (- INR n - b + INR k + 2) _)) by (apply rising_neg; rewrite !minus_INR by lia; simpl; lra).
  set (Sm := sum_n _ _) in *. cbn [vmul]. pose proof (Beta_pos a b HA HB). pose proof (Beta_pos (INR n + - INR k) (INR k + 2) ltac:(lra) ltac:(lra)).
  pose proof (Beta_choose n (k + 1) ltac:(lia)) as BC. rewrite plus_INR in BC. simpl (INR 1) in BC. replace (INR k + 1 + 1) with (INR k + 2) in BC by ring. replace (INR n - (INR k + 1) + 1) with (INR n + - INR k) in BC by ring. rewrite Beta_sym in BC.
  pose proof (choose_INR_pos n (k + 1) ltac:(lia)).
  assert (D : 0 < (INR n + 1) * Beta a b * Beta (INR n + - INR k) (INR k + 2)) by (apply Rmult_lt_0_compat; [apply Rmult_lt_0_compat|]; auto; lra).
  rewrite !vdiv_Fin by lra. cbn [vadd vneg].
  assert (E : Beta (INR n + b + - INR k + - (1)) (a + INR k + 1) * Sm / ((INR n + 1) * Beta a b * Beta (INR n + - INR k) (INR k + 2)) = 1 - nsum (g n a b) (S k)).
  { replace ((INR n + 1) * Beta a b * Beta (INR n + - INR k) (INR k + 2)) with (Beta a b * / INR (choose n (k + 1))) by (rewrite <- BC; ring).
    transitivity (g n a b (k + 1) * Sm); [|lra]. unfold g. rewrite plus_INR. simpl (INR 1). rewrite (Beta_sym (INR n + b + - INR k + - (1))). replace (INR k + 1 + a) with (a + INR k + 1) by ring. replace (INR n - (INR k + 1) + b) with (INR n + b + - INR k + - (1)) by ring. field. lra. }
  rewrite E. split; auto. f_equal. ring.
Qed.
Lemma cdf_ok (k : Z) : cumulative (fun k => pmf k (Fin (INR n)) (Fin a) (Fin b)) (fun k => cdf k (Fin (INR n)) (Fin a) (Fin b)) (fun k => sf k (Fin (INR n)) (Fin a) (Fin b)) (Range 0 (Z.of_nat n + 1)) k.
Proof.
  unfold cumulative. rewrite rng, (disc_upto (Some (S n)) _ (g n a b) pmf_in). destruct (Z_lt_dec k 0) as [K|K]; [|destruct (Z_lt_dec k (Z.of_nat n)) as [K'|K']].
  - unfold cdf, sf. rewrite !ok, !k_neg by auto. replace (Nat.min (Z.to_nat (k + 1)) (S n)) with O by lia. simpl. split; auto. f_equal. ring.
  - assert (E : k = Z.of_nat (Z.to_nat k)) by lia. rewrite E. set (i := Z.to_nat k) in *. rewrite <- INR_IZR_INZ. destruct (sf_lt i ltac:(lia)) as [-> ->]. replace (Nat.min (Z.to_nat (Z.of_nat i + 1)) (S n)) with (S i) by lia. auto.
  - replace (Nat.min (Z.to_nat (k + 1)) (S n)) with (S n) by lia. rewrite mass1 by auto. assert (Q : INR n <= IZR k) by (rewrite INR_IZR_INZ; apply IZR_le; lia). pose proof (pos_INR n).
    unfold cdf, sf. rewrite !ok. unfold clt, cge, cmp, ltb, leb. rewrite Rltb_false, Rleb_true by lra. cbn [cif]. split; auto. f_equal. ring.
Qed.
(** Moments. *)
Definition F (r : nat) := Fm r n a b.
Lemma fall_tot r : (r <= 4)%nat -> tot (Some (S n)) (fun i => fall (INR i) r * g n a b i) (F r).
Proof.
  intros R. unfold tot, F. rewrite <- ffsum by auto. apply nsum_ext. intros i _. f_equal. destruct r as [|[|[|[|[|r]]]]]; try lia; simpl; ring.
Qed.
Lemma raw r : (r <= 4)%nat -> tot (Some (S n)) (fun i => INR i ^ r * g n a b i) (raw_of F r).
Proof. apply raw_from_fall. apply fall_tot. Qed.
Lemma F1 : F 1 = INR n * a / (a + b). Proof. unfold F. cbn [Fm]. ring. Qed.
Lemma F2 : F 2 = INR n * (INR n - 1) * a * (a + 1) / ((a + b) * (a + b + 1)).
Proof. unfold F. cbn [Fm]. destruct n as [|m]; [simpl; field; lra|]. replace (S m - 1)%nat with m by lia. rewrite S_INR. field. lra. Qed.
Lemma F3 : F 3 = INR n * (INR n - 1) * (INR n - 2) * a * (a + 1) * (a + 2) / ((a + b) * (a + b + 1) * (a + b + 2)).
Proof. unfold F. cbn [Fm]. destruct n as [|[|m]]; [simpl; field; lra..|]. replace (S (S m) - 1)%nat with (S m) by lia. replace (S m - 1)%nat with m by lia. rewrite !S_INR. field. lra. Qed.
Lemma F4 : F 4 = INR n * (INR n - 1) * (INR n - 2) * (INR n - 3) * a * (a + 1) * (a + 2) * (a + 3) / ((a + b) * (a + b + 1) * (a + b + 2) * (a + b + 3)).
Proof. unfold F. cbn [Fm]. destruct n as [|[|[|m]]]; [simpl; field; lra..|]. replace (S (S (S m)) - 1)%nat with (S (S m)) by lia. replace (S (S m) - 1)%nat with (S m) by lia. replace (S m - 1)%nat with m by lia. rewrite !S_INR. field. lra. Qed.
Lemma var_eq : dvar (raw_of F) = INR n * a * b * (a + b + INR n) / ((a + b) ^ 2 * (a + b + 1)).
Proof. unfold dvar, raw_of. rewrite F1, F2. field. lra. Qed.
Lemma c3_eq : dcen3 (raw_of F) = INR n * a * b * (a + b + INR n) * (a + b + 2 * INR n) * (b - a) / ((a + b) ^ 3 * (a + b + 1) * (a + b + 2)).
Proof. unfold dcen3, raw_of. rewrite F1, F2, F3. field. lra. Qed.
Lemma moments_ok : dmean_is (fun k => pmf k (Fin (INR n)) (Fin a) (Fin b)) (Range 0 (Z.of_nat n + 1)) (mean (Fin (INR n)) (Fin a) (Fin b)) /\
  dvar_is (fun k => pmf k (Fin (INR n)) (Fin a) (Fin b)) (Range 0 (Z.of_nat n + 1)) (var (Fin (INR n)) (Fin a) (Fin b)).
Proof.
  rewrite rng. split.
  - unfold mean. rewrite ok. cbn [vmul vadd]. rewrite vdiv_Fin by lra. rewrite <- F1. apply (disc_mean (Some (S n)) _ (g n a b) pmf_in). apply (fall_tot 1). lia.
  - unfold var. rewrite ok. cbv zeta. cbn [vmul vadd]. rewrite vpown_Fin. rewrite vdiv_Fin by (apply pow_nonzero; lra). rewrite vdiv_Fin by lra.
    match goal with |- dvar_is _ _ (Fin ?v) => replace v with (dvar (raw_of F)) by (rewrite var_eq; field; lra) end. apply (disc_var (Some (S n)) _ (g n a b) pmf_in); [intros; apply raw; lia|reflexivity].
Qed.
Lemma shape_ok : (0 < n)%nat -> dskewness_is (fun k => pmf k (Fin (INR n)) (Fin a) (Fin b)) (Range 0 (Z.of_nat n + 1)) (skewness (Fin (INR n)) (Fin a) (Fin b)) /\
  dkurtosis_is (fun k => pmf k (Fin (INR n)) (Fin a) (Fin b)) (Range 0 (Z.of_nat n + 1)) (kurtosis (Fin (INR n)) (Fin a) (Fin b)).
Proof.
  intros NP. rewrite rng. apply lt_INR in NP. simpl in NP. set (m := INR n) in *. assert (W : 0 < m * a * b * (a + b + m)) by (repeat apply Rmult_lt_0_compat; lra).
  assert (V : 0 < dvar (raw_of F)). { rewrite var_eq. fold m. apply Rdiv_pos; auto. apply Rmult_lt_0_compat; [apply pow_lt|]; lra. }
  split.
  - unfold skewness. rewrite ok. fold m. cbv zeta. cbn [vmul vadd vsub vneg]. rewrite !vdiv_Fin by lra. unfold vsqrt. rewrite Rltb_false by (left; apply Rdiv_pos; lra). cbn [vmul].
    match goal with |- dskewness_is _ _ (Fin ?v) => replace v with (dcen3 (raw_of F) / (dvar (raw_of F) * sqrt (dvar (raw_of F)))) end.
    + apply (disc_skewness (Some (S n)) _ (g n a b) pmf_in); [intros; apply raw; lia|reflexivity|auto].
    + set (u := sqrt ((1 + (a + b)) / (m * a * b * (a + b + m)))). assert (UP : 0 < u) by (apply sqrt_lt_R0; apply Rdiv_pos; lra).
      assert (U2 : u * u = (1 + (a + b)) / (m * a * b * (a + b + m))) by (apply sqrt_sqrt; left; apply Rdiv_pos; lra).
      assert (SV : sqrt (dvar (raw_of F)) = / (u * (a + b))).
      { apply sqrt_lem_1; [left; auto|left; apply Rinv_0_lt_compat, Rmult_lt_0_compat; lra|]. rewrite var_eq. fold m. rewrite <- Rinv_mult.
        replace (u * (a + b) * (u * (a + b))) with (u * u * (a + b) ^ 2) by ring. rewrite U2. field. repeat split; lra. }
      rewrite SV, var_eq, c3_eq. fold m. field. repeat split; try lra; apply Rgt_not_eq; lra.
  - unfold kurtosis. rewrite ok. fold m. cbv zeta. rewrite !vpown_Fin. cbn [vmul vadd vsub vneg]. cbn [vadd vmul vneg vsub]. rewrite ?vpown_Fin. cbn [vadd vmul vneg vsub].
    assert (D : 0 < a * b * m * (a + b + 2) * (a + b + 3) * (a + b + m)) by (repeat apply Rmult_lt_0_compat; lra).
    rewrite vdiv_Fin by lra. cbn [vsub vadd vneg].
    match goal with |- dkurtosis_is _ _ (Fin ?v) => replace v with (dcen4 (raw_of F) / dvar (raw_of F) ^ 2 - 3) end.
    + apply (disc_kurtosis (Some (S n)) _ (g n a b) pmf_in); [intros; apply raw; lia|reflexivity|auto].
    + rewrite var_eq. unfold dcen4, raw_of. rewrite F1, F2, F3, F4. fold m. field. repeat split; lra.
Qed.
(** Mode. *)
Definition D (k : R) := (a - 1) * (INR n + 1) - (a + b - 2) * k.
Lemma D_up i : (i < n)%nat -> 0 < D (INR i + 1) -> g n a b i < g n a b (S i).
Proof.
  intros I H. pose proof (g_ratio n a b i HA HB I) as R. assert (L : INR i + 1 <= INR n) by (rewrite <- S_INR; apply le_INR; lia). pose proof (pos_INR i). pose proof (g_pos n a b i HA HB ltac:(lia)). pose proof (g_pos n a b (S i) HA HB ltac:(lia)).
  rewrite S_INR in R. unfold D in H. apply (Rmult_lt_reg_l ((INR i + 1) * (INR n - INR i - 1 + b))); [apply Rmult_lt_0_compat; lra|]. rewrite R. apply Rmult_lt_compat_r; auto. nra.
Qed.
Lemma D_down i : (i < n)%nat -> D (INR i + 1) <= 0 -> g n a b (S i) <= g n a b i.
Proof.
  intros I H. pose proof (g_ratio n a b i HA HB I) as R. assert (L : INR i + 1 <= INR n) by (rewrite <- S_INR; apply le_INR; lia). pose proof (pos_INR i). pose proof (g_pos n a b i HA HB ltac:(lia)). pose proof (g_pos n a b (S i) HA HB ltac:(lia)).
  rewrite S_INR in R. unfold D in H. apply (Rmult_le_reg_l ((INR i + 1) * (INR n - INR i - 1 + b))); [apply Rmult_lt_0_compat; lra|]. rewrite R. apply Rmult_le_compat_r; [lra|]. nra.
Qed.
Lemma all_down k : (k <= n)%nat -> (forall i, (i < k)%nat -> D (INR i + 1) <= 0) -> g n a b k <= g n a b 0.
Proof. induction k as [|k IH]; intros K H; [lra|]. eapply Rle_trans; [apply D_down; [lia|apply H; lia]|]. apply IH; [lia|auto]. Qed.
Lemma all_up d : forall k, (k + d = n)%nat -> (forall i, (k <= i < n)%nat -> 0 < D (INR i + 1)) -> g n a b k <= g n a b n /\ ((0 < d)%nat -> g n a b k < g n a b n).
Proof.
  induction d as [|d IH]; intros k K H.
  - replace k with n by lia. split; [lra|lia].
  - assert (A : g n a b k < g n a b (S k)) by (apply D_up; [lia|apply H; lia]). destruct (IH (S k) ltac:(lia)) as [B _]; [intros; apply H; lia|]. split; intros; lra.
Qed.
Lemma ends : (a <= b -> g n a b n <= g n a b 0) /\ (b < a -> (0 < n)%nat -> g n a b 0 < g n a b n).
Proof.
  assert (E : forall m, (a <= b -> Beta (INR m + a) b <= Beta a (INR m + b)) /\ (b < a -> Beta a (INR m + b) <= Beta (INR m + a) b /\ ((0 < m)%nat -> Beta a (INR m + b) < Beta (INR m + a) b))).
  { induction m as [|m [IH1 IH2]]; [simpl; replace (0 + a) with a by ring; replace (0 + b) with b by ring; repeat split; intros; try lra; lia|].
    rewrite S_INR. pose proof (pos_INR m). replace (INR m + 1 + a) with (INR m + a + 1) by ring. replace (INR m + 1 + b) with (INR m + b + 1) by ring. rewrite Beta_succ, Beta_succ_r by lra.
    pose proof (Beta_pos (INR m + a) b ltac:(lra) HB). pose proof (Beta_pos a (INR m + b) HA ltac:(lra)).
    replace (a + (INR m + b)) with (INR m + a + b) by ring. unfold Rdiv. assert (I : 0 < / (INR m + a + b)) by (apply Rinv_0_lt_compat; lra).
    assert (Q : b < a -> (INR m + b) * / (INR m + a + b) * Beta a (INR m + b) < (INR m + a) * / (INR m + a + b) * Beta (INR m + a) b).
    { intros L. destruct (IH2 L) as [Q _]. apply Rle_lt_trans with ((INR m + b) * / (INR m + a + b) * Beta (INR m + a) b); [apply Rmult_le_compat_l; auto; apply Rmult_le_pos; lra|]. apply Rmult_lt_compat_r; auto. apply Rmult_lt_compat_r; lra. }
    split; [|intros L; split; intros; [left|]; auto]. intros L. specialize (IH1 L). apply Rle_trans with ((INR m + a) * / (INR m + a + b) * Beta a (INR m + b)); [apply Rmult_le_compat_l; auto; apply Rmult_le_pos; lra|].
    apply Rmult_le_compat_r; [lra|]. apply Rmult_le_compat_r; lra. }
  destruct (E n) as [E1 E2]. pose proof (Beta_pos a b HA HB) as BP. assert (I : 0 < / Beta a b) by (apply Rinv_0_lt_compat; auto). unfold g. rewrite choose_diag, choose_0. simpl (INR 1). simpl (INR 0).
  replace (INR n - INR n + b) with b by ring. replace (0 + a) with a by ring. replace (INR n - 0 + b) with (INR n + b) by ring. rewrite !Rmult_1_l. split.
  - intros L. apply Rmult_le_compat_r; [lra|auto].
  - intros L NP. apply Rmult_lt_compat_r; [lra|]. apply E2; auto.
Qed.
Lemma mode_small : smallest_mode (fun k => pmf k (Fin (INR n)) (Fin a) (Fin b)) (Range 0 (Z.of_nat n + 1)) (mode (Fin (INR n)) (Fin a) (Fin b)).
Proof.
  destruct ends as [EN1 EN2]. pose proof (pos_INR n) as NP. unfold mode. rewrite ok.
  assert (IN : forall i, (i < n)%nat -> 0 < INR i + 1 <= INR n) by (intros i I; pose proof (pos_INR i); split; [lra|]; rewrite <- S_INR; apply le_INR; lia).
  destruct (Rle_dec a 1) as [A1|A1]; [destruct (Rle_dec a b) as [AB|AB]|].
  - unfold cle, cge, cmp, leb. rewrite !Rleb_true by lra. cbn [cand cif]. exists 0%Z, (g n a b 0). split; [reflexivity|]. split; [simpl; lia|]. split; [apply (pmf_in 0); simpl; lia|].
    intros k K. simpl in K. exists (g n a b (Z.to_nat k)). replace k with (Z.of_nat (Z.to_nat k)) at 1 by lia. split; [apply pmf_in; simpl; lia|]. split; [|lia]. set (i := Z.to_nat k). assert (I : (i <= n)%nat) by lia.
    destruct (Rle_or_lt 1 b) as [B1|B1].
    + apply all_down; auto. intros j J. pose proof (IN j ltac:(lia)). unfold D. nra.
    + destruct i as [|i]; [lra|]. destruct (Rle_or_lt (D (INR i + 1)) 0) as [DD|DD].
      * apply all_down; auto. intros j J. assert (INR j <= INR i) by (apply le_INR; lia). unfold D in *. nra.
      * apply Rle_trans with (g n a b n); [|auto]. apply (all_up (n - S i)); [lia|]. intros j J. assert (INR i <= INR j) by (apply le_INR; lia). unfold D in *. nra.
  - unfold cle, cge, cgt, cmp, leb, ltb. rewrite (Rleb_true a 1), (Rleb_false a b), (Rleb_true b 1), (Rltb_true b a) by lra. cbn [cand cif]. apply Rnot_le_lt in AB.
    exists (Z.of_nat n), (g n a b n). rewrite <- INR_IZR_INZ. split; [reflexivity|]. split; [simpl; lia|]. split; [apply pmf_nat; lia|].
    intros k K. simpl in K. exists (g n a b (Z.to_nat k)). replace k with (Z.of_nat (Z.to_nat k)) at 1 by lia. split; [apply pmf_in; simpl; lia|]. set (i := Z.to_nat k). assert (I : (i <= n)%nat) by lia.
    assert (Q : (i < n)%nat -> g n a b i < g n a b n).
    { intros J. destruct (Rle_or_lt (D (INR i + 1)) 0) as [DD|DD].
      - apply Rle_lt_trans with (g n a b 0); [|apply EN2; auto; lia]. apply all_down; auto. intros j J'. assert (INR j <= INR i) by (apply le_INR; lia). unfold D in *. nra.
      - apply (all_up (n - i)); [lia| |lia]. intros j J'. assert (INR i <= INR j) by (apply le_INR; lia). unfold D in *. nra. }
    split; [|intros; apply Q; lia]. destruct (Nat.eq_dec i n) as [->|]; [lra|left; apply Q; lia].
  - apply Rnot_le_lt in A1. destruct (Rle_dec b 1) as [B1|B1].
    + unfold cle, cge, cgt, cmp, leb, ltb. rewrite (Rleb_false a 1), (Rleb_false a b), (Rleb_true b 1), (Rltb_true b a) by lra. cbn [cand cif].
      exists (Z.of_nat n), (g n a b n). rewrite <- INR_IZR_INZ. split; [reflexivity|]. split; [simpl; lia|]. split; [apply pmf_nat; lia|].
      intros k K. simpl in K. exists (g n a b (Z.to_nat k)). replace k with (Z.of_nat (Z.to_nat k)) at 1 by lia. split; [apply pmf_in; simpl; lia|]. set (i := Z.to_nat k). assert (I : (i <= n)%nat) by lia.
      destruct (all_up (n - i) i ltac:(lia)) as [Q1 Q2]; [|split; [auto|intros; apply Q2; lia]]. intros j J. pose proof (IN j ltac:(lia)). unfold D. nra.
    + apply Rnot_le_lt in B1. unfold cle at 1 2, cge, cgt, cmp, leb, ltb. rewrite (Rleb_false a 1), (Rleb_false b 1) by lra. cbn [cand andb cif]. set (r := (INR n + 1) * (a - 1) / (a + b - 2)).
      cbn [vadd vmul vsub vneg]. rewrite vdiv_Fin by lra. change (Fin ((INR n + 1) * (a + - (1)) / (a + b + - (2)))) with (Fin r). destruct (vceil_spec r) as [z [-> HZ]]. rewrite vint_IZR. cbn [vsub vadd vneg].
      assert (RR : r * (a + b - 2) = (INR n + 1) * (a - 1)) by (unfold r; field; lra).
      assert (R1 : 0 < r) by (unfold r; apply Rdiv_pos; [apply Rmult_lt_0_compat; lra|lra]). assert (R2 : r < INR n + 1) by (apply (Rmult_lt_reg_r (a + b - 2)); nra).
      replace (IZR z + - (1)) with (IZR (z - 1)) by (rewrite minus_IZR; ring). assert (0 < z)%Z by (apply lt_IZR; lra). assert (z <= Z.of_nat n + 1)%Z by (apply Z.lt_succ_r, lt_IZR; unfold Z.succ; rewrite !plus_IZR, <- INR_IZR_INZ; lra).
      apply (threshold_smallest _ _ (fun k => g n a b (Z.to_nat k)) r).
      * intros k K. simpl in K. replace k with (Z.of_nat (Z.to_nat k)) at 1 by lia. apply pmf_in. simpl. lia.
      * intros k K K'. simpl in K, K'. replace (Z.to_nat k) with (S (Z.to_nat (k - 1))) by lia. assert (EK : IZR k = INR (Z.to_nat (k - 1)) + 1) by (rewrite <- S_INR, INR_IZR_INZ; f_equal; lia). rewrite EK.
        split; intros Q; [apply D_up|apply D_down]; try lia; unfold D; nra.
      * simpl. lia.
      * rewrite minus_IZR. lra.
      * rewrite minus_IZR. lra.
Qed.
End P.
(** Likelihood. *)
Lemma nll_eval n a b xs cs : 0 < a -> 0 < b -> (forall x, In x xs -> (x <= n)%nat) -> good_counts xs cs ->
  nll (vNs xs) (Fin (INR n)) (Fin a) (Fin b) (vcounts cs) = Fin (- wsum (fun x => ln (g n a b x)) xs (counts_for xs cs)).
Proof.
  intros A B X G. unfold nll. rewrite ok, xb_nat by (auto; intros x I; simpl; apply le_INR; auto). rewrite ints_nat. cbn [cnot negb cif].
  rewrite (counts_pass _ xs) by (auto; unfold vNs; apply map_length). rewrite zip_counts_pass, (zip_sum _ (fun x => ln (g n a b x))) by (intros; apply lg_ok; auto). reflexivity.
Qed.
Lemma nll_laws (n : nat) (a b : R) (xs cs : list nat) : 0 < a -> 0 < b -> (forall x, In x xs -> (x <= n)%nat) ->
  nll (vNs xs) (Fin (INR n)) (Fin a) (Fin b) None = vneg (loglik (fun t => logpmf t (Fin (INR n)) (Fin a) (Fin b)) (map INR xs)) /\
  (length cs = length xs -> nll (vNs xs) (Fin (INR n)) (Fin a) (Fin b) (Some (vNs cs)) = nll (vNs (expand xs cs)) (Fin (INR n)) (Fin a) (Fin b) None) /\
  (forall bad, bad_counts xs bad -> nll (vNs xs) (Fin (INR n)) (Fin a) (Fin b) (Some (map Fin bad)) = Exc ValueError).
Proof.
  intros A B X. split; [|split].
  - change (@None (list val)) with (vcounts None). rewrite (nll_eval n a b xs None) by (auto; unfold good_counts; simpl; apply repeat_length). simpl counts_for. rewrite wsum_expand, expand_ones.
    unfold loglik. rewrite map_map, (vfsum_map _ (fun x => ln (g n a b x))); [reflexivity|]. intros x I. apply lg_ok; auto.
  - intros E. change (@None (list val)) with (vcounts None). change (Some (vNs cs)) with (vcounts (Some cs)). rewrite (nll_eval n a b xs (Some cs)) by auto.
    rewrite (nll_eval n a b _ None); [|auto|auto|intros x I; apply X; eapply expand_in; eauto|unfold good_counts; simpl; apply repeat_length].
    rewrite (counts_of_expand (fun x => ln (g n a b x)) xs (Some cs)). reflexivity.
  - intros bad BD. unfold nll. rewrite ok, xb_nat by (auto; intros x I; simpl; apply le_INR; auto). rewrite ints_nat. cbn [cnot negb cif].
    apply counts_bad. destruct BD as [BD|BD]; [left; unfold vNs; rewrite map_length; auto|right; auto].
Qed.
Lemma wsum_der (f : R -> nat -> R) (d : nat -> R) t xs : forall cs, (forall x, In x xs -> is_derive (fun u => f u x) t (d x)) -> is_derive (fun u => wsum (f u) xs cs) t (wsum d xs cs).
Proof.
  unfold wsum. induction xs as [|x xs IH]; intros [|c cs] H; try (simpl; apply @is_derive_const). simpl. apply (is_derive_plus (fun u => INR c * f u x)); [|apply IH; intros; apply H; simpl; auto].
  apply (is_derive_scal (fun u => f u x)). apply H. simpl; auto.
Qed.
Lemma lng n a b x : 0 < a -> 0 < b -> (x <= n)%nat -> ln (g n a b x) = ln (INR (choose n x)) + (loggamma (INR x + a) + loggamma (INR n - INR x + b) - loggamma (INR n + (a + b))) - (loggamma a + loggamma b - loggamma (a + b)).
Proof.
  intros A B I. pose proof (choose_INR_pos n x I). apply le_INR in I. pose proof (pos_INR x). pose proof (Beta_pos a b A B). pose proof (Beta_pos (INR x + a) (INR n - INR x + b) ltac:(lra) ltac:(lra)). unfold g.
  rewrite ln_div, ln_mult by (auto; apply Rmult_lt_0_compat; auto). rewrite !ln_Beta by lra. replace (INR x + a + (INR n - INR x + b)) with (INR n + (a + b)) by ring. ring.
Qed.
Definition da (n : nat) (a b : R) (x : nat) := digamma (INR x + a) + (digamma (a + b) - digamma (INR n + (a + b)) - digamma a).
Definition db (n : nat) (a b : R) (x : nat) := digamma (INR n - INR x + b) + (digamma (a + b) - digamma (INR n + (a + b)) - digamma b).
Lemma near (t : R) (P : R -> Prop) : 0 < t -> (forall u : R, 0 < u -> P u) -> locally t P.
Proof.
  intros T H. exists (mkposreal (t / 2) ltac:(lra)). intros u U. unfold ball in U; simpl in U. unfold AbsRing_ball, abs, minus, plus, opp in U; simpl in U. apply Rabs_def2 in U. apply H. lra.
Qed.
Lemma lg_sh c t : 0 < c + t -> is_derive (fun u => loggamma (c + u)) t (digamma (c + t)).
Proof. intros H. apply der_comp_shift. apply loggamma_digamma; auto. Qed.
Lemma lng_a n a b x : 0 < a -> 0 < b -> (x <= n)%nat -> is_derive (fun u => ln (g n u b x)) a (da n a b x).
Proof.
  intros A B I. apply (is_derive_ext_loc (fun u => (ln (INR (choose n x)) + loggamma (INR n - INR x + b) - loggamma b) + (loggamma (INR x + u) - loggamma (INR n + b + u) - loggamma (0 + u) + loggamma (b + u)))).
  { apply near; auto. intros u U. rewrite lng by (auto; lra). replace (INR n + b + u) with (INR n + (u + b)) by ring. replace (0 + u) with u by ring. replace (b + u) with (u + b) by ring. match goal with |- ?l = ?r => change (@eq R l r) end. ring. }
  pose proof (pos_INR x). pose proof (pos_INR n). unfold da. replace (digamma (INR x + a) + (digamma (a + b) - digamma (INR n + (a + b)) - digamma a)) with (0 + (digamma (INR x + a) - digamma (INR n + b + a) - digamma (0 + a) + digamma (b + a))) by (replace (INR n + b + a) with (INR n + (a + b)) by ring; replace (0 + a) with a by ring; replace (b + a) with (a + b) by ring; ring).
  apply (is_derive_plus (fun _ : R => ln (INR (choose n x)) + loggamma (INR n - INR x + b) - loggamma b) (fun u : R => loggamma (INR x + u) - loggamma (INR n + b + u) - loggamma (0 + u) + loggamma (b + u))); [apply @is_derive_const|].
  apply (is_derive_plus (fun u : R => loggamma (INR x + u) - loggamma (INR n + b + u) - loggamma (0 + u)) (fun u : R => loggamma (b + u))); [|apply lg_sh; lra].
  apply (is_derive_minus (fun u : R => loggamma (INR x + u) - loggamma (INR n + b + u)) (fun u : R => loggamma (0 + u))); [|apply lg_sh; lra]. apply (is_derive_minus (fun u : R => loggamma (INR x + u)) (fun u : R => loggamma (INR n + b + u))); apply lg_sh; lra.
Qed.
Lemma lng_b n a b x : 0 < a -> 0 < b -> (x <= n)%nat -> is_derive (fun u => ln (g n a u x)) b (db n a b x).
Proof.
  intros A B I. apply (is_derive_ext_loc (fun u => (ln (INR (choose n x)) + loggamma (INR x + a) - loggamma a) + (loggamma (INR n - INR x + u) - loggamma (INR n + a + u) - loggamma (0 + u) + loggamma (a + u)))).
  { apply near; auto. intros u U. rewrite lng by (auto; lra). replace (INR n + a + u) with (INR n + (a + u)) by ring. replace (0 + u) with u by ring. match goal with |- ?l = ?r => change (@eq R l r) end. ring. }
  pose proof (pos_INR x). pose proof (pos_INR n). apply le_INR in I. unfold db. replace (digamma (INR n - INR x + b) + (digamma (a + b) - digamma (INR n + (a + b)) - digamma b)) with (0 + (digamma (INR n - INR x + b) - digamma (INR n + a + b) - digamma (0 + b) + digamma (a + b))) by (replace (INR n + a + b) with (INR n + (a + b)) by ring; replace (0 + b) with b by ring; ring).
  apply (is_derive_plus (fun _ : R => ln (INR (choose n x)) + loggamma (INR x + a) - loggamma a) (fun u : R => loggamma (INR n - INR x + u) - loggamma (INR n + a + u) - loggamma (0 + u) + loggamma (a + u))); [apply @is_derive_const|].
  apply (is_derive_plus (fun u : R => loggamma (INR n - INR x + u) - loggamma (INR n + a + u) - loggamma (0 + u)) (fun u : R => loggamma (a + u))); [|apply lg_sh; lra].
  apply (is_derive_minus (fun u : R => loggamma (INR n - INR x + u) - loggamma (INR n + a + u)) (fun u : R => loggamma (0 + u))); [|apply lg_sh; lra]. apply (is_derive_minus (fun u : R => loggamma (INR n - INR x + u)) (fun u : R => loggamma (INR n + a + u))); apply lg_sh; lra.
Qed.
Section Mle.
Variables (n : nat) (xs : list nat) (cs : option (list nat)).
Hypothesis NP : (0 < n)%nat.
Hypothesis X : forall x, In x xs -> (x <= n)%nat.
Hypothesis G : good_counts xs cs.
Notation c := (counts_for xs cs).
Lemma nll_a a b : 0 < a -> 0 < b -> is_derive (fun u => toR (nll (vNs xs) (Fin (INR n)) (Fin u) (Fin b) (vcounts cs))) a (- wsum (da n a b) xs c).
Proof.
  intros A B. apply (is_derive_ext_loc (fun u => - wsum (fun x => ln (g n u b x)) xs c)).
  { apply near; auto. intros u U. rewrite nll_eval by (auto; lra). reflexivity. }
  apply (is_derive_opp (fun u => wsum (fun x => ln (g n u b x)) xs c)). apply (wsum_der (fun u x => ln (g n u b x))). intros x I. apply lng_a; auto.
Qed.
Lemma nll_b a b : 0 < a -> 0 < b -> is_derive (fun u => toR (nll (vNs xs) (Fin (INR n)) (Fin a) (Fin u) (vcounts cs))) b (- wsum (db n a b) xs c).
Proof.
  intros A B. apply (is_derive_ext_loc (fun u => - wsum (fun x => ln (g n a u x)) xs c)).
  { apply near; auto. intros u U. rewrite nll_eval by (auto; lra). reflexivity. }
  apply (is_derive_opp (fun u => wsum (fun x => ln (g n a u x)) xs c)). apply (wsum_der (fun u x => ln (g n a u x))). intros x I. apply lng_b; auto.
Qed.
Lemma eq_ok a b : 0 < a -> 0 < b -> eqns (vNs xs) (vNs c) (Fin (INR n)) (Fin a) (Fin b) = (Fin (wsum (da n a b) xs c), Fin (wsum (db n a b) xs c)) /\
  eqn_a (vNs xs) (vNs c) (Fin (INR n)) (Fin b) (Fin a) = Fin (wsum (da n a b) xs c) /\ eqn_b (vNs xs) (vNs c) (Fin (INR n)) (Fin a) (Fin b) = Fin (wsum (db n a b) xs c).
Proof.
  intros A B. pose proof (pos_INR n). unfold eqns, eqn_a, eqn_b. cbv zeta. cbn [vadd]. rewrite (vdig a), (vdig b), (vdig (a + b)), (vdig (INR n + a + b)) by lra. cbn [vadd vsub vneg].
  assert (XI : forall x, In x xs -> INR x <= INR n) by (intros; apply le_INR; auto).
  split; [|split].
  - rewrite (zip_sum _ (da n a b)), (zip_sum _ (db n a b)); [reflexivity|..]; intros x I; pose proof (XI x I); pose proof (pos_INR x); unfold vN; cbn [vadd vsub vneg]; rewrite vdig by lra; cbn [vadd vsub vneg]; f_equal; unfold da, db, Rminus; replace (INR n + a + b) with (INR n + (a + b)) by ring; ring.
  - rewrite (zip_sum _ (da n a b)); [reflexivity|..]; intros x I; pose proof (XI x I); pose proof (pos_INR x); unfold vN; cbn [vadd vsub vneg]; rewrite vdig by lra; cbn [vadd vsub vneg]; f_equal; unfold da, db, Rminus; replace (INR n + a + b) with (INR n + (a + b)) by ring; ring.
  - rewrite (zip_sum _ (db n a b)); [reflexivity|..]; intros x I; pose proof (XI x I); pose proof (pos_INR x); unfold vN; cbn [vadd vsub vneg]; rewrite vdig by lra; cbn [vadd vsub vneg]; f_equal; unfold da, db, Rminus; replace (INR n + a + b) with (INR n + (a + b)) by ring; ring.
Qed.
Lemma head fr1 fr2 A B : mle fr1 fr2 (vNs xs) (vcounts cs) (Fin (INR n)) A B = 
   match A, B with
   | inr a0, inr b0 => validate_params (Fin (INR n)) (Fin 1) (Fin 1) (fr2 (eqns (vNs xs) (vNs c) (Fin (INR n))) (a0, b0))
   | inr a0, inl b => validate_params (Fin (INR n)) (Fin 1) b (bindv (fr1 (eqn_a (vNs xs) (vNs c) (Fin (INR n)) b) a0) (fun a => Ok (a, b)))
   | inl a, inr b0 => validate_params (Fin (INR n)) a (Fin 1) (bindv (fr1 (eqn_b (vNs xs) (vNs c) (Fin (INR n)) a) b0) (fun b => Ok (a, b)))
   | inl a, inl b => validate_params (Fin (INR n)) a b (Ok (a, b))
   end.
Proof.
  assert (L : 1 <= INR n) by (change 1 with (INR 1); apply le_INR; lia). unfold mle. unfold visint at 1. rewrite is_intb_INR. unfold clt, cmp, ltb. rewrite Rltb_false by lra. cbn [cnot negb cor orb cif].
  rewrite xb_nat by (intros x I; simpl; apply le_INR; auto). rewrite ints_nat. cbn [cnot negb cif]. rewrite (counts_pass _ xs) by (auto; unfold vNs; apply map_length).
  replace (counts_list (match cs with Some c => Some (vNs c) | None => Some (vNs (counts_for xs None)) end)) with (vNs c) by (destruct cs; reflexivity). reflexivity.
Qed.
Lemma mle_both fr1 fr2 a0 b0 a b : checked_solver2 fr2 -> 0 < a -> 0 < b -> mle fr1 fr2 (vNs xs) (vcounts cs) (Fin (INR n)) (inr a0) (inr b0) = Ok (Fin a, Fin b) ->
  is_derive (fun u => toR (nll (vNs xs) (Fin (INR n)) (Fin u) (Fin b) (vcounts cs))) a 0 /\ is_derive (fun u => toR (nll (vNs xs) (Fin (INR n)) (Fin a) (Fin u) (vcounts cs))) b 0.
Proof.
  intros CS A B. rewrite head, (ok n 1 1) by lra. intros E. apply CS in E. destruct (eq_ok a b A B) as [E1 _]. rewrite E1 in E. injection E as Ea Eb.
  pose proof (nll_a a b A B) as Da. pose proof (nll_b a b A B) as Db. rewrite Ea, Ropp_0 in Da. rewrite Eb, Ropp_0 in Db. auto.
Qed.
Lemma mle_a fr1 fr2 a0 a b b' : checked_solver1 fr1 -> 0 < a -> 0 < b -> mle fr1 fr2 (vNs xs) (vcounts cs) (Fin (INR n)) (inr a0) (inl (Fin b)) = Ok (Fin a, b') ->
  b' = Fin b /\ is_derive (fun u => toR (nll (vNs xs) (Fin (INR n)) (Fin u) (Fin b) (vcounts cs))) a 0.
Proof.
  intros CS A B. rewrite head, (ok n 1 b) by lra. intros E. apply P_beta.ok_bind in E. destruct E as [E Eb]. split; auto. apply CS in E. destruct (eq_ok a b A B) as [_ [E1 _]]. rewrite E1 in E. injection E as Ea.
  pose proof (nll_a a b A B) as Da. rewrite Ea, Ropp_0 in Da. auto.
Qed.
Lemma mle_b fr1 fr2 b0 a b a' : checked_solver1 fr1 -> 0 < a -> 0 < b -> mle fr1 fr2 (vNs xs) (vcounts cs) (Fin (INR n)) (inl (Fin a)) (inr b0) = Ok (a', Fin b) ->
  a' = Fin a /\ is_derive (fun u => toR (nll (vNs xs) (Fin (INR n)) (Fin a) (Fin u) (vcounts cs))) b 0.
Proof.
  intros CS A B. rewrite head, (ok n a 1) by lra. intros E. apply P_beta.ok_bind' in E. destruct E as [E Eb]. split; auto. apply CS in E. destruct (eq_ok a b A B) as [_ [_ E1]]. rewrite E1 in E. injection E as Ea.
  pose proof (nll_b a b A B) as Da. rewrite Ea, Ropp_0 in Da. auto.
Qed.
Lemma mle_given0 fr1 fr2 a b : 0 < a -> 0 < b -> mle fr1 fr2 (vNs xs) (vcounts cs) (Fin (INR n)) (inl (Fin a)) (inl (Fin b)) = Ok (Fin a, Fin b).
Proof. intros A B. rewrite head, ok by auto. auto. Qed.
End Mle.
Lemma mle_given (n : nat) (xs : list nat) (cs : option (list nat)) (NP : (0 < n)%nat) (X : forall x, In x xs -> (x <= n)%nat) (G : good_counts xs cs) fr1 fr2 (a b : R) : 0 < a -> 0 < b ->
  mle fr1 fr2 (vNs xs) (vcounts cs) (Fin (INR n)) (inl (Fin a)) (inl (Fin b)) = Ok (Fin a, Fin b).
Proof. intros. apply mle_given0; auto. Qed.
Lemma stat_both (n : nat) (xs : list nat) (cs : option (list nat)) fr1 fr2 a0 b0 a b : (0 < n)%nat -> (forall x, In x xs -> (x <= n)%nat) -> good_counts xs cs ->
  checked_solver2 fr2 -> 0 < a -> 0 < b -> mle fr1 fr2 (vNs xs) (vcounts cs) (Fin (INR n)) (inr a0) (inr b0) = Ok (Fin a, Fin b) ->
  is_derive (fun u => toR (nll (vNs xs) (Fin (INR n)) (Fin u) (Fin b) (vcounts cs))) a 0 /\ is_derive (fun u => toR (nll (vNs xs) (Fin (INR n)) (Fin a) (Fin u) (vcounts cs))) b 0.
Proof. intros. eapply mle_both; eauto. Qed.
Lemma stat_a (n : nat) (xs : list nat) (cs : option (list nat)) fr1 fr2 a0 a b b' : (0 < n)%nat -> (forall x, In x xs -> (x <= n)%nat) -> good_counts xs cs ->
  checked_solver1 fr1 -> 0 < a -> 0 < b -> mle fr1 fr2 (vNs xs) (vcounts cs) (Fin (INR n)) (inr a0) (inl (Fin b)) = Ok (Fin a, b') ->
  b' = Fin b /\ is_derive (fun u => toR (nll (vNs xs) (Fin (INR n)) (Fin u) (Fin b) (vcounts cs))) a 0.
Proof. intros. eapply mle_a; eauto. Qed.
Lemma stat_b (n : nat) (xs : list nat) (cs : option (list nat)) fr1 fr2 b0 a b a' : (0 < n)%nat -> (forall x, In x xs -> (x <= n)%nat) -> good_counts xs cs ->
  checked_solver1 fr1 -> 0 < a -> 0 < b -> mle fr1 fr2 (vNs xs) (vcounts cs) (Fin (INR n)) (inl (Fin a)) (inr b0) = Ok (a', Fin b) ->
  a' = Fin a /\ is_derive (fun u => toR (nll (vNs xs) (Fin (INR n)) (Fin a) (Fin u) (vcounts cs))) b 0.
Proof. intros. eapply mle_b; eauto. Qed.
Lemma dat n : (0 < n)%nat -> forall x, In x [0; 1]%nat -> (x <= n)%nat.
Proof. intros N x [<-|[<-|[]]]; lia. Qed.
Lemma eq0 : wsum (da 1 1 1) [0; 1]%nat [1; 1]%nat = 0 /\ wsum (db 1 1 1) [0; 1]%nat [1; 1]%nat = 0.
Proof.
  unfold wsum, da, db. simpl. replace (1 + (1 + 1)) with (2 + 1) by ring. replace (1 - 0 + 1) with (1 + 1) by ring. replace (1 - 1 + 1) with 1 by ring. replace (0 + 1) with 1 by ring. rewrite (digamma_succ 2) by lra. replace 2 with (1 + 1) by ring. rewrite !(digamma_succ 1) by lra. split; field.
Qed.
Lemma case_both : exists fr, checked_solver2 fr /\ mle (fun _ _ => NaN) fr (vNs [0; 1]%nat) None (Fin (INR 1)) (inr (Fin 1)) (inr (Fin 1)) = Ok (Fin 1, Fin 1).
Proof.
  exists (P_beta.try2 1 1). split; [apply P_beta.try2_ok|]. change None with (vcounts None). rewrite (head 1 [0; 1]%nat None (le_n 1) (dat 1 (le_n 1)) eq_refl). rewrite ok by lra. unfold P_beta.try2.
  destruct (eq_ok 1 [0; 1]%nat None (dat 1 (le_n 1)) 1 1 ltac:(lra) ltac:(lra)) as [-> _]. simpl counts_for. destruct eq0 as [-> ->]. rewrite Reqb_true by auto. auto.
Qed.
Lemma case_a : exists fr, checked_solver1 fr /\ mle fr (fun _ _ => Err ValueError) (vNs [0; 1]%nat) None (Fin (INR 1)) (inr (Fin 1)) (inl (Fin 1)) = Ok (Fin 1, Fin 1).
Proof.
  exists (P_beta.try1 1). split; [apply P_beta.try1_ok|]. change None with (vcounts None). rewrite (head 1 [0; 1]%nat None (le_n 1) (dat 1 (le_n 1)) eq_refl). rewrite ok by lra. unfold P_beta.try1.
  destruct (eq_ok 1 [0; 1]%nat None (dat 1 (le_n 1)) 1 1 ltac:(lra) ltac:(lra)) as [_ [-> _]]. simpl counts_for. destruct eq0 as [-> _]. rewrite Reqb_true by auto. auto.
Qed.
Lemma case_b : exists fr, checked_solver1 fr /\ mle fr (fun _ _ => Err ValueError) (vNs [0; 1]%nat) None (Fin (INR 1)) (inl (Fin 1)) (inr (Fin 1)) = Ok (Fin 1, Fin 1).
Proof.
  exists (P_beta.try1 1). split; [apply P_beta.try1_ok|]. change None with (vcounts None). rewrite (head 1 [0; 1]%nat None (le_n 1) (dat 1 (le_n 1)) eq_refl). rewrite ok by lra. unfold P_beta.try1.
  destruct (eq_ok 1 [0; 1]%nat None (dat 1 (le_n 1)) 1 1 ltac:(lra) ltac:(lra)) as [_ [_ ->]]. simpl counts_for. destruct eq0 as [_ ->]. rewrite Reqb_true by auto. auto.
Qed.
(** Parameters. *)
Lemma bad (m a b : R) : m < 0 \/ (forall z, m <> IZR z) \/ a <= 0 \/ b <= 0 -> forall {A} `{CanRaise A} (c : A), validate_params (Fin m) (Fin a) (Fin b) c = raise ValueError.
Proof.
  intros B A H c. unfold validate_params, cne, clt, cle, cmp, eqb, ltb, leb. unfold vint.
  assert (Q : forall z : Z, (RIF CB (negb (Reqb m (IZR z))) THEN raise ValueError ELSE (RIF CB (Rltb m 0) THEN raise ValueError ELSE RIF CB (Rleb a 0) THEN raise ValueError ELSE RIF CB (Rleb b 0) THEN raise ValueError ELSE c)) = raise ValueError).
  { intros z. destruct (Reqb_spec m (IZR z)) as [[E ->]|[E ->]]; cbn [negb cif]; auto. destruct (Rltb_spec m 0) as [[E1 ->]|[E1 ->]]; cbn [cif]; auto. destruct (Rleb_spec a 0) as [[E2 ->]|[E2 ->]]; cbn [cif]; auto. destruct (Rleb_spec b 0) as [[E3 ->]|[E3 ->]]; cbn [cif]; auto. destruct B as [B|[B|[B|B]]]; [lra|destruct (B z E)|lra|lra]. }
  destruct (Rltb m 0); apply Q.
Qed.
Lemma bad_params (m a b : R) (xs : list val) : m < 0 \/ (forall z, m <> IZR z) \/ a <= 0 \/ b <= 0 ->
  always_ValueError [fun k => pmf k (Fin m) (Fin a) (Fin b); fun k => logpmf k (Fin m) (Fin a) (Fin b); fun k => cdf k (Fin m) (Fin a) (Fin b); fun k => sf k (Fin m) (Fin a) (Fin b);
    fun _ => mean (Fin m) (Fin a) (Fin b); fun _ => mode (Fin m) (Fin a) (Fin b); fun _ => var (Fin m) (Fin a) (Fin b); fun _ => skewness (Fin m) (Fin a) (Fin b); fun _ => kurtosis (Fin m) (Fin a) (Fin b);
    fun _ => nll xs (Fin m) (Fin a) (Fin b) None] /\ support (Fin m) (Fin a) (Fin b) = Err ValueError.
Proof. intros H. split; [all_ve; intros x _; apply (bad m a b H)|]. unfold support. rewrite (bad m a b H). auto. Qed.
