(** Proofs about M_fnch. *)
From Coq Require Import Reals Lra Lia List ZArith Arith Bool.
From Coquelicot Require Import Coquelicot.
From Verif Require Import Values VTac Spec SpecStat SpecDisc LLib XLib PLib SFun GammaLib GammaLib3 M_common M_sfun M_disc M_fun SpecInt BinLib DiscLib IncLib DiscLib2 HgLib P_logb TiltLib.
From Verif Require M_hypergeometric P_hypergeometric.
From Verif Require Import M_fnch.
Import ListNotations.
Local Open Scope R_scope.
Set Bullet Behavior "Strict Subproofs".

Lemma vlist_Fin {A} (f : A -> val) (g : A -> R) l : (forall a, In a l -> f a = Fin (g a)) -> vlist (map f l) = Ok (map (fun a => Fin (g a)) l).
Proof.
  induction l as [|a l IH]; intros H; [reflexivity|]. simpl. rewrite H by (left; auto). rewrite IH by (intros; apply H; right; auto). reflexivity.
Qed.
Lemma vmaxl_Fin {A} (g : A -> R) l : l <> [] -> exists M, vmaxl (map (fun a => Fin (g a)) l) = Fin M.
Proof.
  destruct l as [|a l]; [congruence|]. intros _. simpl. generalize (g a) as x. induction l as [|b l IH]; intros x; simpl; [eauto|].
  assert (E : exists y, vmax2 (Fin x) (Fin (g b)) = Fin y).
  { unfold vmax2. change (cgt (Fin (g b)) (Fin x)) with (CB (Rltb x (g b))). destruct (Rltb x (g b)); eexists; reflexivity. }
  destruct E as [y ->]. apply IH.
Qed.
Lemma sum_div {A} (g : A -> R) c l : sum (map (fun a => g a / c) l) = sum (map g l) / c.
Proof. induction l as [|a l IH]; simpl; [unfold Rdiv; ring|]. rewrite IH. unfold Rdiv. ring. Qed.
Lemma sum_scal {A} (g : A -> R) c l : sum (map (fun a => c * g a) l) = c * sum (map g l).
Proof. induction l as [|a l IH]; simpl; [ring|]. rewrite IH. ring. Qed.
Lemma zrange_In a b k : In k (zrange a b) <-> (a <= k < b)%Z.
Proof.
  unfold zrange. rewrite in_map_iff. split.
  - intros [i [<- I]]. apply in_seq in I. lia.
  - intros H. exists (Z.to_nat (k - a)). split; [lia|]. apply in_seq. lia.
Qed.
Lemma zrange_len a b : length (zrange a b) = Z.to_nat (b - a).
Proof. unfold zrange. rewrite map_length, seq_length. reflexivity. Qed.
Lemma zrange_firstn {A} (f : Z -> A) a b j : (a <= j <= b)%Z -> firstn (Z.to_nat (j - a)) (map f (zrange a b)) = map f (zrange a j).
Proof.
  intros H. unfold zrange. rewrite !firstn_map. f_equal. f_equal. replace (Z.to_nat (b - a)) with (Z.to_nat (j - a) + Z.to_nat (b - j))%nat by lia.
  rewrite seq_app, firstn_app, seq_length, Nat.sub_diag. simpl. rewrite app_nil_r. rewrite <- (seq_length (Z.to_nat (j - a)) 0) at 1. apply firstn_all.
Qed.
Lemma zrange_nth {A} (f : Z -> A) a b k d : (a <= k < b)%Z -> nth (Z.to_nat (k - a)) (map f (zrange a b)) d = f k.
Proof.
  intros H. unfold zrange. rewrite map_map. rewrite nth_indep with (d' := f (a + Z.of_nat 0)%Z) by (rewrite map_length, seq_length; lia).
  rewrite (map_nth (fun i => f (a + Z.of_nat i)%Z)). rewrite seq_nth by lia. f_equal. lia.
Qed.
Lemma vfsum_sum {A} (g : A -> R) l : vfsum (map (fun a => Fin (g a)) l) = Fin (sum (map g l)).
Proof. induction l as [|a l IH]; [reflexivity|]. simpl. rewrite IH. reflexivity. Qed.
Lemma sum_app_firstn_skipn (l : list R) j : sum (skipn j l) = sum l - sum (firstn j l).
Proof. rewrite <- (firstn_skipn j l) at 2. rewrite LLib.rsum_app. ring. Qed.

Lemma choose_C a b : (b <= a)%nat -> INR (choose a b) = Binomial.C a b.
Proof.
  intros H. unfold Binomial.C. pose proof (choose_fact a b H) as E. apply (f_equal INR) in E. rewrite !mult_INR in E. pose proof (INR_fact_lt_0 b). pose proof (INR_fact_lt_0 (a - b)).
  rewrite <- E. field. lra.
Qed.
Lemma root_lemma A B C k0 : 0 < C -> 0 < k0 -> A * k0 ^ 2 + B * k0 + C < 0 ->
  0 <= B ^ 2 - 4 * A * C /\ B - sqrt (B ^ 2 - 4 * A * C) < 0 /\
  forall x, 0 <= x <= k0 -> (x <= - (2) * C / (B - sqrt (B ^ 2 - 4 * A * C)) -> 0 <= A * x ^ 2 + B * x + C) /\
                            (- (2) * C / (B - sqrt (B ^ 2 - 4 * A * C)) < x -> A * x ^ 2 + B * x + C < 0).
Proof.
  intros PC PK Q. set (D := B ^ 2 - 4 * A * C).
  assert (HD : 0 <= D).
  { unfold D. destruct (Rle_lt_dec A 0) as [L|L]; [nra|].
    assert (E : B ^ 2 - 4 * A * C = (2 * A * k0 + B) ^ 2 - 4 * A * (A * k0 ^ 2 + B * k0 + C)) by ring. rewrite E.
    assert (0 < A * - (A * k0 ^ 2 + B * k0 + C)) by (apply Rmult_lt_0_compat; lra). pose proof (pow2_ge_0 (2 * A * k0 + B)). lra. }
  set (s := sqrt D). assert (S0 : 0 <= s) by apply sqrt_pos. assert (SS : s * s = D) by (apply sqrt_sqrt; auto).
  assert (HB : 0 < A -> B < 0).
  { intros L. destruct (Rlt_le_dec B 0) as [G|G]; auto. exfalso. assert (0 <= A * k0 ^ 2) by nra. assert (0 <= B * k0) by nra. lra. }
  assert (DN : B - s < 0).
  { destruct (Rle_lt_dec A 0) as [L|L]; [|pose proof (HB L); lra]. destruct (Rlt_le_dec B 0) as [G|G]; [lra|].
    destruct (Req_dec A 0) as [->|NA]; [exfalso; nra|]. assert (0 < - A * C) by (apply Rmult_lt_0_compat; lra). unfold D in SS. apply Rnot_le_lt. intros GG. nra. }
  split; auto. split; auto. set (r := - (2) * C / (B - s)). assert (Rr : r * (s - B) = 2 * C) by (unfold r; field; lra). assert (R0 : 0 < r) by nra.
  assert (Qr : A * r ^ 2 + B * r + C = 0).
  { apply (Rmult_eq_reg_r ((s - B) ^ 2)); [|apply pow_nonzero; lra].
    transitivity (A * (r * (s - B)) ^ 2 + B * (r * (s - B)) * (s - B) + C * (s - B) ^ 2); [ring|]. rewrite Rr.
    transitivity (C * (4 * A * C + s * s - B ^ 2)); [ring|]. rewrite SS. unfold D. ring. }
  assert (F : forall x, A * x ^ 2 + B * x + C = (x - r) * (A * (x + r) + B)) by (intros x; replace (A * x ^ 2 + B * x + C) with (A * x ^ 2 + B * x + C - (A * r ^ 2 + B * r + C)) by (rewrite Qr; ring); ring).
  assert (G : forall x, 0 <= x <= k0 -> A * (x + r) + B < 0).
  { assert (G0 : A * r + B < 0) by (apply (Rmult_lt_reg_r r); [auto|]; lra).
    destruct (Rle_lt_dec A 0) as [L|L]; [intros x Hx; nra|].
    assert (GK : A * (k0 + r) + B < 0).
    { apply Rnot_le_lt. intros H. rewrite F in Q. assert (k0 < r) by nra.
      assert (A1 : C <= A * k0 * r) by nra. assert (A2 : A * k0 * r < A * r * r) by (apply Rmult_lt_compat_r; auto; apply Rmult_lt_compat_l; auto).
      pose proof (HB L). assert (HH : C * (s - B) ^ 2 < A * (r * (s - B)) ^ 2).
      { replace (A * (r * (s - B)) ^ 2) with (A * r * r * (s - B) ^ 2) by ring. apply Rmult_lt_compat_r; [apply pow_lt; lra|lra]. }
      rewrite Rr in HH. assert (H2 : C * (s - B) ^ 2 < C * (4 * A * C)) by (replace (C * (4 * A * C)) with (A * (2 * C) ^ 2) by ring; auto).
      apply Rmult_lt_reg_l in H2; auto. assert (B ^ 2 <= (s - B) ^ 2) by nra. unfold D in HD. lra. }
    intros x Hx. assert (A * x <= A * k0) by (apply Rmult_le_compat_l; lra). lra. }
  intros x Hx. rewrite F. pose proof (G x Hx). split; intros L; nra.
Qed.

Section P.
Variables (N K n : nat) (t : R).
Hypotheses (HK : (K <= N)%nat) (Hn : (n <= N)%nat) (T : 0 < t).
Let B := (N - K)%nat.
Notation lo := (P_hypergeometric.lo N K n). Notation hi := (P_hypergeometric.hi K n).
Definition w (i : nat) := hg K B n i.
Definition W := TiltLib.tot w (S n) t.
Definition q (k : Z) := w (Z.to_nat k) * t ^ Z.to_nat k / W.
Definition nlo := Z.to_nat lo. Definition nhi := Z.to_nat hi.
Lemma bounds : (0 <= lo)%Z /\ (lo <= hi)%Z /\ (hi <= Z.of_nat n)%Z.
Proof. unfold P_hypergeometric.lo, P_hypergeometric.hi. lia. Qed.
Lemma w_nn i : (i < S n)%nat -> 0 <= w i. Proof. intros _. apply hg_nonneg. unfold B. lia. Qed.
Lemma w_pos i : (nlo <= i <= nhi)%nat -> 0 < w i.
Proof. unfold nlo, nhi, P_hypergeometric.lo, P_hypergeometric.hi. intros H. apply hg_pos; unfold B; lia. Qed.
Lemma w_0 i : (i < nlo)%nat \/ (nhi < i)%nat -> (i <= n)%nat -> w i = 0.
Proof.
  unfold nlo, nhi, P_hypergeometric.lo, P_hypergeometric.hi, w, hg. intros H I.
  destruct (Nat.le_gt_cases i K); [rewrite (choose_gt B) by (unfold B; lia)|rewrite (choose_gt K) by lia]; simpl; unfold Rdiv; ring.
Qed.
Lemma LH : (nlo <= nhi)%nat. Proof. pose proof bounds. unfold nlo, nhi. lia. Qed.
Lemma HM : (nhi < S n)%nat. Proof. pose proof bounds. unfold nhi. lia. Qed.
Lemma CL : 0 < w nlo. Proof. apply w_pos. pose proof LH. lia. Qed.
Lemma CH : 0 < w nhi. Proof. apply w_pos. pose proof LH. lia. Qed.
Lemma ZL i : (i < nlo)%nat -> w i = 0. Proof. intros H. pose proof LH. pose proof HM. apply w_0; lia. Qed.
Lemma ZH i : (nhi < i < S n)%nat -> w i = 0. Proof. intros H. apply w_0; lia. Qed.
Lemma W_pos : 0 < W. Proof. apply (tot_pos w (S n) w_nn nlo nhi LH HM CL t T). Qed.
Lemma W_zsum : zsum (fun k => w (Z.to_nat k) * t ^ Z.to_nat k) lo (hi + 1) = W.
Proof.
  pose proof bounds. rewrite <- (zsum_widen _ lo (hi + 1) 0 (Z.of_nat n + 1)) by (lia || (intros k Hk; rewrite w_0; [ring|unfold nlo, nhi; lia|lia])).
  rewrite zsum_0. unfold W, TiltLib.tot, low. replace (Z.to_nat (Z.of_nat n + 1)) with (S n) by lia. apply nsum_ext. intros i I. rewrite Nat2Z.id. reflexivity.
Qed.
Lemma spmf0 : support_pmf0 (Fin t) (Fin (INR N)) (Fin (INR K)) (Fin (INR n)) = Ok (Range lo (hi + 1), map (fun k => Fin (q k)) (zrange lo (hi + 1))).
Proof.
  pose proof bounds as BD. unfold support_pmf0. rewrite P_hypergeometric.support_ok by auto. unfold bindr.
  rewrite (vlist_Fin _ (fun k => ln (w (Z.to_nat k)))).
  2:{ intros k Hk. apply zrange_In in Hk. replace (IZR k) with (INR (Z.to_nat k)) by (rewrite INR_IZR_INZ, Z2Nat.id by lia; auto).
      unfold P_hypergeometric.lo, P_hypergeometric.hi in *. rewrite P_hypergeometric.lg_ok; auto; lia. }
  rewrite (vlist_Fin _ (fun k => ln (w (Z.to_nat k)) + ln t * IZR k)).
  2:{ intros k Hk. apply zrange_In in Hk. rewrite zrange_nth by auto. rewrite vlog_Fin by auto. reflexivity. }
  destruct (vmaxl_Fin (fun k => ln (w (Z.to_nat k)) + ln t * IZR k) (zrange lo (hi + 1))) as [M ->].
  { intros E. assert (X : In lo (zrange lo (hi + 1))) by (apply zrange_In; lia). rewrite E in X. destruct X. }
  cbn [bindv]. rewrite map_map. rewrite (vlist_Fin _ (fun k => exp (- M) * (w (Z.to_nat k) * t ^ Z.to_nat k))).
  2:{ intros k Hk. apply zrange_In in Hk. cbn [vsub vadd vneg vexp]. f_equal. rewrite Rplus_comm, exp_plus. f_equal. rewrite exp_plus, exp_ln by (apply w_pos; unfold nlo, nhi; lia).
      f_equal. rewrite Rmult_comm. replace (IZR k) with (INR (Z.to_nat k)) by (rewrite INR_IZR_INZ, Z2Nat.id by lia; auto). change (exp (INR (Z.to_nat k) * ln t)) with (Rpower t (INR (Z.to_nat k))). apply Rpower_pow; auto. }
  rewrite vfsum_sum. cbn [bindv]. rewrite sum_scal. change (sum (map (fun k => w (Z.to_nat k) * t ^ Z.to_nat k) (zrange lo (hi + 1)))) with (zsum (fun k => w (Z.to_nat k) * t ^ Z.to_nat k) lo (hi + 1)).
  rewrite W_zsum. pose proof W_pos. pose proof (exp_pos (- M)). rewrite map_map. rewrite (vlist_Fin _ q); [reflexivity|].
  intros k Hk. rewrite vdiv_Fin by nra. f_equal. unfold q. field. lra.
Qed.
Lemma spmf : support_pmf (Fin t) (Fin (INR N)) (Fin (INR K)) (Fin (INR n)) = Ok (Range lo (hi + 1), map (fun k => Fin (q k)) (zrange lo (hi + 1))).
Proof. unfold support_pmf. rewrite P_hypergeometric.ok by auto. apply spmf0. Qed.
Lemma as_int_Z k : as_int (Fin (IZR k)) = Some k.
Proof. unfold as_int. rewrite is_intb_IZR, Int_part_IZR. reflexivity. Qed.
Lemma pmf_in k : (lo <= k <= hi)%Z -> pmf (Fin (IZR k)) (Fin t) (Fin (INR N)) (Fin (INR K)) (Fin (INR n)) = Fin (q k).
Proof.
  intros H. unfold pmf. rewrite P_hypergeometric.ok by auto. rewrite spmf. unfold bindr, pmf_of. rewrite as_int_Z.
  replace ((lo <=? k)%Z && (k <? hi + 1)%Z) with true by (symmetry; apply andb_true_intro; split; [apply Z.leb_le|apply Z.ltb_lt]; lia). rewrite zrange_nth by lia. reflexivity.
Qed.
Lemma pmf_out k : (k < lo \/ hi < k)%Z -> pmf (Fin (IZR k)) (Fin t) (Fin (INR N)) (Fin (INR K)) (Fin (INR n)) = Fin 0.
Proof.
  intros H. unfold pmf. rewrite P_hypergeometric.ok by auto. rewrite spmf. unfold bindr, pmf_of. rewrite as_int_Z.
  replace ((lo <=? k)%Z && (k <? hi + 1)%Z) with false; auto. symmetry. apply andb_false_iff. rewrite Z.leb_gt, Z.ltb_ge. lia.
Qed.
Lemma q_nn k : 0 <= q k.
Proof. unfold q. apply Rdiv_le_0_compat; [|apply W_pos]. apply Rmult_le_pos; [apply hg_nonneg; unfold B; lia|left; apply pow_lt; auto]. Qed.
Lemma zsum_q a b : zsum q a b = zsum (fun k => w (Z.to_nat k) * t ^ Z.to_nat k) a b / W.
Proof. unfold zsum, q. apply (sum_div (fun k => w (Z.to_nat k) * t ^ Z.to_nat k)). Qed.
Lemma zsum_at a b : (lo <= a)%Z -> (b <= hi + 1)%Z -> zsum (at_int (fun k => pmf k (Fin t) (Fin (INR N)) (Fin (INR K)) (Fin (INR n)))) a b = zsum q a b.
Proof. intros L H. unfold zsum. f_equal. apply map_ext_in. intros k Hk. apply zrange_In in Hk. unfold at_int. rewrite pmf_in by lia. reflexivity. Qed.
Lemma mass_ok : support (Fin t) (Fin (INR N)) (Fin (INR K)) (Fin (INR n)) = Ok (Range (Z.max 0 (Z.of_nat n - Z.of_nat (N - K))) (Z.min (Z.of_nat n) (Z.of_nat K) + 1)) /\
  mass_function (fun k => pmf k (Fin t) (Fin (INR N)) (Fin (INR K)) (Fin (INR n))) (Range (Z.max 0 (Z.of_nat n - Z.of_nat (N - K))) (Z.min (Z.of_nat n) (Z.of_nat K) + 1)) /\
  zero_outside (fun k => pmf k (Fin t) (Fin (INR N)) (Fin (INR K)) (Fin (INR n))) (Range (Z.max 0 (Z.of_nat n - Z.of_nat (N - K))) (Z.min (Z.of_nat n) (Z.of_nat K) + 1)).
Proof.
  split; [apply P_hypergeometric.support_ok; auto|]. split.
  - split.
    + intros k Hk. simpl in Hk. exists (q k). split; [apply pmf_in; unfold P_hypergeometric.lo, P_hypergeometric.hi; lia|apply q_nn].
    + change (zsum (at_int (fun k => pmf k (Fin t) (Fin (INR N)) (Fin (INR K)) (Fin (INR n)))) lo (hi + 1) = 1). rewrite zsum_at, zsum_q, W_zsum by lia. pose proof W_pos. field. lra.
  - intros k Hk. simpl in Hk. apply pmf_out. unfold P_hypergeometric.lo, P_hypergeometric.hi. lia.
Qed.
Lemma cdf_ok (k : Z) : cumulative (fun k => pmf k (Fin t) (Fin (INR N)) (Fin (INR K)) (Fin (INR n))) (fun k => cdf k (Fin t) (Fin (INR N)) (Fin (INR K)) (Fin (INR n))) (fun k => sf k (Fin t) (Fin (INR N)) (Fin (INR K)) (Fin (INR n))) (Range (Z.max 0 (Z.of_nat n - Z.of_nat (N - K))) (Z.min (Z.of_nat n) (Z.of_nat K) + 1)) k.
Proof.
  change (cumulative (fun k => pmf k (Fin t) (Fin (INR N)) (Fin (INR K)) (Fin (INR n))) (fun k => cdf k (Fin t) (Fin (INR N)) (Fin (INR K)) (Fin (INR n))) (fun k => sf k (Fin t) (Fin (INR N)) (Fin (INR K)) (Fin (INR n))) (Range lo (hi + 1)) k).
  pose proof bounds as BD. pose proof W_pos as WP. assert (TOT : zsum q lo (hi + 1) = 1) by (rewrite zsum_q, W_zsum; field; lra).
  unfold cumulative, cdf, sf, sum_upto. rewrite !P_hypergeometric.ok by auto. rewrite spmf. unfold bindr, cdf_of, sf_of. rewrite as_int_Z, zsum_at by lia. unfold clt, cge, cmp, ltb, leb.
  destruct (Rltb_spec (IZR k) (IZR lo)) as [[L ->]|[L ->]].
  - apply lt_IZR in L. replace (zsum q lo (Z.min (k + 1) (hi + 1))) with 0; [split; simpl; f_equal; ring|]. unfold zsum, zrange. replace (Z.to_nat (Z.min (k + 1) (hi + 1) - lo)) with 0%nat by lia. reflexivity.
  - apply le_IZR in L. replace (hi + 1 - 1)%Z with hi by lia. cbn [cif]. destruct (Rleb_spec (IZR hi) (IZR k)) as [[G ->]|[G ->]]; cbn [cif].
    + apply le_IZR in G. rewrite Z.min_r by lia. rewrite TOT. split; simpl; f_equal; ring.
    + apply lt_IZR in G. rewrite Z.min_l by lia. replace (k - lo + 1)%Z with (k + 1 - lo)%Z by lia. split.
      * rewrite zrange_firstn by lia. apply (vfsum_sum q).
      * rewrite <- (map_map q Fin), skipn_map, vfsum_Fin, sum_app_firstn_skipn, (zrange_firstn q) by lia. f_equal. f_equal. exact TOT.
Qed.
Lemma zsum_ext f g a b : (forall k, (a <= k < b)%Z -> f k = g k) -> zsum f a b = zsum g a b.
Proof. intros H. unfold zsum. f_equal. apply map_ext_in. intros k Hk. apply zrange_In in Hk. auto. Qed.
Lemma mean_val : mean (Fin t) (Fin (INR N)) (Fin (INR K)) (Fin (INR n)) = Fin (zsum (fun k => IZR k * q k) lo (hi + 1)).
Proof.
  unfold mean. rewrite P_hypergeometric.ok by auto. rewrite spmf. unfold bindr, mean_of. rewrite map_length, zrange_len.
  transitivity (Fin (sum (map (fun i => IZR (lo + Z.of_nat i) * q (lo + Z.of_nat i)) (seq 0 (Z.to_nat (hi + 1 - lo)))))); [|unfold zsum, zrange; rewrite map_map; reflexivity]. apply vfsum_map. intros i Hi. apply in_seq in Hi.
  replace (nth i (map (fun k => Fin (q k)) (zrange lo (hi + 1))) (Exc IndexError)) with (Fin (q (lo + Z.of_nat i))); [reflexivity|].
  pose proof (zrange_nth (fun k => Fin (q k)) lo (hi + 1) (lo + Z.of_nat i) (Exc IndexError) ltac:(lia)) as X. replace (Z.to_nat (lo + Z.of_nat i - lo)) with i in X by lia. auto.
Qed.
Lemma mean_tilt : mean (Fin t) (Fin (INR N)) (Fin (INR K)) (Fin (INR n)) = Fin (tmean w (S n) t).
Proof.
  pose proof bounds as BD. rewrite mean_val. f_equal. rewrite <- (zsum_widen _ lo (hi + 1) 0 (Z.of_nat n + 1)) by (lia || (intros k Hk; unfold q; rewrite w_0; [unfold Rdiv; ring|unfold nlo, nhi; lia|lia])).
  rewrite zsum_0. replace (Z.to_nat (Z.of_nat n + 1)) with (S n) by lia. unfold tmean. unfold Rdiv. rewrite Rmult_comm, <- nsum_scal. apply nsum_ext. intros i I. unfold q. rewrite Nat2Z.id, <- INR_IZR_INZ. unfold W, Rdiv. ring.
Qed.
Lemma mean_ok : dmean_is (fun k => pmf k (Fin t) (Fin (INR N)) (Fin (INR K)) (Fin (INR n))) (Range (Z.max 0 (Z.of_nat n - Z.of_nat (N - K))) (Z.min (Z.of_nat n) (Z.of_nat K) + 1)) (mean (Fin t) (Fin (INR N)) (Fin (INR K)) (Fin (INR n))).
Proof.
  eexists. split; [apply mean_val|]. unfold dmoment, sums_to. apply zsum_ext. intros k Hk. unfold at_int. rewrite pmf_in by (unfold P_hypergeometric.lo, P_hypergeometric.hi in *; lia). simpl. ring.
Qed.
Lemma NB : INR N = INR K + INR B. Proof. unfold B. rewrite minus_INR by auto. ring. Qed.
Lemma mode_ok : largest_mode (fun k => pmf k (Fin t) (Fin (INR N)) (Fin (INR K)) (Fin (INR n))) (Range (Z.max 0 (Z.of_nat n - Z.of_nat (N - K))) (Z.min (Z.of_nat n) (Z.of_nat K) + 1)) (mode (Fin t) (Fin (INR N)) (Fin (INR K)) (Fin (INR n))).
Proof.
  change (largest_mode (fun k => pmf k (Fin t) (Fin (INR N)) (Fin (INR K)) (Fin (INR n))) (Range lo (hi + 1)) (mode (Fin t) (Fin (INR N)) (Fin (INR K)) (Fin (INR n)))).
  pose proof bounds as BD. pose proof (pos_INR N). pose proof (pos_INR K). pose proof (pos_INR n). pose proof (pos_INR B).
  unfold mode. rewrite P_hypergeometric.ok by auto. cbn [vadd vmul vsub vneg vpown].
  set (a := t + - (1)). set (b := INR K + INR n + - INR N + - ((INR K + INR n + 2) * t)). set (c := (INR K + 1) * (INR n + 1) * t).
  assert (QQ : forall x, a * x ^ 2 + b * x + c = (INR K - x + 1) * (INR n - x + 1) * t - x * (INR N - INR K - INR n + x)) by (intros x; unfold a, b, c; ring).
  assert (LHI : IZR hi = Rmin (INR n) (INR K)).
  { unfold P_hypergeometric.hi. rewrite !INR_IZR_INZ. unfold Rmin. destruct (Rle_dec (IZR (Z.of_nat n)) (IZR (Z.of_nat K))) as [L|L]; f_equal; [apply le_IZR in L; lia|]. apply Rnot_le_lt, lt_IZR in L. lia. }
  assert (Q1 : a * (IZR hi + 1) ^ 2 + b * (IZR hi + 1) + c < 0).
  { rewrite QQ, LHI, NB. assert (INR K <= INR N /\ INR n <= INR N) as [LK Ln] by (split; apply le_INR; auto). rewrite NB in LK, Ln. unfold Rmin. destruct (Rle_dec (INR n) (INR K)).
    - replace (INR n - (INR n + 1) + 1) with 0 by ring. nra.
    - replace (INR K - (INR K + 1) + 1) with 0 by ring. nra. }
  assert (Q0 : 0 < a * IZR lo ^ 2 + b * IZR lo + c).
  { rewrite QQ. unfold P_hypergeometric.lo. destruct (Z.max_spec 0 (Z.of_nat n - Z.of_nat (N - K))) as [[L ->]|[L ->]].
    - rewrite minus_IZR, <- !INR_IZR_INZ. fold B. rewrite NB. replace (INR K + INR B - INR K - INR n + (INR n - INR B)) with 0 by ring.
      assert (INR n <= INR K + INR B) by (rewrite <- NB; apply le_INR; auto). replace (INR n - (INR n - INR B) + 1) with (INR B + 1) by ring. assert (0 < (INR K - (INR n - INR B) + 1) * (INR B + 1) * t) by (repeat apply Rmult_lt_0_compat; lra). lra.
    - assert (0 < (INR K - 0 + 1) * (INR n - 0 + 1) * t) by (repeat apply Rmult_lt_0_compat; lra). lra. }
  assert (L0 : 0 <= IZR lo) by (apply IZR_le; lia). assert (LH' : IZR lo <= IZR hi) by (apply IZR_le; lia).
  destruct (root_lemma a b c (IZR hi + 1)) as [D0 [DN RT]]; [unfold c; repeat apply Rmult_lt_0_compat; lra|lra|auto|].
  replace (b * b + - (4 * a * c)) with (b ^ 2 - 4 * a * c) by ring. rewrite vsqrt_Fin by auto. cbn [vadd vmul vsub vneg]. 
  replace (b + - sqrt (b ^ 2 - 4 * a * c)) with (b - sqrt (b ^ 2 - 4 * a * c)) by ring. rewrite vdiv_Fin by lra. 
  set (r := - (2) * c / (b - sqrt (b ^ 2 - 4 * a * c))) in *. destruct (vfloor_spec r) as [z [-> Hz]]. rewrite vint_IZR.
  assert (R1 : IZR lo <= r). { apply Rnot_lt_le. intros G. destruct (RT (IZR lo) ltac:(lra)) as [_ X]. specialize (X G). lra. }
  assert (R2 : r < IZR hi + 1). { apply Rnot_le_lt. intros G. destruct (RT (IZR hi + 1) ltac:(lra)) as [X _]. specialize (X G). lra. }
  apply (threshold_largest _ _ q r).
  - intros k I. simpl in I. apply pmf_in. lia.
  - intros k I J. simpl in I, J. destruct (RT (IZR k)) as [X Y]; [split; [apply IZR_le; lia|rewrite <- plus_IZR; apply IZR_le; lia]|]. rewrite QQ, NB in X, Y.
    set (i := Z.to_nat (k - 1)). assert (Ei : Z.to_nat k = S i) by lia. unfold q. rewrite Ei. fold i. assert (Ek : IZR k = INR i + 1) by (unfold i; rewrite INR_IZR_INZ, Z2Nat.id, minus_IZR by lia; ring). rewrite Ek in *.
    pose proof (hg_ratio K B n i ltac:(unfold B; lia) ltac:(unfold P_hypergeometric.hi in *; lia)) as TT. fold (w (S i)) (w i) in TT.
    assert (PW : 0 < w i) by (apply w_pos; unfold nlo, nhi; lia). pose proof W_pos as WP. pose proof (pos_INR i). pose proof (pow_lt t i T) as PT.
    assert (0 < INR B - INR n + INR i + 1) by (assert (n < B + i + 1)%nat as XX by (unfold P_hypergeometric.lo, B in *; lia); apply lt_INR in XX; rewrite !plus_INR in XX; simpl (INR 1) in XX; lra).
    set (u := (INR i + 1) * (INR B - INR n + INR i + 1)) in *. set (v := (INR K - INR i) * (INR n - INR i)) in *. assert (PU : 0 < u) by (unfold u; apply Rmult_lt_0_compat; lra).
    assert (EX : (INR K - (INR i + 1) + 1) * (INR n - (INR i + 1) + 1) * t - (INR i + 1) * (INR K + INR B - INR K - INR n + (INR i + 1)) = v * t - u) by (unfold u, v; ring). rewrite EX in X, Y.
    assert (E1 : w (S i) * t ^ S i / W - w i * t ^ i / W = (v * t - u) * (w i * t ^ i / (u * W))).
    { simpl (t ^ S i). assert (EW : w (S i) = v * w i / u) by (apply (Rmult_eq_reg_l u); [rewrite TT; field; lra|lra]). rewrite EW. field. lra. }
    assert (0 < w i * t ^ i / (u * W)) by (apply Rdiv_lt_0_compat; apply Rmult_lt_0_compat; auto).
    split; intros G; [specialize (X G)|specialize (Y G)]; nra.
  - simpl. assert (lo - 1 < z)%Z by (apply lt_IZR; rewrite minus_IZR; lra). assert (z < hi + 1)%Z by (apply lt_IZR; rewrite plus_IZR; lra). lia.
  - intros _. lra.
  - intros _. lra.
Qed.
Lemma spmf_ok : support_pmf (Fin t) (Fin (INR N)) (Fin (INR K)) (Fin (INR n)) = Ok (Range (Z.max 0 (Z.of_nat n - Z.of_nat (N - K))) (Z.min (Z.of_nat n) (Z.of_nat K) + 1),
  map (fun k => pmf (Fin (IZR k)) (Fin t) (Fin (INR N)) (Fin (INR K)) (Fin (INR n))) (zrange (Z.max 0 (Z.of_nat n - Z.of_nat (N - K))) (Z.min (Z.of_nat n) (Z.of_nat K) + 1))).
Proof.
  rewrite spmf. do 2 f_equal. apply map_ext_in. intros k Hk. apply zrange_In in Hk. symmetry. apply pmf_in. unfold P_hypergeometric.lo, P_hypergeometric.hi. lia.
Qed.
(** The documented formula: p_k = c_k / sum c_i, c_k = choose(ngood,k) choose(ntotal-ngood,nsample-k) nc^k. *)
Lemma pmf_formula i : (Z.max 0 (Z.of_nat n - Z.of_nat (N - K)) <= Z.of_nat i <= Z.min (Z.of_nat n) (Z.of_nat K))%Z ->
  pmf (Fin (INR i)) (Fin t) (Fin (INR N)) (Fin (INR K)) (Fin (INR n)) = Fin (Binomial.C K i * Binomial.C (N - K) (n - i) * t ^ i /
    zsum (fun k => Binomial.C K (Z.to_nat k) * Binomial.C (N - K) (n - Z.to_nat k) * t ^ Z.to_nat k) (Z.max 0 (Z.of_nat n - Z.of_nat (N - K))) (Z.min (Z.of_nat n) (Z.of_nat K) + 1)).
Proof.
  intros H. pose proof bounds as BD. rewrite INR_IZR_INZ, pmf_in by auto. f_equal. unfold q. rewrite Nat2Z.id, <- W_zsum. fold B.
  assert (PC : 0 < INR (choose (K + B) n)) by (apply choose_INR_pos; unfold B; lia).
  assert (E : forall k, (lo <= Z.of_nat k <= hi)%Z -> w k = / INR (choose (K + B) n) * (Binomial.C K k * Binomial.C B (n - k))).
  { intros k Hk. unfold w, hg, P_hypergeometric.lo, P_hypergeometric.hi, B in *. rewrite <- !choose_C by lia. unfold Rdiv. ring. }
  rewrite E by auto. rewrite (zsum_ext _ (fun k => / INR (choose (K + B) n) * (Binomial.C K (Z.to_nat k) * Binomial.C B (n - Z.to_nat k) * t ^ Z.to_nat k))).
  2:{ intros k Hk. rewrite E by lia. ring. }
  unfold zsum at 1. rewrite sum_scal. match goal with |- _ = _ / ?z => change z with (zsum (fun k => Binomial.C K (Z.to_nat k) * Binomial.C B (n - Z.to_nat k) * t ^ Z.to_nat k) lo (hi + 1)) end.
  assert (PS : zsum (fun k => Binomial.C K (Z.to_nat k) * Binomial.C B (n - Z.to_nat k) * t ^ Z.to_nat k) lo (hi + 1) <> 0).
  { intros Z0. pose proof W_pos as WP. rewrite <- W_zsum in WP. rewrite (zsum_ext _ (fun k => / INR (choose (K + B) n) * (Binomial.C K (Z.to_nat k) * Binomial.C B (n - Z.to_nat k) * t ^ Z.to_nat k))) in WP.
    2:{ intros k Hk. rewrite E by lia. ring. } unfold zsum in WP. rewrite sum_scal in WP. unfold zsum in Z0. rewrite Z0 in WP. lra. }
  unfold zsum in *. field. split; auto. lra.
Qed.
End P.
Lemma bad_params (nc : val) (N K n : R) (k : val) : N < 0 \/ K < 0 \/ n < 0 \/ N < K \/ N < n ->
  pmf k nc (Fin N) (Fin K) (Fin n) = Exc ValueError /\ cdf k nc (Fin N) (Fin K) (Fin n) = Exc ValueError /\ sf k nc (Fin N) (Fin K) (Fin n) = Exc ValueError /\
  support nc (Fin N) (Fin K) (Fin n) = Err ValueError /\ support_pmf nc (Fin N) (Fin K) (Fin n) = Err ValueError /\ mean nc (Fin N) (Fin K) (Fin n) = Exc ValueError /\ mode nc (Fin N) (Fin K) (Fin n) = Exc ValueError.
Proof.
  intros H. pose proof (P_hypergeometric.bad N K n H) as B. unfold pmf, cdf, sf, support_pmf, support, M_hypergeometric.support, mean, mode. repeat split; rewrite !B; reflexivity.
Qed.
