(** Proofs about M_gauss_kuzmin. *)
From Coq Require Import Reals Lra Lia List ZArith Arith Bool.
From Coquelicot Require Import Coquelicot.
From Verif Require Import Values VTac Spec SpecStat SpecEst SpecDisc LLib XLib PLib RLib LimLib DistLib M_common M_sfun M_disc DiscLib IncLib M_gauss_kuzmin.
Import ListNotations.
Local Open Scope R_scope.
Set Bullet Behavior "Strict Subproofs".

Definition S2 (x : R) := ln (1 + / (x + 1)) / ln 2.
Definition g (x : R) := - (ln (1 - / (x + 1)) + ln (1 + / (x + 1))) / ln 2.
Lemma ln2 : 0 < ln 2. Proof. rewrite <- ln_1. apply ln_increasing; lra. Qed.
Lemma inv1 x : 0 <= x -> 0 < / (x + 1) <= 1.
Proof. intros X. split; [apply Rinv_0_lt_compat; lra|]. rewrite <- Rinv_1 at 2. apply Rinv_le_contravar; lra. Qed.
Lemma inv2 x : 1 <= x -> 0 < / (x + 1) < 1.
Proof. intros X. split; [apply Rinv_0_lt_compat; lra|]. rewrite <- Rinv_1 at 2. apply Rinv_lt_contravar; lra. Qed.
Lemma pmf_R x : 1 <= x -> pmf (Fin x) = Fin (g x).
Proof.
  intros X. pose proof (inv2 x X). pose proof ln2. unfold pmf, clt, cmp, ltb. rewrite Rltb_false by lra. cbn [cif]. cbv zeta. cbn [vadd]. rewrite vdiv_Fin by lra. cbn [vneg]. unfold Rdiv at 1 2. rewrite Rmult_1_l.
  unfold vlog1p. cbn [vadd]. rewrite !vlog_Fin by lra. cbn [vadd vneg]. rewrite vdiv_Fin by lra. reflexivity.
Qed.
Lemma pmf_low x : x < 1 -> pmf (Fin x) = Fin 0.
Proof. intros X. unfold pmf, clt, cmp, ltb. rewrite Rltb_true by lra. auto. Qed.
Lemma sf_R x : 0 <= x -> sf (Fin x) = Fin (S2 x).
Proof.
  intros X. pose proof (inv1 x X). pose proof ln2. unfold sf, clt, cmp, ltb. rewrite Rltb_false by lra. cbn [cif]. cbv zeta. cbn [vadd]. rewrite vdiv_Fin by lra. unfold Rdiv at 1. rewrite Rmult_1_l.
  unfold vlog1p. cbn [vadd]. rewrite !vlog_Fin by lra. rewrite vdiv_Fin by lra. reflexivity.
Qed.
Lemma cdf_R x : 0 <= x -> cdf (Fin x) = Fin (1 - S2 x).
Proof.
  intros X. pose proof (inv1 x X). pose proof ln2. unfold cdf, clt, cmp, ltb. rewrite Rltb_false by lra. cbn [cif visinf]. cbv zeta. cbn [vadd]. rewrite vdiv_Fin by lra. unfold Rdiv at 1. rewrite Rmult_1_l.
  unfold vlog1p. cbn [vadd]. rewrite !vlog_Fin by lra. rewrite vdiv_Fin by lra. reflexivity.
Qed.
Lemma neg_R x : x < 0 -> cdf (Fin x) = Fin 0 /\ sf (Fin x) = Fin 1.
Proof. intros X. unfold cdf, sf, clt, cmp, ltb. rewrite Rltb_true by lra. auto. Qed.
(** Telescoping. *)
Lemma g_eq x : 1 <= x -> g x = S2 (x - 1) - S2 x.
Proof.
  intros X. pose proof (inv2 x X). pose proof ln2. unfold g, S2. replace (x - 1 + 1) with x by ring.
  replace (1 + / x) with (/ (1 - / (x + 1))) by (field; lra). rewrite ln_Rinv by lra. field. lra.
Qed.
Lemma S2_0 : S2 0 = 1. Proof. pose proof ln2. unfold S2. replace (1 + / (0 + 1)) with 2 by field. field. lra. Qed.
Lemma S2_decr x y : 0 <= x -> x < y -> S2 y < S2 x.
Proof.
  intros X Y. unfold S2. apply Rmult_lt_compat_r; [apply Rinv_0_lt_compat, ln2|]. apply ln_increasing; [pose proof (inv1 y ltac:(lra)); lra|]. apply Rplus_lt_compat_l. apply Rinv_lt_contravar; [nra|lra].
Qed.
Lemma S2_pos x : 0 <= x -> 0 < S2 x.
Proof. intros X. unfold S2. apply Rdiv_pos; [|apply ln2]. rewrite <- ln_1. pose proof (inv1 x X). apply ln_increasing; lra. Qed.
Lemma g_pos x : 1 <= x -> 0 < g x.
Proof. intros X. rewrite g_eq by auto. pose proof (S2_decr (x - 1) x ltac:(lra) ltac:(lra)). lra. Qed.
Lemma at_g (k : Z) : (1 <= k)%Z -> at_int pmf k = g (IZR k).
Proof. intros K. unfold at_int. rewrite pmf_R by (apply IZR_le in K; auto). reflexivity. Qed.
Lemma zs (k : Z) : (0 <= k)%Z -> zsum (at_int pmf) 1 (k + 1) = 1 - S2 (IZR k).
Proof.
  intros K. pattern k. apply natlike_ind; auto.
  - simpl. rewrite zsum_nil by lia. rewrite S2_0. ring.
  - intros z Z IH. unfold Z.succ. rewrite zsum_S by lia. rewrite IH, at_g by lia. apply IZR_le in Z. rewrite g_eq; rewrite plus_IZR; [|lra]. replace (IZR z + 1 - 1) with (IZR z) by ring. ring.
Qed.
Lemma S2_le x : 0 <= x -> S2 x <= / (x + 1) / ln 2.
Proof.
  intros X. pose proof ln2. pose proof (inv1 x X). unfold S2. apply Rmult_le_compat_r; [left; apply Rinv_0_lt_compat; auto|]. pose proof (exp_ineq1 (/ (x + 1)) ltac:(lra)).
  rewrite <- (ln_exp (/ (x + 1))) at 2. apply ln_le; lra.
Qed.
Lemma S2_lim : is_lim_seq (fun n => S2 (INR n)) 0.
Proof.
  pose proof ln2. apply (is_lim_seq_le_le (fun _ => 0) _ (fun n => / INR (S n) / ln 2)).
  - intros n. pose proof (pos_INR n). split; [left; apply S2_pos; auto|]. rewrite S_INR. apply S2_le; auto.
  - apply is_lim_seq_const.
  - replace 0 with (0 * / ln 2) by ring. apply (is_lim_seq_scal_r _ (/ ln 2) 0). apply (is_lim_seq_inv (fun n => INR (S n)) p_infty); [|discriminate]. apply -> is_lim_seq_incr_1. apply is_lim_seq_INR.
Qed.
Lemma sum_n_zsum (h : Z -> R) n : sum_n (fun i => h (1 + Z.of_nat i)%Z) n = zsum h 1 (Z.of_nat n + 2).
Proof. induction n as [|n IH]; [rewrite sum_O, zsum_nsum; simpl; ring|]. rewrite sum_Sn, IH. replace (Z.of_nat (S n) + 2)%Z with (Z.of_nat n + 2 + 1)%Z by lia. rewrite zsum_S by lia. match goal with |- _ = _ + h ?b => replace b with (1 + Z.of_nat (S n))%Z by lia end. reflexivity. Qed.
Lemma mass_ok : support = Count 1 /\ mass_function pmf (Count 1) /\ zero_outside pmf (Count 1).
Proof.
  split; [reflexivity|]. split.
  - split.
    + intros k K. simpl in K. apply IZR_le in K. exists (g (IZR k)). rewrite pmf_R by auto. split; auto. left. apply g_pos; auto.
    + simpl. change (is_lim_seq (sum_n (fun i => at_int pmf (1 + Z.of_nat i))) 1). apply (is_lim_seq_ext (fun n => 1 - S2 (INR (S n)))).
      * intros n. change (1 - S2 (INR (S n)) = sum_n (fun i => at_int pmf (1 + Z.of_nat i)) n). rewrite sum_n_zsum. replace (Z.of_nat n + 2)%Z with (Z.of_nat (S n) + 1)%Z by lia. rewrite zs by lia. rewrite <- INR_IZR_INZ. auto.
      * replace (Finite 1) with (Finite (1 - 0)) by (f_equal; ring). apply is_lim_seq_minus'; [apply is_lim_seq_const|]. apply -> (is_lim_seq_incr_1 (fun n => S2 (INR n))). apply S2_lim.
  - intros k K. simpl in K. apply pmf_low. apply IZR_lt. lia.
Qed.
Lemma cdf_ok (k : Z) : cumulative pmf cdf sf (Count 1) k.
Proof.
  unfold cumulative. simpl. destruct (Z_lt_dec k 0) as [K|K].
  - rewrite zsum_nil by lia. destruct (neg_R (IZR k) (IZR_lt _ _ K)) as [-> ->]. split; auto. f_equal. ring.
  - assert (K' : 0 <= IZR k) by (apply IZR_le; lia). rewrite zs, cdf_R, sf_R by (auto; lia). split; auto. f_equal. ring.
Qed.
Lemma cdf_inf : cdf NInf = Fin 0 /\ sf NInf = Fin 1 /\ cdf PInf = Fin 1 /\ sf PInf = Fin 0.
Proof.
  pose proof ln2. repeat split. unfold sf. cbn [clt cmp ltb cif]. cbv zeta. cbn [vadd vdiv]. unfold vlog1p. cbn [vadd]. rewrite Rplus_0_r. rewrite !vlog_Fin by lra. rewrite vdiv_Fin by lra. f_equal. rewrite ln_1. unfold Rdiv. ring.
Qed.
Lemma log_ok : log_law pmf logpmf (fun _ => True).
Proof.
  intros k _. destruct (Z_lt_dec k 1) as [K|K].
  - right; left. apply IZR_lt in K. rewrite pmf_low by auto. split; auto. unfold logpmf. rewrite pmf_low by auto. unfold clt, cmp, ltb. destruct (Rltb (IZR k) 0); cbn [cif]; auto. simpl. rewrite Rltb_false, Reqb_true by lra. auto.
  - left. assert (K' : 1 <= IZR k) by (apply IZR_le; lia). exists (g (IZR k)). split; [apply g_pos; auto|]. rewrite pmf_R by auto. split; auto. unfold logpmf. rewrite pmf_R by auto. unfold clt, cmp, ltb. rewrite Rltb_false by lra. cbn [cif]. apply vlog_Fin. apply g_pos; auto.
Qed.
Lemma g_decr x y : 1 <= x -> x <= y -> g y <= g x.
Proof.
  intros X Y. pose proof ln2. pose proof (inv2 x X). pose proof (inv2 y ltac:(lra)). unfold g. apply Rmult_le_compat_r; [left; apply Rinv_0_lt_compat; auto|]. apply Ropp_le_contravar. rewrite <- !ln_mult by lra.
  assert (/ (y + 1) <= / (x + 1)) by (apply Rinv_le_contravar; lra). apply ln_le; nra.
Qed.
Lemma mode_ok : smallest_mode pmf (Count 1) mode.
Proof.
  exists 1%Z, (g 1). split; [reflexivity|]. split; [simpl; lia|]. split; [apply pmf_R; lra|]. intros k K. simpl in K. pose proof (IZR_le _ _ K). exists (g (IZR k)). rewrite pmf_R by auto. split; auto. split; [apply g_decr; lra|lia].
Qed.
(** Inverse. *)
Definition Q (s : R) := / (Rpower 2 s - 1) - 1.
Lemma p2 s : 0 < s <= 1 -> 1 < Rpower 2 s <= 2.
Proof.
  intros Hs. split.
  - rewrite <- (Rpower_O 2) by lra. apply Rpower_lt; lra.
  - rewrite <- (Rpower_1 2) at 2 by lra. apply Rle_Rpower; lra.
Qed.
Lemma Q_nonneg s : 0 < s <= 1 -> 0 <= Q s.
Proof. intros Hs. destruct (p2 s Hs). unfold Q. assert (1 <= / (Rpower 2 s - 1)); [|lra]. rewrite <- Rinv_1 at 1. apply Rinv_le_contravar; lra. Qed.
Lemma S2_Q s : 0 < s <= 1 -> S2 (Q s) = s.
Proof.
  intros Hs. pose proof ln2. destruct (p2 s Hs). unfold S2, Q. replace (1 + / (/ (Rpower 2 s - 1) - 1 + 1)) with (Rpower 2 s) by (field; split; [lra|]; replace (1 - (Rpower 2 s - 1) + (Rpower 2 s - 1)) with 1 by ring; lra).
  unfold Rpower. rewrite ln_exp. field. lra.
Qed.
Lemma Q_S2 x : 0 <= x -> Q (S2 x) = x.
Proof.
  intros X. pose proof ln2. pose proof (inv1 x X). unfold Q, S2, Rpower. replace (ln (1 + / (x + 1)) / ln 2 * ln 2) with (ln (1 + / (x + 1))) by (field; lra). rewrite exp_ln by lra. field. split; [lra|]. replace (x + 1 + 1 - (x + 1)) with 1 by ring. lra.
Qed.
Lemma S2_range x : 0 <= x -> 0 < S2 x <= 1.
Proof. intros X. split; [apply S2_pos; auto|]. destruct (Req_dec x 0) as [->|N]; [rewrite S2_0; lra|]. rewrite <- S2_0. left. apply S2_decr; lra. Qed.
Lemma S2_Q_le x s : 0 <= x -> 0 < s <= 1 -> (S2 x <= s <-> Q s <= x).
Proof.
  intros X Hs. pose proof (Q_nonneg s Hs). split; intros H1.
  - destruct (Rle_or_lt (Q s) x) as [|L]; auto. apply S2_decr in L; auto. rewrite S2_Q in L by auto. lra.
  - destruct (Req_dec x (Q s)) as [->|N]; [rewrite S2_Q by auto; lra|]. rewrite <- (S2_Q s Hs). left. apply S2_decr; lra.
Qed.
Lemma vQ s : 0 < s <= 1 -> vpowm1 (vpowm1 (Fin 2) (Fin s)) (Fin (-1)) = Fin (Q s).
Proof.
  intros Hs. destruct (p2 s Hs). unfold vpowm1. rewrite vpow_Fin by lra. cbn [vsub vadd vneg]. rewrite vpow_Fin by lra. cbn [vsub vadd vneg]. f_equal. unfold Q. change (-1) with (Ropp 1). rewrite Rpower_Ropp, Rpower_1 by lra. reflexivity.
Qed.
Lemma vpp {A} `{CanRaise A} p (c : A) : 0 <= p <= 1 -> validate_p (Fin p) c = c.
Proof. intros P. unfold validate_p, clt, cgt, cmp, ltb. rewrite !Rltb_false by lra. reflexivity. Qed.
Lemma invcdf_R p : 0 <= p < 1 -> invcdf (Fin p) = Fin (Q (1 - p)).
Proof. intros P. unfold invcdf. rewrite vpp by lra. unfold ceq, cmp, eqb. rewrite Reqb_false by lra. cbn [cif]. cbv zeta. cbn [vsub vadd vneg]. apply (vQ (1 - p)). lra. Qed.
Lemma invsf_R p : 0 < p <= 1 -> invsf (Fin p) = Fin (Q p).
Proof. intros P. unfold invsf. rewrite vpp by lra. unfold ceq, cmp, eqb. rewrite Reqb_false by lra. cbn [cif]. cbv zeta. apply (vQ p). lra. Qed.
Lemma invcdf_ok (p : R) : 0 <= p < 1 ->
  (exists x, 0 <= x /\ invcdf (Fin p) = Fin x /\ cdf (Fin x) = Fin p /\
     forall k : Z, (1 <= k)%Z -> exists F, cdf (Fin (IZR k)) = Fin F /\ (p <= F <-> x <= IZR k)) /\
  forall k : Z, (1 <= k)%Z -> invcdf (cdf (Fin (IZR k))) = Fin (IZR k).
Proof.
  intros P. split.
  - exists (Q (1 - p)). pose proof (Q_nonneg (1 - p) ltac:(lra)) as X. split; auto. split; [apply invcdf_R; auto|]. split; [rewrite cdf_R, S2_Q by lra; f_equal; ring|].
    intros k K. apply IZR_le in K. exists (1 - S2 (IZR k)). split; [apply cdf_R; lra|]. rewrite <- S2_Q_le by lra. split; intros; lra.
  - intros k K. apply IZR_le in K. pose proof (S2_range (IZR k) ltac:(lra)). rewrite cdf_R by lra. rewrite invcdf_R by lra. replace (1 - (1 - S2 (IZR k))) with (S2 (IZR k)) by ring. rewrite Q_S2 by lra. auto.
Qed.
Lemma invsf_ok (p : R) : 0 < p <= 1 ->
  (exists x, 0 <= x /\ invsf (Fin p) = Fin x /\ sf (Fin x) = Fin p /\
     forall k : Z, (1 <= k)%Z -> exists F, sf (Fin (IZR k)) = Fin F /\ (F <= p <-> x <= IZR k)) /\
  forall k : Z, (1 <= k)%Z -> invsf (sf (Fin (IZR k))) = Fin (IZR k).
Proof.
  intros P. split.
  - exists (Q p). pose proof (Q_nonneg p ltac:(lra)) as X. split; auto. split; [apply invsf_R; auto|]. split; [rewrite sf_R, S2_Q by lra; auto|].
    intros k K. apply IZR_le in K. exists (S2 (IZR k)). split; [apply sf_R; lra|]. apply S2_Q_le; lra.
  - intros k K. apply IZR_le in K. pose proof (S2_range (IZR k) ltac:(lra)). rewrite sf_R by lra. rewrite invsf_R by lra. rewrite Q_S2 by lra. auto.
Qed.
Lemma ends_ok (p : R) : p < 0 \/ 1 < p -> invcdf (Fin p) = Exc ValueError /\ invsf (Fin p) = Exc ValueError /\ invcdf (Fin 1) = PInf /\ invsf (Fin 0) = PInf.
Proof.
  intros P. unfold invcdf, invsf. rewrite (vpp 1), (vpp 0) by lra. unfold validate_p, clt, cgt, ceq, cmp, ltb, eqb. rewrite (Reqb_true 1 1 eq_refl), (Reqb_true 0 0 eq_refl).
  destruct (Rltb_spec p 0) as [[A ->]|[A ->]]; cbn [cor orb cif]; auto. rewrite Rltb_true by lra. auto.
Qed.
Lemma lower_end : invcdf (Fin 0) = Fin 0 /\ invsf (Fin 1) = Fin 0 /\ ~ in_support support 0.
Proof. rewrite invcdf_R, invsf_R by lra. replace (1 - 0) with 1 by ring. unfold Q. rewrite Rpower_1 by lra. split; [f_equal; field|]. split; [f_equal; field|simpl; lia]. Qed.
(** Moments. *)
Lemma nsum_le f h n : (forall i, (i < n)%nat -> f i <= h i) -> nsum f n <= nsum h n.
Proof. induction n as [|n IH]; intros H; simpl; [lra|]. pose proof (H n ltac:(lia)). assert (nsum f n <= nsum h n) by auto. lra. Qed.
Definition partial (h : Z -> R) (n : nat) : R := zsum (fun k => h k * at_int pmf k) 1 (Z.of_nat n + 1).
Lemma part_1 n : partial IZR n = (ln (INR n + 2) - (INR n + 1) * ln (1 + / (INR n + 1))) / ln 2.
Proof.
  pose proof ln2. unfold partial. induction n as [|n IH].
  - simpl. rewrite zsum_nil by lia. replace (1 + / (0 + 1)) with 2 by field. replace (0 + 2) with 2 by ring. field. lra.
  - pose proof (pos_INR n). replace (Z.of_nat (S n) + 1)%Z with (Z.of_nat n + 1 + 1)%Z by lia. rewrite zsum_S by lia. rewrite IH, at_g by lia. rewrite plus_IZR, <- INR_IZR_INZ, S_INR.
    set (m := INR n) in *. rewrite g_eq by lra. unfold S2. replace (m + 1 - 1 + 1) with (m + 1) by ring.
    replace (ln (m + 1 + 2)) with (ln (m + 2) + ln (1 + / (m + 1 + 1))); [field; lra|]. pose proof (inv1 (m + 1) ltac:(lra)). rewrite <- ln_mult by lra. f_equal. field. lra.
Qed.
Lemma part_lb n : (ln (INR n + 2) - 1) / ln 2 <= partial IZR n.
Proof.
  pose proof ln2. rewrite part_1. apply Rmult_le_compat_r; [left; apply Rinv_0_lt_compat; auto|]. pose proof (pos_INR n). pose proof (S2_le (INR n) ltac:(lra)) as S. unfold S2, Rdiv in S. apply Rmult_le_reg_r in S; [|apply Rinv_0_lt_compat; auto].
  assert ((INR n + 1) * ln (1 + / (INR n + 1)) <= (INR n + 1) * / (INR n + 1)) by (apply Rmult_le_compat_l; lra). rewrite Rinv_r in H1 by lra. lra.
Qed.
Lemma lb_lim c : is_lim_seq (fun n => (ln (INR n + 2) - 1) / ln 2 - c) p_infty.
Proof.
  pose proof ln2. apply is_lim_seq_spec. intros M. destruct (nfloor_ex (exp ((Rabs M + Rabs c) * ln 2 + 1)) (Rlt_le _ _ (exp_pos _))) as [N [_ HN]]. exists N. intros n Hn. apply le_INR in Hn.
  assert ((Rabs M + Rabs c) * ln 2 + 1 < ln (INR n + 2)). { rewrite <- (ln_exp ((Rabs M + Rabs c) * ln 2 + 1)) . apply ln_increasing; [apply exp_pos|lra]. }
  assert (Rabs M + Rabs c < (ln (INR n + 2) - 1) / ln 2). { apply Rmult_lt_reg_r with (ln 2); auto. unfold Rdiv. rewrite Rmult_assoc, Rinv_l by lra. lra. }
  pose proof (Rle_abs M). pose proof (Rle_abs c). lra.
Qed.
Lemma infinite_ (c : R) : mean = PInf /\ var = PInf /\ is_lim_seq (partial IZR) p_infty /\ is_lim_seq (partial (fun k => (IZR k - c) ^ 2)) p_infty.
Proof.
  split; [auto|split; [auto|]]. split.
  - apply (is_lim_seq_le_p_loc _ (partial IZR)) with (2 := lb_lim 0). exists O. intros n _. pose proof (part_lb n). lra.
  - apply (is_lim_seq_le_p_loc _ (partial (fun k => (IZR k - c) ^ 2))) with (2 := lb_lim (Rabs c + 1)). exists O. intros n _. pose proof (part_lb n) as L.
    assert (E : partial IZR n - (c + 1 / 4) * (1 - S2 (INR n)) <= partial (fun k => (IZR k - c) ^ 2) n).
    { rewrite INR_IZR_INZ. unfold partial. rewrite <- zs by lia. unfold Rminus. rewrite Ropp_mult_distr_l, <- zsum_scal, <- zsum_plus. rewrite !zsum_nsum. apply nsum_le. intros i Hi.
      rewrite at_g by lia. pose proof (g_pos (IZR (1 + Z.of_nat i)) ltac:(apply IZR_le; lia)). set (u := IZR (1 + Z.of_nat i)) in *. rewrite <- Rmult_plus_distr_r. apply Rmult_le_compat_r; [lra|]. pose proof (pow2_ge_0 (u - c - 1 / 2)). nra. }
    pose proof (S2_range (INR n) (pos_INR n)). pose proof (Rle_abs c). destruct (Rle_or_lt 0 (c + 1/4)); [|assert (0 <= Rabs c) by apply Rabs_pos]; nra.
Qed.
Lemma infinite (c : R) : mean = PInf /\ var = PInf /\
  is_lim_seq (fun n => zsum (fun k => IZR k * at_int pmf k) 1 (Z.of_nat n + 1)) p_infty /\
  is_lim_seq (fun n => zsum (fun k => (IZR k - c) ^ 2 * at_int pmf k) 1 (Z.of_nat n + 1)) p_infty.
Proof. exact (infinite_ c). Qed.
Lemma median_ok : median = Fin 2 /\ (exists F, cdf (Fin 1) = Fin F /\ F < 1 / 2) /\ (exists G, sf (Fin 2) = Fin G /\ G < 1 / 2).
Proof.
  pose proof ln2. split; [reflexivity|]. split.
  - exists (1 - S2 1). split; [apply cdf_R; lra|]. assert (1 / 2 < S2 1); [|lra]. unfold S2. replace (1 + / (1 + 1)) with (3 / 2) by field.
    apply Rmult_lt_reg_r with (2 * ln 2); [lra|]. replace (ln (3 / 2) / ln 2 * (2 * ln 2)) with (ln (3 / 2) + ln (3 / 2)) by (field; lra). rewrite <- ln_mult by lra. replace (1 / 2 * (2 * ln 2)) with (ln 2) by field. apply ln_increasing; lra.
  - exists (S2 2). split; [apply sf_R; lra|]. unfold S2. replace (1 + / (2 + 1)) with (4 / 3) by field.
    apply Rmult_lt_reg_r with (2 * ln 2); [lra|]. replace (ln (4 / 3) / ln 2 * (2 * ln 2)) with (ln (4 / 3) + ln (4 / 3)) by (field; lra). rewrite <- ln_mult by lra. replace (1 / 2 * (2 * ln 2)) with (ln 2) by field. apply ln_increasing; lra.
Qed.
