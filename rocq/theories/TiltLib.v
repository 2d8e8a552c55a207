(** Exponentially tilted finite distributions: probabilities proportional to c_i t^i. *)
From Coq Require Import Reals Lra Lia List ZArith.
From Coquelicot Require Import Coquelicot.
From Verif Require Import Values VTac Spec RLib LimLib DiscLib.
Local Open Scope R_scope.
Set Bullet Behavior "Strict Subproofs".

Lemma nsum_le f g n : (forall i, (i < n)%nat -> f i <= g i) -> nsum f n <= nsum g n.
Proof. induction n as [|n IH]; intros H; simpl; [lra|]. pose proof (H n ltac:(lia)). assert (nsum f n <= nsum g n) by (apply IH; intros; apply H; lia). lra. Qed.
Lemma nsum_pos f n j : (forall i, (i < n)%nat -> 0 <= f i) -> (j < n)%nat -> 0 < f j -> 0 < nsum f n.
Proof.
  intros H L P. induction n as [|n IH]; [lia|]. simpl. destruct (Nat.eq_dec j n) as [->|E].
  - assert (0 <= nsum f n) by (apply nsum_nonneg; intros; apply H; lia). lra.
  - assert (0 < nsum f n) by (apply IH; [intros; apply H; lia|lia]). pose proof (H n ltac:(lia)). lra.
Qed.
Lemma flim_nsum {T} (FF : (T -> Prop) -> Prop) {HF : Filter FF} (g : nat -> T -> R) (v : nat -> R) n :
  (forall i, (i < n)%nat -> filterlim (g i) FF (locally (v i))) -> filterlim (fun x => nsum (fun i => g i x) n) FF (locally (nsum v n)).
Proof.
  induction n as [|n IH]; intros H; simpl; [apply flim_const; auto|]. apply flim_plus; auto.
Qed.
Lemma nsum_cont (g : nat -> R -> R) n x : (forall i, (i < n)%nat -> continuous (g i) x) -> continuous (fun t => nsum (fun i => g i t) n) x.
Proof.
  induction n as [|n IH]; intros H; simpl; [apply continuous_const|]. apply (continuous_plus (fun t => nsum (fun i => g i t) n) (g n)); auto.
Qed.

Section Tilt.
Variables (c : nat -> R) (m : nat).
Hypothesis CN : forall i, (i < m)%nat -> 0 <= c i.
(** Sums over i < k and over k <= i < m. *)
Definition low (k : nat) (t : R) := nsum (fun i => c i * t ^ i) k.
Definition upp (k : nat) (t : R) := nsum (fun i => c (k + i)%nat * t ^ (k + i)) (m - k).
Definition tot (t : R) := low m t.
Lemma low_upp k t : (k <= m)%nat -> low k t + upp k t = tot t.
Proof. intros H. unfold tot, low, upp. rewrite <- (nsum_app (fun i => c i * t ^ i)). f_equal. lia. Qed.
Lemma low_nn k t : 0 < t -> (k <= m)%nat -> 0 <= low k t.
Proof. intros T H. apply nsum_nonneg. intros i I. apply Rmult_le_pos; [apply CN; lia|left; apply pow_lt; auto]. Qed.
Lemma upp_nn k t : 0 < t -> 0 <= upp k t.
Proof. intros T. apply nsum_nonneg. intros i I. apply Rmult_le_pos; [apply CN; lia|left; apply pow_lt; auto]. Qed.
Lemma low_pos k t j : 0 < t -> (k <= m)%nat -> (j < k)%nat -> 0 < c j -> 0 < low k t.
Proof.
  intros T H J P. apply (nsum_pos _ _ j); auto.
  - intros i I. apply Rmult_le_pos; [apply CN; lia|left; apply pow_lt; auto].
  - apply Rmult_lt_0_compat; auto. apply pow_lt; auto.
Qed.
Lemma upp_pos k t j : 0 < t -> (k <= j < m)%nat -> 0 < c j -> 0 < upp k t.
Proof.
  intros T H P. apply (nsum_pos _ _ (j - k)); auto.
  - intros i I. apply Rmult_le_pos; [apply CN; lia|left; apply pow_lt; auto].
  - lia.
  - replace (k + (j - k))%nat with j by lia. apply Rmult_lt_0_compat; auto. apply pow_lt; auto.
Qed.
(** Growth of the two parts when t is multiplied by r >= 1. *)
Lemma low_grow k t r : 0 < t -> 1 <= r -> (k < m)%nat -> low (S k) (r * t) <= r ^ k * low (S k) t.
Proof.
  intros T R H. unfold low. rewrite <- nsum_scal. apply nsum_le. intros i I. rewrite Rpow_mult_distr.
  assert (r ^ i <= r ^ k) by (apply Rle_pow; [auto|lia]). assert (0 <= c i * t ^ i) by (apply Rmult_le_pos; [apply CN; lia|left; apply pow_lt; auto]). nra.
Qed.
Lemma upp_grow k t r : 0 < t -> 1 <= r -> r ^ k * upp k t <= upp k (r * t).
Proof.
  intros T R. unfold upp. rewrite <- nsum_scal. apply nsum_le. intros i I. rewrite Rpow_mult_distr.
  assert (r ^ k <= r ^ (k + i)) by (apply Rle_pow; [auto|lia]). assert (0 <= c (k + i)%nat * t ^ (k + i)) by (apply Rmult_le_pos; [apply CN; lia|left; apply pow_lt; auto]). nra.
Qed.
(** The odds of being above k grow at least like t. *)
Lemma odds_grow k t r : 0 < t -> 1 <= r -> (k < m)%nat -> r * (upp (S k) t * low (S k) (r * t)) <= upp (S k) (r * t) * low (S k) t.
Proof.
  intros T R H. pose proof (low_grow k t r T R H) as L. pose proof (upp_grow (S k) t r T R) as U.
  pose proof (low_nn (S k) t T H) as L0. pose proof (upp_nn (S k) t T) as U0. assert (RP : 0 < r ^ k) by (apply pow_lt; lra).
  apply Rle_trans with (r * (upp (S k) t * (r ^ k * low (S k) t))).
  - apply Rmult_le_compat_l; [lra|]. apply Rmult_le_compat_l; auto.
  - replace (r * (upp (S k) t * (r ^ k * low (S k) t))) with (r ^ S k * upp (S k) t * low (S k) t) by (simpl; ring). apply Rmult_le_compat_r; auto.
Qed.
Variables (lo hi : nat).
Hypotheses (LH : (lo <= hi)%nat) (HM : (hi < m)%nat) (CL : 0 < c lo) (CH : 0 < c hi)
  (ZL : forall i, (i < lo)%nat -> c i = 0) (ZH : forall i, (hi < i < m)%nat -> c i = 0).
Lemma tot_pos t : 0 < t -> 0 < tot t.
Proof. intros T. apply (low_pos m t lo); auto. lia. Qed.
(** The probability of a value above k. *)
Definition tsf (k : nat) (t : R) := upp (S k) t / tot t.
Lemma tsf_low k t : 0 < t -> (k < m)%nat -> 1 - tsf k t = low (S k) t / tot t.
Proof. intros T H. unfold tsf. pose proof (tot_pos t T). rewrite <- (low_upp (S k)) in * by lia. field. lra. Qed.
Lemma tsf_range k t : 0 < t -> (k < m)%nat -> 0 <= tsf k t <= 1.
Proof.
  intros T H. pose proof (tot_pos t T). unfold tsf. split; [apply Rle_div_r; [auto|rewrite Rmult_0_l; apply upp_nn; auto]|]. apply Rle_div_l; auto. rewrite <- (low_upp (S k)) by lia.
  pose proof (low_nn (S k) t T H). lra.
Qed.
Lemma tsf_lt k s t : 0 < s -> s < t -> (lo <= k < hi)%nat -> tsf k s < tsf k t.
Proof.
  intros Hs Hst Hk. assert (T : 0 < t) by lra. assert (R : 1 < t / s) by (apply Rlt_div_r; lra).
  pose proof (odds_grow k s (t / s) Hs ltac:(lra) ltac:(lia)) as G. replace (t / s * s) with t in G by (field; lra).
  pose proof (upp_pos (S k) s hi Hs ltac:(lia) CH). pose proof (upp_pos (S k) t hi T ltac:(lia) CH).
  pose proof (low_pos (S k) s lo Hs ltac:(lia) ltac:(lia) CL). pose proof (low_pos (S k) t lo T ltac:(lia) ltac:(lia) CL).
  unfold tsf. rewrite <- !(low_upp (S k)) by lia. set (u := upp (S k) s) in *. set (u' := upp (S k) t) in *. set (v := low (S k) s) in *. set (v' := low (S k) t) in *.
  assert (u * v' < u' * v). { apply Rlt_le_trans with (t / s * (u * v')); auto. rewrite <- (Rmult_1_l (u * v')) at 1. apply Rmult_lt_compat_r; auto. nra. }
  apply (Rmult_lt_reg_r ((v + u) * (v' + u'))); [nra|]. replace (u / (v + u) * ((v + u) * (v' + u'))) with (u * (v' + u')) by (field; lra).
  replace (u' / (v' + u') * ((v + u) * (v' + u'))) with (u' * (v + u)) by (field; lra). nra.
Qed.
Lemma tsf_below k t : 0 < t -> (k < lo)%nat -> tsf k t = 1.
Proof.
  intros T H. assert (E : low (S k) t = 0) by (apply nsum_0; intros i I; rewrite ZL by lia; ring).
  pose proof (tsf_low k t T ltac:(lia)) as X. rewrite E in X. unfold Rdiv in X. lra.
Qed.
Lemma tsf_above k t : (hi <= k < m)%nat -> tsf k t = 0.
Proof.
  intros H. unfold tsf. assert (E : upp (S k) t = 0) by (apply nsum_0; intros i I; rewrite ZH by lia; ring). rewrite E. unfold Rdiv. ring.
Qed.
Lemma tsf_le k s t : 0 < s -> s <= t -> (k < m)%nat -> tsf k s <= tsf k t.
Proof.
  intros S0 L H. destruct L as [L|<-]; [|lra].
  destruct (Nat.lt_ge_cases k lo); [rewrite !tsf_below by (auto; lra); lra|].
  destruct (Nat.lt_ge_cases k hi); [left; apply tsf_lt; auto|rewrite !tsf_above by lia; lra].
Qed.
(** The mean is the sum of the upper tail probabilities. *)
Definition tmean (t : R) := nsum (fun i => INR i * (c i * t ^ i)) m / tot t.
Lemma tail_sum (g : nat -> R) n : nsum (fun i => INR i * g i) n = nsum (fun k => nsum (fun i => g (S k + i)%nat) (n - S k)) n.
Proof.
  induction n as [|n IH]; [reflexivity|]. simpl nsum at 1. rewrite IH.
  transitivity (nsum (fun k => nsum (fun i => g (S k + i)%nat) (n - S k) + g n) n).
  - rewrite nsum_plus, nsum_const. ring.
  - change (nsum (fun k => nsum (fun i => g (S k + i)%nat) (S n - S k)) (S n)) with (nsum (fun k => nsum (fun i => g (S k + i)%nat) (S n - S k)) n + nsum (fun i => g (S n + i)%nat) (S n - S n)).
    rewrite PeanoNat.Nat.sub_diag. simpl (nsum _ 0). rewrite Rplus_0_r. apply nsum_ext. intros k K.
    replace (S n - S k)%nat with (S (n - S k)) by lia. simpl nsum. f_equal. f_equal. lia.
Qed.
Lemma tmean_tsf t : 0 < t -> tmean t = nsum (fun k => tsf k t) m.
Proof.
  intros T. unfold tmean. rewrite (tail_sum (fun i => c i * t ^ i)). unfold tsf, Rdiv. rewrite Rmult_comm, <- nsum_scal. apply nsum_ext. intros k K. unfold upp. ring.
Qed.
Lemma nsum_lt f g n j : (forall i, (i < n)%nat -> f i <= g i) -> (j < n)%nat -> f j < g j -> nsum f n < nsum g n.
Proof.
  intros H L P. induction n as [|n IH]; [lia|]. simpl. destruct (Nat.eq_dec j n) as [->|E].
  - assert (nsum f n <= nsum g n) by (apply nsum_le; intros; apply H; lia). lra.
  - assert (nsum f n < nsum g n) by (apply IH; [intros; apply H; lia|lia]). pose proof (H n ltac:(lia)). lra.
Qed.
Lemma tmean_lt s t : 0 < s -> s < t -> (lo < hi)%nat -> tmean s < tmean t.
Proof.
  intros S0 L H. rewrite !tmean_tsf by lra. apply (nsum_lt _ _ m lo); [intros; apply tsf_le; auto; lra|lia|apply tsf_lt; auto; lia].
Qed.
(** Behaviour at 0 and at infinity. *)
Lemma tsf_hi k : (k < hi)%nat -> filterlim (tsf k) pinf (locally 1).
Proof.
  intros Hk. destruct (Nat.lt_ge_cases k lo) as [L|L].
  - apply (flim_eq pinf (fun _ => 1)); [exists 0; intros; rewrite tsf_below; auto|apply flim_const; apply Rbar_locally_filter].
  - pose proof (upp_pos (S k) 1 hi Rlt_0_1 ltac:(lia) CH) as U1. pose proof (low_pos (S k) 1 lo Rlt_0_1 ltac:(lia) ltac:(lia) CL) as L1.
    set (a := low (S k) 1 / upp (S k) 1). assert (A0 : 0 < a) by (apply Rdiv_pos; auto).
    apply (flim_squeeze pinf _ (fun t => 1 - a * / t) (fun _ => 1)).
    + exists 1. intros t T. split; [|apply tsf_range; [lra|lia]].
      pose proof (odds_grow k 1 t Rlt_0_1 ltac:(lra) ltac:(lia)) as G. rewrite Rmult_1_r in G.
      assert (E : 1 - tsf k t <= a * / t); [|lra]. rewrite tsf_low by (lra || lia).
      pose proof (low_pos (S k) t lo ltac:(lra) ltac:(lia) ltac:(lia) CL) as L2. pose proof (upp_pos (S k) t hi ltac:(lra) ltac:(lia) CH) as U2.
      pose proof (tot_pos t ltac:(lra)) as TP. assert (TU : upp (S k) t <= tot t) by (rewrite <- (low_upp (S k)) by lia; lra).
      apply Rle_trans with (low (S k) t / upp (S k) t).
      * apply Rmult_le_compat_l; [lra|]. apply Rinv_le_contravar; auto.
      * unfold a. apply (Rmult_le_reg_r (upp (S k) t * (upp (S k) 1 * t))); [apply Rmult_lt_0_compat; [auto|apply Rmult_lt_0_compat; lra]|].
        replace (low (S k) t / upp (S k) t * (upp (S k) t * (upp (S k) 1 * t))) with (t * (upp (S k) 1 * low (S k) t)) by (field; lra).
        replace (low (S k) 1 / upp (S k) 1 * / t * (upp (S k) t * (upp (S k) 1 * t))) with (upp (S k) t * low (S k) 1) by (field; lra). auto.
    + apply (flim_val pinf _ (1 - a * 0)); [|ring]. apply flim_minus; [apply Rbar_locally_filter|apply flim_const; apply Rbar_locally_filter|]. apply flim_scal; [apply Rbar_locally_filter|apply lim_inv].
    + apply flim_const; apply Rbar_locally_filter.
Qed.
Lemma tsf_lo k : (lo <= k)%nat -> (k < m)%nat -> filterlim (tsf k) (at_right 0) (locally 0).
Proof.
  pose proof (near_lo_filter 0) as FL. simpl in FL.
  intros L Hm. destruct (Nat.lt_ge_cases k hi) as [Hk|Hk].
  - pose proof (upp_pos (S k) 1 hi Rlt_0_1 ltac:(lia) CH) as U1. pose proof (low_pos (S k) 1 lo Rlt_0_1 ltac:(lia) ltac:(lia) CL) as L1.
    set (a := upp (S k) 1 / low (S k) 1). assert (A0 : 0 < a) by (apply Rdiv_pos; auto).
    apply (flim_squeeze _ _ (fun t => 0) (fun t => a * t)).
    + generalize (right_lt 0 1 Rlt_0_1). apply filter_imp. intros t [T0 T1]. split; [apply tsf_range; auto|].
      assert (R : 1 <= / t) by (rewrite <- Rinv_1; apply Rinv_le_contravar; lra).
      pose proof (odds_grow k t (/ t) T0 R Hm) as G. rewrite Rinv_l in G by lra.
      pose proof (low_pos (S k) t lo ltac:(lra) ltac:(lia) ltac:(lia) CL) as L2. pose proof (upp_pos (S k) t hi ltac:(lra) ltac:(lia) CH) as U2.
      pose proof (tot_pos t ltac:(lra)) as TP. assert (TU : low (S k) t <= tot t) by (rewrite <- (low_upp (S k)) by lia; lra).
      unfold tsf. apply Rle_trans with (upp (S k) t / low (S k) t).
      * apply Rmult_le_compat_l; [lra|]. apply Rinv_le_contravar; auto.
      * unfold a. apply (Rmult_le_reg_r (low (S k) t * (low (S k) 1 * / t))); [apply Rmult_lt_0_compat; [auto|apply Rmult_lt_0_compat; lra]|].
        replace (upp (S k) t / low (S k) t * (low (S k) t * (low (S k) 1 * / t))) with (/ t * (upp (S k) t * low (S k) 1)) by (field; lra).
        replace (upp (S k) 1 / low (S k) 1 * t * (low (S k) t * (low (S k) 1 * / t))) with (upp (S k) 1 * low (S k) t) by (field; lra). auto.
    + apply flim_const; auto.
    + apply (flim_val _ _ (a * 0)); [|ring]. apply flim_scal; [auto|]. apply (flim_right (fun x => x)). apply continuous_id.
  - apply (flim_eq _ (fun _ => 0)); [apply filter_forall; intros; rewrite tsf_above; auto|apply flim_const; auto].
Qed.
Lemma step_sum j n : (j <= n)%nat -> nsum (fun k => if Nat.ltb k j then 1 else 0) n = INR j.
Proof.
  intros H. replace n with (j + (n - j))%nat by lia. rewrite nsum_app.
  rewrite (nsum_ext _ (fun _ => 1) j), (nsum_0 _ (n - j)).
  - rewrite nsum_const. ring.
  - intros i I. destruct (Nat.ltb_spec (j + i) j); [lia|auto].
  - intros i I. rewrite (proj2 (PeanoNat.Nat.ltb_lt i j)); auto.
Qed.
Lemma tmean_hi : filterlim tmean pinf (locally (INR hi)).
Proof.
  apply (flim_eq pinf (fun t => nsum (fun k => tsf k t) m)); [exists 0; intros; symmetry; apply tmean_tsf; auto|].
  rewrite <- (step_sum hi m) by lia. apply (flim_nsum pinf (fun k t => tsf k t)). intros k Hk.
  destruct (Nat.ltb_spec k hi); [apply tsf_hi; auto|].
  apply (flim_eq pinf (fun _ => 0)); [exists 0; intros; rewrite tsf_above; auto|apply flim_const; apply Rbar_locally_filter].
Qed.
Lemma tmean_lo : filterlim tmean (at_right 0) (locally (INR lo)).
Proof.
  pose proof (near_lo_filter 0) as FL. simpl in FL.
  apply (flim_eq _ (fun t => nsum (fun k => tsf k t) m)); [generalize (right_lt 0 1 Rlt_0_1); apply filter_imp; intros t [T _]; symmetry; apply tmean_tsf; auto|].
  rewrite <- (step_sum lo m) by lia. apply (flim_nsum _ (fun k t => tsf k t)). intros k Hk.
  destruct (Nat.ltb_spec k lo); [|apply tsf_lo; auto].
  apply (flim_eq _ (fun _ => 1)); [generalize (right_lt 0 1 Rlt_0_1); apply filter_imp; intros t [T _]; rewrite tsf_below; auto|apply flim_const; auto].
Qed.
Lemma tsf_cont k t : 0 < t -> continuous (tsf k) t.
Proof.
  intros T. pose proof (tot_pos t T). unfold tsf, Rdiv. apply (continuous_mult (upp (S k)) (fun t => / tot t)).
  - apply (nsum_cont (fun i t => c (S k + i)%nat * t ^ (S k + i))). intros i _. apply ex_derive_cont. auto_derive. auto.
  - apply (continuous_comp tot Rinv); [|apply continuous_Rinv; lra]. apply (nsum_cont (fun i t => c i * t ^ i)). intros i _. apply ex_derive_cont. auto_derive. auto.
Qed.
Lemma tmean_cont t : 0 < t -> continuous tmean t.
Proof.
  intros T. pose proof (tot_pos t T). unfold tmean, Rdiv. apply (continuous_mult (fun t => nsum (fun i => INR i * (c i * t ^ i)) m) (fun t => / tot t)).
  - apply (nsum_cont (fun i t => INR i * (c i * t ^ i))). intros i _. apply ex_derive_cont. auto_derive. auto.
  - apply (continuous_comp tot Rinv); [|apply continuous_Rinv; lra]. apply (nsum_cont (fun i t => c i * t ^ i)). intros i _. apply ex_derive_cont. auto_derive. auto.
Qed.
End Tilt.
