(** Mixtures of gamma densities: if q_j >= 0 has sum Q, then
    integral over (0, inf) of t^(c-1) e^(-t) sum_j q_j t^j / Gamma(c+j) dt = Q. *)
From Coq Require Import Reals Lra Lia.
From Coquelicot Require Import Coquelicot.
From Verif Require Import Values VTac Spec RLib LimLib DistLib IntLib SFun.
From Verif Require Import MomLib DistLS GammaLib GammaLib2 GamLib.
Local Open Scope R_scope.
Set Bullet Behavior "Strict Subproofs".

Lemma INR_0 : INR 0 = 0. Proof. reflexivity. Qed.
(** ** entire power series *)
Definition entire (a : nat -> R) := forall r, ex_series (fun n => Rabs (a n * r ^ n)).
Lemma entire_radius a : entire a -> CV_radius a = p_infty.
Proof.
  intros E. unfold CV_radius. apply is_lub_Rbar_unique. split.
  - intros x _. simpl. auto.
  - intros b B. destruct b as [b| |]; simpl; auto.
    + assert (L := B (b + 1) (E (b + 1))). simpl in L. lra.
    + assert (L := B 0 (E 0)). simpl in L. auto.
Qed.
Lemma entire_le (a b : nat -> R) M : (forall n, Rabs (b n) <= M * Rabs (a n)) -> entire a -> entire b.
Proof.
  intros L E r. apply (ex_series_le (V := R_CompleteNormedModule) _ (fun n => M * Rabs (a n * r ^ n))).
  - intros n. unfold norm. simpl. unfold abs. simpl. rewrite Rabs_Rabsolu, !Rabs_mult, <- Rmult_assoc. apply Rmult_le_compat_r; [apply Rabs_pos|apply L].
  - apply (ex_series_scal_l M (fun n => Rabs (a n * r ^ n))). apply E.
Qed.
Section C.
Variable c : R.
Hypothesis C : 0 < c.
Definition gi (n : nat) := / Gamma (c + INR n).
Lemma cn_pos n : 0 < c + INR n. Proof. pose proof (pos_INR n). lra. Qed.
Lemma gi_pos n : 0 < gi n. Proof. apply Rinv_0_lt_compat, Gamma_pos, cn_pos. Qed.
Lemma gi_S n : gi (S n) = gi n / (c + INR n).
Proof. unfold gi. rewrite S_INR. replace (c + (INR n + 1)) with (c + INR n + 1) by ring. rewrite Gamma_succ by apply cn_pos. pose proof (cn_pos n). pose proof (Gamma_pos _ (cn_pos n)). field. lra. Qed.
Lemma entire_gi : entire gi.
Proof.
  intros r. destruct (Req_dec r 0) as [->|N].
  - apply (ex_series_ext (fun n => Rabs (/ Gamma c * (if Nat.eqb n 0 then 1 else 0)) * (1/2) ^ n)).
    + intros [|n].
      * simpl. unfold gi. rewrite INR_0, Rplus_0_r. rewrite !Rmult_1_r; auto.
      * simpl. rewrite ?Rmult_0_l, ?Rmult_0_r, Rabs_R0. ring.
    + apply (ex_series_le (V := R_CompleteNormedModule) _ (fun n => Rabs (/ Gamma c) * (1/2) ^ n)).
      * intros n. unfold norm. simpl. unfold abs. simpl. rewrite !Rabs_mult, Rabs_Rabsolu. rewrite (Rabs_right ((1/2)^n)) by (apply Rle_ge, pow_le; lra). apply Rmult_le_compat_r; [apply pow_le; lra|]. destruct (Nat.eqb n 0); rewrite ?Rabs_R1, ?Rabs_R0; pose proof (Rabs_pos (/ Gamma c)); lra.
      * apply (ex_series_scal_l (Rabs (/ Gamma c)) (fun n => (1/2) ^ n)). apply ex_series_geom. rewrite Rabs_right; lra.
  - apply (ex_series_DAlembert _ 0); [lra| |].
    + intros n. apply Rmult_integral_contrapositive_currified; [pose proof (gi_pos n); lra|apply pow_nonzero; auto].
    + apply (is_lim_seq_ext (fun n => Rabs r * / (c + INR n))).
      * intros n. replace (gi (S n) * r ^ S n / (gi n * r ^ n)) with (r * / (c + INR n)).
        -- rewrite Rabs_mult. f_equal. rewrite Rabs_right; auto. apply Rle_ge. left. apply Rinv_0_lt_compat, cn_pos.
        -- rewrite gi_S. simpl. pose proof (gi_pos n). pose proof (cn_pos n). field. repeat split; try lra. apply pow_nonzero; auto.
      * replace (Finite 0) with (Rbar_mult (Rabs r) 0) by (simpl; f_equal; ring). apply is_lim_seq_scal_l. apply (is_lim_seq_inv _ p_infty); [|discriminate]. apply (is_lim_seq_plus _ _ c p_infty); [apply is_lim_seq_const|apply is_lim_seq_INR|constructor].
Qed.
End C.
Lemma entire_ex a x : entire a -> ex_pseries a x.
Proof. intros E. apply CV_disk_correct. apply E. Qed.
Lemma entire_der a x : entire a -> is_derive (PSeries a) x (PSeries (PS_derive a) x).
Proof. intros E. apply is_derive_PSeries. rewrite entire_radius; auto. simpl. auto. Qed.
Lemma entire_PSd a : entire a -> entire (PS_derive a).
Proof.
  intros E r. apply CV_disk_inside. rewrite CV_radius_derive, entire_radius; auto. simpl. auto.
Qed.
Lemma entire_incr a : entire a -> entire (PS_incr_1 a).
Proof. intros E r. apply CV_disk_inside. rewrite CV_radius_incr_1, entire_radius; auto. simpl. auto. Qed.
Lemma entire_scal a k : entire a -> entire (PS_scal k a).
Proof. intros E. apply (entire_le a _ (Rabs k)); auto. intros n. unfold PS_scal, scal. simpl. unfold mult. simpl. rewrite Rabs_mult. lra. Qed.
Lemma entire_plus a b : entire a -> entire b -> entire (PS_plus a b).
Proof.
  intros A B r. apply (ex_series_le (V := R_CompleteNormedModule) _ (fun n => Rabs (a n * r ^ n) + Rabs (b n * r ^ n))).
  - intros n. unfold norm. simpl. unfold abs. simpl. rewrite Rabs_Rabsolu. unfold PS_plus, plus. simpl. rewrite Rmult_plus_distr_r. apply Rabs_triang.
  - apply (ex_series_plus (fun n => Rabs (a n * r ^ n)) (fun n => Rabs (b n * r ^ n))); [apply A|apply B].
Qed.
Lemma PS_pos a x : entire a -> (forall n, 0 <= a n) -> 0 < a 0%nat -> 0 <= x -> a 0%nat <= PSeries a x.
Proof.
  intros E P P0 X. rewrite PSeries_decr_1 by (apply entire_ex; auto).
  assert (0 <= x * PSeries (PS_decr_1 a) x); [|lra]. apply Rmult_le_pos; auto.
  unfold PSeries. rewrite <- (Rmult_0_l (Series (fun k => PS_decr_1 a k * x ^ k))). rewrite <- Series_scal_l. apply Series_le.
  - intros n. assert (0 <= PS_decr_1 a n * x ^ n) by (apply Rmult_le_pos; [apply P|apply pow_le; auto]). lra.
  - apply (ex_pseries_R (PS_decr_1 a)). apply ex_pseries_decr_1; [destruct (Req_dec x 0); auto; right; exists (/ x); apply Rinv_l; auto|]. apply entire_ex; auto.
Qed.
Lemma PS_le a b x : entire a -> entire b -> (forall n, 0 <= a n <= b n) -> 0 <= x -> 0 <= PSeries a x <= PSeries b x.
Proof.
  intros A B L X. split.
  - unfold PSeries. rewrite <- (Rmult_0_l (Series (fun k => a k * x ^ k))). rewrite <- Series_scal_l. apply Series_le.
    + intros n. assert (0 <= a n * x ^ n) by (apply Rmult_le_pos; [apply L|apply pow_le; auto]). lra.
    + apply (ex_pseries_R a), entire_ex; auto.
  - apply Series_le.
    + intros n. split; [apply Rmult_le_pos; [apply L|apply pow_le; auto]|]. apply Rmult_le_compat_r; [apply pow_le; auto|apply L].
    + apply (ex_pseries_R b), entire_ex; auto.
Qed.
Lemma PS_const a k x : (forall n, a (S n) = 0) -> a 0%nat = k -> PSeries a x = k.
Proof.
  intros A K. assert (EX : ex_pseries a x).
  { exists k. apply is_pseries_R. apply (is_series_ext (fun n => match n with 0%nat => k | S _ => 0 end)).
    - intros [|n]; rewrite ?A, ?K; simpl; ring.
    - change (is_lim_seq (sum_n (fun n => match n with 0%nat => k | S _ => 0 end)) k). apply (is_lim_seq_ext (fun _ => k)); [|apply is_lim_seq_const]. induction n as [|n IH]; [rewrite sum_O; auto|]. rewrite sum_Sn, <- IH. unfold plus. simpl. ring. }
  rewrite PSeries_decr_1 by auto. rewrite (PSeries_ext _ (fun _ => 0)) by (intros n; unfold PS_decr_1; apply A). rewrite PSeries_const_0, K. ring.
Qed.

Section Mix.
Variables (c : R) (q : nat -> R) (Q : R).
Hypothesis C : 0 < c.
Hypothesis QP : forall n, 0 <= q n.
Hypothesis Q0 : 0 < q 0%nat.
Hypothesis QS : is_series q Q.
Notation gi := (gi c).
Definition mk (n : nat) := q n * gi n.
Definition fmix (t : R) := gamma_kernel c t * PSeries mk t.
Definition tail n := Q - sum_n q n.
Lemma sum_le n : sum_n q n <= Q.
Proof.
  assert (M : forall k, sum_n q n <= sum_n q (n + k)).
  { induction k as [|k IH]; [rewrite Nat.add_0_r; lra|]. rewrite Nat.add_succ_r, sum_Sn. unfold plus. simpl. specialize (QP (S (n + k))). lra. }
  assert (L : is_lim_seq (fun k => sum_n q (n + k)) Q).
  { apply (is_lim_seq_ext (fun k => sum_n q (k + n))); [intros; f_equal; lia|]. apply (is_lim_seq_incr_n (sum_n q) n Q). exact QS. }
  apply (is_lim_seq_le (fun _ => sum_n q n) (fun k => sum_n q (n + k)) (sum_n q n) Q M); auto. apply is_lim_seq_const.
Qed.
Lemma tail_pos n : 0 <= tail n. Proof. unfold tail. pose proof (sum_le n). lra. Qed.
Lemma tail_S n : tail (S n) = tail n - q (S n).
Proof. unfold tail. rewrite sum_Sn. unfold plus. simpl. ring. Qed.
Lemma tail_0 : tail 0 = Q - q 0%nat. Proof. unfold tail. rewrite sum_O. auto. Qed.
Lemma tail_le n : tail n <= Q.
Proof. induction n as [|n IH]; [rewrite tail_0; lra|]. rewrite tail_S. specialize (QP (S n)). lra. Qed.
Lemma tail_decr n k : tail (n + k) <= tail n.
Proof. induction k as [|k IH]; [rewrite Nat.add_0_r; lra|]. rewrite Nat.add_succ_r, tail_S. specialize (QP (S (n + k))). lra. Qed.
Lemma Q_pos : 0 < Q. Proof. pose proof (tail_pos 0). rewrite tail_0 in H. lra. Qed.
Lemma q_le n : q n <= Q.
Proof. destruct n; [pose proof (tail_pos 0); rewrite tail_0 in *; lra|]. pose proof (tail_pos (S n)). rewrite tail_S in H. pose proof (tail_le n). lra. Qed.
Lemma tail_lim : forall eps, 0 < eps -> exists n, tail n < eps.
Proof.
  intros eps E. assert (L : is_lim_seq (sum_n q) Q) by exact QS. apply is_lim_seq_spec in L. destruct (L (mkposreal eps E)) as (n & H). exists n. specialize (H n (le_n n)). simpl in H. apply Rabs_def2 in H. unfold tail. lra.
Qed.
Lemma mk_entire : entire mk.
Proof. apply (entire_le gi _ Q); [|apply entire_gi; auto]. intros n. unfold mk. rewrite Rabs_mult. apply Rmult_le_compat_r; [apply Rabs_pos|]. rewrite Rabs_right by (apply Rle_ge; auto). apply q_le. Qed.
Definition ti (n : nat) := gi (S n).
Lemma gi1 n : (c + INR n) * ti n = gi n.
Proof. unfold ti. rewrite gi_S by auto. pose proof (cn_pos c C n). field. lra. Qed.
Lemma ti_pos n : 0 < ti n. Proof. unfold ti. apply gi_pos; exact C. Qed.
Lemma ti_entire : entire ti.
Proof.
  apply (entire_le gi _ (/ c)); [|apply entire_gi; auto]. intros n. pose proof (gi1 n) as E. pose proof (ti_pos n). pose proof (gi_pos c C n). rewrite !Rabs_right by lra. rewrite <- E. pose proof (pos_INR n).
  replace (/ c * ((c + INR n) * ti n)) with (ti n + INR n / c * ti n) by (field; lra). assert (0 <= INR n / c * ti n); [|lra]. apply Rmult_le_pos; [|lra]. apply Rmult_le_pos; auto. left. apply Rinv_0_lt_compat; auto.
Qed.
Definition sk (n : nat) := tail n * ti n.
Lemma sk_entire : entire sk.
Proof. apply (entire_le ti _ Q); [|apply ti_entire]. intros n. unfold sk. rewrite Rabs_mult. apply Rmult_le_compat_r; [apply Rabs_pos|]. rewrite Rabs_right by (apply Rle_ge, tail_pos). apply tail_le. Qed.
(** derivative of t^c e^-t A(t) *)
Lemma der_prod (a : nat -> R) (x : R) : entire a -> 0 < x ->
  is_derive (fun t => Rpower t c * exp (- t) * PSeries a t) x (gamma_kernel c x * (c * PSeries a x + x * PSeries (PS_derive a) x - x * PSeries a x)).
Proof.
  intros E X. evar_last.
  - apply (is_derive_mult (fun t => Rpower t c * exp (- t)) (PSeries a) x (c * Rpower x (c - 1) * exp (- x) + Rpower x c * (- exp (- x)))); [|apply entire_der; auto|intros; apply Rmult_comm].
    apply (is_derive_mult (fun t => Rpower t c) (fun t => exp (- t)) x (c * Rpower x (c - 1)) (- exp (- x))); [apply is_derive_Rpower; auto|auto_derive; auto; ring|intros; apply Rmult_comm].
  - unfold plus, mult. simpl. unfold gamma_kernel. replace (Rpower x c) with (x * Rpower x (c - 1)); [ring|]. rewrite <- (Rpower_1 x) at 1 by auto. rewrite <- Rpower_plus. f_equal. ring.
Qed.
Lemma coef_id (a b : nat -> R) x : entire a -> c * a 0%nat = b 0%nat -> (forall n, (c + INR (S n)) * a (S n) - a n = b (S n)) ->
  c * PSeries a x + x * PSeries (PS_derive a) x - x * PSeries a x = PSeries b x.
Proof.
  intros E B0 BS. pose proof (entire_PSd a E) as E'.
  rewrite (PSeries_ext b (PS_plus (PS_scal c a) (PS_plus (PS_incr_1 (PS_derive a)) (PS_scal (-1) (PS_incr_1 a))))).
  - rewrite !PSeries_plus, !PSeries_scal, !PSeries_incr_1; [ring|..]; apply entire_ex; auto using entire_scal, entire_incr, entire_plus.
  - intros [|n]; unfold PS_plus, PS_scal, PS_incr_1, PS_derive, plus, scal; simpl; unfold mult; simpl; change (@zero R_AbelianGroup) with 0.
    + rewrite <- B0. ring.
    + rewrite <- BS. change (match n with 0%nat => 1 | S _ => INR n + 1 end) with (INR (S n)). ring.
Qed.
Definition H (t : R) := Q * gF c t - Rpower t c * exp (- t) * PSeries sk t.
Lemma gF_der x : 0 < x -> is_derive (gF c) x (gamma_kernel c x * gi 0).
Proof.
  intros X. evar_last; [apply (sm_der _ _ _ _ (st_smooth _ _ _ _ _ (gST c C)))|].
  - apply inside_pos; auto.
  - unfold gf, gi. rewrite INR_0, Rplus_0_r. reflexivity.
Qed.
Lemma gF_lo : filterlim (gF c) (at_right 0) (locally 0).
Proof. apply (flim_val _ _ (0 * / Gamma c)); [|ring]. apply flim_mult; [apply at_right_proper_filter|apply (if_lo _ _ _ _ _ (Gamma_if c C))|apply filterlim_const]. Qed.
Lemma gF_hi : filterlim (gF c) (Rbar_locally p_infty) (locally 1).
Proof. apply (flim_val _ _ (Gamma c * / Gamma c)); [|pose proof (Gamma_pos c C); field; lra]. apply flim_mult; [apply Rbar_locally_filter|apply (if_hi _ _ _ _ _ (Gamma_if c C))|apply filterlim_const]. Qed.
Lemma H_der x : 0 < x -> is_derive H x (fmix x).
Proof.
  intros X. evar_last; [apply (is_derive_minus (fun t => Q * gF c t)); [apply (is_derive_scal (gF c)); apply gF_der; auto|apply der_prod; auto; apply sk_entire]|].
  rewrite (coef_id sk (fun n => match n with 0%nat => Q * gi 0 - mk 0 | S n => - mk (S n) end)); [|apply sk_entire|..].
  - unfold minus, plus, opp, fmix. simpl. rewrite (PSeries_ext _ (PS_plus (fun n => match n with 0%nat => Q * gi 0 | S _ => 0 end) (PS_scal (-1) mk))).
    + rewrite PSeries_plus, PSeries_scal, (PS_const _ (Q * gi 0)); auto; [ring|..].
      * exists (Q * gi 0). apply is_pseries_R. apply (is_series_ext (fun n => match n with 0%nat => Q * gi 0 | S _ => 0 end)); [intros [|n]; simpl; ring|].
        change (is_lim_seq (sum_n (fun n => match n with 0%nat => Q * gi 0 | S _ => 0 end)) (Q * gi 0)). apply (is_lim_seq_ext (fun _ => Q * gi 0)); [|apply is_lim_seq_const]. induction n as [|n IH]; [rewrite sum_O; auto|]. rewrite sum_Sn, <- IH. unfold plus. simpl. ring.
      * apply entire_ex, entire_scal, mk_entire.
    + intros [|n]; unfold PS_plus, PS_scal, plus, scal; simpl; unfold mult; simpl; ring.
  - unfold sk. pose proof (gi1 0) as E. rewrite INR_0, Rplus_0_r in E. rewrite tail_0. unfold mk. rewrite <- E. ring.
  - intros n. unfold sk, mk. rewrite tail_S. pose proof (gi1 (S n)) as E. unfold ti in *. rewrite <- E. ring.
Qed.
Lemma lim0 (a : nat -> R) : entire a -> filterlim (fun t => Rpower t c * exp (- t) * PSeries a t) (at_right 0) (locally 0).
Proof.
  intros E. apply (flim_val _ _ (0 * exp (- 0) * PSeries a 0)); [|ring].
  apply flim_mult; [apply at_right_proper_filter| |].
  - apply flim_mult; [apply at_right_proper_filter|apply lim_Rpower_0; auto|]. apply (flim_right (fun t => exp (- t))). apply ex_derive_cont. auto_derive. auto.
  - apply (flim_right (PSeries a)). apply ex_derive_cont. eexists. apply entire_der; auto.
Qed.
Lemma ti_id x : 0 < x -> Rpower x c * exp (- x) * PSeries ti x = gF c x.
Proof.
  intros X. assert (K : gF c x - Rpower x c * exp (- x) * PSeries ti x = 0); [|lra].
  apply (const_lim 0 p_infty (fun t => gF c t - Rpower t c * exp (- t) * PSeries ti t) 0 I).
  - intros y Y%inside_pos. evar_last; [apply (is_derive_minus (gF c)); [apply gF_der; auto|apply der_prod; auto; apply ti_entire]|].
    rewrite (coef_id ti (fun n => match n with 0%nat => gi 0 | S _ => 0 end)); [|apply ti_entire|..].
    + rewrite (PS_const _ (gi 0)); auto. apply Rminus_eq_0.
    + pose proof (gi1 0) as E. rewrite INR_0, Rplus_0_r in E. auto.
    + intros n. rewrite gi1. unfold ti. ring.
  - apply (flim_val _ _ (0 - 0)); [|ring]. apply flim_minus; [apply at_right_proper_filter|apply gF_lo|apply (lim0 ti), ti_entire].
  - apply inside_pos; auto.
Qed.
Lemma gF_le1 x : 0 < x -> gF c x <= 1.
Proof. intros X. apply (sm_01 _ _ _ _ (st_smooth _ _ _ _ _ (gST c C))). apply inside_pos; auto. Qed.
Lemma sk_bound N x : 0 < x -> 0 <= PSeries sk x <= sum_f_R0 (fun n => sk n * x ^ n) N + tail N * PSeries ti x.
Proof.
  intros X. assert (SP : forall n, 0 <= sk n) by (intros; apply Rmult_le_pos; [apply tail_pos|left; apply ti_pos]). split.
  - apply (PS_le sk sk x); auto using sk_entire, Rle_refl. lra.
  - assert (ES : ex_series (fun n => sk n * x ^ n)) by (apply (ex_pseries_R sk), entire_ex, sk_entire).
    assert (ET : ex_series (fun n => ti n * x ^ n)) by (apply (ex_pseries_R ti), entire_ex, ti_entire).
    unfold PSeries. rewrite (Series_incr_n _ (S N)) by (auto; lia). simpl pred. apply Rplus_le_compat_l. rewrite (Series_incr_n (fun n => ti n * x ^ n) (S N)) by (auto; lia). simpl pred.
    assert (P1 : 0 <= sum_f_R0 (fun n => ti n * x ^ n) N) by (apply cond_pos_sum; intros; apply Rmult_le_pos; [left; apply ti_pos|apply pow_le; lra]).
    assert (P2 : Series (fun k => sk (S N + k) * x ^ (S N + k)) <= tail N * Series (fun k => ti (S N + k) * x ^ (S N + k))).
    { rewrite <- Series_scal_l. apply Series_le.
      - intros n. split; [apply Rmult_le_pos; [auto|apply pow_le; lra]|]. unfold sk at 1. rewrite Rmult_assoc. apply Rmult_le_compat_r; [apply Rmult_le_pos; [left; apply ti_pos|apply pow_le; lra]|]. replace (S N + n)%nat with (N + S n)%nat by lia. apply tail_decr.
      - apply (ex_series_scal_l (tail N) (fun k => ti (S N + k) * x ^ (S N + k))). apply -> (ex_series_incr_n (fun k => ti k * x ^ k) (S N)). auto. }
    pose proof (tail_pos N). nra.
Qed.
Lemma lim_inf : filterlim (fun t => Rpower t c * exp (- t) * PSeries sk t) (Rbar_locally p_infty) (locally 0).
Proof.
  apply filterlim_locally. intros [eps E]. destruct (tail_lim (eps / 2)) as (N & HN); [lra|].
  assert (L : forall N, filterlim (fun t => Rpower t c * exp (- t) * sum_f_R0 (fun n => sk n * t ^ n) N) (Rbar_locally p_infty) (locally 0)).
  { clear. assert (K : forall n, filterlim (fun t => Rpower t c * exp (- t) * (sk n * t ^ n)) (Rbar_locally p_infty) (locally 0)).
    { intros n. apply (flim_eq _ (fun t => sk n * (Rpower t (c + INR n) * exp (- t)))).
      - apply (filter_imp (fun t => 0 < t)); [|apply pinf_gt]. intros t T. rewrite Rpower_plus, Rpower_pow by auto. ring.
      - apply (flim_val _ _ (sk n * 0)); [|ring]. apply flim_scal; [apply Rbar_locally_filter|]. apply lim_Rpower_exp. }
    induction N as [|N IH]; [exact (K 0%nat)|]. apply (flim_eq _ (fun t => Rpower t c * exp (- t) * sum_f_R0 (fun n => sk n * t ^ n) N + Rpower t c * exp (- t) * (sk (S N) * t ^ (S N)))).
    - apply filter_forall. intros t. simpl. ring.
    - apply (flim_val _ _ (0 + 0)); [|ring]. apply flim_plus; auto. apply Rbar_locally_filter. }
  specialize (L N). assert (P : 0 < eps / 2) by lra. pose proof (proj1 (filterlim_locally _ _) L (mkposreal _ P)) as L'. simpl in L'.
  generalize (filter_and _ _ L' (pinf_gt 0)). apply filter_imp. intros t [B T]. unfold ball in *. simpl in *. unfold AbsRing_ball, abs, minus, plus, opp in *. simpl in *.
  pose proof (sk_bound N t T) as [S0 S1]. pose proof (ti_id t T) as TI. pose proof (gF_le1 t T). assert (W : 0 < Rpower t c * exp (- t)) by (apply Rmult_lt_0_compat; apply exp_pos). set (w := Rpower t c * exp (- t)) in *.
  rewrite Ropp_0, Rplus_0_r in *. apply Rabs_def2 in B. rewrite Rabs_right by (apply Rle_ge, Rmult_le_pos; lra).
  apply Rle_lt_trans with (w * (sum_f_R0 (fun n => sk n * t ^ n) N + tail N * PSeries ti t)); [apply Rmult_le_compat_l; lra|].
  replace (w * (sum_f_R0 (fun n => sk n * t ^ n) N + tail N * PSeries ti t)) with (w * sum_f_R0 (fun n => sk n * t ^ n) N + tail N * (w * PSeries ti t)) by ring. rewrite TI. pose proof (tail_pos N). nra.
Qed.
Lemma mk_ge x : 0 <= x -> mk 0 <= PSeries mk x.
Proof. intros X. apply PS_pos; auto; [apply mk_entire| |]; intros; [apply Rmult_le_pos; [auto|left; apply gi_pos; auto]|apply Rmult_lt_0_compat; [auto|apply gi_pos; auto]]. Qed.
Theorem mix_if : integral_fn 0 p_infty fmix H Q.
Proof.
  constructor.
  - exact I.
  - intros x X%inside_pos. apply (continuous_mult (gamma_kernel c) (PSeries mk)); [apply gk_cont; auto|]. apply ex_derive_cont. eexists. apply entire_der, mk_entire.
  - intros x X%inside_pos. apply Rmult_lt_0_compat; [apply gk_pos|]. pose proof (mk_ge x ltac:(lra)). assert (0 < mk 0) by (apply Rmult_lt_0_compat; [auto|apply gi_pos; auto]). lra.
  - intros x X%inside_pos. apply H_der; auto.
  - apply (flim_val _ _ (Q * 0 - 0)); [|ring]. apply flim_minus; [apply at_right_proper_filter|apply flim_scal; [apply at_right_proper_filter|apply gF_lo]|apply (lim0 sk), sk_entire].
  - apply (flim_val _ _ (Q * 1 - 0)); [|ring]. apply flim_minus; [apply Rbar_locally_filter|apply flim_scal; [apply Rbar_locally_filter|apply gF_hi]|apply lim_inf].
Qed.
End Mix.
(** moments of any real order *)
Lemma mix_moment c q Q r : 0 < c -> 0 < c + r -> (forall n, 0 <= q n) -> 0 < q 0%nat ->
  is_series (fun n => q n * (Gamma (c + r + INR n) / Gamma (c + INR n))) Q ->
  integrates_to (fun t => Rpower t r * fmix c q t) 0 p_infty Q.
Proof.
  intros C CR QP Q0 S. set (q' := fun n => q n * (Gamma (c + r + INR n) / Gamma (c + INR n))).
  assert (G : forall n, 0 < Gamma (c + r + INR n) / Gamma (c + INR n)) by (intros n; pose proof (pos_INR n); apply Rdiv_pos; apply Gamma_pos; lra).
  pose proof (mix_if (c + r) q' Q CR ltac:(intros n; apply Rmult_le_pos; [auto|left; apply G]) ltac:(apply Rmult_lt_0_compat; [auto|apply G]) S) as M.
  apply (integrates_ext 0 p_infty I (fmix (c + r) q')); [|apply (if_integral M)].
  intros t T%inside_pos. unfold fmix. rewrite gk_shift. rewrite (PSeries_ext (mk (c + r) q') (mk c q)); [ring|].
  intros n. unfold mk, q', gi. pose proof (pos_INR n). pose proof (Gamma_pos (c + r + INR n) ltac:(lra)). pose proof (Gamma_pos (c + INR n) ltac:(lra)). field. lra.
Qed.
