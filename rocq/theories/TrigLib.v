(** trigamma(1) = pi^2/6, from trigamma(x) + trigamma(1-x) = pi^2/sin^2(pi x). *)
From Coq Require Import Reals Lra Lia.
From Coquelicot Require Import Coquelicot.
From Verif Require Import Values VTac Spec RLib LimLib DistLib IntLib MomLib SFun GammaLib GammaLib2 GammaLib3 GammaLib4 EulerLib LnSin.
Local Open Scope R_scope.
Set Bullet Behavior "Strict Subproofs".

Lemma trigamma_cont a : 0 < a -> continuous trigamma a.
Proof.
  intros Ha. pose proof (Gamma_pos a Ha). apply ex_derive_cont.
  apply (ex_derive_ext_loc (fun a => (Lg 2 a * Gamma a - Lg 1 a * Lg 1 a) / Gamma a ^ 2)).
  - exists (mkposreal a Ha). intros y Hy. unfold ball in Hy; simpl in Hy; unfold AbsRing_ball, abs, minus, plus, opp in Hy; simpl in Hy.
    apply Rabs_def2 in Hy. symmetry. apply trigamma_eq. lra.
  - assert (D2 : ex_derive (Lg 2) a) by (eexists; apply Lg_der; auto). assert (D1 : ex_derive (Lg 1) a) by (eexists; apply Lg_der; auto).
    assert (D0 : ex_derive Gamma a) by (eexists; apply Gamma_der; auto). revert D2 D1 D0 H. generalize (Lg 2), (Lg 1), Gamma. intros u v g D2 D1 D0 H. auto_derive. repeat split; auto. nra.
Qed.
Lemma trigamma_bound : exists B, 0 < B /\ forall a, 1 <= a <= 2 -> 0 <= trigamma a <= B.
Proof.
  destruct (continuity_ab_maj trigamma 1 2) as [m [H M]]; [lra| |].
  - intros c C. apply continuity_pt_filterlim. apply trigamma_cont. lra.
  - exists (trigamma m). split; [apply trigamma_pos; lra|]. intros a A. split; [apply trigamma_nonneg; lra|auto].
Qed.
Lemma trigamma_dup x : 0 < x -> trigamma (x / 2) + trigamma ((x + 1) / 2) = 4 * trigamma x.
Proof.
  intros X. assert (E : trigamma x = trigamma (x / 2) / 4 + trigamma ((x + 1) / 2) / 4); [|lra].
  apply is_derive_unique. apply (is_derive_ext_loc (fun x => digamma (x / 2) / 2 + digamma ((x + 1) / 2) / 2 + ln 2)).
  - exists (mkposreal x X). intros y Hy. unfold ball in Hy; simpl in Hy; unfold AbsRing_ball, abs, minus, plus, opp in Hy; simpl in Hy.
    apply Rabs_def2 in Hy. apply digamma_dup. lra.
  - assert (A : forall c, 0 < x + c -> is_derive (fun x => digamma ((x + c) / 2) / 2) x (trigamma ((x + c) / 2) / 4)).
    { intros c C. evar_last.
      - apply (is_derive_ext (fun x => / 2 * digamma ((x + c) / 2))); [intros; unfold Rdiv; apply Rmult_comm|]. apply (is_derive_scal (fun x => digamma ((x + c) / 2))). apply (is_derive_comp digamma (fun x => (x + c) / 2)); [apply digamma_trigamma; lra|]. auto_derive; auto.
      - unfold scal; simpl; unfold mult; simpl. field. }
    evar_last; [apply (is_derive_plus (fun x => digamma (x / 2) / 2 + digamma ((x + 1) / 2) / 2) (fun _ => ln 2)); [apply (is_derive_plus (fun x => digamma (x / 2) / 2) (fun x => digamma ((x + 1) / 2) / 2)); [|apply A; lra]|apply is_derive_const]|].
    + apply (is_derive_ext (fun x => digamma ((x + 0) / 2) / 2)); [intros; rewrite Rplus_0_r; auto|apply A; lra].
    + unfold plus, zero; simpl. rewrite Rplus_0_r. rewrite ?Rplus_0_r. lra.
Qed.
Definition hz (x : R) := trigamma x + trigamma (1 - x) - (PI / sin (PI * x)) ^ 2.
Lemma pix x : 0 < x < 1 -> 0 < PI * x < PI. Proof. pose proof PI_RGT_0. intros. nra. Qed.
Lemma hz_dup x : 0 < x < 1 -> hz (x / 2) + hz ((x + 1) / 2) = 4 * hz x.
Proof.
  intros X. unfold hz. pose proof (trigamma_dup x ltac:(lra)) as D1. pose proof (trigamma_dup (1 - x) ltac:(lra)) as D2.
  replace (1 - x / 2) with ((1 - x + 1) / 2) by field. replace (1 - (x + 1) / 2) with ((1 - x) / 2) by field.
  assert (S : (PI / sin (PI * (x / 2))) ^ 2 + (PI / sin (PI * ((x + 1) / 2))) ^ 2 = 4 * (PI / sin (PI * x)) ^ 2).
  { set (y := PI * (x / 2)). replace (PI * ((x + 1) / 2)) with (PI / 2 + y) by (unfold y; field). rewrite <- cos_sin. replace (PI * x) with (2 * y) by (unfold y; field). rewrite sin_2a.
    pose proof PI_RGT_0. assert (Y : 0 < y < PI / 2) by (unfold y; split; nra). pose proof (sin_gt_0 y ltac:(lra) ltac:(lra)). pose proof (cos_gt_0 y ltac:(lra) ltac:(lra)). pose proof (sin2_cos2 y) as SC. unfold Rsqr in SC.
    replace ((PI / sin y) ^ 2 + (PI / cos y) ^ 2) with (PI ^ 2 * (sin y * sin y + cos y * cos y) / (sin y ^ 2 * cos y ^ 2)) by (field; lra). rewrite SC. field. lra. }
  lra.
Qed.
Lemma csc_bound y : 0 < y < 1 -> 0 <= / sin y ^ 2 - / y ^ 2 <= 4.
Proof.
  intros Y. pose proof (sin_half y Y) as SH. pose proof PI_RGT_0. pose proof PI2_3_2.
  pose proof (sin_lt_x y ltac:(lra)) as SL.
  assert (T : y - y ^ 3 / 2 <= sin y).
  { assert (C : y * cos y <= sin y).
    { destruct (MVT_gen (fun t => sin t - t * cos t) 0 y (fun t => t * sin t)) as [c [HC E]].
      - intros t _. auto_derive; auto. ring.
      - intros t _. apply derivable_continuous_pt. reg.
      - rewrite sin_0, Rmult_0_l in E. rewrite Rmin_left, Rmax_right in HC by lra. assert (0 <= sin c) by (apply sin_ge_0; lra). assert (0 <= c * sin c) by (apply Rmult_le_pos; lra). nra. }
    assert (D : cos y = 1 - 2 * sin (y / 2) * sin (y / 2)) by (rewrite <- cos_2a_sin; f_equal; field).
    pose proof (sin_lt_x (y / 2) ltac:(lra)). assert (0 <= sin (y / 2)) by (apply sin_ge_0; lra). assert (sin (y / 2) * sin (y / 2) <= y / 2 * (y / 2)) by (apply Rmult_le_compat; lra).
    assert (1 - y ^ 2 / 2 <= cos y) by (rewrite D; lra). assert (y * (1 - y ^ 2 / 2) <= y * cos y) by (apply Rmult_le_compat_l; lra). simpl in *. lra. }
  assert (P : 0 < sin y) by lra. assert (E : / sin y ^ 2 - / y ^ 2 = (y - sin y) * (y + sin y) / (sin y ^ 2 * y ^ 2)) by (field; lra). rewrite E.
  assert (D : 0 < sin y ^ 2 * y ^ 2) by (apply Rmult_lt_0_compat; apply pow_lt; lra). split; [apply Rdiv_nonneg; auto; nra|].
  apply Rmult_le_reg_r with (sin y ^ 2 * y ^ 2); auto. unfold Rdiv. rewrite Rmult_assoc, Rinv_l, Rmult_1_r by lra.
  assert (A : (y - sin y) * (y + sin y) <= y ^ 3 / 2 * (2 * y)) by (apply Rmult_le_compat; lra).
  assert (B : y ^ 2 / 4 <= sin y ^ 2) by (replace (y ^ 2 / 4) with ((y / 2) ^ 2) by field; apply pow_incr; lra).
  assert (C : y ^ 2 / 4 * y ^ 2 <= sin y ^ 2 * y ^ 2) by (apply Rmult_le_compat_r; auto; apply pow2_ge_0). pose proof (pow_lt y 4 ltac:(lra)). nra.
Qed.
Lemma hz_refl x : hz (1 - x) = hz x.
Proof.
  unfold hz. replace (1 - (1 - x)) with x by ring. replace (PI * (1 - x)) with (PI - PI * x) by ring. replace (sin (PI - PI * x)) with (sin (PI * x)) by (rewrite sin_PI_x; auto). ring.
Qed.
Lemma hz_bounded : exists B, 0 < B /\ forall x, 0 < x < 1 -> Rabs (hz x) <= B.
Proof.
  destruct trigamma_bound as [B [BP HB]]. pose proof PI_RGT_0 as PP. pose proof PI2_3_2 as P3.
  assert (A : forall x, 0 < x <= 1 / 2 -> Rabs (hz x) <= 2 * B + 4 + 4 * PI ^ 2 + 4).
  { intros x X. unfold hz. pose proof (trigamma_succ x ltac:(lra)) as T1. pose proof (trigamma_succ (1 - x) ltac:(lra)) as T2.
    pose proof (HB (x + 1) ltac:(lra)). pose proof (HB (1 - x + 1) ltac:(lra)).
    assert (I1 : 0 < / (1 - x) ^ 2 <= 4). { assert (0 < (1 - x) ^ 2) by (apply pow_lt; lra). split; [apply Rinv_0_lt_compat; auto|]. replace 4 with (/ (1 / 4)) by field. apply Rinv_le_contravar; [lra|]. assert (1 / 2 * (1 / 2) <= (1 - x) * (1 - x)) by (apply Rmult_le_compat; lra). simpl. lra. }
    assert (PX := pix x ltac:(lra)). assert (SP : 0 < sin (PI * x)) by (apply sin_gt_0; lra).
    assert (CB : Rabs ((PI / sin (PI * x)) ^ 2 - / x ^ 2) <= 4 * PI ^ 2).
    { assert (E : (PI / sin (PI * x)) ^ 2 - / x ^ 2 = PI ^ 2 * (/ sin (PI * x) ^ 2 - / (PI * x) ^ 2)) by (field; lra). rewrite E, Rabs_mult, (Rabs_right (PI ^ 2)) by (apply Rle_ge, pow2_ge_0). rewrite Rmult_comm. apply Rmult_le_compat_r; [apply pow2_ge_0|].
      assert (Y2 : PI * x <= PI / 2) by nra. destruct (Rlt_le_dec (PI * x) 1) as [Y|Y].
      - pose proof (csc_bound (PI * x) ltac:(lra)). rewrite Rabs_right; lra.
      - assert (S1 : 1 / 2 <= sin (PI * x)).
        { apply Rle_trans with (sin (PI / 6)); [rewrite sin_PI6; lra|]. pose proof PI_4. apply sin_incr_1; lra. }
        assert (S2 : sin (PI * x) <= 1) by apply SIN_bound. set (u := sin (PI * x)) in *. set (y := PI * x) in *.
        assert (0 < / u ^ 2 <= 4). { assert (0 < u ^ 2) by (apply pow_lt; lra). split; [apply Rinv_0_lt_compat; auto|]. replace 4 with (/ (1 / 4)) by field. apply Rinv_le_contravar; [lra|]. assert (1 / 2 * (1 / 2) <= u * u) by (apply Rmult_le_compat; lra). simpl. lra. }
        assert (0 < / y ^ 2 <= 1). { assert (0 < y ^ 2) by (apply pow_lt; lra). split; [apply Rinv_0_lt_compat; auto|]. replace 1 with (/ 1) by field. apply Rinv_le_contravar; [lra|]. assert (1 * 1 <= y * y) by (apply Rmult_le_compat; lra). simpl. lra. }
        apply Rabs_le. lra. }
    assert (E : trigamma x + trigamma (1 - x) - (PI / sin (PI * x)) ^ 2 = trigamma (x + 1) + trigamma (1 - x + 1) + / (1 - x) ^ 2 - ((PI / sin (PI * x)) ^ 2 - / x ^ 2)) by lra. rewrite E.
    set (w := (PI / sin (PI * x)) ^ 2 - / x ^ 2) in *. assert (- (4 * PI ^ 2) <= w <= 4 * PI ^ 2) by (apply Rabs_le_between; auto). apply Rabs_le. lra. }
  exists (2 * B + 4 + 4 * PI ^ 2 + 4). pose proof (pow2_ge_0 PI). split; [lra|]. intros x X. destruct (Rle_dec x (1 / 2)); [apply A; lra|]. rewrite <- hz_refl. apply A; lra.
Qed.
Lemma hz_0 x : 0 < x < 1 -> hz x = 0.
Proof.
  destruct hz_bounded as [B [BP HB]]. assert (A : forall n x, 0 < x < 1 -> Rabs (hz x) <= B / 2 ^ n).
  { induction n as [|n IH]; intros y Y; [simpl; unfold Rdiv; rewrite Rinv_1, Rmult_1_r; auto|].
    pose proof (hz_dup y Y) as D. pose proof (IH (y / 2) ltac:(lra)) as I1. pose proof (IH ((y + 1) / 2) ltac:(lra)) as I2. pose proof (Rabs_triang (hz (y / 2)) (hz ((y + 1) / 2))) as TR. rewrite D, Rabs_mult, (Rabs_right 4) in TR by lra.
    assert (0 < 2 ^ n) by (apply pow_lt; lra). replace (B / 2 ^ S n) with (B / 2 ^ n / 2) by (simpl; field; lra). lra. }
  intros X. destruct (Req_dec (hz x) 0) as [|N]; auto. exfalso. assert (P : 0 < Rabs (hz x)) by (apply Rabs_pos_lt; auto).
  destruct (nfloor_ex (B / Rabs (hz x))) as [n [_ L]]; [left; apply Rdiv_pos; auto|]. pose proof (A (S n) x X) as K.
  assert (P2 : INR n + 1 <= 2 ^ S n). { clear. induction n as [|n IH]; [simpl; lra|]. rewrite S_INR. change (2 ^ S (S n)) with (2 * 2 ^ S n). pose proof (pos_INR n). lra. }
  assert (0 < 2 ^ S n) by (apply pow_lt; lra). assert (K2 : Rabs (hz x) * 2 ^ S n <= B). { apply Rmult_le_compat_r with (r := 2 ^ S n) in K; [|lra]. unfold Rdiv in K. rewrite Rmult_assoc, Rinv_l in K by lra. lra. }
  assert (L2 : B < (INR n + 1) * Rabs (hz x)). { apply (Rmult_lt_compat_r (Rabs (hz x))) in L; auto. unfold Rdiv in L. rewrite Rmult_assoc, Rinv_l in L by lra. lra. }
  assert ((INR n + 1) * Rabs (hz x) <= 2 ^ S n * Rabs (hz x)) by (apply Rmult_le_compat_r; lra). lra.
Qed.
Lemma trigamma_refl x : 0 < x < 1 -> trigamma x + trigamma (1 - x) = (PI / sin (PI * x)) ^ 2.
Proof. intros X. pose proof (hz_0 x X). unfold hz in *. lra. Qed.
Lemma trigamma_half : trigamma (1 / 2) = PI ^ 2 / 2.
Proof.
  pose proof (trigamma_refl (1 / 2) ltac:(lra)) as H. replace (1 - 1 / 2) with (1 / 2) in H by field. replace (PI * (1 / 2)) with (PI / 2) in H by field. rewrite sin_PI2 in H. unfold Rdiv in *. rewrite Rinv_1, Rmult_1_r in H. lra.
Qed.
Lemma trigamma_1 : trigamma 1 = PI ^ 2 / 6.
Proof. pose proof (trigamma_dup 1 ltac:(lra)) as D. replace ((1 + 1) / 2) with 1 in D by field. rewrite trigamma_half in D. lra. Qed.
Lemma Lg2_1 : Lg 2 1 = PI ^ 2 / 6 + digamma 1 ^ 2.
Proof.
  rewrite <- trigamma_1, trigamma_eq, digamma_eq, Gamma_1 by lra. field.
Qed.
