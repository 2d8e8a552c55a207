(** Euler's constant and digamma at 1, 1/2 and 3/2. *)
From Coq Require Import Reals Lra Lia.
From Coquelicot Require Import Coquelicot.
From Verif Require Import Values VTac Spec RLib SpecEuler SFun GammaLib GammaLib2 GammaLib3 GammaLib4 P_digammainv.
Local Open Scope R_scope.
Set Bullet Behavior "Strict Subproofs".

Lemma digamma_nat n : digamma (INR n + 1) = digamma 1 + harmonic n.
Proof.
  induction n as [|n IH]; [simpl; rewrite Rplus_0_l; ring|]. pose proof (pos_INR n). cbn [harmonic]. rewrite !S_INR. rewrite digamma_succ by lra. rewrite IH. ring.
Qed.
Lemma inv_lim : is_lim_seq (fun n => / INR n) 0.
Proof. apply (is_lim_seq_inv INR p_infty); [apply is_lim_seq_INR|discriminate]. Qed.
Lemma euler_digamma : euler_constant (- digamma 1).
Proof.
  unfold euler_constant.
  assert (L : is_lim_seq (fun n => harmonic n - ln (INR n) + digamma 1) 0).
  { apply (is_lim_seq_le_le_loc (fun n => 0) _ (fun n => / INR n)); [|apply is_lim_seq_const|apply inv_lim].
    exists 1%nat. intros n N. assert (0 < INR n) by (apply lt_0_INR; lia). pose proof (lndig_bounds (INR n) H). pose proof (digamma_nat n) as D. rewrite digamma_succ in D by auto. lra. }
  apply (is_lim_seq_ext (fun n => harmonic n - ln (INR n) + digamma 1 - digamma 1)); [intros; ring|].
  replace (Finite (- digamma 1)) with (Rbar_minus 0 (digamma 1)) by (simpl; f_equal; ring). apply is_lim_seq_minus'; [exact L|apply is_lim_seq_const].
Qed.
Lemma euler_eq g : euler_constant g -> g = - digamma 1.
Proof. intros H. pose proof (is_lim_seq_unique _ _ H). pose proof (is_lim_seq_unique _ _ euler_digamma). rewrite H0 in H1. injection H1. auto. Qed.

(** digamma(x/2) + digamma((x+1)/2) + 2 ln 2 = 2 digamma(x). *)
Local Definition d (x : R) := digamma (x / 2) / 2 + digamma ((x + 1) / 2) / 2 + ln 2 - digamma x.
Lemma d_succ x : 0 < x -> d (x + 1) = d x.
Proof.
  intros X. unfold d. replace ((x + 1 + 1) / 2) with (x / 2 + 1) by field. rewrite !digamma_succ by lra. field. lra.
Qed.
Lemma d_shift n x : 0 < x -> d (x + INR n) = d x.
Proof.
  intros X. induction n as [|n IH]; [simpl; rewrite Rplus_0_r; auto|]. rewrite S_INR. pose proof (pos_INR n). replace (x + (INR n + 1)) with (x + INR n + 1) by ring. rewrite d_succ by lra. auto.
Qed.
Lemma d_bound x : 0 < x -> Rabs (d x) <= 3 * / x.
Proof.
  intros X. assert (IX : 0 < / x) by (apply Rinv_0_lt_compat; auto).
  pose proof (lndig_bounds x X). pose proof (lndig_bounds (x / 2) ltac:(lra)) as B1. pose proof (lndig_bounds ((x + 1) / 2) ltac:(lra)) as B2.
  rewrite !ln_div in * by lra. assert (E1 : / (x / 2) = 2 * / x) by (field; lra). rewrite E1 in B1.
  assert (E2 : / ((x + 1) / 2) <= 2 * / x). { replace (/ ((x + 1) / 2)) with (2 * / (x + 1)) by (field; lra). apply Rmult_le_compat_l; [lra|]. apply Rinv_le_contravar; lra. }
  assert (L : 0 <= ln (x + 1) - ln x <= / x).
  { split; [assert (ln x < ln (x + 1)) by (apply ln_increasing; lra); lra|]. rewrite <- ln_div by lra. assert (P : 0 < (x + 1) / x) by (apply Rdiv_pos; lra). pose proof (ln_ineq _ P) as I. replace ((x + 1) / x - 1) with (/ x) in I by (field; lra). auto. }
  unfold d. apply Rabs_le. lra.
Qed.
Lemma digamma_dup x : 0 < x -> digamma (x / 2) / 2 + digamma ((x + 1) / 2) / 2 + ln 2 = digamma x.
Proof.
  intros X. cut (d x = 0); [unfold d; lra|]. destruct (Req_dec (d x) 0) as [|N]; auto. exfalso.
  assert (P : 0 < Rabs (d x)) by (apply Rabs_pos_lt; auto).
  destruct (nfloor_ex (3 / Rabs (d x))) as [n [_ L]]; [left; apply Rdiv_pos; lra|].
  assert (N1 : 0 < INR n + 1) by (pose proof (pos_INR n); lra).
  pose proof (d_bound (x + INR (S n)) ltac:(rewrite S_INR; lra)) as B. rewrite d_shift in B by auto. rewrite S_INR in B.
  assert (/ (x + (INR n + 1)) <= / (INR n + 1)) by (apply Rinv_le_contravar; lra).
  assert (3 < Rabs (d x) * (INR n + 1)). { apply (Rmult_lt_compat_r (Rabs (d x))) in L; auto. unfold Rdiv in L. rewrite Rmult_assoc, Rinv_l in L by lra. lra. }
  assert (Rabs (d x) * (INR n + 1) <= 3); [|lra].
  apply Rle_trans with (3 * / (INR n + 1) * (INR n + 1)); [apply Rmult_le_compat_r; lra|]. rewrite Rmult_assoc, Rinv_l by lra. lra.
Qed.
Lemma digamma_half : digamma (1 / 2) = digamma 1 - 2 * ln 2.
Proof. pose proof (digamma_dup 1 ltac:(lra)) as D. replace ((1 + 1) / 2) with 1 in D by field. lra. Qed.
Lemma digamma_3half : digamma (3 / 2) = digamma 1 - 2 * ln 2 + 2.
Proof. replace (3 / 2) with (1 / 2 + 1) by field. rewrite digamma_succ, digamma_half by lra. field. Qed.
