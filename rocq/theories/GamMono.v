(** The regularised incomplete gamma function is strictly decreasing in the shape parameter. *)
From Coq Require Import Reals Lra Lia.
From Coquelicot Require Import Coquelicot.
From Verif Require Import Values VTac Spec RLib DistLib DistLS IntLib SFun GammaLib GammaLib2 GammaLib3 GamLib.
Local Open Scope R_scope.
Set Bullet Behavior "Strict Subproofs".

Lemma g_incr a x y : 0 < a -> 0 < x -> x < y -> gF a x < gF a y.
Proof.
  intros A X L. destruct (gST a A) as [[_ _ D P] _ _]. apply (deriv_pos_incr 0 p_infty (gF a) (gf a)); auto; split; simpl; auto; lra.
Qed.
Lemma g_q a p : 0 < a -> 0 < p < 1 -> 0 < gQ a p /\ gF a (gQ a p) = p.
Proof. intros A P. destruct (gST a A) as [_ _ Q]. destruct (Q p P) as [[B _] E]. auto. Qed.
Lemma g_01 a x : 0 < a -> 0 < x -> 0 <= gF a x <= 1.
Proof. intros A X. destruct (gST a A) as [[_ B _ _] _ _]. apply B. split; simpl; auto. Qed.
Section M.
Variables a b : R.
Hypothesis A : 0 < a.
Hypothesis AB : a < b.
Let z0 := exp ((loggamma b - loggamma a) / (b - a)).
Let h z := gF a z - gF b z.
Lemma h_der z : 0 < z -> is_derive h z (gf a z - gf b z).
Proof.
  intros Z. assert (I : inside 0 p_infty z) by (split; simpl; auto). apply (is_derive_minus (gF a) (gF b)).
  - destruct (gST a A) as [[_ _ D _] _ _]. auto.
  - destruct (gST b ltac:(lra)) as [[_ _ D _] _ _]. auto.
Qed.
Lemma cmp z : 0 < z -> (z < z0 -> gf b z < gf a z) /\ (z0 < z -> gf a z < gf b z).
Proof.
  intros Z. rewrite !gf_ln by lra. assert (E : ln z0 * (b - a) = loggamma b - loggamma a) by (unfold z0; rewrite ln_exp; field; lra).
  split; intros L; apply exp_increasing.
  - assert (ln z < ln z0) by (apply ln_increasing; auto). nra.
  - assert (ln z0 < ln z) by (apply ln_increasing; auto; apply exp_pos). nra.
Qed.
Lemma small d : 0 < d -> exists y, 0 < y /\ forall t, 0 < t -> t <= y -> gF a t < d /\ gF b t < d.
Proof.
  intros D. set (p := Rmin (d / 2) (1 / 2)). assert (p <= d / 2) by apply Rmin_l. assert (p <= 1 / 2) by apply Rmin_r. assert (0 < p) by (apply Rmin_pos; lra).
  destruct (g_q a p A ltac:(lra)) as [Q1 E1]. destruct (g_q b p ltac:(lra) ltac:(lra)) as [Q2 E2].
  exists (Rmin (gQ a p) (gQ b p)). pose proof (Rmin_l (gQ a p) (gQ b p)). pose proof (Rmin_r (gQ a p) (gQ b p)). split; [apply Rmin_pos; auto|]. intros t T L. split.
  - destruct (Rle_lt_or_eq_dec t (gQ a p) ltac:(lra)) as [X| ->]; [apply (g_incr a) in X; lra|lra].
  - destruct (Rle_lt_or_eq_dec t (gQ b p) ltac:(lra)) as [X| ->]; [apply (g_incr b) in X; lra|lra].
Qed.
Lemma large d : 0 < d -> exists y, 0 < y /\ forall t, y <= t -> 1 - d < gF a t /\ 1 - d < gF b t.
Proof.
  intros D. set (p := Rmin (d / 2) (1 / 2)). assert (p <= d / 2) by apply Rmin_l. assert (p <= 1 / 2) by apply Rmin_r. assert (0 < p) by (apply Rmin_pos; lra).
  destruct (g_q a (1 - p) A ltac:(lra)) as [Q1 E1]. destruct (g_q b (1 - p) ltac:(lra) ltac:(lra)) as [Q2 E2].
  exists (Rmax (gQ a (1 - p)) (gQ b (1 - p))). pose proof (Rmax_l (gQ a (1 - p)) (gQ b (1 - p))). pose proof (Rmax_r (gQ a (1 - p)) (gQ b (1 - p))). split; [lra|]. intros t L. split.
  - destruct (Rle_lt_or_eq_dec (gQ a (1 - p)) t ltac:(lra)) as [X|X]; [apply (g_incr a) in X; lra|rewrite <- X; lra].
  - destruct (Rle_lt_or_eq_dec (gQ b (1 - p)) t ltac:(lra)) as [X|X]; [apply (g_incr b) in X; lra|rewrite <- X; lra].
Qed.
Lemma h_up x y : 0 < x -> x < y -> y < z0 -> h x < h y.
Proof.
  intros X L Z. apply (deriv_pos_incr 0 z0 h (fun z => gf a z - gf b z)); try (split; simpl; lra); auto.
  - intros t [T _]. simpl in T. apply h_der; auto.
  - intros t [T1 T2]. simpl in T1, T2. destruct (cmp t T1) as [C _]. specialize (C T2). lra.
Qed.
Lemma h_down x y : z0 < x -> x < y -> h y < h x.
Proof.
  intros X L. assert (0 < z0) by apply exp_pos. cut (- h x < - h y); [lra|].
  apply (deriv_pos_incr z0 p_infty (fun z => - h z) (fun z => - (gf a z - gf b z))); try (split; simpl; auto; lra); auto.
  - intros t [T _]. simpl in T. apply (is_derive_opp h). apply h_der; lra.
  - intros t [T1 _]. simpl in T1. destruct (cmp t ltac:(lra)) as [_ C]. specialize (C T1). lra.
Qed.
Lemma h_cont z : 0 < z -> continuity_pt h z.
Proof. intros Z. apply continuity_pt_filterlim. apply (ex_derive_continuous (V := R_NormedModule)). eexists. apply h_der; auto. Qed.
Lemma h_low z : 0 < z -> z < z0 -> 0 < h z.
Proof.
  intros Z L. assert (NN : 0 <= h (z / 2)).
  { apply Rnot_lt_le. intros N. destruct (small (- h (z / 2)) ltac:(lra)) as [y [Y S]]. set (t := Rmin y (z / 4)).
    assert (t <= y) by apply Rmin_l. assert (t <= z / 4) by apply Rmin_r. assert (0 < t) by (apply Rmin_pos; lra).
    pose proof (h_up t (z / 2) ltac:(lra) ltac:(lra) ltac:(lra)). destruct (S t ltac:(lra) ltac:(lra)) as [_ S2]. pose proof (g_01 a t A ltac:(lra)). unfold h in *. lra. }
  pose proof (h_up (z / 2) z ltac:(lra) ltac:(lra) L). lra.
Qed.
Lemma h_high z : z0 < z -> 0 < h z.
Proof.
  intros L. assert (Z0 : 0 < z0) by apply exp_pos. assert (NN : 0 <= h (2 * z)).
  { apply Rnot_lt_le. intros N. destruct (large (- h (2 * z)) ltac:(lra)) as [y [Y S]]. set (t := Rmax y (4 * z)).
    assert (y <= t) by apply Rmax_l. assert (4 * z <= t) by apply Rmax_r.
    pose proof (h_down (2 * z) t ltac:(lra) ltac:(lra)). destruct (S t ltac:(lra)) as [S1 _]. pose proof (g_01 b t ltac:(lra) ltac:(lra)). unfold h in *. lra. }
  pose proof (h_down z (2 * z) ltac:(lra) ltac:(lra)). lra.
Qed.
Lemma gF_decr z : 0 < z -> gF b z < gF a z.
Proof.
  intros Z. cut (0 < h z); [unfold h; lra|]. assert (Z0 : 0 < z0) by apply exp_pos. destruct (Rtotal_order z z0) as [L|[E|L]]; [apply h_low; auto| |apply h_high; auto].
  rewrite E in *. clear E. assert (P : 0 < h (z0 / 2)) by (apply h_low; lra).
  (* h z0 >= h (z0/2), by continuity *)
  apply Rlt_le_trans with (h (z0 / 2)); auto. apply Rnot_lt_le. intros N.
  destruct (h_cont z0 Z0 (h (z0 / 2) - h z0) ltac:(lra)) as [e [E H]]. set (t := Rmax (z0 - e / 2) (z0 * 3 / 4)).
  assert (z0 - e / 2 <= t) by apply Rmax_l. assert (z0 * 3 / 4 <= t) by apply Rmax_r. assert (t < z0) by (apply Rmax_lub_lt; lra).
  specialize (H t). simpl in H. unfold R_dist, D_x, no_cond in H. assert (B : Rabs (h t - h z0) < h (z0 / 2) - h z0).
  { apply H. split; [split; auto; lra|]. rewrite Rabs_left by lra. lra. }
  pose proof (h_up (z0 / 2) t ltac:(lra) ltac:(lra) ltac:(lra)). apply Rabs_def2 in B. lra.
Qed.
End M.
Lemma gF_inj_a a b z : 0 < a -> 0 < b -> 0 < z -> gF a z = gF b z -> a = b.
Proof. intros A B Z E. destruct (Rtotal_order a b) as [L|[L|L]]; auto; [pose proof (gF_decr a b A L z Z)|pose proof (gF_decr b a B L z Z)]; lra. Qed.
