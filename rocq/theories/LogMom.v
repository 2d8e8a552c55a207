(** The logarithmic moment of a law from its power moments. *)
From Coq Require Import Reals Lra Lia List.
From Coquelicot Require Import Coquelicot.
From Verif Require Import Values VTac Spec RLib LimLib DistLib IntLib MomLib GammaLib GammaLib3.
Local Open Scope R_scope.
Set Bullet Behavior "Strict Subproofs".

Lemma ln_pow_ge u h : 0 < u -> 0 < h -> ln u <= (Rpower u h - 1) / h.
Proof. intros U H. apply (Rmult_le_reg_r h); auto. replace ((Rpower u h - 1) / h * h) with (Rpower u h - 1) by (field; lra). unfold Rpower. pose proof (exp_ineq (h * ln u)). lra. Qed.
Lemma ln_pow_le u h : 0 < u -> 0 < h -> (1 - Rpower u (- h)) / h <= ln u.
Proof. intros U H. apply (Rmult_le_reg_r h); auto. replace ((1 - Rpower u (- h)) / h * h) with (1 - Rpower u (- h)) by (field; lra). unfold Rpower. pose proof (exp_ineq (- h * ln u)). lra. Qed.
(** A number between the difference quotients on the right and on the left is the derivative. *)
Lemma deriv_between (M : R -> R) D L e : 0 < e -> is_derive M 0 D -> (forall h, 0 < h <= e -> L <= (M h - M 0) / h /\ (M 0 - M (- h)) / h <= L) -> L = D.
Proof.
  intros E HD H. apply is_derive_Reals in HD.
  assert (K : forall eps, 0 < eps -> Rabs (L - D) <= eps).
  { intros eps P. destruct (HD eps P) as [d Hd]. pose proof (cond_pos d). set (h := Rmin (d / 2) e).
    assert (0 < h) by (apply Rmin_glb_lt; lra). assert (h <= d / 2) by apply Rmin_l. assert (h <= e) by apply Rmin_r.
    destruct (H h) as [A B]; [lra|].
    pose proof (Hd h ltac:(lra) ltac:(rewrite Rabs_right; lra)) as X. pose proof (Hd (- h) ltac:(lra) ltac:(rewrite Rabs_left; lra)) as Y.
    rewrite Rplus_0_l in X, Y. apply Rabs_def2 in X. apply Rabs_def2 in Y.
    replace ((M (- h) - M 0) / - h) with ((M 0 - M (- h)) / h) in Y by (field; lra). apply Rabs_le; lra. }
  destruct (Req_dec L D) as [|N]; auto. exfalso. assert (0 < Rabs (L - D)) by (apply Rabs_pos_lt; lra). pose proof (K (Rabs (L - D) / 2) ltac:(lra)). lra.
Qed.
Lemma if_ext lo hi (g g' F : R -> R) v : (forall x, inside lo hi x -> g x = g' x) -> integral_fn lo hi g F v -> integral_fn lo hi g' F v.
Proof.
  intros E I. destruct I. constructor; auto.
  - intros x Hx. apply (continuous_ext_loc g' g x); auto. apply (filter_imp (inside lo hi)); auto. apply inside_locally; auto.
  - intros x Hx. rewrite <- E by auto. auto.
  - intros x Hx. rewrite <- E by auto. auto.
Qed.
Lemma log_mom lo hi (w u M : R -> R) D e : 0 < e ->
  (forall x, inside lo hi x -> 0 < w x /\ continuous w x /\ 0 < u x /\ continuous u x) ->
  (forall h, - e <= h <= e -> exists F, integral_fn lo hi (fun x => Rpower (u x) h * w x) F (M h)) ->
  is_derive M 0 D -> integrates_to (fun x => ln (u x) * w x) lo hi D.
Proof.
  intros E W HM HD.
  destruct (HM e ltac:(lra)) as [Fe Ie]. destruct (HM (- e) ltac:(lra)) as [Fm Im]. destruct (HM 0 ltac:(lra)) as [F0 I0].
  pose proof (if_lt _ _ _ _ _ Ie) as LT.
  destruct (abs_ex lo hi (fun x => ln (u x) * w x) (fun x => / e * (Rpower (u x) e * w x + Rpower (u x) (- e) * w x)) _ _ (if_scal _ _ _ _ _ (/ e) ltac:(apply Rinv_0_lt_compat; lra) (if_plus _ _ _ _ _ _ _ _ Ie Im))) as [L HL].
  - intros x Hx. destruct (W x Hx) as (A & B & C & D'). apply (continuous_mult (fun x => ln (u x)) w); auto. apply (continuous_comp u ln); auto. apply ex_derive_cont. auto_derive. auto.
  - intros x Hx. destruct (W x Hx) as (A & _ & C & _). pose proof (ln_pow_ge (u x) e C E) as P. pose proof (ln_pow_le (u x) e C E) as Q.
    pose proof (Rpower_pos (u x) e) as R1. pose proof (Rpower_pos (u x) (- e)) as R2.
    assert (P0 : 0 < / e) by (apply Rinv_0_lt_compat; lra). unfold Rdiv in P, Q.
    assert (Z1 : 0 < / e * Rpower (u x) e) by (apply Rmult_lt_0_compat; auto). assert (Z2 : 0 < / e * Rpower (u x) (- e)) by (apply Rmult_lt_0_compat; auto).
    rewrite Rabs_mult, (Rabs_right (w x)) by lra. rewrite <- Rmult_plus_distr_r, <- Rmult_assoc. apply Rmult_lt_compat_r; auto. apply Rabs_def1; lra.
  - replace D with L; auto. apply (deriv_between M D L e); auto. intros h Hh. destruct (HM h ltac:(lra)) as [F1 I1]. destruct (HM (- h) ltac:(lra)) as [F2 I2].
    apply if_integral in I1. apply if_integral in I2. apply if_integral in I0. split.
    + apply (integrates_le lo hi (fun x => ln (u x) * w x) (fun x => / h * (Rpower (u x) h * w x + -1 * (Rpower (u x) 0 * w x))) L _ LT); auto.
      * intros x Hx. destruct (W x Hx) as (A & _ & C & _). rewrite Rpower_O by auto. pose proof (ln_pow_ge (u x) h C ltac:(lra)) as P. replace (/ h * (Rpower (u x) h * w x + -1 * (1 * w x))) with ((Rpower (u x) h - 1) / h * w x) by (field; lra). nra.
      * replace ((M h - M 0) / h) with (/ h * (M h + -1 * M 0)) by (field; lra). apply integrates_scal, integrates_plus; auto. apply integrates_scal; auto.
    + apply (integrates_le lo hi (fun x => / h * (Rpower (u x) 0 * w x + -1 * (Rpower (u x) (- h) * w x))) (fun x => ln (u x) * w x) _ L LT); auto.
      * intros x Hx. destruct (W x Hx) as (A & _ & C & _). rewrite Rpower_O by auto. pose proof (ln_pow_le (u x) h C ltac:(lra)) as P. replace (/ h * (1 * w x + -1 * (Rpower (u x) (- h) * w x))) with ((1 - Rpower (u x) (- h)) / h * w x) by (field; lra). nra.
      * replace ((M 0 - M (- h)) / h) with (/ h * (M 0 + -1 * M (- h))) by (field; lra). apply integrates_scal, integrates_plus; auto. apply integrates_scal; auto.
Qed.
