(** Proofs about means and variances. *)
From Coq Require Import Reals Lra List Bool Arith Lia Psatz.
From Coquelicot Require Import Coquelicot.
From Verif Require Import Values VTac RLib LLib SpecStat M_fun M_basic P_fun.
Import ListNotations.
Local Open Scope R_scope.
Set Bullet Behavior "Strict Subproofs".

Definition wt (ow : option (list R)) : option (list val) := option_map (map Fin) ow.
Definition tot (l : list (R * R)) := sum (map snd l).


Lemma datum_in xs ow x w : In (x, w) (weighted xs ow) -> In x xs.
Proof.
  destruct ow as [ws|]; simpl; intros H.
  - apply in_combine_l in H. auto.
  - apply in_map_iff in H. destruct H as [y [E Hy]]. inversion E; subst. auto.
Qed.
Lemma snd_combine {A B} (l : list A) : forall l' : list B, length l' = length l -> map snd (combine l l') = l'.
Proof. induction l as [|a l IH]; intros [|b l'] H; simpl in *; try discriminate; auto. f_equal. apply IH. lia. Qed.
Lemma datum_w xs ow x w : good_weights xs ow -> In (x, w) (weighted xs ow) -> 0 <= w.
Proof.
  intros [N G]. destruct ow as [ws|]; simpl; intros H.
  - apply in_combine_r in H. apply G. auto.
  - apply in_map_iff in H. destruct H as [y [E Hy]]. inversion E; subst. lra.
Qed.
Lemma tot_pos xs ow : good_weights xs ow -> 0 < tot (weighted xs ow).
Proof.
  intros [N G]. unfold tot. destruct ow as [ws|]; simpl.
  - destruct G as [L [_ P]]. rewrite snd_combine; auto.
  - rewrite map_map. simpl. rewrite rsum_const, Rmult_1_r. apply length_pos; auto.
Qed.

(** Elementary facts about averages. *)
Section Avg.
Variable l : list (R * R).
Hypothesis W : forall x w, In (x, w) l -> 0 <= w.
Hypothesis T : 0 < tot l.

Lemma avg_ext f g : (forall x w, In (x, w) l -> f x = g x) -> avg f l = avg g l.
Proof.
  intros H. unfold avg. f_equal. apply rsum_ext. intros [x w] I. rewrite (H x w I). auto.
Qed.
Lemma avg_le f g : (forall x w, In (x, w) l -> f x <= g x) -> avg f l <= avg g l.
Proof.
  intros H. unfold avg. apply Rmult_le_compat_r; [left; apply Rinv_0_lt_compat; auto|].
  apply rsum_le. intros [x w] I. apply Rmult_le_compat_r; eauto.
Qed.
Lemma avg_lin a b f : avg (fun x => a * f x + b) l = a * avg f l + b.
Proof.
  unfold avg.
  rewrite (rsum_ext _ (fun xw => a * (f (fst xw) * snd xw) + b * snd xw)) by (intros [x w] _; simpl; ring).
  rewrite rsum_plus, !rsum_scal.
  rewrite (rsum_ext (fun '(x, w) => f x * w) (fun xw => f (fst xw) * snd xw)) by (intros [x w] _; reflexivity).
  unfold tot in T. 
  change (map (fun x : R * R => snd x) l) with (map snd l).
  set (D := rsum (map snd l)) in *. set (E := rsum (map (fun xw : R * R => f (fst xw) * snd xw) l)).
  clearbody D E. field. lra.
Qed.
Lemma avg_const b : avg (fun _ => b) l = b.
Proof. rewrite (avg_ext _ (fun x => 0 * 0 + b)) by (intros; ring). rewrite avg_lin. ring. Qed.
Lemma avg_plus f g : avg (fun x => f x + g x) l = avg f l + avg g l.
Proof.
  unfold avg. rewrite <- Rdiv_plus_distr, <- rsum_plus. f_equal. apply rsum_ext.
  intros [x w] _. ring.
Qed.
Lemma avg_pos f : (forall x w, In (x, w) l -> 0 < f x) -> 0 < avg f l.
Proof.
  intros H. unfold avg. apply Rdiv_pos; auto.
  destruct (Rle_lt_dec (sum (map (fun '(x, w) => f x * w) l)) 0) as [C|C]; auto. exfalso.
  assert (Z : forall xw, In xw l -> f (fst xw) * snd xw = 0).
  { apply (rsum_nonneg_0 (fun xw => f (fst xw) * snd xw)).
    - intros [x w] I. simpl. pose proof (H x w I). pose proof (W x w I). nra.
    - apply Rle_antisym.
      + rewrite (rsum_ext _ (fun '(x, w) => f x * w)) by (intros [x w] _; reflexivity). auto.
      + apply rsum_nonneg. intros [x w] I. simpl. pose proof (H x w I). pose proof (W x w I). nra. }
  assert (tot l = 0); [|lra].
  unfold tot. rewrite (rsum_ext snd (fun _ => 0)).
  - rewrite rsum_const. ring.
  - intros [x w] I. specialize (Z (x, w) I). simpl in *. pose proof (H x w I). nra.
Qed.

(** Jensen-type inequalities, on positive data. *)
Hypothesis P : forall x w, In (x, w) l -> 0 < x.
Lemma avg_id_pos : 0 < avg (fun x => x) l. Proof. apply avg_pos; auto. Qed.

Lemma ln_tangent x m : 0 < x -> 0 < m -> ln x <= / m * x + (ln m - 1).
Proof.
  intros. pose proof (ln_ineq (x / m) ltac:(apply Rdiv_pos; auto)). rewrite ln_div in H1 by auto.
  unfold Rdiv in H1. lra.
Qed.
Lemma jensen_ln f : (forall x w, In (x, w) l -> 0 < f x) -> avg (fun x => ln (f x)) l <= ln (avg f l).
Proof.
  intros H. pose proof (avg_pos f H) as M. set (m := avg f l) in *.
  apply Rle_trans with (avg (fun x => / m * f x + (ln m - 1)) l).
  - apply avg_le. intros x w I. apply ln_tangent; eauto.
  - rewrite avg_lin. fold m. right. field. lra.
Qed.
End Avg.

Lemma exp_convex r a b : 0 <= r <= 1 -> exp (r * a + (1 - r) * b) <= r * exp a + (1 - r) * exp b.
Proof.
  intros H. set (z := r * a + (1 - r) * b).
  assert (T : forall t, exp z * (1 + (t - z)) <= exp t).
  { intros t. replace (exp t) with (exp z * exp (t - z)) by (rewrite <- exp_plus; f_equal; ring).
    apply Rmult_le_compat_l; [left; apply exp_pos|apply exp_ineq]. }
  pose proof (T a). pose proof (T b).
  assert (r * (exp z * (1 + (a - z))) <= r * exp a) by (apply Rmult_le_compat_l; lra).
  assert ((1 - r) * (exp z * (1 + (b - z))) <= (1 - r) * exp b) by (apply Rmult_le_compat_l; lra).
  assert (E : r * (exp z * (1 + (a - z))) + (1 - r) * (exp z * (1 + (b - z))) = exp z) by (unfold z; ring).
  lra.
Qed.
Lemma bern_mid u r : 0 < u -> 0 <= r <= 1 -> Rpower u r <= 1 + r * (u - 1).
Proof.
  intros Hu H. pose proof (exp_convex r (ln u) 0 H) as E.
  replace (r * ln u + (1 - r) * 0) with (r * ln u) in E by ring.
  rewrite exp_ln, exp_0 in E by auto. unfold Rpower. lra.
Qed.
Lemma bern_big u r : 0 < u -> 1 <= r -> 1 + r * (u - 1) <= Rpower u r.
Proof.
  intros Hu H. pose proof (bern_mid (Rpower u r) (1 / r) (Rpower_pos _ _)) as B.
  assert (0 <= 1 / r <= 1).
  { split; [apply Rdiv_nonneg; lra|]. apply Rmult_le_reg_r with r; [lra|]. field_simplify; lra. }
  specialize (B H0). rewrite Rpower_mult in B. replace (r * (1 / r)) with 1 in B by (field; lra).
  rewrite Rpower_1 in B by auto.
  assert (u * r <= (1 + 1 / r * (Rpower u r - 1)) * r) by (apply Rmult_le_compat_r; lra).
  replace ((1 + 1 / r * (Rpower u r - 1)) * r) with (r + Rpower u r - 1) in H1 by (field; lra). lra.
Qed.
Lemma bern_neg u r : 0 < u -> r <= 0 -> 1 + r * (u - 1) <= Rpower u r.
Proof.
  intros Hu H. set (s := / (1 - r)).
  assert (S : s * (1 - r) = 1) by (unfold s; field; lra).
  assert (S0 : 0 < s) by (apply Rinv_0_lt_compat; lra).
  assert (S1 : 0 <= s <= 1) by (split; nra).
  pose proof (exp_convex s (r * ln u) (ln u) S1) as E.
  replace (s * (r * ln u) + (1 - s) * ln u) with ((1 - s * (1 - r)) * ln u) in E by ring.
  rewrite S in E. replace ((1 - 1) * ln u) with 0 in E by ring.
  rewrite exp_0, exp_ln in E by auto. unfold Rpower.
  assert (1 - r <= (1 - r) * (s * exp (r * ln u) + (1 - s) * u)) by nra.
  replace ((1 - r) * (s * exp (r * ln u) + (1 - s) * u)) with
    (s * (1 - r) * exp (r * ln u) + ((1 - r) - s * (1 - r)) * u) in H0 by ring.
  rewrite S in H0. lra.
Qed.

Section Pmean.
Variable l : list (R * R).
Hypothesis W : forall x w, In (x, w) l -> 0 <= w.
Hypothesis T : 0 < tot l.
Hypothesis P : forall x w, In (x, w) l -> 0 < x.
Definition pm p := power_mean p l.

Lemma pm_pos p : 0 < pm p.
Proof. unfold pm, power_mean. destruct (Req_EM_T p 0); [apply exp_pos|apply Rpower_pos]. Qed.

(** Characterisation: with y = x / pm p, the mean of y^p is 1 (of ln y is 0 for p=0). *)
Lemma pm_norm p : p <> 0 -> avg (fun x => Rpower (x / pm p) p) l = 1.
Proof.
  intros N. pose proof (pm_pos p) as M.
  assert (A : 0 < avg (fun x => Rpower x p) l) by (apply avg_pos; auto; intros; apply Rpower_pos).
  assert (E : Rpower (pm p) p = avg (fun x => Rpower x p) l).
  { unfold pm, power_mean. destruct (Req_EM_T p 0); [congruence|]. apply Rpower_inv'; auto. }
  rewrite (avg_ext l _ (fun x => / avg (fun x => Rpower x p) l * Rpower x p + 0)).
  - rewrite avg_lin by auto. field. lra.
  - intros x w I. pose proof (P x w I). rewrite <- E.
    unfold Rpower. rewrite ln_div by auto.
    rewrite <- exp_Ropp, <- exp_plus, Rplus_0_r. f_equal. ring.
Qed.
Lemma pm_norm0 : avg (fun x => ln (x / pm 0)) l = 0.
Proof.
  pose proof (pm_pos 0) as M.
  rewrite (avg_ext l _ (fun x => 1 * ln x + - ln (pm 0))).
  - rewrite avg_lin by auto. unfold pm, power_mean. destruct (Req_EM_T 0 0); [|congruence]. rewrite ln_exp. ring.
  - intros x w I. rewrite ln_div by eauto. ring.
Qed.

(** pm q compared with a number m via the mean of (x/m)^q. *)
Lemma scale_pm m q : 0 < m -> q <> 0 -> pm q = m * Rpower (avg (fun x => Rpower (x / m) q) l) (1 / q).
Proof.
  intros M N.
  assert (A : 0 < avg (fun x => Rpower x q) l) by (apply avg_pos; auto; intros; apply Rpower_pos).
  rewrite (avg_ext l (fun x => Rpower (x / m) q) (fun x => / Rpower m q * Rpower x q + 0)).
  - rewrite avg_lin by auto. rewrite Rplus_0_r. unfold pm, power_mean. destruct (Req_EM_T q 0); [congruence|].
    rewrite <- Rpower_mult_distr; auto; [|apply Rinv_0_lt_compat, Rpower_pos].
    rewrite <- Rpower_Ropp, Rpower_mult. replace (- q * (1 / q)) with (- (1)) by (field; auto).
    rewrite Rpower_Ropp, Rpower_1 by auto. field. lra.
  - intros x w I. pose proof (P x w I). unfold Rpower. rewrite ln_div by auto.
    rewrite <- exp_Ropp, <- exp_plus, Rplus_0_r. f_equal. ring.
Qed.
Lemma pm_ge m q : 0 < m -> (0 < q -> 1 <= avg (fun x => Rpower (x / m) q) l) ->
  (q < 0 -> avg (fun x => Rpower (x / m) q) l <= 1) -> q <> 0 -> m <= pm q.
Proof.
  intros M H1 H2 N. rewrite (scale_pm m q M N). set (a := avg _ l) in *.
  assert (A : 0 < a) by (apply avg_pos; auto; intros; apply Rpower_pos).
  assert (1 <= Rpower a (1 / q)); [|nra].
  unfold Rpower. apply exp_ge_1.
  destruct (Rlt_dec 0 q) as [Q|Q].
  - specialize (H1 Q). assert (0 <= ln a) by (destruct H1 as [H1|<-]; [left; apply ln_pos; auto|rewrite ln_1; lra]).
    assert (0 < 1 / q) by (apply Rdiv_pos; lra). nra.
  - assert (Q' : q < 0) by lra. specialize (H2 Q'). assert (ln a <= 0) by (rewrite <- ln_1; apply ln_le_compat; auto).
    assert (1 / q < 0) by (unfold Rdiv; rewrite Rmult_1_l; apply Rinv_lt_0_compat; auto). nra.
Qed.

Lemma ratio_pos p x w : In (x, w) l -> 0 < x / pm p.
Proof. intros I. apply Rdiv_pos; eauto. apply pm_pos. Qed.

Lemma pm_mono p q : p <= q -> pm p <= pm q.
Proof.
  intros [H| ->]; [|lra].
  pose proof (pm_pos p) as M.
  destruct (Req_EM_T p 0) as [->|Np].
  - (* p = 0 *) apply pm_ge; auto; try lra.
    intros _. rewrite <- (avg_const l T 1) at 1.
    apply Rle_trans with (avg (fun x => q * ln (x / pm 0) + 1) l).
    + rewrite avg_lin by auto. rewrite pm_norm0, avg_const by auto. lra.
    + apply avg_le; auto. intros x w I. unfold Rpower. pose proof (exp_ineq (q * ln (x / pm 0))). lra.
  - destruct (Req_EM_T q 0) as [->|Nq].
    + (* q = 0, p < 0 *)
      assert (p < 0) by lra.
      assert (L : avg (fun x => p * ln (x / pm p) + 0) l <= 0).
      { apply Rle_trans with (avg (fun x => 1 * Rpower (x / pm p) p + -1) l).
        - apply avg_le; auto. intros x w I. unfold Rpower. pose proof (exp_ineq (p * ln (x / pm p))). lra.
        - rewrite avg_lin by auto. rewrite pm_norm by auto. lra. }
      rewrite avg_lin in L by auto.
      rewrite (avg_ext l _ (fun x => 1 * ln x + - ln (pm p))) in L
        by (intros x w I; rewrite ln_div by eauto; ring).
      rewrite avg_lin in L by auto.
      assert (ln (pm p) <= avg ln l) by nra.
      unfold pm at 2, power_mean. destruct (Req_EM_T 0 0); [|congruence].
      rewrite <- (exp_ln (pm p)) at 1 by auto. apply exp_le_compat. auto.
    + apply pm_ge; auto.
      * intros Q.
        apply Rle_trans with (avg (fun x => q / p * Rpower (x / pm p) p + (1 - q / p)) l).
        -- rewrite avg_lin by auto. rewrite pm_norm by auto. lra.
        -- apply avg_le; auto. intros x w I. pose proof (ratio_pos p x w I).
           replace (Rpower (x / pm p) q) with (Rpower (Rpower (x / pm p) p) (q / p))
             by (rewrite Rpower_mult; f_equal; field; auto).
           pose proof (Rpower_pos (x / pm p) p) as UP.
           destruct (Rlt_dec 0 p) as [Pp|Pp].
           ++ pose proof (bern_big _ (q / p) UP) as B.
              assert (1 <= q / p) by (apply Rmult_le_reg_r with p; auto; unfold Rdiv; rewrite Rmult_assoc, Rinv_l; lra).
              specialize (B H1). lra.
           ++ pose proof (bern_neg _ (q / p) UP) as B.
              assert (q / p <= 0) by (unfold Rdiv; assert (/ p < 0) by (apply Rinv_lt_0_compat; lra); nra).
              specialize (B H1). lra.
      * intros Q.
        apply Rle_trans with (avg (fun x => q / p * Rpower (x / pm p) p + (1 - q / p)) l).
        -- apply avg_le; auto. intros x w I.
           replace (Rpower (x / pm p) q) with (Rpower (Rpower (x / pm p) p) (q / p))
             by (rewrite Rpower_mult; f_equal; field; auto).
           pose proof (bern_mid _ (q / p) (Rpower_pos (x / pm p) p)) as B.
           assert (0 <= q / p <= 1).
           { assert (/ p < 0) by (apply Rinv_lt_0_compat; lra). unfold Rdiv. split; [nra|].
             apply Rmult_le_reg_r with (- p); [lra|]. replace (q * / p * - p) with (- q) by (field; auto). lra. }
           specialize (B H0). lra.
        -- rewrite avg_lin by auto. rewrite pm_norm by auto. lra.
Qed.

Lemma pm_bounds lo hi p : 0 < lo -> (forall x w, In (x, w) l -> lo <= x <= hi) -> lo <= pm p <= hi.
Proof.
  intros L B.
  assert (HI : 0 < hi).
  { destruct l as [|[x w] l']; [unfold tot in T; simpl in T; lra|].
    pose proof (B x w ltac:(simpl; auto)). lra. }
  assert (Bl : forall x w, In (x, w) l -> ln lo <= ln x <= ln hi).
  { intros x w I. pose proof (B x w I). split; apply ln_le_compat; lra. }
  unfold pm, power_mean. destruct (Req_EM_T p 0) as [->|N].
  - assert (ln lo <= avg ln l <= ln hi).
    { split; [rewrite <- (avg_const l T (ln lo))|rewrite <- (avg_const l T (ln hi))];
      apply avg_le; auto; intros x w I; apply (Bl x w I). }
    rewrite <- (exp_ln lo), <- (exp_ln hi) by auto. split; apply exp_le_compat; lra.
  - set (a := avg _ l). assert (A : 0 < a) by (apply avg_pos; auto; intros; apply Rpower_pos).
    rewrite <- (exp_ln lo), <- (exp_ln hi) by auto. unfold Rpower at 1 2.
    assert (K : ln lo <= 1 / p * ln a <= ln hi); [|split; apply exp_le_compat; lra].
    destruct (Rlt_dec 0 p) as [Q|Q].
    + assert (p * ln lo <= ln a <= p * ln hi).
      { rewrite <- (ln_exp (p * ln lo)), <- (ln_exp (p * ln hi)).
        split; apply ln_le_compat; auto; try apply exp_pos;
        [rewrite <- (avg_const l T (exp (p * ln lo)))|rewrite <- (avg_const l T (exp (p * ln hi)))];
        apply avg_le; auto; intros x w I; unfold Rpower; apply exp_le_compat;
        pose proof (Bl x w I); nra. }
      assert (0 < 1 / p) by (apply Rdiv_pos; lra).
      assert (A1 : 1 / p * (p * ln lo) <= 1 / p * ln a) by (apply Rmult_le_compat_l; lra).
      assert (A2 : 1 / p * ln a <= 1 / p * (p * ln hi)) by (apply Rmult_le_compat_l; lra).
      replace (1 / p * (p * ln lo)) with (ln lo) in A1 by (field; auto).
      replace (1 / p * (p * ln hi)) with (ln hi) in A2 by (field; auto). lra.
    + assert (p * ln hi <= ln a <= p * ln lo).
      { rewrite <- (ln_exp (p * ln lo)), <- (ln_exp (p * ln hi)).
        split; apply ln_le_compat; auto; try apply exp_pos;
        [rewrite <- (avg_const l T (exp (p * ln hi)))|rewrite <- (avg_const l T (exp (p * ln lo)))];
        apply avg_le; auto; intros x w I; unfold Rpower; apply exp_le_compat;
        pose proof (Bl x w I); nra. }
      assert (1 / p < 0) by (unfold Rdiv; rewrite Rmult_1_l; apply Rinv_lt_0_compat; lra).
      assert (A1 : 1 / p * (p * ln lo) <= 1 / p * ln a) by (apply Rmult_le_compat_neg_l; lra).
      assert (A2 : 1 / p * ln a <= 1 / p * (p * ln hi)) by (apply Rmult_le_compat_neg_l; lra).
      replace (1 / p * (p * ln lo)) with (ln lo) in A1 by (field; auto).
      replace (1 / p * (p * ln hi)) with (ln hi) in A2 by (field; auto). lra.
Qed.
End Pmean.
