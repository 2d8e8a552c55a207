(** Kummer's transformation for 1F1, and Poisson mixtures of gamma laws. *)
From Coq Require Import Reals Lra Lia.
From Coquelicot Require Import Coquelicot.
From Verif Require Import Values VTac Spec RLib LimLib DistLib IntLib SFun SFun4 MomLib.
From Verif Require Import DistLS GammaLib GammaLib2 GamLib GamMix.
Local Open Scope R_scope.
Set Bullet Behavior "Strict Subproofs".

Ltac rr := match goal with |- ?u = ?v => change (@eq R u v) end.
Lemma rising_pos b n : 0 < b -> 0 < rising b n.
Proof. intros B. induction n as [|n IH]; simpl; [lra|]. pose proof (pos_INR n). apply Rmult_lt_0_compat; lra. Qed.
Lemma rising_Gamma b n : 0 < b -> rising b n = Gamma (b + INR n) / Gamma b.
Proof.
  intros B. pose proof (Gamma_pos b B). induction n as [|n IH].
  - simpl. rewrite Rplus_0_r. field. lra.
  - simpl rising. rewrite IH, S_INR. replace (b + (INR n + 1)) with (b + INR n + 1) by ring. pose proof (pos_INR n). rewrite Gamma_succ by lra. field. lra.
Qed.
Lemma fact_pos n : 0 < INR (fact n). Proof. apply lt_0_INR, lt_O_fact. Qed.
Lemma entire_of_ex a : (forall x, ex_pseries a x) -> entire a.
Proof.
  intros E r. apply CV_disk_inside. destruct (Rbar_lt_le_dec (Rabs r) (CV_radius a)) as [L|L]; auto. exfalso.
  apply (CV_disk_outside a (Rabs r + 1)).
  - apply (Rbar_le_lt_trans _ (Rabs r)); auto. simpl. rewrite (Rabs_right (Rabs r + 1)); pose proof (Rabs_pos r); lra.
  - apply (ex_series_lim_0 (fun n => a n * (Rabs r + 1) ^ n)). apply (ex_pseries_R a). apply E.
Qed.
Lemma entire_exp K : entire (fun n => K ^ n / INR (fact n)).
Proof.
  apply entire_of_ex. intros x. exists (exp (K * x)). apply is_pseries_R. apply (is_series_ext (fun n => / INR (fact n) * (K * x) ^ n)).
  - intros n. rewrite Rpow_mult_distr. rr. unfold Rdiv. ring.
  - apply (is_pseries_R (fun n => / INR (fact n))). apply is_exp_Reals.
Qed.
Lemma exp_ser K x : PSeries (fun n => K ^ n / INR (fact n)) x = exp (K * x).
Proof.
  apply is_pseries_unique. apply is_pseries_R. apply (is_series_ext (fun n => / INR (fact n) * (K * x) ^ n)).
  - intros n. rewrite Rpow_mult_distr. rr. unfold Rdiv. ring.
  - apply (is_pseries_R (fun n => / INR (fact n))). apply is_exp_Reals.
Qed.
Section K.
Variables a b : R.
Hypothesis B : 0 < b.
Definition hc (n : nat) := rising a n / (rising b n * INR (fact n)).
Lemma hc_0 : hc 0 = 1. Proof. unfold hc. simpl. field. Qed.
Lemma hc_S n : INR (S n) * (b + INR n) * hc (S n) = (a + INR n) * hc n.
Proof.
  unfold hc. rewrite fact_simpl, mult_INR. simpl rising. pose proof (rising_pos b n B). pose proof (fact_pos n). pose proof (pos_INR n). pose proof (lt_0_INR (S n) ltac:(lia)). field. lra.
Qed.
Lemma hc_le n : Rabs (hc n) <= Rabs ((1 + Rabs a / b) ^ n / INR (fact n)).
Proof.
  set (K := 1 + Rabs a / b). assert (K1 : 1 <= K) by (unfold K; pose proof (Rabs_pos a); assert (0 <= Rabs a / b) by (apply Rmult_le_pos; [auto|left; apply Rinv_0_lt_compat; auto]); lra).
  assert (P : forall n, 0 <= K ^ n / INR (fact n)) by (intros m; apply Rmult_le_pos; [apply pow_le; lra|left; apply Rinv_0_lt_compat, fact_pos]).
  rewrite (Rabs_right (K ^ n / _)) by (apply Rle_ge; auto).
  induction n as [|n IH]; [rewrite hc_0, Rabs_R1; simpl; lra|].
  pose proof (hc_S n) as E. pose proof (pos_INR n) as N. pose proof (lt_0_INR (S n) ltac:(lia)) as SN. assert (BN : 0 < b + INR n) by lra.
  replace (hc (S n)) with ((a + INR n) / (b + INR n) / INR (S n) * hc n) by (apply (Rmult_eq_reg_l (INR (S n) * (b + INR n))); [rewrite E; field; lra|apply Rgt_not_eq, Rmult_lt_0_compat; auto]).
  rewrite fact_simpl, mult_INR. simpl (K ^ S n). pose proof (fact_pos n). replace (K * K ^ n / (INR (S n) * INR (fact n))) with (K / INR (S n) * (K ^ n / INR (fact n))) by (field; lra).
  rewrite Rabs_mult. apply Rmult_le_compat; auto using Rabs_pos. unfold Rdiv. rewrite !Rabs_mult, !Rabs_inv, (Rabs_right (INR (S n))), (Rabs_right (b + INR n)) by lra. apply Rmult_le_compat_r; [left; apply Rinv_0_lt_compat; auto|].
  apply (Rle_div_l (Rabs (a + INR n)) K (b + INR n)); auto. unfold K. pose proof (Rabs_triang a (INR n)) as T. rewrite (Rabs_right (INR n)) in T by lra. pose proof (Rabs_pos a). replace ((1 + Rabs a / b) * (b + INR n)) with (b + INR n + Rabs a + Rabs a / b * INR n) by (field; lra).
  assert (0 <= Rabs a / b * INR n) by (apply Rmult_le_pos; [apply Rmult_le_pos; [auto|left; apply Rinv_0_lt_compat; auto]|auto]). lra.
Qed.
Lemma hc_entire : entire hc.
Proof. apply (entire_le (fun n => (1 + Rabs a / b) ^ n / INR (fact n)) _ 1); [|apply entire_exp]. intros n. rewrite Rmult_1_l. apply hc_le. Qed.
End K.
Lemma hyp1f1_eq a b x : hyp1f1 a b x = PSeries (hc a b) x. Proof. reflexivity. Qed.
Lemma ode_ps (h : nat -> R) (al be ga : R) : entire h -> exists e, entire e /\
  (forall n, e n = (INR n + be) * INR (S n) * h (S n) + (ga * INR n + al) * h n) /\
  forall x, x * PSeries (PS_derive (PS_derive h)) x + (be + ga * x) * PSeries (PS_derive h) x + al * PSeries h x = PSeries e x.
Proof.
  intros E. pose proof (entire_PSd h E) as E1. pose proof (entire_PSd _ E1) as E2.
  exists (PS_plus (PS_incr_1 (PS_derive (PS_derive h))) (PS_plus (PS_scal be (PS_derive h)) (PS_plus (PS_scal ga (PS_incr_1 (PS_derive h))) (PS_scal al h)))).
  split; [auto 10 using entire_plus, entire_scal, entire_incr|]. split.
  - intros [|n]; unfold PS_plus, PS_scal, PS_incr_1, plus, scal; simpl; unfold mult; simpl; change (@zero R_AbelianGroup) with 0; unfold PS_derive.
    + simpl. repeat match goal with |- context [@zero ?T] => change (@zero T) with 0 end. ring.
    + change (match n with 0%nat => 1 | S _ => INR n + 1 end) with (INR (S n)). rewrite !S_INR. ring.
  - intros x. rewrite !PSeries_plus, !PSeries_scal, !PSeries_incr_1; [ring|..]; apply entire_ex; auto 10 using entire_plus, entire_scal, entire_incr.
Qed.
Lemma zero_coefs e : entire e -> (forall x, PSeries e x = 0) -> forall n, e n = 0.
Proof.
  intros E Z n. apply (PSeries_ext_recip e (fun _ => 0) n).
  - rewrite entire_radius; simpl; auto.
  - rewrite CV_radius_const_0. simpl. auto.
  - apply filter_forall. intros x. rewrite PSeries_const_0. apply Z.
Qed.
Theorem kummer a b x : 0 < b -> exp (- x) * hyp1f1 a b x = hyp1f1 (b - a) b (- x).
Proof.
  intros B. rewrite !hyp1f1_eq. set (h := hc a b). pose proof (hc_entire a b B) as E. fold h in E.
  set (U := PS_mult (fun n => (-1) ^ n / INR (fact n)) h).
  assert (RI : forall y f, entire f -> Rbar_lt (Rabs y) (CV_radius f)) by (intros y f F; rewrite entire_radius; simpl; auto).
  assert (EU : entire U) by (apply entire_of_ex; intros y; apply ex_pseries_mult; apply RI; [apply entire_exp|auto]).
  assert (U0 : forall y, PSeries U y = exp (- y) * PSeries h y).
  { intros y. unfold U. rewrite PSeries_mult by (apply RI; auto; apply entire_exp). rewrite exp_ser. f_equal. f_equal. ring. }
  pose proof (entire_PSd h E) as E1. pose proof (entire_PSd _ E1) as E2. pose proof (entire_PSd U EU) as EU1.
  assert (U1 : forall y, PSeries (PS_derive U) y = exp (- y) * (PSeries (PS_derive h) y - PSeries h y)).
  { intros y. pose proof (is_derive_unique _ _ _ (entire_der U y EU)) as D1. rewrite <- D1. rewrite (Derive_ext _ (fun y => exp (- y) * PSeries h y)) by auto. apply is_derive_unique.
    evar_last; [apply (is_derive_mult (fun y => exp (- y)) (PSeries h) y (- exp (- y))); [auto_derive; auto; ring|apply entire_der; auto|intros; apply Rmult_comm]|]. unfold plus, mult. simpl. ring. }
  assert (U2 : forall y, PSeries (PS_derive (PS_derive U)) y = exp (- y) * (PSeries (PS_derive (PS_derive h)) y - 2 * PSeries (PS_derive h) y + PSeries h y)).
  { intros y. pose proof (is_derive_unique _ _ _ (entire_der (PS_derive U) y EU1)) as D1. rewrite <- D1. rewrite (Derive_ext _ (fun y => exp (- y) * (PSeries (PS_derive h) y - PSeries h y))) by auto. apply is_derive_unique.
    evar_last; [apply (is_derive_mult (fun y => exp (- y)) (fun y => PSeries (PS_derive h) y - PSeries h y) y (- exp (- y))); [auto_derive; auto; ring| |intros; apply Rmult_comm]|].
    - apply (is_derive_minus (PSeries (PS_derive h)) (PSeries h)); apply entire_der; auto.
    - unfold plus, mult, minus, plus, opp. simpl. ring. }
  destruct (ode_ps h (- a) b (-1) E) as (e & EE & EC & EX).
  assert (HZ : forall n, e n = 0).
  { intros n. rewrite EC. pose proof (hc_S a b B n) as K. fold h in K. replace ((INR n + b) * INR (S n) * h (S n)) with (INR (S n) * (b + INR n) * h (S n)) by ring. rewrite K. ring. }
  destruct (ode_ps U (b - a) b 1 EU) as (e' & EE' & EC' & EX').
  assert (UZ : forall n, e' n = 0).
  { apply zero_coefs; auto. intros y. rewrite <- EX', U0, U1, U2. specialize (EX y). rewrite (PSeries_ext e (fun _ => 0) y HZ), PSeries_const_0 in EX.
    rewrite <- (Rmult_0_r (exp (- y))), <- EX. ring. }
  rewrite <- U0.
  assert (UC : forall n, U n = (-1) ^ n * hc (b - a) b n).
  { induction n as [|n IH].
    - unfold U, PS_mult. simpl. unfold h. rewrite !hc_0. field.
    - specialize (UZ n). rewrite EC' in UZ. pose proof (hc_S (b - a) b B n) as K. pose proof (pos_INR n) as N. pose proof (lt_0_INR (S n) ltac:(lia)) as SN.
      apply (Rmult_eq_reg_l (INR (S n) * (b + INR n))); [|apply Rgt_not_eq, Rmult_lt_0_compat; lra]. replace (INR (S n) * (b + INR n) * ((-1) ^ S n * hc (b - a) b (S n))) with (- (-1) ^ n * (INR (S n) * (b + INR n) * hc (b - a) b (S n))) by (simpl ((-1) ^ S n); ring). rewrite K.
      replace (INR (S n) * (b + INR n) * U (S n)) with (- ((1 * INR n + (b - a)) * U n)) by lra. rewrite IH. ring. }
  apply Series_ext. intros n. rewrite UC. replace ((- x) ^ n) with ((-1) ^ n * x ^ n); [ring|]. rewrite <- Rpow_mult_distr. f_equal. ring.
Qed.

(** ** Poisson mixtures *)
Definition pois (mu : R) (n : nat) := exp (- mu) * (mu ^ n / INR (fact n)).
Lemma pois_pos mu n : 0 <= mu -> 0 <= pois mu n.
Proof. intros M. apply Rmult_le_pos; [left; apply exp_pos|]. apply Rmult_le_pos; [apply pow_le; auto|left; apply Rinv_0_lt_compat, fact_pos]. Qed.
Lemma pois_0 mu : 0 < pois mu 0. Proof. unfold pois. simpl. unfold Rdiv. rewrite Rinv_1, !Rmult_1_r. apply exp_pos. Qed.
Lemma pois_sum mu : is_series (pois mu) 1.
Proof.
  replace 1 with (exp (- mu) * exp mu) by (rewrite <- exp_plus, Rplus_opp_l; apply exp_0). apply (is_series_scal_l (exp (- mu)) (fun n => mu ^ n / INR (fact n))).
  apply (is_series_ext (fun n => / INR (fact n) * mu ^ n)); [intros; rr; unfold Rdiv; ring|]. apply (is_pseries_R (fun n => / INR (fact n))). apply is_exp_Reals.
Qed.
Lemma pois_moment mu c r : 0 < c -> 0 < c + r ->
  is_series (fun n => pois mu n * (Gamma (c + r + INR n) / Gamma (c + INR n))) (Gamma (c + r) / Gamma c * hyp1f1 (- r) c (- mu)).
Proof.
  intros C R. replace (- r) with (c - (c + r)) by ring. rewrite <- (kummer (c + r) c mu) by auto. rewrite hyp1f1_eq.
  pose proof (Gamma_pos c C). pose proof (Gamma_pos (c + r) R).
  apply (is_series_ext (fun n => (Gamma (c + r) / Gamma c * exp (- mu)) * (hc (c + r) c n * mu ^ n))).
  - intros n. unfold pois, hc. rewrite !rising_Gamma by auto. pose proof (pos_INR n). pose proof (Gamma_pos (c + INR n) ltac:(lra)). pose proof (fact_pos n). rr. field. lra.
  - rewrite <- Rmult_assoc. apply (is_series_scal_l (Gamma (c + r) / Gamma c * exp (- mu)) (fun n => hc (c + r) c n * mu ^ n)). apply (is_pseries_R (hc (c + r) c)). apply PSeries_correct. apply entire_ex, hc_entire; auto.
Qed.
(** the gamma mixture with Poisson weights *)
Definition pm (c mu : R) := fmix c (pois mu).
Definition pmF (c mu : R) := H c (pois mu) 1.
Lemma pm_if c mu : 0 < c -> 0 <= mu -> integral_fn 0 p_infty (pm c mu) (pmF c mu) 1.
Proof. intros C M. apply mix_if; auto using pois_pos, pois_0, pois_sum. Qed.
Lemma pm_moment c mu r : 0 < c -> 0 <= mu -> 0 < c + r ->
  integrates_to (fun t => Rpower t r * pm c mu t) 0 p_infty (Gamma (c + r) / Gamma c * hyp1f1 (- r) c (- mu)).
Proof. intros C M R. apply mix_moment; auto using pois_pos, pois_0, pois_moment. Qed.
Lemma pm_eq c mu t : 0 < c -> pm c mu t = gamma_kernel c t * exp (- mu) * Series (fun k => (mu * t) ^ k / (INR (fact k) * Gamma (c + INR k))).
Proof.
  intros C. unfold pm, fmix. rewrite Rmult_assoc. f_equal. unfold PSeries. rewrite <- Series_scal_l. apply Series_ext. intros n. unfold mk, pois, gi. rewrite Rpow_mult_distr.
  pose proof (pos_INR n). pose proof (Gamma_pos (c + INR n) ltac:(lra)). pose proof (fact_pos n). field. lra.
Qed.
Lemma hyp1f1_m1 c x : 0 < c -> hyp1f1 (- 1) c (- x) = 1 + x / c.
Proof.
  intros C. rewrite hyp1f1_eq. assert (E : entire (hc (- 1) c)) by (apply hc_entire; auto). rewrite PSeries_decr_1 by (apply entire_ex; auto). rewrite hc_0.
  assert (S1 : hc (- 1) c 1 = - / c) by (unfold hc; simpl; field; lra).
  rewrite (PS_const (PS_decr_1 (hc (- 1) c)) (- / c)).
  - field. lra.
  - intros n. unfold PS_decr_1. unfold hc. assert (Z : rising (- 1) (S (S n)) = 0).
    { induction n as [|n IH]; [simpl; ring|]. change (rising (-1) (S (S (S n)))) with (rising (-1) (S (S n)) * (- 1 + INR (S (S n)))). rewrite IH. ring. }
    rewrite Z. unfold Rdiv. ring.
  - exact S1.
Qed.
Lemma hyp1f1_m2 c x : 0 < c -> hyp1f1 (- 2) c (- x) = 1 + 2 * x / c + x ^ 2 / (c * (c + 1)).
Proof.
  intros C. rewrite hyp1f1_eq. assert (E : entire (hc (- 2) c)) by (apply hc_entire; auto). rewrite PSeries_decr_1 by (apply entire_ex; auto). rewrite hc_0.
  assert (S1 : hc (- 2) c 1 = - 2 / c) by (unfold hc; simpl; field; lra). assert (S2 : hc (- 2) c 2 = / (c * (c + 1))) by (unfold hc; simpl; field; lra).
  rewrite PSeries_decr_1.
  - rewrite (PS_const (PS_decr_1 (PS_decr_1 (hc (- 2) c))) (/ (c * (c + 1)))).
    + unfold PS_decr_1. rewrite S1. field. lra.
    + intros n. unfold PS_decr_1. unfold hc. assert (Z : rising (- 2) (S (S (S n))) = 0).
      { induction n as [|n IH]; [simpl; ring|]. change (rising (-2) (S (S (S (S n))))) with (rising (-2) (S (S (S n))) * (- 2 + INR (S (S (S n))))). rewrite IH. ring. }
      rewrite Z. unfold Rdiv. ring.
    + exact S2.
  - apply ex_pseries_decr_1; [destruct (Req_dec (- x) 0) as [Z|Z]; [left; auto|right; exists (/ (- x)); apply Rinv_l; auto]|]. apply entire_ex; auto.
Qed.
