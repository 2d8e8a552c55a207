(** Proofs about M_laplace. *)
From Coq Require Import Reals Lra List Classical.
From Coquelicot Require Import Coquelicot.
From Verif Require Import Values VTac Spec RLib LimLib DistLib DistLS MomLib PLib M_common SpecStat SpecEst LLib P_basic P_basic2 P_est P_seq.
From Verif Require Import M_laplace.
Import ListNotations.
Local Open Scope R_scope.
Set Bullet Behavior "Strict Subproofs".

Definition F (z : R) := if Rle_dec z 0 then exp z / 2 else 1 - exp (- z) / 2.
Definition f (z : R) := exp (- Rabs z) / 2.
Definition Q (p : R) := if Rle_dec p (1/2) then ln (2 * p) else - ln (2 - 2 * p).

Lemma F_le z : z <= 0 -> F z = exp z / 2. Proof. intros; unfold F; destruct (Rle_dec z 0); lra. Qed.
Lemma F_ge z : 0 <= z -> F z = 1 - exp (- z) / 2.
Proof. intros; unfold F; destruct (Rle_dec z 0); [replace z with 0 by lra; rewrite Ropp_0, exp_0; lra|lra]. Qed.
Lemma ST : std m_infty p_infty F f Q.
Proof.
  constructor.
  - constructor; simpl; auto.
    + intros z _. destruct (Rle_dec z 0) as [H|H].
      * rewrite F_le by auto. pose proof (exp_pos z). pose proof (exp_le_1 z H). lra.
      * rewrite F_ge by lra. pose proof (exp_pos (- z)). pose proof (exp_le_1 (- z) ltac:(lra)). lra.
    + intros z _. unfold F, f. destruct (Rtotal_order z 0) as [H|[->|H]].
      * apply (glue_derive_l (fun z => exp z / 2) (fun z => 1 - exp (- z) / 2)); auto.
        rewrite Rabs_left by auto. auto_derive; auto. rewrite Ropp_involutive. lra.
      * rewrite Rabs_R0, Ropp_0.
        apply (glue_derive (fun z => exp z / 2) (fun z => 1 - exp (- z) / 2)).
        -- rewrite Ropp_0, exp_0. lra.
        -- auto_derive; auto. lra.
        -- auto_derive; auto. rewrite Ropp_0. lra.
      * apply (glue_derive_r (fun z => exp z / 2) (fun z => 1 - exp (- z) / 2)); auto.
        rewrite Rabs_pos_eq by lra. auto_derive; auto. lra.
    + intros z _. unfold f. apply Rdiv_pos; [apply exp_pos|lra].
  - intros z _. unfold f. unfold Rdiv. apply (continuous_mult (fun z => exp (- Rabs z)) (fun _ => / 2)); [|apply continuous_const].
    apply (continuous_comp (fun z => - Rabs z) exp).
    + apply (continuous_opp (V := R_NormedModule)). apply continuous_Rabs.
    + apply ex_derive_cont. auto_derive. auto.
  - intros p H. split; [split; simpl; auto|]. unfold Q. destruct (Rle_dec p (1/2)).
    + rewrite F_le.
      * rewrite exp_ln by lra. lra.
      * rewrite <- ln_1. apply ln_le_compat; lra.
    + rewrite F_ge.
      * rewrite Ropp_involutive, exp_ln by lra. lra.
      * assert (ln (2 - 2 * p) < 0) by (apply ln_neg; lra). lra.
Qed.

Ltac start := unfold pdf, logpdf, cdf, sf, invcdf, invsf, support, mean, mode, var, interval_prob, validate_loc_scale.

Section P.
Variables l s : R.
Hypothesis S : 0 < s.
Lemma zle x : x <= l -> (x - l) / s <= 0.
Proof. intros. apply div_np; lra. Qed.
Lemma zgt x : l < x -> 0 < (x - l) / s.
Proof. intros. apply Rdiv_pos; lra. Qed.
Lemma cdf_fin (x : R) : cdf x l s = Fin (F ((x - l) / s)) /\ sf x l s = Fin (1 - F ((x - l) / s)).
Proof.
  start. destruct (Rle_lt_dec x l) as [H|H]; veval.
  - rewrite F_le by (apply zle; auto). auto.
  - pose proof (zgt x H). rewrite F_ge by lra. split; f_equal; lra.
Qed.
Lemma abs_div x : - Rabs (x - l) / s = - Rabs ((x - l) / s).
Proof. unfold Rdiv. rewrite Rabs_mult, (Rabs_pos_eq (/ s)); [ring|]. left. apply Rinv_0_lt_compat; auto. Qed.
Lemma pdf_fin (x : R) : pdf x l s = Fin (f ((x - l) / s) / s) /\ logpdf x l s = Fin (ln (f ((x - l) / s) / s)).
Proof.
  assert (E : ln (f ((x - l) / s) / s) = - Rabs (x - l) / s - ln (2 * s)).
  { unfold f. rewrite !ln_div, ln_exp, abs_div, ln_mult; try lra; try apply exp_pos.
    apply Rdiv_pos; [apply exp_pos|lra]. }
  rewrite E. start. veval. split; auto. f_equal. unfold f. rewrite abs_div. field. lra.
Qed.
Lemma CERT : cert (fun x => pdf x l s) (fun x => logpdf x l s) (fun x => cdf x l s) (fun x => sf x l s)
  (fun p => invcdf p l s) (fun p => invsf p l s) m_infty p_infty (fun x => F ((x - l) / s))
  (fun x => f ((x - l) / s) / s) (fun p => l + s * Q p).
Proof.
  apply (ls_cert m_infty p_infty F f Q ST l s S); auto.
  - constructor.
    + intros x _. apply cdf_fin.
    + intros x [].
    + intros x [].
    + start. veval. split; f_equal; lra.
    + start. veval. split; f_equal; lra.
  - intros x _. apply pdf_fin.
  - intros x [[]|[]].
  - intros p H. unfold Q. start. split.
    + destruct (Rle_dec p (1/2)); veval; [reflexivity|]. f_equal. ring.
    + destruct (Rle_dec (1 - p) (1/2)).
      * veval. f_equal. f_equal. f_equal. f_equal. lra.
      * veval. f_equal. replace (2 - 2 * (1 - p)) with (2 * p) by ring. ring.
Qed.
Lemma mode_ok : is_mode (fun x => pdf x l s) (mode l s).
Proof.
  exists l, (f 0 / s). split; [start; veval; auto|]. split.
  - rewrite (proj1 (pdf_fin l)). replace ((l - l) / s) with 0 by (field; lra). auto.
  - intros x. eexists; split; [apply pdf_fin|]. apply Rmult_le_compat_r.
    + left. apply Rinv_0_lt_compat; auto.
    + unfold f. rewrite Rabs_R0. pose proof (Rabs_pos ((x - l) / s)).
      pose proof (exp_le_compat (- Rabs ((x - l) / s)) (- 0) ltac:(lra)). lra.
Qed.
Lemma interval (x1 x2 : R) : x1 <= x2 -> exists c1 c2, cdf x1 l s = Fin c1 /\ cdf x2 l s = Fin c2 /\
  interval_prob x1 x2 l s = Fin (c2 - c1).
Proof.
  intros H. exists (F ((x1 - l) / s)), (F ((x2 - l) / s)).
  split; [apply cdf_fin|]. split; [apply cdf_fin|].
  destruct H as [H| ->]; [|start; veval; f_equal; ring].
  set (z1 := (x1 - l) / s). set (z2 := (x2 - l) / s).
  start. veval. fold z1 z2.
  destruct (Rle_lt_dec z2 0) as [H2|H2].
  - assert (z1 < z2). { apply Rmult_lt_compat_r; [apply Rinv_0_lt_compat; auto|lra]. }
    veval. f_equal. rewrite !F_le by lra.
    replace (exp z1) with (exp z2 * exp (- (z2 - z1))) by (rewrite <- exp_plus; f_equal; ring). field.
  - destruct (Rle_lt_dec 0 z1) as [H1|H1].
    + veval. f_equal. rewrite !F_ge by lra.
      replace (exp (- z2)) with (exp (- z1) * exp (- (z2 - z1))) by (rewrite <- exp_plus; f_equal; ring). field.
    + veval. f_equal. rewrite (F_le z1), (F_ge z2) by lra. lra.
Qed.
Lemma interval_bad (x1 x2 : R) : x2 < x1 -> interval_prob x1 x2 l s = Exc ValueError.
Proof. intros H. start. veval. reflexivity. Qed.
Lemma ends_ok : at_ends (fun p => invcdf p l s) NInf PInf /\ at_ends (fun p => invsf p l s) PInf NInf.
Proof.
  unfold at_ends. start. replace (Fin 1) with (Fin 1) by auto. veval. auto.
Qed.
(** p outside [0,1] is not rejected: the logarithm of a negative number is not real. *)
Lemma bad_p (p : R) : p < 0 \/ 1 < p -> invcdf p l s = Exc NonReal /\ invsf p l s = Exc NonReal.
Proof. intros [H|H]; start; veval; auto. Qed.
End P.

Lemma loc_scale : loc_scale_law pdf cdf sf invcdf invsf m_infty p_infty.
Proof. apply (loc_scale_from_cert pdf logpdf cdf sf invcdf invsf m_infty p_infty F f Q). exact CERT. Qed.

Lemma bad_params l s : nonpositive s ->
  support l s = Err ValueError /\
  always_ValueError [ fun x => pdf x l s; fun x => logpdf x l s; fun x => cdf x l s; fun x => sf x l s;
    fun p => invcdf p l s; fun p => invsf p l s; fun x => interval_prob x x l s;
    fun _ => mean l s; fun _ => mode l s; fun _ => var l s ].
Proof.
  intros H. unfold support, pdf, logpdf, cdf, sf, invcdf, invsf, interval_prob, mean, mode, var.
  split; [|all_ve; intros x Hx]; rewrite vls_bad by auto; reflexivity.
Qed.

(** Estimators. *)
Definition absdev (xs : list R) (c : R) := sum (map (fun x => Rabs (x - c)) xs).
Lemma loglik_eq xs (l s : R) : 0 < s -> loglik (fun x => logpdf x l s) xs =
  Fin (- (INR (length xs) * ln (2 * s) + absdev xs l / s)).
Proof.
  intros S. rewrite (loglik_fin _ (fun x => (- / s) * Rabs (x - l) + - ln (2 * s))).
  - rewrite rsum_plus, rsum_scal, rsum_const. unfold absdev. f_equal. unfold sum, Rdiv, rsum. ring.
  - intros x _. start. veval. f_equal. field. lra.
Qed.
Lemma absdev_pos xs c : (exists x, In x xs /\ x <> c) -> 0 < absdev xs c.
Proof.
  intros [x [I N]]. destruct (rsum_nonneg (fun x => Rabs (x - c)) xs) as [H|E]; auto.
  - intros; apply Rabs_pos.
  - exfalso. symmetry in E. pose proof (rsum_nonneg_0 _ _ (fun y _ => Rabs_pos (y - c)) E x I) as Z. simpl in Z.
    destruct (Req_dec (x - c) 0); [lra|]. apply Rabs_no_R0 in H. auto.
Qed.
Lemma nll_opt n a b s : 0 < n -> 0 < a -> a <= b -> 0 < s ->
  n * ln (2 * (a / n)) + a / (a / n) <= n * ln (2 * s) + b / s.
Proof.
  intros N A B S. pose proof (scale_opt n a s N A S) as H. assert (0 < a / n) by (apply Rdiv_pos; auto).
  rewrite !ln_mult by lra. replace (a / (a / n)) with n by (field; lra).
  assert (a / s <= b / s). { apply Rmult_le_compat_r; auto. left. apply Rinv_0_lt_compat; auto. } nra.
Qed.
Lemma mean_dev xs c : xs <> [] -> M_basic.mean (map (fun t => vabs (t - Fin c)%V) (map Fin xs)) None = Fin (absdev xs c / INR (length xs)).
Proof. intros N. rewrite map_map. apply (mean_of _ (fun x => Rabs (x - c))); auto. Qed.
Lemma mle_both xs : ~ constant xs -> exists l s, mle xs None None = Ok (Fin l, Fin s) /\
  maximises (fun '(l, s) => 0 < s) (fun '(l, s) => loglik (fun x => logpdf x (Fin l) (Fin s)) xs) (l, s).
Proof.
  intros C. pose proof (const_nil xs C) as N. pose proof (length_pos xs N) as LN.
  destruct (median_min xs N) as [m [E Hm]].
  assert (AP : 0 < absdev xs m).
  { apply absdev_pos. destruct (list_eq_dec Req_EM_T xs (repeat m (length xs))) as [H|H].
    - exfalso. apply C. intros a b Ia Ib. rewrite H in Ia, Ib. apply repeat_spec in Ia, Ib. congruence.
    - apply NNPP. intros K. apply H. clear - K. induction xs as [|x xs IH]; auto. simpl. f_equal.
      + destruct (Req_dec x m); auto. exfalso. apply K. exists x. simpl. auto.
      + apply IH. intros [y [I J]]. apply K. exists y. simpl. auto. }
  exists m, (absdev xs m / INR (length xs)). split.
  - unfold mle. destruct xs as [|x xs]; [congruence|]. rewrite E. cbn [bindv]. rewrite mean_dev by auto. reflexivity.
  - assert (SP : 0 < absdev xs m / INR (length xs)) by (apply Rdiv_pos; auto).
    split; auto. eexists. split; [apply loglik_eq; auto|]. intros [l s] S. eexists. split; [apply loglik_eq; auto|].
    apply Ropp_le_contravar. apply nll_opt; auto. apply Hm.
Qed.
Lemma mle_loc xs (l : R) : (exists x, In x xs /\ x <> l) -> exists s, mle xs (Some (Fin l)) None = Ok (Fin l, Fin s) /\
  maximises (fun s => 0 < s) (fun s => loglik (fun x => logpdf x (Fin l) (Fin s)) xs) s.
Proof.
  intros H. pose proof (absdev_pos _ _ H) as AP.
  assert (N : xs <> []) by (destruct H as [x [I _]]; destruct xs; [destruct I|discriminate]).
  pose proof (length_pos xs N) as LN.
  exists (absdev xs l / INR (length xs)). split.
  - unfold mle. cbn [bindv]. rewrite mean_dev by auto. reflexivity.
  - assert (SP : 0 < absdev xs l / INR (length xs)) by (apply Rdiv_pos; auto).
    split; auto. eexists. split; [apply loglik_eq; auto|]. intros s S. eexists. split; [apply loglik_eq; auto|].
    apply Ropp_le_contravar. apply nll_opt; auto. lra.
Qed.
Lemma mle_scale xs (s : R) : xs <> [] -> 0 < s -> exists l, mle xs None (Some (Fin s)) = Ok (Fin l, Fin s) /\
  maximises (fun _ => True) (fun l => loglik (fun x => logpdf x (Fin l) (Fin s)) xs) l.
Proof.
  intros N S. destruct (median_min xs N) as [m [E Hm]]. exists m. split.
  - unfold mle. destruct xs as [|x xs]; [congruence|]. rewrite E. cbn [bindv]. veval. reflexivity.
  - split; auto. eexists. split; [apply loglik_eq; auto|]. intros l _. eexists. split; [apply loglik_eq; auto|].
    apply Ropp_le_contravar. apply Rplus_le_compat_l. apply Rmult_le_compat_r.
    + left. apply Rinv_0_lt_compat; auto.
    + apply Hm.
Qed.
Lemma mle_bad xs s : xs <> [] -> nonpositive s -> mle xs None (Some s) = Err ValueError.
Proof.
  intros N B. unfold mle. destruct (median_min xs N) as [m [E Hm]]. destruct xs as [|x xs]; [congruence|].
  rewrite E. cbn [bindv]. inversion B; subst; vif; reflexivity.
Qed.
Lemma mom_ok xs : ~ constant xs -> exists l s, mom (map Fin xs) = Ok (Fin l, Fin s) /\ 0 < s /\
  reproduces (mean (Fin l) (Fin s)) (var (Fin l) (Fin s)) xs.
Proof.
  intros C. pose proof (const_nil xs C) as N. pose proof (dev_pos xs C) as D.
  exists (average xs), (sqrt (sumsq_dev xs / INR (length xs) / 2)).
  assert (S : 0 < sqrt (sumsq_dev xs / INR (length xs) / 2)) by (apply sqrt_lt_R0; lra).
  split; [|split; auto].
  - unfold mom. rewrite mean_avg0, mean_sq by auto. cbn [bindv]. varith. rewrite avg_sq_diff. reflexivity.
  - split; start; veval; auto. f_equal. rewrite pow2_sqrt by lra. lra.
Qed.

(** Moments. *)
Definition A1 (z : R) := if Rle_dec z 0 then (z - 1) * exp z / 2 else - ((z + 1) * exp (- z)) / 2.
Definition A2 (z : R) := if Rle_dec z 0 then (z ^ 2 - 2 * z + 2) * exp z / 2 else 2 - (z ^ 2 + 2 * z + 2) * exp (- z) / 2.
Lemma f_cont z : continuous f z. Proof. apply (st_cont _ _ _ _ _ ST). split; simpl; auto. Qed.
Lemma m1_ok : integrates_to (fun z => z * f z) m_infty p_infty 0.
Proof.
  replace 0 with (0 - 0) by ring. apply (mk_integral _ A1); simpl; auto.
  - intros z _. unfold A1, f. destruct (Rtotal_order z 0) as [H|[->|H]].
    + apply (glue_derive_l (fun z => (z - 1) * exp z / 2) (fun z => - ((z + 1) * exp (- z)) / 2)); auto.
      rewrite Rabs_left by auto. auto_derive; auto. rewrite Ropp_involutive. field.
    + apply (glue_derive (fun z => (z - 1) * exp z / 2) (fun z => - ((z + 1) * exp (- z)) / 2)).
      * rewrite Ropp_0, exp_0. lra.
      * auto_derive; auto. rewrite Rabs_R0, Ropp_0. field.
      * auto_derive; auto. rewrite Rabs_R0, Ropp_0. field.
    + apply (glue_derive_r (fun z => (z - 1) * exp z / 2) (fun z => - ((z + 1) * exp (- z)) / 2)); auto.
      rewrite Rabs_right by lra. auto_derive; auto. field.
  - intros z _. apply (continuous_mult (fun z => z) f); [apply continuous_id|apply f_cont].
  - apply lim_opp_minf. apply (flim_eq _ (fun x => -(1/2) * (x * exp (- x)) + -(1/2) * exp (- x))).
    + exists 0. intros x H. unfold A1. destruct (Rle_dec (- x) 0); [field|lra].
    + limv.
  - apply (flim_eq _ (fun x => -(1/2) * (x * exp (- x)) + -(1/2) * exp (- x))).
    + exists 0. intros x H. unfold A1. destruct (Rle_dec x 0); [lra|field].
    + limv.
Qed.
Lemma m2_ok : integrates_to (fun z => z ^ 2 * f z) m_infty p_infty 2.
Proof.
  replace 2 with (2 - 0) by ring. apply (mk_integral _ A2); simpl; auto.
  - intros z _. unfold A2, f. destruct (Rtotal_order z 0) as [H|[->|H]].
    + apply (glue_derive_l (fun z => (z ^ 2 - 2 * z + 2) * exp z / 2) (fun z => 2 - (z ^ 2 + 2 * z + 2) * exp (- z) / 2)); auto.
      rewrite Rabs_left by auto. auto_derive; auto. rewrite Ropp_involutive. field.
    + apply (glue_derive (fun z => (z ^ 2 - 2 * z + 2) * exp z / 2) (fun z => 2 - (z ^ 2 + 2 * z + 2) * exp (- z) / 2)).
      * rewrite Ropp_0, exp_0. lra.
      * auto_derive; auto. rewrite Rabs_R0, Ropp_0. field.
      * auto_derive; auto. rewrite Rabs_R0, Ropp_0. field.
    + apply (glue_derive_r (fun z => (z ^ 2 - 2 * z + 2) * exp z / 2) (fun z => 2 - (z ^ 2 + 2 * z + 2) * exp (- z) / 2)); auto.
      rewrite Rabs_right by lra. auto_derive; auto. field.
  - intros z _. apply (continuous_mult (fun z => z * (z * 1)) f); [|apply f_cont]. apply ex_derive_cont. auto_derive. auto.
  - apply lim_opp_minf. apply (flim_eq _ (fun x => (1/2) * (x ^ 2 * exp (- x)) + 1 * (x * exp (- x)) + 1 * exp (- x))).
    + exists 0. intros x H. unfold A2. destruct (Rle_dec (- x) 0); [field|lra].
    + limv.
  - apply (flim_eq _ (fun x => 2 - ((1/2) * (x ^ 2 * exp (- x)) + 1 * (x * exp (- x)) + 1 * exp (- x)))).
    + exists 0. intros x H. unfold A2. destruct (Rle_dec x 0); [lra|field].
    + limv.
Qed.
Lemma moments (l s : R) : 0 < s -> mean_is (fun x => pdf x l s) m_infty p_infty (mean l s) /\
  var_is (fun x => pdf x l s) m_infty p_infty (mean l s) (var l s).
Proof.
  intros S. assert (P : forall x : R, inside m_infty p_infty x -> pdf x l s = Fin (f ((x - l) / s) / s)) by (intros; apply pdf_fin; auto).
  split.
  - apply (ls_mean_is m_infty p_infty F f Q ST l s (fun x => pdf x l s) m_infty p_infty S eq_refl eq_refl P _ 0 m1_ok).
    start; veval; f_equal; ring.
  - apply (ls_var_is m_infty p_infty F f Q ST l s (fun x => pdf x l s) m_infty p_infty S eq_refl eq_refl P _ _ 0 2 m1_ok m2_ok).
    + start; veval; f_equal; ring.
    + start; veval; f_equal; ring.
Qed.
