(** Properties of the gamma, beta and error functions. *)
From Coq Require Import Reals Lra Lia List Bool ZArith.
From Coquelicot Require Import Coquelicot.
From Verif Require Import Values VTac Spec RLib DistLib LimLib IntLib MomLib SFun.
Local Open Scope R_scope.
Set Bullet Behavior "Strict Subproofs".

Lemma improper_eq g lo hi v : Rbar_lt lo hi -> integrates_to g lo hi v -> improper g lo hi = v.
Proof.
  intros LT H. pose proof (near_lo_proper lo hi LT). pose proof (near_hi_proper lo hi LT).
  unfold improper. apply (is_RInt_gen_unique (V := R_CompleteNormedModule)). exact H.
Qed.
Lemma if_canon lo hi (g F : R -> R) v : integral_fn lo hi g F v ->
  integral_fn lo hi g (fun x => improper g lo (Finite x)) (improper g lo hi).
Proof.
  intros I. pose proof (if_lt _ _ _ _ _ I) as LT.
  assert (E : forall x, inside lo hi x -> improper g lo x = F x).
  { intros x Hx. apply improper_eq; [apply Hx|]. apply (if_upto I); auto. }
  rewrite (improper_eq g lo hi v LT (if_integral I)). destruct I. constructor; auto.
  - intros x Hx. apply (is_derive_ext_loc F); auto.
    generalize (inside_locally lo hi x Hx). apply filter_imp. intros y Hy. symmetry. auto.
  - pose proof (near_lo_filter lo). apply (flim_eq _ F); auto.
    generalize (near_lo_inside lo hi LT). apply filter_imp. intros y Hy. symmetry. auto.
  - pose proof (near_hi_filter hi). apply (flim_eq _ F); auto.
    generalize (near_hi_inside lo hi LT). apply filter_imp. intros y Hy. symmetry. auto.
Qed.
(** The other part of the integral. *)
Lemma if_from lo hi (g F : R -> R) v x : integral_fn lo hi g F v -> inside lo hi x -> integrates_to g x hi (v - F x).
Proof.
  intros I H.  destruct I.
  assert (S : forall y, inside x hi y -> inside lo hi y).
  { intros y [Y1 Y2]. destruct H as [H1 H2]. split; auto. destruct lo; simpl in *; auto; lra. }
  apply (mk_integral g F); auto.
  - apply H.
  - simpl. apply flim_right. apply ex_derive_cont. exists (g x). auto.
Qed.
Lemma inside_pos t : inside 0 p_infty t <-> 0 < t.
Proof. unfold inside; simpl; tauto. Qed.
Lemma inside_01 t : inside 0 1 t <-> 0 < t < 1.
Proof. unfold inside; simpl; tauto. Qed.

Lemma in01 t : inside 0 1 t -> 0 < t < 1.
Proof. apply inside_01. Qed.
Lemma inpos t : inside 0 p_infty t -> 0 < t.
Proof. apply inside_pos. Qed.

Ltac pos := repeat first [assumption | apply Rmult_lt_0_compat | apply Rpower_pos | apply exp_pos | apply Rinv_0_lt_compat | apply Rdiv_pos | lra].

Ltac nz := first [lra | apply Rgt_not_eq; lra | apply Rlt_not_eq; lra].
Lemma gk_pos a t : 0 < gamma_kernel a t.
Proof. unfold gamma_kernel. pos. Qed.
Lemma gk_cont a t : 0 < t -> continuous (gamma_kernel a) t.
Proof. intros H. apply ex_derive_cont. unfold gamma_kernel, Rpower. auto_derive. auto. Qed.
Lemma gk_tail (a t : R) n : a <= INR (S n) -> 1 <= t -> gamma_kernel (a + 1) t <= (2 ^ S n * INR (S n) ^ S n) * exp (- t / 2).
Proof.
  intros Hn Ht. unfold gamma_kernel. replace (a + 1 - 1) with a by ring.
  pose proof (Rpower_le_pow t a (S n) Ht Hn) as P.
  destruct (pow_exp_le (S n) (t / 2) ltac:(lra)) as [Q|Q]; [|discriminate].
  replace (exp (- t)) with (exp (- t / 2) * exp (- t / 2)) by (rewrite <- exp_plus; f_equal; field).
  assert (E : t ^ S n = 2 ^ S n * (t / 2) ^ S n) by (rewrite <- Rpow_mult_distr; f_equal; field).
  assert (X : exp (t / 2) * exp (- t / 2) = 1) by (rewrite <- exp_plus; replace (t / 2 + - t / 2) with 0 by field; apply exp_0).
  pose proof (exp_pos (- t / 2)) as Y. pose proof (exp_pos (t / 2)).
  apply Rle_trans with (t ^ S n * (exp (- t / 2) * exp (- t / 2))).
  { apply Rmult_le_compat_r; [|auto]. nra. }
  rewrite E. assert (0 < 2 ^ S n) by (apply pow_lt; lra).
  apply Rle_trans with (2 ^ S n * (INR (S n) ^ S n * exp (t / 2)) * (exp (- t / 2) * exp (- t / 2))).
  { apply Rmult_le_compat_r; [nra|]. apply Rmult_le_compat_l; [lra|auto]. }
  right. replace (2 ^ S n * (INR (S n) ^ S n * exp (t / 2)) * (exp (- t / 2) * exp (- t / 2))) with
    (2 ^ S n * INR (S n) ^ S n * exp (- t / 2) * (exp (t / 2) * exp (- t / 2))) by ring. rewrite X. ring.
Qed.
Lemma der_pow a t : a <> 0 -> 0 < t -> is_derive (fun t => Rpower t a / a) t (Rpower t (a - 1)).
Proof.
  intros Ha Ht. apply (is_derive_ext (fun t => / a * Rpower t a)). { intros u. change (/ a * Rpower u a = Rpower u a / a). field; auto. }
  evar_last; [apply (is_derive_scal (fun t => Rpower t a)), is_derive_Rpower; auto|].
  simpl. unfold scal; simpl; unfold mult; simpl. field. auto.
Qed.
Lemma gamma_ex a : 0 < a -> exists F v, integral_fn 0 p_infty (gamma_kernel a) F v.
Proof.
  intros Ha. destruct (INR_above a) as [n Hn].
  assert (Hn' : a - 1 <= INR (S n)) by (rewrite S_INR; lra).
  set (C := 2 ^ S n * INR (S n) ^ S n).
  apply (mk_integral_fn 0 p_infty (gamma_kernel a) 1 (fun t => Rpower t a / a) (fun t => Rpower t (a - 1))
    (fun t => - C * 2 * exp (- t / 2)) (fun t => C * exp (- t / 2)) 0 0).
  - apply inside_pos; lra.
  - intros x H%inpos. apply gk_cont; auto.
  - intros. apply gk_pos.
  - intros x H%inpos _. split.
    + apply der_pow; auto; lra.
    + unfold gamma_kernel. pose proof (Rpower_pos x (a - 1)). pose proof (exp_le_1 (- x) ltac:(lra)). nra.
  - intros x H%inpos L. split.
    + auto_derive; auto. unfold Rdiv. field.
    + pose proof (gk_tail (a - 1) x n Hn' L) as G. replace (a - 1 + 1) with a in G by ring. exact G.
  - intros x H%inpos _. left. pos.
  - intros x H%inpos _. assert (0 < C) by (unfold C; apply Rmult_lt_0_compat; apply pow_lt; [lra|apply lt_0_INR; lia]).
    pose proof (exp_pos (- x / 2)). nra.
Qed.
Lemma Gamma_if a : 0 < a -> integral_fn 0 p_infty (gamma_kernel a) (lower_gamma a) (Gamma a).
Proof. intros H. destruct (gamma_ex a H) as [F [v I]]. apply (if_canon _ _ _ _ _ I). Qed.
Lemma Gamma_pos a : 0 < a -> 0 < Gamma a.
Proof. intros H. apply (if_vpos (Gamma_if a H)). Qed.
Lemma Gamma_int a : 0 < a -> integrates_to (gamma_kernel a) 0 p_infty (Gamma a).
Proof. intros H. apply (if_integral (Gamma_if a H)). Qed.
Lemma upper_gamma_eq a x : 0 < a -> 0 < x -> upper_gamma a x = Gamma a - lower_gamma a x.
Proof. intros Ha Hx. unfold upper_gamma. apply (improper_eq _ x p_infty); [exact I|]. apply (if_from 0 p_infty (gamma_kernel a) (lower_gamma a) (Gamma a)); [apply Gamma_if; auto|]. apply inside_pos; auto. Qed.

(** Integration of a derivative that may change sign. *)
Lemma Gamma_1 : Gamma 1 = 1.
Proof.
  unfold Gamma. apply (improper_eq _ 0 p_infty); [exact I|]. apply (integrates_ext 0 p_infty I (fun t => exp (- t))).
  - intros x H%inpos. unfold gamma_kernel. replace (1 - 1) with 0 by ring. rewrite Rpower_O by auto. ring.
  - replace 1 with (0 - (- 1)) by ring. apply (mk_integral (fun t => exp (- t)) (fun t => - exp (- t))); [exact I|..].
    + intros x _. auto_derive; auto. ring.
    + intros x _. apply ex_derive_cont. auto_derive. auto.
    + eapply flim_val; [apply (flim_right (fun t => - exp (- t)) 0)|].
      * apply ex_derive_cont. auto_derive. auto.
      * cbv beta. rewrite Ropp_0, exp_0. ring.
    + replace 0 with (- 0) by ring. apply flim_opp. apply lim_exp.
Qed.
Lemma Gamma_succ a : 0 < a -> Gamma (a + 1) = a * Gamma a.
Proof.
  intros Ha.
  assert (Z : integrates_to (fun t => a * gamma_kernel a t + -1 * gamma_kernel (a + 1) t) 0 p_infty (0 - 0)).
  { apply (mk_integral _ (fun t => Rpower t a * exp (- t))); [exact I|..].
    - intros x H%inpos. unfold gamma_kernel. replace (a + 1 - 1) with a by ring.
      evar_last; [apply (is_derive_mult (fun t => Rpower t a) (fun t => exp (- t)) x (a * Rpower x (a - 1)) (- exp (- x)))|].
      + apply is_derive_Rpower; auto.
      + auto_derive; auto. ring.
      + intros; apply Rmult_comm.
      + unfold plus, mult; simpl. ring.
    - intros x H%inpos. apply ex_derive_cont. unfold gamma_kernel, Rpower. auto_derive. auto.
    - simpl. eapply flim_val; [apply flim_mult; [apply at_right_proper_filter|apply lim_Rpower_0; auto|]|apply Rmult_0_l].
      apply (flim_right (fun t => exp (- t))). apply ex_derive_cont. auto_derive. auto.
    - apply lim_Rpower_exp. }
  assert (Z' := integrates_plus 0 p_infty _ _ _ _ (integrates_scal 0 p_infty a _ _ (Gamma_int a Ha))
     (integrates_scal 0 p_infty (-1) _ _ (Gamma_int (a + 1) ltac:(lra)))).
  pose proof (integrates_unique 0 p_infty I _ _ _ Z Z'). lra.
Qed.
Lemma Gamma_fact n : Gamma (INR n + 1) = INR (fact n).
Proof.
  induction n as [|n IH].
  - simpl. rewrite Rplus_0_l. apply Gamma_1.
  - rewrite S_INR, Gamma_succ, IH by (pose proof (pos_INR n); lra).
    rewrite fact_simpl, mult_INR, S_INR. ring.
Qed.

(** Weighted integrals and concavity of powers. *)
Lemma Rpower_tangent t m s : 0 < t -> 0 < m -> 0 <= s <= 1 -> Rpower t s <= Rpower m s * (1 - s) + s * Rpower m (s - 1) * t.
Proof.
  intros Ht Hm Hs. destruct (Req_dec s 0) as [->|NS].
  { rewrite !Rpower_O by auto. lra. }
  rewrite Rpower_minus_1 by auto.
  set (u := t / m). assert (Hu : 0 < u) by (unfold u; pos).
  replace t with (m * u) by (unfold u; field; lra). rewrite Rpower_base_mult by auto.
  replace (Rpower m s * (1 - s) + s * (Rpower m s / m) * (m * u)) with (Rpower m s * (1 - s + s * u)) by (field; lra).
  apply Rmult_le_compat_l; [left; apply Rpower_pos|].
  (* u ^ s <= 1 + s (u - 1): Bernoulli. *)
  set (h := fun u => s * u - Rpower u s).
  assert (D : forall x, 0 < x -> is_derive h x (s - s * Rpower x (s - 1))).
  { intros x Hx. unfold h. evar_last.
    - apply (is_derive_minus (fun u => s * u) (fun u => Rpower u s) x s (s * Rpower x (s - 1))); [|apply is_derive_Rpower; auto].
      auto_derive; auto. ring.
    - reflexivity. }
  assert (H1 : h 1 = s - 1) by (unfold h; rewrite Rpower_1_l; ring).
  cut (h 1 <= h u); [rewrite H1; unfold h; lra|].
  assert (K : forall x, 0 < x -> continuous h x) by (intros x Hx; apply ex_derive_cont; exists (s - s * Rpower x (s - 1)); apply D; lra).
  destruct (Rle_lt_dec 1 u) as [L|L].
  - apply (mono_closed h (fun x => s - s * Rpower x (s - 1)) 1 u); auto; try (apply K; lra).
    intros x Hx. split; [apply D; lra|].
    destruct (Req_dec s 1) as [->|N1]; [replace (1 - 1) with 0 by ring; rewrite Rpower_O by lra; lra|].
    pose proof (Rpower_lt_1_neg x (s - 1) ltac:(lra) ltac:(lra)). nra.
  - apply (anti_closed h (fun x => s - s * Rpower x (s - 1)) u 1); auto; try lra; try (apply K; lra).
    intros x Hx. split; [apply D; lra|].
    destruct (Req_dec s 1) as [->|N1]; [replace (1 - 1) with 0 by ring; rewrite Rpower_O by lra; lra|].
    pose proof (Rpower_gt_1_neg x (s - 1) ltac:(lra) ltac:(lra)). nra.
Qed.
Lemma inside_ex lo hi : Rbar_lt lo hi -> exists c, inside lo hi c.
Proof.
  intros L. destruct lo as [a| |], hi as [b| |]; simpl in L; try tauto.
  - exists ((a + b) / 2). split; simpl; lra.
  - exists (a + 1). split; simpl; auto; lra.
  - exists (b - 1). split; simpl; auto; lra.
  - exists 0. split; simpl; auto.
Qed.
Lemma integrates_nonneg lo hi (h : R -> R) v : Rbar_lt lo hi -> (forall x, inside lo hi x -> 0 <= h x) -> integrates_to h lo hi v -> 0 <= v.
Proof.
  intros LT H IH. pose proof (near_lo_proper lo hi LT) as P1. pose proof (near_hi_proper lo hi LT) as P2.
  destruct (inside_ex lo hi LT) as [c C].
  assert (N : norm (0 * v) <= v).
  { apply (RInt_gen_norm (V := R_CompleteNormedModule) (Fa := near_lo lo) (Fb := near_hi hi) (fun x => 0 * h x) h).
    - apply (Filter_prod _ _ _ (fun x => inside lo hi x /\ x < c) (fun x => inside lo hi x /\ c < x)).
      + apply near_lo_below; auto. + apply near_hi_above; auto. + simpl. intros; lra.
    - apply (Filter_prod _ _ _ (inside lo hi) (inside lo hi)).
      + apply near_lo_inside; auto. + apply near_hi_inside; auto.
      + simpl. intros a b A B x Hx. rewrite Rmult_0_l. unfold norm; simpl; unfold abs; simpl. rewrite Rabs_R0. apply H.
        apply (inside_mid lo hi a b); auto.
    - apply (integrates_scal lo hi 0 h v IH).
    - exact IH. }
  rewrite Rmult_0_l in N. unfold norm in N; simpl in N; unfold abs in N; simpl in N. rewrite Rabs_R0 in N. auto.
Qed.
Lemma integrates_le lo hi (f g : R -> R) u v : Rbar_lt lo hi -> (forall x, inside lo hi x -> f x <= g x) ->
  integrates_to f lo hi u -> integrates_to g lo hi v -> u <= v.
Proof.
  intros LT H A B. assert (K := integrates_plus lo hi _ _ _ _ B (integrates_scal lo hi (-1) _ _ A)).
  apply (integrates_nonneg lo hi _ _ LT) in K; [lra|]. intros x Hx. simpl. pose proof (H x Hx). lra.
Qed.
(** Hoelder's inequality for powers, by the tangent inequality. *)
Lemma holder lo hi (w : R -> R) W V U s : Rbar_lt lo hi -> (forall x, inside lo hi x -> 0 < x /\ 0 < w x) ->
  0 <= s <= 1 -> 0 < W -> 0 < V ->
  integrates_to w lo hi W -> integrates_to (fun t => t * w t) lo hi V -> integrates_to (fun t => Rpower t s * w t) lo hi U ->
  U <= Rpower (V / W) s * W.
Proof.
  intros LT H Hs HW HV IW IV IU. set (m := V / W). assert (M : 0 < m) by (unfold m; pos).
  assert (K := integrates_plus lo hi _ _ _ _ (integrates_scal lo hi (Rpower m s * (1 - s)) _ _ IW) (integrates_scal lo hi (s * Rpower m (s - 1)) _ _ IV)).
  apply Rle_trans with (Rpower m s * (1 - s) * W + s * Rpower m (s - 1) * V).
  - refine (integrates_le lo hi _ _ U _ LT _ IU K). intros x Hx. simpl. destruct (H x Hx) as [X WX]. pose proof (Rpower_tangent x m s X M Hs). nra.
  - right. rewrite Rpower_minus_1 by auto. unfold m. field. lra.
Qed.
Lemma gk_shift a s t : gamma_kernel (a + s) t = Rpower t s * gamma_kernel a t.
Proof. unfold gamma_kernel. rewrite <- Rmult_assoc, <- Rpower_plus. f_equal. f_equal. ring. Qed.
Lemma Gamma_wendel x s : 0 < x -> 0 <= s <= 1 -> Gamma (x + s) <= Rpower x s * Gamma x.
Proof.
  intros Hx Hs. replace x with (Gamma (x + 1) / Gamma x) at 2 by (rewrite Gamma_succ by auto; field; pose proof (Gamma_pos x Hx); lra).
  apply (holder 0 p_infty (gamma_kernel x) (Gamma x) (Gamma (x + 1)) (Gamma (x + s)) s); auto.
  - exact I.
  - intros t H%inpos. split; auto. apply gk_pos.
  - apply Gamma_pos; auto.
  - apply Gamma_pos; lra.
  - apply Gamma_int; auto.
  - apply (integrates_ext 0 p_infty I (gamma_kernel (x + 1))); [|apply Gamma_int; lra].
    intros t H%inpos. rewrite gk_shift, Rpower_1 by auto. auto.
  - apply (integrates_ext 0 p_infty I (gamma_kernel (x + s))); [|apply Gamma_int; lra].
    intros t H%inpos. rewrite gk_shift. auto.
Qed.

(** The beta integral. *)
Definition Bint a b := improper (beta_kernel a b) 0 1.
Lemma bk_pos a b t : 0 < beta_kernel a b t.
Proof. unfold beta_kernel. pos. Qed.
Lemma bk_cont a b t : 0 < t < 1 -> continuous (beta_kernel a b) t.
Proof. intros H. apply ex_derive_cont. unfold beta_kernel, Rpower. auto_derive. repeat split; lra. Qed.
Lemma Rpower_half_bound c t : / 2 <= t < 1 -> Rpower t c <= 1 + Rpower (/ 2) c.
Proof.
  intros H. pose proof (Rpower_pos (/ 2) c). destruct (Rle_lt_dec 0 c) as [L|L].
  - assert (Rpower t c <= 1); [|lra]. rewrite <- (Rpower_1_l c). apply Rle_Rpower_l; lra.
  - assert (Rpower t c <= Rpower (/ 2) c); [|lra].
    unfold Rpower. apply exp_le_compat. pose proof (ln_le_compat (/ 2) t ltac:(lra) ltac:(lra)). nra.
Qed.
Lemma der_pow_refl b t : b <> 0 -> t < 1 -> is_derive (fun t => - (Rpower (1 - t) b / b)) t (Rpower (1 - t) (b - 1)).
Proof.
  intros Hb Ht. evar_last.
  - apply (is_derive_opp (fun t => Rpower (1 - t) b / b)).
    apply (is_derive_comp (fun u => Rpower u b / b) (fun t => 1 - t) t); [apply der_pow; auto; lra|].
    auto_derive; auto.
  - unfold opp, scal; simpl; unfold mult; simpl. ring.
Qed.
Lemma beta_ex a b : 0 < a -> 0 < b -> exists F v, integral_fn 0 1 (beta_kernel a b) F v.
Proof.
  intros Ha Hb. set (Ca := 1 + Rpower (/ 2) (a - 1)). set (Cb := 1 + Rpower (/ 2) (b - 1)).
  assert (0 < Ca) by (unfold Ca; pose proof (Rpower_pos (/ 2) (a - 1)); lra).
  assert (0 < Cb) by (unfold Cb; pose proof (Rpower_pos (/ 2) (b - 1)); lra).
  apply (mk_integral_fn 0 1 (beta_kernel a b) (/ 2) (fun t => Cb * (Rpower t a / a)) (fun t => Cb * Rpower t (a - 1))
    (fun t => Ca * - (Rpower (1 - t) b / b)) (fun t => Ca * Rpower (1 - t) (b - 1)) 0 0).
  - apply inside_01; lra.
  - intros x X%in01. apply bk_cont; auto.
  - intros. apply bk_pos.
  - intros x X%in01 L. split.
    + apply (is_derive_scal (fun t => Rpower t a / a)). apply der_pow; nz.
    + unfold beta_kernel. rewrite Rmult_comm. apply Rmult_le_compat_r; [left; apply Rpower_pos|]. apply Rpower_half_bound; lra.
  - intros x X%in01 L. split.
    + apply (is_derive_scal (fun t => - (Rpower (1 - t) b / b))). apply der_pow_refl; nz.
    + unfold beta_kernel. apply Rmult_le_compat_r; [left; apply Rpower_pos|]. apply Rpower_half_bound; lra.
  - intros x X%in01 L. left. pos.
  - intros x X%in01 L. assert (0 < Rpower (1 - x) b / b) by pos. nra.
Qed.
Lemma Bint_if a b : 0 < a -> 0 < b -> integral_fn 0 1 (beta_kernel a b) (lower_beta a b) (Bint a b).
Proof. intros Ha Hb. destruct (beta_ex a b Ha Hb) as [F [v I]]. apply (if_canon _ _ _ _ _ I). Qed.
Lemma Bint_pos a b : 0 < a -> 0 < b -> 0 < Bint a b.
Proof. intros Ha Hb. apply (if_vpos (Bint_if a b Ha Hb)). Qed.
Lemma Bint_int a b : 0 < a -> 0 < b -> integrates_to (beta_kernel a b) 0 1 (Bint a b).
Proof. intros Ha Hb. apply (if_integral (Bint_if a b Ha Hb)). Qed.
Lemma lt01 : Rbar_lt 0 1.
Proof. simpl; lra. Qed.
Lemma bk_shift a b s t : beta_kernel (a + s) b t = Rpower t s * beta_kernel a b t.
Proof. unfold beta_kernel. rewrite <- Rmult_assoc, <- Rpower_plus. f_equal. f_equal. ring. Qed.
Lemma bk_shift' a b s t : beta_kernel a (b + s) t = Rpower (1 - t) s * beta_kernel a b t.
Proof. unfold beta_kernel. replace (b + s - 1) with (s + (b - 1)) by ring. rewrite Rpower_plus. ring. Qed.
Lemma Bint_split a b : 0 < a -> 0 < b -> Bint a b = Bint (a + 1) b + Bint a (b + 1).
Proof.
  intros Ha Hb. apply (integrates_unique 0 1 lt01 (beta_kernel a b)); [apply Bint_int; auto|].
  apply (integrates_ext 0 1 lt01 (fun t => beta_kernel (a + 1) b t + beta_kernel a (b + 1) t)).
  - intros x H%in01. rewrite bk_shift, bk_shift', !Rpower_1 by lra. ring.
  - apply integrates_plus; apply Bint_int; lra.
Qed.
Lemma at_left1_flip : filterlim (fun t => 1 - t) (at_left 1) (at_right 0).
Proof.
  intros P [e He]. exists e. intros y Hy Hlt. apply He; [|lra].
  unfold ball in *; simpl in *; unfold AbsRing_ball, abs, minus, plus, opp in *; simpl in *.
  apply Rabs_def2 in Hy. apply Rabs_def1; lra.
Qed.
Lemma at_right0_flip : filterlim (fun t => 1 - t) (at_right 0) (at_left 1).
Proof.
  intros P [e He]. exists e. intros y Hy Hlt. apply He; [|lra].
  unfold ball in *; simpl in *; unfold AbsRing_ball, abs, minus, plus, opp in *; simpl in *.
  apply Rabs_def2 in Hy. apply Rabs_def1; lra.
Qed.
Lemma lim_Rpower_1m b : 0 < b -> filterlim (fun t => Rpower (1 - t) b) (at_left 1) (locally 0).
Proof.
  intros Hb. apply (filterlim_comp _ _ _ (fun t => 1 - t) (fun u => Rpower u b) _ (at_right 0)); [apply at_left1_flip|apply lim_Rpower_0; auto].
Qed.
Lemma Bint_parts a b : 0 < a -> 0 < b -> a * Bint a (b + 1) = b * Bint (a + 1) b.
Proof.
  intros Ha Hb.
  assert (Z : integrates_to (fun t => a * beta_kernel a (b + 1) t + - b * beta_kernel (a + 1) b t) 0 1 (0 - 0)).
  { apply (mk_integral _ (fun t => Rpower t a * Rpower (1 - t) b)); [exact lt01|..].
    - intros x H%in01. unfold beta_kernel.
      replace (a + 1 - 1) with a by ring. replace (b + 1 - 1) with b by ring.
      evar_last; [apply (is_derive_mult (fun t => Rpower t a) (fun t => Rpower (1 - t) b) x (a * Rpower x (a - 1)) (- (b * Rpower (1 - x) (b - 1))))|].
      + apply is_derive_Rpower; lra.
      + evar_last; [apply (is_derive_comp (fun u => Rpower u b) (fun t => 1 - t)); [apply is_derive_Rpower; lra|auto_derive; auto]|].
        unfold scal; simpl; unfold mult; simpl. ring.
      + intros; apply Rmult_comm.
      + unfold plus, mult; simpl. ring.
    - intros x H%in01. apply ex_derive_cont. unfold beta_kernel, Rpower. auto_derive. repeat split; lra.
    - simpl. eapply flim_val; [apply flim_mult; [apply at_right_proper_filter|apply lim_Rpower_0; auto|]|apply Rmult_0_l].
      apply (flim_right (fun t => Rpower (1 - t) b)). apply ex_derive_cont. unfold Rpower. auto_derive. lra.
    - simpl. eapply flim_val; [apply flim_mult; [apply at_left_proper_filter| |]|apply Rmult_0_r].
      + apply (flim_left (fun t => Rpower t a)). apply ex_derive_cont. unfold Rpower. auto_derive. lra.
      + apply lim_Rpower_1m; auto. }
  assert (Z' := integrates_plus 0 1 _ _ _ _ (integrates_scal 0 1 a _ _ (Bint_int a (b + 1) Ha ltac:(lra)))
     (integrates_scal 0 1 (- b) _ _ (Bint_int (a + 1) b ltac:(lra) Hb))).
  pose proof (integrates_unique 0 1 lt01 _ _ _ Z Z'). lra.
Qed.
Lemma Bint_succ a b : 0 < a -> 0 < b -> Bint (a + 1) b = a / (a + b) * Bint a b.
Proof. intros Ha Hb. pose proof (Bint_split a b Ha Hb). pose proof (Bint_parts a b Ha Hb). apply (Rmult_eq_reg_l (a + b)); [|lra]. field_simplify; nra. Qed.
Lemma Bint_wendel x b s : 0 < x -> 0 < b -> 0 <= s <= 1 -> Bint (x + s) b <= Rpower (x / (x + b)) s * Bint x b.
Proof.
  intros Hx Hb Hs. replace (x / (x + b)) with (Bint (x + 1) b / Bint x b) by (rewrite Bint_succ by auto; pose proof (Bint_pos x b Hx Hb); field; lra).
  apply (holder 0 1 (beta_kernel x b) (Bint x b) (Bint (x + 1) b) (Bint (x + s) b) s); auto.
  - apply lt01.
  - intros t H%in01. split; [lra|]. apply bk_pos.
  - apply Bint_pos; auto.
  - apply Bint_pos; lra.
  - apply Bint_int; auto.
  - apply (integrates_ext 0 1 lt01 (beta_kernel (x + 1) b)); [|apply Bint_int; lra].
    intros t H%in01. rewrite bk_shift, Rpower_1 by lra. auto.
  - apply (integrates_ext 0 1 lt01 (beta_kernel (x + s) b)); [|apply Bint_int; lra].
    intros t H%in01. rewrite bk_shift. auto.
Qed.
Lemma Bint_1 b : 0 < b -> Bint 1 b = / b.
Proof.
  intros Hb. unfold Bint. apply (improper_eq _ 0 1); [exact lt01|]. replace (/ b) with (0 - - / b) by ring.
  apply (mk_integral _ (fun t => - (Rpower (1 - t) b / b))); [exact lt01|..].
  - intros x H%in01. unfold beta_kernel. replace (1 - 1) with 0 by ring. rewrite Rpower_O by lra. rewrite Rmult_1_l. apply der_pow_refl; nz.
  - intros x H%in01. apply bk_cont; auto.
  - simpl. eapply flim_val; [apply (flim_right (fun t => - (Rpower (1 - t) b / b)) 0)|].
    + apply ex_derive_cont. unfold Rpower. auto_derive. repeat split; lra.
    + cbv beta. rewrite Rminus_0_r, Rpower_1_l. field. lra.
  - simpl. eapply flim_val; [|apply Ropp_0]. apply flim_opp.
    eapply flim_val; [apply (flim_mult _ (fun t => Rpower (1 - t) b) (fun _ => / b) 0 (/ b))|apply Rmult_0_l].
    + apply lim_Rpower_1m; auto.
    + apply flim_const; typeclasses eauto.
    Unshelve. all: typeclasses eauto.
Qed.

(** Bohr-Mollerup: the recurrence and the Wendel inequality determine the gamma function. *)
Section BM.
Variable f : R -> R.
Hypothesis Fpos : forall x, 0 < x -> 0 < f x.
Hypothesis Frec : forall x, 0 < x -> f (x + 1) = x * f x.
Hypothesis Fw : forall x s, 0 < x -> 0 <= s <= 1 -> f (x + s) <= Rpower x s * f x.
Lemma Fw_low x s : 0 < x -> 0 <= s <= 1 -> x * f x <= Rpower (x + s) (1 - s) * f (x + s).
Proof.
  intros Hx Hs. rewrite <- Frec by auto. replace (x + 1) with (x + s + (1 - s)) by ring. apply Fw; lra.
Qed.
End BM.
Section BM2.
Variables f g : R -> R.
Hypothesis Fpos : forall x, 0 < x -> 0 < f x.
Hypothesis Frec : forall x, 0 < x -> f (x + 1) = x * f x.
Hypothesis Fw : forall x s, 0 < x -> 0 <= s <= 1 -> f (x + s) <= Rpower x s * f x.
Hypothesis Gpos : forall x, 0 < x -> 0 < g x.
Hypothesis Grec : forall x, 0 < x -> g (x + 1) = x * g x.
Hypothesis Gw : forall x s, 0 < x -> 0 <= s <= 1 -> g (x + s) <= Rpower x s * g x.
Hypothesis E1 : f 1 = g 1.
Lemma bm_int n : f (INR n + 1) = g (INR n + 1).
Proof.
  induction n; [simpl; rewrite Rplus_0_l; auto|]. rewrite S_INR. pose proof (pos_INR n).
  rewrite Frec, Grec by lra. rewrite IHn. auto.
Qed.
Lemma bm_shift s n : 0 < s -> f s / g s = f (INR n + 1 + s) / g (INR n + 1 + s).
Proof.
  intros Hs. induction n as [|n IH].
  - simpl. rewrite Rplus_0_l, (Rplus_comm 1 s), Frec, Grec by auto. pose proof (Gpos s Hs). field. lra.
  - rewrite IH, S_INR. replace (INR n + 1 + 1 + s) with ((INR n + 1 + s) + 1) by ring. pose proof (pos_INR n).
    rewrite Frec, Grec by lra. pose proof (Gpos (INR n + 1 + s) ltac:(lra)). field. lra.
Qed.
Lemma bm_bound s n : 0 < s <= 1 -> f s / g s <= 1 + / (INR n + 1).
Proof.
  intros Hs. rewrite (bm_shift s n) by lra. set (x := INR n + 1). assert (X : 1 <= x) by (unfold x; pose proof (pos_INR n); lra).
  assert (Ex : f x = g x) by (apply bm_int).
  pose proof (Fw x s ltac:(lra) ltac:(lra)) as A.
  pose proof (Fw_low g Grec Gw x s ltac:(lra) ltac:(lra)) as B.
  pose proof (Gpos x ltac:(lra)) as G0. pose proof (Gpos (x + s) ltac:(lra)) as G1.
  assert (R : Rpower (x + s) (1 - s) * Rpower x s <= x + s).
  { rewrite <- (Rpower_1 (x + s)) at 2 by lra. replace 1 with ((1 - s) + s) at 2 by ring. rewrite Rpower_plus.
    apply Rmult_le_compat_l; [left; apply Rpower_pos|]. apply Rle_Rpower_l; lra. }
  apply Rmult_le_reg_r with (g (x + s)); auto. unfold Rdiv. rewrite Rmult_assoc, Rinv_l, Rmult_1_r by lra.
  apply Rle_trans with (Rpower x s * f x); auto.
  apply Rmult_le_reg_l with (Rpower (x + s) (1 - s)); [apply Rpower_pos|]. rewrite <- Rmult_assoc.
  apply Rle_trans with ((x + s) * f x); [apply Rmult_le_compat_r; [rewrite Ex; lra|auto]|].
  apply Rle_trans with ((1 + / x) * (x * g x)).
  { rewrite Ex. replace ((1 + / x) * (x * g x)) with ((x + 1) * g x) by (field; lra). nra. }
  replace (Rpower (x + s) (1 - s) * ((1 + / x) * g (x + s))) with ((1 + / x) * (Rpower (x + s) (1 - s) * g (x + s))) by ring.
  apply Rmult_le_compat_l; auto. pose proof (Rinv_0_lt_compat x ltac:(lra)). lra.
Qed.
Lemma bm_le s : 0 < s <= 1 -> f s <= g s.
Proof.
  intros Hs. assert (L : f s / g s <= 1).
  { destruct (Rle_lt_dec (f s / g s) 1) as [L|L]; auto. exfalso.
    destruct (INR_above (/ (f s / g s - 1))) as [n Hn].
    pose proof (bm_bound s n Hs). pose proof (pos_INR n).
    assert (/ (INR n + 1) < f s / g s - 1); [|lra].
    rewrite <- (Rinv_inv (f s / g s - 1)). apply Rinv_lt_contravar; [|lra].
    apply Rmult_lt_0_compat; [apply Rinv_0_lt_compat|]; lra. }
  pose proof (Gpos s ltac:(lra)). apply (Rmult_le_compat_r (g s)) in L; [|lra]. unfold Rdiv in L. rewrite Rmult_assoc, Rinv_l, Rmult_1_r in L by lra. lra.
Qed.
End BM2.
Lemma bohr_mollerup f g : (forall x, 0 < x -> 0 < f x) -> (forall x, 0 < x -> f (x + 1) = x * f x) ->
  (forall x s, 0 < x -> 0 <= s <= 1 -> f (x + s) <= Rpower x s * f x) ->
  (forall x, 0 < x -> 0 < g x) -> (forall x, 0 < x -> g (x + 1) = x * g x) ->
  (forall x s, 0 < x -> 0 <= s <= 1 -> g (x + s) <= Rpower x s * g x) -> f 1 = g 1 -> forall x, 0 < x -> f x = g x.
Proof.
  intros F1 F2 F3 G1 G2 G3 E x Hx. destruct (INR_above x) as [n Hn].
  revert x Hx Hn. induction n as [|n IH]; intros x Hx Hn; [simpl in Hn; lra|].
  destruct (Rle_lt_dec x 1) as [L|L].
  - apply Rle_antisym; [apply (bm_le f g)|apply (bm_le g f)]; auto; lra.
  - rewrite S_INR in Hn. replace x with ((x - 1) + 1) by ring. rewrite F2, G2 by lra. rewrite IH by lra. auto.
Qed.
Theorem Bint_Beta a b : 0 < a -> 0 < b -> Bint a b = Beta a b.
Proof.
  intros Ha Hb. pose proof (Gamma_pos b Hb) as PB.
  assert (K : Bint a b * Gamma (a + b) / Gamma b = Gamma a).
  { apply (bohr_mollerup (fun x => Bint x b * Gamma (x + b) / Gamma b) Gamma); auto.
    - intros x Hx. pose proof (Bint_pos x b Hx Hb). pose proof (Gamma_pos (x + b) ltac:(lra)). pos.
    - intros x Hx. rewrite Bint_succ by auto. replace (x + 1 + b) with ((x + b) + 1) by ring. rewrite Gamma_succ by lra. field. lra.
    - intros x s Hx Hs. pose proof (Bint_wendel x b s Hx Hb Hs) as A. pose proof (Gamma_wendel (x + b) s ltac:(lra) Hs) as B.
      replace (x + s + b) with (x + b + s) by ring.
      pose proof (Bint_pos (x + s) b ltac:(lra) Hb). pose proof (Gamma_pos (x + b + s) ltac:(lra)).
      unfold Rdiv. rewrite <- Rmult_assoc. apply Rmult_le_compat_r; [left; apply Rinv_0_lt_compat; auto|].
      apply Rle_trans with ((Rpower (x / (x + b)) s * Bint x b) * (Rpower (x + b) s * Gamma (x + b))); [apply Rmult_le_compat; lra|].
      right. rewrite Rpower_base_div by lra. field. pose proof (Rpower_pos (x + b) s). lra.
    - apply Gamma_pos. - apply Gamma_succ. - apply Gamma_wendel.
    - rewrite Bint_1, Gamma_1 by auto. rewrite (Rplus_comm 1 b), Gamma_succ by auto. field. lra. }
  unfold Beta. pose proof (Gamma_pos (a + b) ltac:(lra)). rewrite <- K. field. lra.
Qed.
