(** Proofs about M_benini. *)
From Coq Require Import Reals Lra List.
From Coquelicot Require Import Coquelicot.
From Verif Require Import Values VTac Spec RLib DistLib PLib M_common M_benini.
Import ListNotations.
Local Open Scope R_scope.
Set Bullet Behavior "Strict Subproofs".

Section P.
Variables al be s : R.
Hypothesis (Ha : 0 < al) (Hb : 0 < be) (Hs : 0 < s).

Ltac start := unfold pdf, logpdf, cdf, sf, invcdf, invsf, median, mode, validate,
                validate_positive, validate_p.

Definition L (x : R) := ln (x / s).
Definition F (x : R) := 1 - exp (- L x * (al + be * L x)).
Definition f (x : R) := exp (- L x * (al + be * L x)) * (al + 2 * be * L x) / x.
Definition r p := - (4) * be / al ^ 2 * ln (1 - p).
Definition Q (p : R) := s * exp (- al / (2 * be) * (- r p / (1 + sqrt (1 + r p)))).

Lemma xs_pos x : s < x -> 1 < x / s.
Proof. intros. apply Rmult_lt_reg_r with s; auto. unfold Rdiv. rewrite Rmult_assoc, Rinv_l; lra. Qed.
Lemma L_pos x : s < x -> 0 < L x.
Proof. intros H. unfold L. rewrite <- ln_1. apply ln_increasing; [lra|]. apply xs_pos; auto. Qed.

Lemma CO : core (fun x => cdf x al be s) (fun x => sf x al be s) s p_infty F.
Proof.
  constructor.
  - intros x [H _]. simpl in H. pose proof (xs_pos x H). pose proof (L_pos x H).
    start. veval. fold (L x). split; unfold F; f_equal; ring.
  - intros x H. simpl in H. start. veval. auto.
  - intros x H. destruct H.
  - start. veval. auto.
  - start. veval. split; f_equal; ring.
Qed.

Lemma SM : smooth s p_infty F f.
Proof.
  constructor; simpl; auto.
  - intros x [H _]. simpl in H. pose proof (L_pos x H). unfold F.
    assert (0 < exp (- L x * (al + be * L x))) by apply exp_pos.
    assert (exp (- L x * (al + be * L x)) <= 1).
    { rewrite <- exp_0. left. apply exp_increasing. nra. }
    lra.
  - intros x [H _]. simpl in H. pose proof (xs_pos x H). unfold F, f, L.
    auto_derive; [lra|]. unfold Rdiv. field. lra.
  - intros x [H _]. simpl in H. pose proof (L_pos x H). unfold f.
    apply Rmult_lt_0_compat; [|apply Rinv_0_lt_compat; lra].
    apply Rmult_lt_0_compat; [apply exp_pos|]. nra.
Qed.

Lemma f_cont x : inside s p_infty x -> continuous f x.
Proof.
  intros [H _]. simpl in H. pose proof (xs_pos x H).
  apply (ex_derive_continuous (V := R_NormedModule)). unfold f, L. auto_derive. lra.
Qed.

Lemma r_pos p : 0 < p < 1 -> 0 < r p.
Proof.
  intros H. unfold r. assert (ln (1 - p) < 0) by (rewrite <- ln_1; apply ln_increasing; lra).
  assert (0 < be / al ^ 2) by (apply Rdiv_lt_0_compat; nra).
  unfold Rdiv in *. nra.
Qed.

Lemma Q_inv p : 0 < p < 1 -> inside s p_infty (Q p) /\ F (Q p) = p.
Proof.
  intros H. pose proof (r_pos p H) as Hr.
  set (u := sqrt (1 + r p)).
  assert (Hu : 1 < u) by (apply sqrt_gt_1; lra).
  assert (Hu2 : u * u = 1 + r p) by (apply sqrt_sqrt; lra).
  assert (EL : - al / (2 * be) * (- r p / (1 + u)) = al / (2 * be) * (u - 1)).
  { replace (r p) with (u * u - 1) by lra. field. lra. }
  assert (P : 0 < al / (2 * be) * (u - 1)).
  { apply Rmult_lt_0_compat; [apply Rdiv_lt_0_compat|]; lra. }
  unfold Q. fold u. rewrite EL.
  split.
  - split; simpl; auto.
    assert (1 < exp (al / (2 * be) * (u - 1))) by (apply exp_gt_1; auto).
    nra.
  - unfold F, L.
    replace (s * exp (al / (2 * be) * (u - 1)) / s) with (exp (al / (2 * be) * (u - 1))) by (field; lra).
    rewrite ln_exp.
    replace (- (al / (2 * be) * (u - 1)) * (al + be * (al / (2 * be) * (u - 1))))
      with (ln (1 - p)).
    + rewrite exp_ln; lra.
    + transitivity (- (al * al / (4 * be)) * (u * u - 1)); [|field; lra].
      rewrite Hu2. unfold r. field. lra.
Qed.

Lemma pdf_in x : inside s p_infty x -> pdf x al be s = Fin (f x) /\ logpdf x al be s = Fin (ln (f x)).
Proof.
  intros [H _]. simpl in H. pose proof (xs_pos x H). pose proof (L_pos x H) as HL.
  assert (E : logpdf x al be s = Fin (ln (f x))).
  { start. veval. fold (L x).
    assert (0 < al + 2 * (be * L x)) by nra. veval. f_equal.
    unfold f, Rdiv. rewrite ln_mult, ln_mult, ln_exp, ln_Rinv; try (apply exp_pos); try nra.
    - replace (2 * be * L x) with (2 * (be * L x)) by ring. ring.
    - apply Rmult_lt_0_compat; [apply exp_pos|nra].
    - apply Rinv_0_lt_compat; lra. }
  split; [|exact E]. unfold pdf. rewrite E. simpl. f_equal. apply exp_ln.
  apply (sm_pos _ _ _ _ SM). split; simpl; auto.
Qed.

Lemma inv_in p : 0 < p < 1 ->
  invcdf p al be s = Fin (Q p) /\ invsf p al be s = Fin (Q (1 - p)).
Proof.
  assert (G : forall q, 0 < q < 1 -> 0 < 1 + sqrt (1 + r q)).
  { intros q Hq. pose proof (r_pos q Hq). pose proof (sqrt_pos (1 + r q)). lra. }
  intros H. pose proof (r_pos p H). assert (0 < r (1 - p)) by (apply r_pos; lra).
  pose proof (G p H). assert (0 < 1 + sqrt (1 + r (1 - p))) by (apply G; lra).
  assert (0 < al ^ 2) by nra.
  split; start; veval.
  - fold (r p). veval. reflexivity.
  - replace (ln p) with (ln (1 - (1 - p))) by (f_equal; ring). fold (r (1 - p)).
    veval. reflexivity.
Qed.

Lemma out x : Rbar_lt (Finite x) s \/ Rbar_lt p_infty (Finite x) ->
  pdf x al be s = Fin 0 /\ logpdf x al be s = NInf.
Proof. intros [H|[]]. simpl in H. start. veval. auto. Qed.

Lemma CERT : cert (fun x => pdf x al be s) (fun x => logpdf x al be s)
  (fun x => cdf x al be s) (fun x => sf x al be s)
  (fun p => invcdf p al be s) (fun p => invsf p al be s) s p_infty F f Q.
Proof.
  constructor; [apply CO|apply SM|apply f_cont|exact Q_inv|apply pdf_in|apply out|apply inv_in].
Qed.

Lemma log_all (x : R) : log_of (fun x => pdf x al be s) (fun x => logpdf x al be s) x.
Proof.
  revert x. apply (cert_log_ends CERT); intros x E; inversion E; subst.
  left. exists (al / x). split; [apply Rdiv_pos; lra|].
  start. veval. rewrite ln_div by lra. split; [|reflexivity].
  f_equal. rewrite exp_minus, !exp_ln by lra. reflexivity.
Qed.

Lemma ends_lo : invcdf (Fin 0) al be s = Fin s /\ invsf (Fin 1) al be s = Fin s.
Proof.
  start. assert (0 < al ^ 2) by nra. veval.
  rewrite Rminus_0_r. rewrite ln_1, Rmult_0_r. veval.
  replace (1 + 0) with 1 by ring. rewrite sqrt_1. veval.
  assert (E : s * exp (- al / (2 * be) * (-0 / (1 + 1))) = s).
  { rewrite Ropp_0. unfold Rdiv at 2. rewrite Rmult_0_l, Rmult_0_r, exp_0. ring. }
  rewrite E. auto.
Qed.

(** The upper end is not reached: the result is nan, not the documented +inf. *)
Lemma ends_hi : invcdf (Fin 1) al be s = NaN /\ invsf (Fin 0) al be s = NaN.
Proof.
  start. assert (0 < al ^ 2) by nra. veval.
  assert (- (4) * be / al ^ 2 < 0).
  { replace (- (4) * be / al ^ 2) with (- (4 * be / al ^ 2)) by (field; lra).
    assert (0 < 4 * be / al ^ 2) by (apply Rdiv_pos; nra). lra. }
  veval. auto.
Qed.

Lemma rejects : rejects_bad_p (fun p => invcdf p al be s) /\ rejects_bad_p (fun p => invsf p al be s).
Proof.
  split; (split; [intros p [H|H]|split]); start; veval; reflexivity.
Qed.

(** The density as a function of u = al + 2 be L, up to constants:
    d/dx log f = (1/x) (2 be/u - u - 1). *)
Lemma f_der x : s < x ->
  is_derive f x (f x / x * ((2 * be - (al + 2 * be * L x) - (al + 2 * be * L x)^2)
                            / (al + 2 * be * L x))).
Proof.
  intros H. pose proof (xs_pos x H). pose proof (L_pos x H) as HL. unfold L in HL.
  unfold f, L. auto_derive; [repeat split; lra|].
  assert (al + 2 * be * ln (x / s) <> 0) by nra.
  unfold Rdiv in *. field. repeat split; try lra.
Qed.

(** Median, logcdf and logsf. *)
Lemma median_ok : median_is (fun x => cdf x al be s) (median al be s).
Proof.
  exists (Q (1/2)). unfold median. destruct (inv_in (1/2) ltac:(lra)) as [-> _]. split; auto.
  destruct (Q_inv (1/2) ltac:(lra)) as [I E]. destruct (co_in _ _ _ _ _ CO _ I) as [-> _]. rewrite E. reflexivity.
Qed.
Lemma log_cdf_sf (x : R) : log_of (fun x => cdf x al be s) (fun x => logcdf x al be s) x /\
  log_of (fun x => sf x al be s) (fun x => logsf x al be s) x.
Proof.
  destruct median_ok as [m [Em _]]. cbv beta in Em.
  destruct (Rle_dec x s) as [H|H].
  - split.
    + right; left. split; [|unfold logcdf, validate, validate_positive; veval; reflexivity].
      start. veval. auto.
    + left. exists 1. split; [lra|]. split.
      * start. veval. auto.
      * unfold logsf, validate, validate_positive. veval. rewrite ln_1. reflexivity.
  - assert (I : inside s p_infty x) by (split; simpl; auto; lra).
    destruct (co_in _ _ _ _ _ CO _ I) as [A B]. cbv beta in A, B. pose proof (F_open01 _ _ _ _ SM x I) as O.
    assert (Hx : s < x) by lra. pose proof (xs_pos x Hx).
    split; left.
    + exists (F x). split; [lra|]. split; [exact A|]. unfold logcdf. rewrite A, B, Em.
      unfold validate, validate_positive. veval. destruct (Rlt_dec x m).
      * veval. reflexivity.
      * veval. do 2 f_equal. ring.
    + exists (1 - F x). split; [lra|]. split; [exact B|]. unfold logsf. rewrite A, Em.
      unfold validate, validate_positive. veval. destruct (Rlt_dec x m).
      * veval. do 2 f_equal. 
      * veval. fold (L x). f_equal. unfold F. replace (1 - (1 - exp (- L x * (al + be * L x)))) with (exp (- L x * (al + be * L x))) by ring.
        rewrite ln_exp. ring.
Qed.
End P.

Section Mode.
Variables al be s : R.
Hypothesis (Ha : 0 < al) (Hb : 0 < be) (Hs : 0 < s).
Notation F := (F al be s).
Notation f := (f al be s).
Notation L := (L s).
Ltac start := unfold pdf, logpdf, cdf, sf, invcdf, invsf, median, mode, validate,
                validate_positive, validate_p.

Lemma pdf_ge (x : R) : s <= x -> pdf x al be s = Fin (f x).
Proof.
  intros [H|E]; [apply pdf_in; auto; split; simpl; auto|subst x].
  assert (E : L s = 0) by (unfold L, Rdiv; rewrite Rinv_r, ln_1 by lra; reflexivity).
  start. veval. unfold f. rewrite E. rewrite exp_minus, !exp_ln by lra.
  replace (- 0 * (al + be * 0)) with 0 by ring. rewrite exp_0.
  f_equal. field. lra.
Qed.

Lemma f_cont_ge x : s <= x -> continuous f x.
Proof.
  intros H. apply ex_derive_cont. unfold f, L. auto_derive.
  assert (0 < x / s) by (apply Rdiv_pos; lra). lra.
Qed.

Lemma f_pos_ge x : s <= x -> 0 < f x.
Proof.
  intros H. assert (0 <= L x).
  { unfold L. rewrite <- ln_1. apply ln_le_compat; [lra|].
    apply Rmult_le_reg_r with s; auto. unfold Rdiv. rewrite Rmult_assoc, Rinv_l; lra. }
  unfold f. apply Rdiv_pos; [|lra]. apply Rmult_lt_0_compat; [apply exp_pos|].
  change (0 < al + 2 * be * L x). nra.
Qed.

Lemma is_mode_from m : s <= m -> mode al be s = Fin m -> (forall x, s < x -> f x <= f m) ->
  f s <= f m -> is_mode (fun x => pdf x al be s) (mode al be s).
Proof.
  intros Hm E H1 H2. exists m, (f m). split; [exact E|]. split; [apply pdf_ge; auto|].
  intros x. destruct (Rlt_le_dec x s) as [H|H].
  - exists 0. split; [apply out; auto; left; auto|]. left. apply f_pos_ge; auto.
  - exists (f x). split; [apply pdf_ge; auto|]. destruct H as [H|H]; auto.
    rewrite <- H. auto.
Qed.

Definition g x := f x / x * ((2 * be - (al + 2 * be * L x) - (al + 2 * be * L x)^2)
                            / (al + 2 * be * L x)).
Lemma g_sign x : s < x -> let u := al + 2 * be * L x in
  al < u /\ (2 * be - u - u^2 <= 0 -> g x <= 0) /\ (0 <= 2 * be - u - u^2 -> 0 <= g x).
Proof.
  intros H u. pose proof (L_pos s Hs x H).
  assert (Hu : al < u) by (unfold u; nra).
  assert (Hf : 0 < f x / x) by (apply Rdiv_pos; [apply f_pos_ge|]; lra).
  assert (Hi : 0 < / u) by (apply Rinv_0_lt_compat; lra).
  assert (E : g x = f x / x * ((2 * be - u - u^2) * / u)) by reflexivity.
  split; [exact Hu|]. rewrite E. clear E.
  split; intros K.
  - apply mul_pn; [exact Hf|]. apply mul_np; auto.
  - apply mul_pz; [exact Hf|]. apply mul_zp; auto.
Qed.

Lemma L_mono x y : 0 < x -> x < y -> L x < L y.
Proof.
  intros. unfold L. apply ln_increasing; [apply Rdiv_pos; lra|].
  apply Rmult_lt_compat_r; auto. apply Rinv_0_lt_compat; auto.
Qed.

Lemma mode_ok : is_mode (fun x => pdf x al be s) (mode al be s).
Proof.
  destruct (Rle_lt_dec be (al * (al + 1) / 2)) as [H|H].
  - apply (is_mode_from s); try lra.
    + start. veval. reflexivity.
    + intros x Hx. apply (anti_closed f g s x); try lra; try (apply f_cont_ge; lra).
      intros y Hy. split; [apply f_der; lra|].
      destruct (g_sign y) as [K1 [K2 _]]; [lra|]. apply K2. nra.
  - set (v := sqrt (8 * be + 1)).
    assert (Hv2 : v * v = 8 * be + 1) by (apply sqrt_sqrt; lra).
    assert (Hv : 0 <= v) by apply sqrt_pos.
    assert (Hv1 : 2 * al + 1 < v) by nra.
    set (l := (- (2) * al + v - 1) / (4 * be)).
    assert (Hl : 0 < l) by (apply Rdiv_pos; lra).
    assert (Hul : al + 2 * be * l = (v - 1) / 2) by (unfold l; field; lra).
    assert (Hm : s < s * exp l) by (pose proof (exp_gt_1 l Hl); nra).
    assert (Lm : L (s * exp l) = l).
    { unfold L. replace (s * exp l / s) with (exp l) by (field; lra). apply ln_exp. }
    assert (Hr : forall x, s < x -> s * exp l < x -> g x <= 0).
    { intros x H1 H2. destruct (g_sign x H1) as [K1 [K2 _]]. apply K2.
      assert (l < L x) by (rewrite <- Lm; apply L_mono; lra).
      assert ((v - 1) / 2 < al + 2 * be * L x) by (rewrite <- Hul; nra). nra. }
    assert (Hlft : forall x, s < x -> x < s * exp l -> 0 <= g x).
    { intros x H1 H2. destruct (g_sign x H1) as [K1 [_ K2]]. apply K2.
      assert (L x < l) by (rewrite <- Lm; apply L_mono; lra).
      assert (al + 2 * be * L x < (v - 1) / 2) by (rewrite <- Hul; nra). nra. }
    apply (is_mode_from (s * exp l)); try lra.
    + start. veval. fold v.
      reflexivity.
    + intros x Hx. destruct (Rle_lt_dec x (s * exp l)) as [C|C].
      * apply (mono_closed f g); try lra; try (apply f_cont_ge; lra).
        intros y Hy. split; [apply f_der; lra|]. apply Hlft; lra.
      * apply (anti_closed f g); try lra; try (apply f_cont_ge; lra).
        intros y Hy. split; [apply f_der; lra|]. apply Hr; lra.
    + apply (mono_closed f g); try lra; try (apply f_cont_ge; lra).
      intros y Hy. split; [apply f_der; lra|]. apply Hlft; lra.
Qed.
End Mode.

Section Bad.
Ltac start := unfold support, pdf, logpdf, logcdf, logsf, cdf, sf, invcdf, invsf, median, mode, validate,
                validate_positive, validate_p.
Lemma val_bad {A} `{CanRaise A} al be s (k : A) : isnum al -> isnum be -> isnum s ->
  nonpositive al \/ nonpositive be \/ nonpositive s -> validate al be s k = raise ValueError.
Proof.
  intros N1 N2 N3 H1. unfold validate.
  destruct H1 as [H1|[H1|H1]]; repeat first [apply vp_bad; assumption | apply vp_pass; [assumption|]].
Qed.
Lemma bad_params al be s : isnum al -> isnum be -> isnum s ->
  nonpositive al \/ nonpositive be \/ nonpositive s ->
  support al be s = Err ValueError /\
  always_ValueError [ fun x => pdf x al be s; fun x => logpdf x al be s; fun x => cdf x al be s;
    fun x => sf x al be s; fun x => logcdf x al be s; fun x => logsf x al be s;
    fun p => invcdf p al be s; fun p => invsf p al be s;
    fun _ => median al be s; fun _ => mode al be s ].
Proof.
  intros N1 N2 N3 H. split; [|all_ve; intros x Hx];
  unfold support, pdf, logpdf, logcdf, logsf, median, mode, cdf, sf, invcdf, invsf;
  rewrite val_bad by auto; reflexivity.
Qed.
End Bad.
