(** Proofs about M_benktander1. *)
From Coq Require Import Reals Lra Lia List.
From Coq Require Ranalysis5.
From Coquelicot Require Import Coquelicot.
From Verif Require Import Values VTac Spec RLib DistLib DistLS LimLib MomLib PLib XLib PatchLib M_common M_sfun SFun GammaLib GammaLib2 GammaLib3 P_sfun SpecStat SpecEst SpecRoot SpecInv LLib P_basic P_basic2 P_est.
From Verif Require Import M_benktander1.
Import ListNotations.
Local Open Scope R_scope.
Set Bullet Behavior "Strict Subproofs".

Section Std.
Variables a b : R.
Hypothesis A : 0 < a.
Hypothesis B : 0 < b.
Hypothesis AB : b <= a * (a + 1) / 2.
Definition cf (z : R) := (1 + 2 * (b * z) / a) * (1 + a + 2 * (b * z)) - 2 * b / a.
Definition G (z : R) := (1 + 2 * (b * z) / a) * exp (- ((a + 1 + b * z) * z)).
Definition F (x : R) := 1 - G (ln x).
Definition fz (z : R) := cf z * exp (- ((2 + a + b * z) * z)).
Definition f (x : R) := fz (ln x).
Definition Q (p : R) := inverse_fn 1 p_infty F p.
Lemma cf_u z : cf z = ((a + 2 * b * z) * (a + 1 + 2 * b * z) - 2 * b) / a. Proof. unfold cf. field. lra. Qed.
Lemma cf_0 : 0 <= cf 0. Proof. rewrite cf_u. apply Rdiv_nonneg; lra. Qed.
Lemma cf_pos z : 0 < z -> 0 < cf z. Proof. intros Z. rewrite cf_u. apply Rdiv_pos; auto. assert (0 < b * z) by nra. nra. Qed.
Lemma G_der z : is_derive G z (- (cf z * exp (- ((a + 1 + b * z) * z)))).
Proof. unfold G, cf. auto_derive; auto. field. lra. Qed.
Lemma fz_exp z : fz z = cf z * exp (- ((a + 1 + b * z) * z)) * exp (- z).
Proof. unfold fz. rewrite Rmult_assoc, <- exp_plus. do 2 f_equal. ring. Qed.
Lemma chain (H : R -> R) (d x : R) : 1 <= x -> is_derive H (ln x) d -> is_derive (fun t => H (ln t)) x (d / x).
Proof.
  intros X D. evar_last; [apply (is_derive_comp H ln); [exact D|apply is_derive_Reals; apply derivable_pt_lim_ln; lra]|].
  unfold scal; simpl; unfold mult; simpl. field. lra.
Qed.
Lemma inv_x x : 1 <= x -> exp (- ln x) = / x. Proof. intros X. rewrite exp_Ropp, exp_ln by lra. auto. Qed.
Lemma F_der x : 1 <= x -> is_derive F x (f x).
Proof.
  intros X. unfold F. evar_last; [apply (is_derive_minus (fun _ => 1) (fun x => G (ln x))); [apply is_derive_const|apply chain; [auto|apply G_der]]|].
  unfold minus, plus, opp, zero; simpl. unfold f. rewrite fz_exp, inv_x by auto. field. lra.
Qed.
Lemma f_der x : 1 <= x -> ex_derive f x.
Proof. intros X. unfold f, fz, cf. auto_derive. repeat split; lra. Qed.
Lemma f_pos x : 1 < x -> 0 < f x.
Proof. intros X. unfold f, fz. apply Rmult_lt_0_compat; [apply cf_pos; apply ln_pos; auto|apply exp_pos]. Qed.
Lemma G_bound z : 0 < z -> 0 < G z < 1.
Proof.
  intros Z. unfold G. assert (0 < b * z) by nra. assert (0 < 2 * (b * z) / a) by (apply Rdiv_pos; lra).
  split; [apply Rmult_lt_0_compat; [lra|apply exp_pos]|].
  assert (1 + 2 * (b * z) / a < exp ((a + 1 + b * z) * z)).
  { eapply Rlt_le_trans; [|apply exp_ineq]. assert (2 * (b * z) / a <= (a + 1) * z).
    { apply Rmult_le_reg_r with a; auto. unfold Rdiv. rewrite Rmult_assoc, Rinv_l by lra. nra. }
    nra. }
  rewrite exp_Ropp. pose proof (exp_pos ((a + 1 + b * z) * z)). apply (Rmult_lt_reg_r (exp ((a + 1 + b * z) * z))); auto.
  rewrite Rmult_assoc, Rinv_l by lra. lra.
Qed.
Lemma cf_disc w : w < 0 -> 0 < (a + 1) ^ 2 - 4 * b * w. Proof. intros W. nra. Qed.
Definition zl w := (- (a + 1) + sqrt ((a + 1) ^ 2 - 4 * b * w)) / (2 * b).
Definition q := a + 1 - 2 * b / a.
Definition zh w := (- q + sqrt (q ^ 2 - 4 * b * w)) / (2 * b).
Definition eqn w z := ln (1 + 2 * b / a * z) - (a + 1 + b * z) * z - w.
Lemma q_nn : 0 <= q.
Proof. unfold q. assert (2 * b / a <= a + 1); [|lra]. apply Rmult_le_reg_r with a; auto. unfold Rdiv. rewrite Rmult_assoc, Rinv_l by lra. lra. Qed.
Lemma root_quad k w : 0 <= k -> w < 0 -> let z := (- k + sqrt (k ^ 2 - 4 * b * w)) / (2 * b) in 0 < z /\ (k + b * z) * z = - w.
Proof.
  intros Kk W z. assert (D : 0 <= k ^ 2 - 4 * b * w) by nra. pose proof (sqrt_pos (k ^ 2 - 4 * b * w)) as S0. pose proof (sqrt_sqrt _ D) as SS.
  set (r := sqrt (k ^ 2 - 4 * b * w)) in *. assert (k < r) by nra.
  split; [apply Rdiv_pos; lra|]. unfold z. apply (Rmult_eq_reg_r (4 * b)); [|lra].
  replace ((k + b * ((- k + r) / (2 * b))) * ((- k + r) / (2 * b)) * (4 * b)) with (r * r - k ^ 2) by (field; lra). rewrite SS. ring.
Qed.
Lemma eqn_G w z : 0 <= z -> eqn w z = 0 <-> G z = exp w.
Proof.
  intros Z. unfold eqn, G. assert (0 <= 2 * (b * z) / a) by (apply Rdiv_nonneg; nra).
  replace (1 + 2 * b / a * z) with (1 + 2 * (b * z) / a) by (field; lra). split; intros E.
  - replace w with (ln (1 + 2 * (b * z) / a) + - ((a + 1 + b * z) * z)) by lra. rewrite exp_plus, exp_ln by lra. auto.
  - rewrite <- (ln_exp w), <- E, ln_mult, ln_exp by (try apply exp_pos; lra). ring.
Qed.
Lemma bracket w : w < 0 -> 0 < zl w /\ 0 < zh w /\ 0 <= eqn w (zl w) /\ eqn w (zh w) <= 0.
Proof.
  intros W. destruct (root_quad (a + 1) w ltac:(lra) W) as [L1 L2]. destruct (root_quad q w q_nn W) as [H1 H2]. fold (zl w) in *. fold (zh w) in *.
  split; auto. split; auto. unfold eqn. split.
  - assert (0 < 2 * b / a * zl w) by (apply Rmult_lt_0_compat; auto; apply Rdiv_pos; lra). pose proof (ln_pos (1 + 2 * b / a * zl w) ltac:(lra)). lra.
  - assert (0 < 2 * b / a * zh w) by (apply Rmult_lt_0_compat; auto; apply Rdiv_pos; lra). pose proof (ln_ineq (1 + 2 * b / a * zh w) ltac:(lra)).
    assert ((a + 1 + b * zh w) * zh w = - w + 2 * b / a * zh w) by (rewrite <- H2; unfold q; ring). lra.
Qed.
Lemma G_decr x y : 0 <= x -> x < y -> G y < G x.
Proof.
  intros X XY. cut (- G x < - G y); [lra|]. apply (smono_closed (fun z => - G z) (fun z => cf z * exp (- ((a + 1 + b * z) * z))) x y); auto.
  - intros z [Z1 Z2]. split.
    + evar_last; [apply (is_derive_opp G); apply G_der|unfold opp; simpl; ring].
    + apply Rmult_lt_0_compat; [apply cf_pos; lra|apply exp_pos].
  - apply ex_derive_cont. unfold G. auto_derive. auto.
  - apply ex_derive_cont. unfold G. auto_derive. auto.
Qed.
Lemma zl_zh w : w < 0 -> zl w <= zh w.
Proof.
  intros W. destruct (bracket w W) as [L [H [EL EH]]]. destruct (Rle_lt_dec (zl w) (zh w)) as [|C]; auto. exfalso.
  (* eqn is ln G - w, decreasing *)
  assert (K : forall z, 0 < z -> eqn w z = ln (G z) - w).
  { intros z Z. unfold eqn, G. assert (0 < 2 * (b * z) / a) by (apply Rdiv_pos; nra). rewrite ln_mult, ln_exp by (try apply exp_pos; lra).
    replace (2 * b / a * z) with (2 * (b * z) / a) by (field; lra). ring. }
  rewrite K in EL, EH by auto. pose proof (G_decr (zh w) (zl w) ltac:(lra) C) as D. destruct (G_bound (zl w) L) as [GP _].
  pose proof (ln_increasing _ _ GP D). lra.
Qed.
Lemma eqn_cont w z : 0 <= z -> continuity_pt (eqn w) z.
Proof.
  intros Z. apply continuity_pt_filterlim. apply (ex_derive_continuous (V := R_NormedModule) (eqn w)). unfold eqn. auto_derive.
  assert (0 <= 2 * b / a * z) by (apply Rmult_le_pos; auto; left; apply Rdiv_pos; lra). lra.
Qed.
Lemma eqn_root w : w < 0 -> exists z, 0 < z /\ zl w <= z <= zh w /\ G z = exp w.
Proof.
  intros W. destruct (bracket w W) as [L [H [EL EH]]]. pose proof (zl_zh w W) as LH.
  destruct (Req_dec (eqn w (zl w)) 0) as [E|E]; [exists (zl w); repeat split; try lra; apply eqn_G; lra|].
  destruct (Req_dec (eqn w (zh w)) 0) as [E'|E']; [exists (zh w); repeat split; try lra; apply eqn_G; lra|].
  destruct LH as [LH|LH]; [|rewrite LH in E, EL; lra].
  destruct (Ranalysis5.IVT_interv (fun z => - eqn w z) (zl w) (zh w)) as [z [Z E2]]; try lra.
  - intros z Z. apply continuity_pt_opp. apply eqn_cont. lra.
  - exists z. repeat split; try lra. apply eqn_G; lra.
Qed.
Lemma onto p : 0 < p < 1 -> exists x, 1 < x /\ F x = p.
Proof.
  intros P. destruct (eqn_root (ln (1 - p))) as [z [Z [_ E]]]; [apply ln_neg; lra|].
  exists (exp z). split; [apply exp_gt_1; auto|]. unfold F. rewrite ln_exp, E, exp_ln by lra. ring.
Qed.
Lemma SM : smooth 1 p_infty F f.
Proof.
  constructor; simpl; auto.
  - intros x [X _]. simpl in X. unfold F. pose proof (G_bound (ln x) (ln_pos x X)). lra.
  - intros x [X _]. simpl in X. apply F_der. lra.
  - intros x [X _]. simpl in X. apply f_pos. lra.
Qed.
Lemma Q_eq x : 1 < x -> Q (F x) = x.
Proof. intros X. apply inverse_fn_eq; [apply (F_incr 1 p_infty F f SM)|split; simpl; auto]. Qed.
Lemma QU : quantile 1 p_infty F Q.
Proof. intros p P. destruct (onto p P) as [x [X E]]. rewrite <- E, Q_eq by auto. split; auto. split; simpl; auto. Qed.
(** Moments. *)
Lemma lim_gauss (k al be : R) : filterlim (fun x => (al + be * ln x) * exp (- ((k + b * ln x) * ln x))) (Rbar_locally p_infty) (locally 0).
Proof.
  pose proof (near_hi_filter p_infty) as FF.
  apply (filterlim_comp _ _ _ ln (fun z => (al + be * z) * exp (- ((k + b * z) * z))) _ (Rbar_locally p_infty)); [apply pinf_ln|].
  apply (flim_squeeze0 _ (fun z => (al + be * z) * exp (- ((k + b * z) * z))) (fun z => Rabs al * exp (- z) + Rabs be * (z * exp (- z)))).
  - exists (Rmax 0 ((1 - k) / b)). intros z Z. pose proof (Rmax_l 0 ((1 - k) / b)). pose proof (Rmax_r 0 ((1 - k) / b)).
    assert (Z0 : 0 < z) by lra. assert (ZB : (1 - k) < b * z).
    { assert (H1 : (1 - k) / b < z) by lra. apply (Rmult_lt_compat_r b) in H1; auto. unfold Rdiv in H1. rewrite Rmult_assoc, Rinv_l in H1; lra. }
    rewrite Rabs_mult, (Rabs_pos_eq (exp _)) by (left; apply exp_pos).
    assert (exp (- ((k + b * z) * z)) <= exp (- z)) by (apply exp_le_compat; nra).
    assert (Rabs (al + be * z) <= Rabs al + Rabs be * z) by (eapply Rle_trans; [apply Rabs_triang|rewrite Rabs_mult, (Rabs_pos_eq z); lra]).
    pose proof (exp_pos (- ((k + b * z) * z))). pose proof (exp_pos (- z)). pose proof (Rabs_pos (al + be * z)). pose proof (Rabs_pos al). pose proof (Rabs_pos be).
    assert (0 <= Rabs be * z) by nra. nra.
  - replace 0 with (Rabs al * 0 + Rabs be * 0) by ring. apply flim_plus; auto; apply flim_scal; auto; [apply lim_exp|apply lim_x_exp].
Qed.
Definition A1 (z : R) := - ((1 + 2 * (b * z) / a) * exp (- ((a + b * z) * z))) - / a * exp (- ((a + b * z) * z)).
Lemma m1_ok : integrates_to (fun x => x * f x) 1 p_infty (1 + 1 / a).
Proof.
  pose proof (near_hi_filter p_infty) as FF.
  replace (1 + 1 / a) with (0 - A1 (ln 1)) by (unfold A1; rewrite ln_1, !Rmult_0_r, Ropp_0, exp_0; field; lra).
  apply (mk_integral (fun x => x * f x) (fun x => A1 (ln x))); simpl; auto.
  - intros x [X _]. simpl in X. evar_last; [apply (chain A1 (cf (ln x) * exp (- ((a + b * ln x) * ln x)))); [lra|unfold A1, cf; auto_derive; auto; field; lra]|].
    unfold f, fz. assert (E : exp (- ((2 + a + b * ln x) * ln x)) = exp (- ((a + b * ln x) * ln x)) * / x * / x).
    { rewrite <- inv_x, <- !exp_plus by lra. f_equal. ring. }
    rewrite E. field. lra.
  - intros x [X _]. simpl in X. apply (ex_derive_continuous (V := R_NormedModule) (fun x => x * f x)). apply (ex_derive_mult (fun x => x) f); [auto_derive; auto|apply f_der; lra].
  - apply (flim_right (fun x => A1 (ln x)) 1). apply (ex_derive_continuous (V := R_NormedModule) (fun x => A1 (ln x))). unfold A1. auto_derive. repeat split; lra.
  - apply (flim_eq _ (fun x => -1 * ((1 + / a + 2 * b / a * ln x) * exp (- ((a + b * ln x) * ln x))))).
    + apply filter_forall. intros x. unfold A1. field. lra.
    + replace 0 with (-1 * 0) by ring. apply flim_scal; auto. apply lim_gauss.
Qed.
Definition tt := (a - 1) / (2 * sqrt b).
Definition Kc := exp (tt ^ 2) * sqrt PI / (2 * sqrt b).
Definition A2 (z : R) := - ((1 + 2 * (b * z) / a) * exp (- ((a - 1 + b * z) * z))) - 2 / a * exp (- ((a - 1 + b * z) * z)) + 2 / a * (Kc * erf (sqrt b * z + tt)).
Lemma sb : 0 < sqrt b. Proof. apply sqrt_lt_R0. auto. Qed.
Lemma P_der z : is_derive (fun z => Kc * erf (sqrt b * z + tt)) z (exp (- ((a - 1 + b * z) * z))).
Proof.
  pose proof sb as S. pose proof sqrtPI_pos as SP. pose proof (sqrt_sqrt b ltac:(lra)) as SS.
  evar_last; [apply (is_derive_scal (fun z => erf (sqrt b * z + tt)) z Kc); apply (is_derive_comp erf (fun z => sqrt b * z + tt)); [apply erf_der|auto_derive; auto]|].
  unfold scal; simpl; unfold mult; simpl. unfold Kc.
  assert (E : exp (- ((a - 1 + b * z) * z)) = exp (tt ^ 2) * exp (- ((sqrt b * z + tt) * ((sqrt b * z + tt) * 1)))).
  { rewrite <- exp_plus. f_equal. unfold tt. replace b with (sqrt b * sqrt b) at 1 by auto. field. lra. }
  rewrite E. simpl. field. split; lra.
Qed.
Definition m2 := 1 + 2 / a + 2 / a * (Kc * erfc tt).
Lemma erf_inf : filterlim erf (Rbar_locally p_infty) (locally 1).
Proof.
  intros P [e HP]. pose proof (cond_pos e) as E0. set (y := 1 - Rmin (e / 2) 1). assert (Y : -1 < y < 1).
  { unfold y. pose proof (Rmin_r (e / 2) 1). assert (0 < Rmin (e / 2) 1) by (apply Rmin_glb_lt; lra). lra. }
  exists (erfinv y). intros x X. apply HP. pose proof (erf_incr _ _ X) as I1. rewrite erf_erfinv in I1 by auto. pose proof (erf_bound x).
  unfold ball; simpl; unfold AbsRing_ball, abs, minus, plus, opp; simpl. rewrite Rabs_left1 by lra. unfold y in I1. pose proof (Rmin_l (e / 2) 1). lra.
Qed.
Lemma m2_ok : integrates_to (fun x => x ^ 2 * f x) 1 p_infty m2.
Proof.
  pose proof (near_hi_filter p_infty) as FF. pose proof sb as S.
  replace m2 with (2 / a * Kc - A2 (ln 1)) by (unfold A2, m2, erfc; rewrite ln_1, !Rmult_0_r, Ropp_0, exp_0, Rplus_0_l; field; lra).
  apply (mk_integral (fun x => x ^ 2 * f x) (fun x => A2 (ln x))); simpl; auto.
  - intros x [X _]. simpl in X. evar_last; [apply (chain A2 (cf (ln x) * exp (- ((a - 1 + b * ln x) * ln x)))); [lra|]|].
    + unfold A2. evar_last; [apply (is_derive_plus (fun z => - ((1 + 2 * (b * z) / a) * exp (- ((a - 1 + b * z) * z))) - 2 / a * exp (- ((a - 1 + b * z) * z)))
        (fun z => 2 / a * (Kc * erf (sqrt b * z + tt))) (ln x)); [auto_derive; auto|apply (is_derive_scal (fun z => Kc * erf (sqrt b * z + tt)) (ln x) (2 / a)); apply P_der]|].
      unfold plus; simpl. unfold cf, Rminus. field. lra.
    + unfold f, fz. assert (E : exp (- ((2 + a + b * ln x) * ln x)) = exp (- ((a - 1 + b * ln x) * ln x)) * / x * / x * / x).
      { rewrite <- inv_x, <- !exp_plus by lra. f_equal. ring. }
      rewrite E. field. lra.
  - intros x [X _]. simpl in X. apply (ex_derive_continuous (V := R_NormedModule) (fun x => x * (x * 1) * f x)). apply (ex_derive_mult (fun x => x * (x * 1)) f); [auto_derive; auto|apply f_der; lra].
  - apply (flim_right (fun x => A2 (ln x)) 1). apply (continuous_comp ln A2); [apply ex_derive_cont; auto_derive; lra|].
    unfold A2. apply (continuous_plus (fun z => - ((1 + 2 * (b * z) / a) * exp (- ((a - 1 + b * z) * z))) - 2 / a * exp (- ((a - 1 + b * z) * z)))
        (fun z => 2 / a * (Kc * erf (sqrt b * z + tt)))); [apply ex_derive_cont; auto_derive; auto|].
    apply ex_derive_cont. eexists. apply (is_derive_scal (fun z => Kc * erf (sqrt b * z + tt)) (ln 1) (2 / a)); apply P_der.
  - apply (flim_eq _ (fun x => -1 * ((1 + 2 / a + 2 * b / a * ln x) * exp (- ((a - 1 + b * ln x) * ln x))) + 2 / a * (Kc * erf (sqrt b * ln x + tt)))).
    + apply filter_forall. intros x. unfold A2. field. lra.
    + replace (2 / a * Kc) with (-1 * 0 + 2 / a * (Kc * 1)) by ring. apply flim_plus; auto; [apply flim_scal; auto; apply lim_gauss|].
      do 2 (apply flim_scal; auto).
      apply (filterlim_comp _ _ _ (fun x => sqrt b * ln x + tt) erf _ (Rbar_locally p_infty)); [|apply erf_inf].
      apply (filterlim_comp _ _ _ ln (fun z => sqrt b * z + tt) _ (Rbar_locally p_infty)); [apply pinf_ln|].
      intros P [M HM]. exists ((M - tt) / sqrt b). intros z Z. apply HM. apply (Rmult_lt_compat_r (sqrt b)) in Z; auto. unfold Rdiv in Z. rewrite Rmult_assoc, Rinv_l in Z; lra.
Qed.
(** The mode. *)
Lemma fz_der z : is_derive fz z (exp (- ((2 + a + b * z) * z)) * ((a + 1 + 2 * b * z) * (6 * b + 1 - (a + 1 + 2 * b * z) ^ 2) / a)).
Proof. unfold fz, cf. auto_derive; auto. field. lra. Qed.
Lemma fz_cont z : continuous fz z. Proof. apply ex_derive_cont. eexists. apply fz_der. Qed.
Lemma fz_max z m : 0 <= z -> 0 <= m -> (a * (a + 2) / 6 < b /\ m = (- (a + 1) + sqrt (6 * b + 1)) / (2 * b) \/ b <= a * (a + 2) / 6 /\ m = 0) -> fz z <= fz m.
Proof.
  intros Z M0 D. pose proof (sqrt_pos (6 * b + 1)) as R0. pose proof (sqrt_sqrt (6 * b + 1) ltac:(lra)) as RR. set (r := sqrt (6 * b + 1)) in *.
  assert (UP : m <= z -> fz z <= fz m).
  { intros L. apply (anti_closed fz (fun z => exp (- ((2 + a + b * z) * z)) * ((a + 1 + 2 * b * z) * (6 * b + 1 - (a + 1 + 2 * b * z) ^ 2) / a))); auto using fz_cont.
    intros y [Y1 Y2]. split; [apply fz_der|]. assert (U : 6 * b + 1 <= (a + 1 + 2 * b * y) ^ 2).
    { assert (r <= a + 1 + 2 * b * y); [|nra]. destruct D as [[_ E]|[E1 E]].
      - assert (2 * b * m = - (a + 1) + r) by (rewrite E; field; lra). nra.
      - assert (r <= a + 1) by nra. nra. }
    assert (0 < a + 1 + 2 * b * y) by nra. pose proof (exp_pos (- ((2 + a + b * y) * y))).
    assert ((a + 1 + 2 * b * y) * (6 * b + 1 - (a + 1 + 2 * b * y) ^ 2) / a <= 0); [|nra].
    assert (0 <= (a + 1 + 2 * b * y) * ((a + 1 + 2 * b * y) ^ 2 - (6 * b + 1)) / a) by (apply Rdiv_nonneg; auto; apply Rmult_le_pos; lra).
    unfold Rdiv in *. lra. }
  destruct (Rle_lt_dec m z) as [L|L]; auto. destruct D as [[_ E]|[_ E]]; [|lra].
  apply (mono_closed fz (fun z => exp (- ((2 + a + b * z) * z)) * ((a + 1 + 2 * b * z) * (6 * b + 1 - (a + 1 + 2 * b * z) ^ 2) / a))); try lra; auto using fz_cont.
  intros y [Y1 Y2]. split; [apply fz_der|]. assert (2 * b * m = - (a + 1) + r) by (rewrite E; field; lra).
  assert (U : (a + 1 + 2 * b * y) ^ 2 <= 6 * b + 1) by (assert (0 < a + 1 + 2 * b * y < r) by nra; nra).
  apply Rmult_le_pos; [left; apply exp_pos|]. apply Rdiv_nonneg; auto. apply Rmult_le_pos; [nra|lra].
Qed.
End Std.

Ltac start := unfold pdf, logpdf, cdf, sf, invcdf, invsf, support, mode, mean, var, validate, validate_p, coef.
Section P.
Variables a b : R.
Hypothesis A : 0 < a.
Hypothesis B : 0 < b.
Hypothesis AB : b <= a * (a + 1) / 2.
Lemma vld {T} `{CanRaise T} (k : T) : validate (Fin a) (Fin b) k = k.
Proof. unfold validate. veval. reflexivity. Qed.
Lemma cdf_fin (x : R) : 1 <= x -> cdf x a b = Fin (F a b x) /\ sf x a b = Fin (1 - F a b x).
Proof.
  intros X. unfold cdf, sf. rewrite !vld. veval. unfold F, G, Rpower.
  replace (- (a + 1 + b * ln x) * ln x) with (- ((a + 1 + b * ln x) * ln x)) by ring. split; f_equal; ring.
Qed.
Lemma pdf_fin (x : R) : 1 <= x -> pdf x a b = Fin (f a b x).
Proof.
  intros X. unfold pdf, coef. rewrite !vld. veval. unfold f, fz, cf, Rpower.
  replace (- (2 + a + b * ln x) * ln x) with (- ((2 + a + b * ln x) * ln x)) by ring. reflexivity.
Qed.
Lemma cf_nn (x : R) : 1 <= x -> 0 <= cf a b (ln x).
Proof.
  intros [X| <-]; [left; apply cf_pos; auto; apply ln_pos; auto|]. rewrite ln_1. apply cf_0; auto.
Qed.
Lemma logpdf_fin (x : R) : 1 <= x -> 0 < f a b x -> logpdf x a b = Fin (ln (f a b x)).
Proof.
  intros X P. assert (CP : 0 < cf a b (ln x)).
  { destruct (cf_nn x X) as [|E]; auto. unfold f, fz in P. rewrite <- E in P. lra. }
  unfold f, fz. rewrite ln_mult, ln_exp by (auto; apply exp_pos). unfold logpdf, coef. rewrite !vld. unfold cf in *. veval. f_equal.
Qed.
Lemma out (x : R) : x < 1 -> pdf x a b = Fin 0 /\ logpdf x a b = NInf /\ cdf x a b = Fin 0 /\ sf x a b = Fin 1.
Proof. intros X. unfold pdf, logpdf, cdf, sf. rewrite !vld. veval. auto. Qed.
Lemma F_1 : F a b 1 = 0. Proof. unfold F, G. rewrite ln_1, !Rmult_0_r, Ropp_0, exp_0. unfold Rdiv. ring. Qed.
Lemma CERT (fr : (val -> val) -> val * val -> val) : cert (fun x => pdf x a b) (fun x => logpdf x a b) (patch (fun x => cdf x a b) (Fin 1)) (patch (fun x => sf x a b) (Fin 0))
  (fun p => match p with Fin p => Fin (Q a b p) | v => v end) (fun p => match p with Fin p => Fin (Q a b (1 - p)) | v => v end) 1 p_infty (F a b) (f a b) (Q a b).
Proof.
  constructor.
  - constructor.
    + intros x [X _]. simpl in X. unfold patch. apply cdf_fin. lra.
    + intros x X. simpl in X. unfold patch. destruct X as [X| ->]; [apply out; auto|]. destruct (cdf_fin 1 ltac:(lra)) as [E1 E2]. rewrite E1, E2, F_1. split; f_equal; ring.
    + intros x [].
    + unfold patch, cdf, sf. rewrite !vld. veval. auto.
    + auto.
  - apply SM; auto.
  - intros x [X _]. simpl in X. apply ex_derive_cont. apply f_der; auto. lra.
  - apply QU; auto.
  - intros x [X _]. simpl in X. split; [apply pdf_fin; lra|]. apply logpdf_fin; [lra|]. apply f_pos; auto.
  - intros x [X|[]]. simpl in X. split; apply out; auto.
  - auto.
Qed.
Notation K := (CERT (fun _ _ => NaN)).
Lemma compl x : ext x -> x <> PInf -> exists c, 0 <= c <= 1 /\ cdf x a b = Fin c /\ sf x a b = Fin (1 - c).
Proof. apply (patch_compl K). Qed.
Lemma at_inf : cdf PInf a b = NaN /\ sf PInf a b = NaN /\ pdf PInf a b = NaN.
Proof. unfold cdf, sf, pdf, coef. rewrite !vld. veval. unfold scale_inf. veval. unfold scale_inf. veval. auto. Qed.
Lemma mono : (forall x y, ext_le x y -> y <> PInf -> exists u v, cdf x a b = Fin u /\ cdf y a b = Fin v /\ u <= v) /\
  (forall x, ext_le x (Fin 1) -> cdf x a b = Fin 0) /\ filterlim (fun t => toR (cdf (Fin t) a b)) (Rbar_locally p_infty) (locally 1) /\ support a b = Ok (Fin 1, PInf).
Proof. split; [apply (patch_mono K)|]. split; [apply (patch_low K)|]. split; [apply (patch_lim K)|]. unfold support. rewrite vld. auto. Qed.
Lemma density : density_of (fun x => cdf x a b) (fun x => pdf x a b) 1 p_infty.
Proof. exact (cert_density K). Qed.
Lemma mass : total_mass_one (fun x => pdf x a b) 1 p_infty.
Proof. exact (cert_total_mass K). Qed.
Lemma log_all (x : R) : log_of (fun x => pdf x a b) (fun x => logpdf x a b) x.
Proof.
  revert x. apply (cert_log_ends K); intros x E; [|discriminate]. injection E as E; subst x.
  destruct (cf_nn 1 ltac:(lra)) as [P|E].
  - left. exists (f a b 1). assert (0 < f a b 1) by (apply Rmult_lt_0_compat; auto; apply exp_pos). split; auto. split; [apply pdf_fin; lra|apply logpdf_fin; auto; lra].
  - right. left. assert (Z : f a b 1 = 0) by (unfold f, fz; rewrite <- E; ring). split; [rewrite pdf_fin, Z by lra; auto|].
    unfold logpdf, coef. rewrite vld. veval. fold (cf a b (ln 1)). rewrite <- E. veval. reflexivity.
Qed.
Lemma zl_fin (w : R) : w < 0 -> zlow a b w = Fin (zl a b w) /\ zhigh a b w = Fin (zh a b w) /\ (forall z, 0 <= z -> zeqn a b w (Fin z) = Fin (eqn a b w z)).
Proof.
  intros W. assert (D1 : 0 <= (a + 1) ^ 2 - 4 * b * w) by nra. assert (D2 : 0 <= (a + 1 - 2 * b / a) ^ 2 - 4 * b * w) by (pose proof (pow2_ge_0 (a + 1 - 2 * b / a)); nra).
  unfold zlow, zhigh. split; [|split].
  - veval. reflexivity.
  - veval. reflexivity.
  - intros z Z. assert (0 <= 2 * b / a * z) by (apply Rmult_le_pos; auto; left; apply Rdiv_pos; lra). unfold zeqn. veval. reflexivity.
Qed.
Lemma zeqn_dom (w z y : R) : zeqn a b w (Fin z) = Fin y -> eqn a b w z = y.
Proof.
  unfold zeqn, eqn. veval. destruct (Rlt_le_dec 0 (1 + 2 * b / a * z)) as [P|P]; [veval; congruence|].
  destruct P as [P|P]; [|rewrite P]; unfold vlog; [rewrite Rltb_false, Reqb_false by lra|rewrite Rltb_false, Reqb_true by lra]; simpl; discriminate.
Qed.
Lemma inv_gen (w : R) (g : val -> val) p : w < 0 -> (forall x, 1 < x -> g (Fin x) = Fin p <-> G a b (ln x) = exp w) ->
  exists q, inside 1 p_infty q /\ g (Fin q) = Fin p /\ (forall x, inside 1 p_infty x -> g (Fin x) = Fin p -> x = q) /\
    (forall findroot, checked_solver findroot -> forall x, inside 1 p_infty x -> vexp (findroot (zeqn a b w) (zlow a b w, zhigh a b w)) = Fin x -> x = q) /\
    (forall findroot, bracket_solver findroot -> vexp (findroot (zeqn a b w) (zlow a b w, zhigh a b w)) = Fin q).
Proof.
  intros W HG. destruct (eqn_root a b A B AB w W) as [z [Z [ZB E]]]. destruct (zl_fin w W) as [E1 [E2 E3]]. rewrite E1, E2.
  assert (UN : forall y, 0 < y -> G a b y = exp w -> y = z).
  { intros y Y EY. destruct (Rtotal_order y z) as [L|[L|L]]; auto; exfalso; [pose proof (G_decr a b A B AB y z ltac:(lra) L)|pose proof (G_decr a b A B AB z y ltac:(lra) L)]; lra. }
  assert (X1 : 1 < exp z) by (apply exp_gt_1; auto).
  exists (exp z). split; [split; simpl; auto|]. split; [apply HG; auto; rewrite ln_exp; auto|]. split; [|split].
  - intros x [X _] EX. simpl in X. apply HG in EX; auto. rewrite <- (UN _ (ln_pos x X) EX), exp_ln; auto. lra.
  - intros fr CS x [X _] EX. simpl in X. destruct (fr _ _) as [r| | | |] eqn:FR; try discriminate; injection EX as EX; [|lra].
    apply CS in FR. apply zeqn_dom in FR. assert (0 < r) by (rewrite <- (ln_exp r), EX; apply ln_pos; auto).
    rewrite <- EX. f_equal. apply UN; auto. apply (eqn_G a b A B w r); [lra|auto].
  - intros fr BS. destruct (bracket a b A B AB w W) as [L [H [EL EH]]]. pose proof (zl_zh a b A B AB w W) as LH.
    destruct (BS (zeqn a b w) (eqn a b w) (zl a b w) (zh a b w) LH) as [r [FR [RB R0]]].
    + intros x X. apply E3. lra.
    + intros x X. apply eqn_cont; auto. lra.
    + right. lra.
    + rewrite FR. simpl. do 2 f_equal. apply UN; [lra|]. apply (eqn_G a b A B w r); [lra|auto].
Qed.
Lemma inv_cdf : inverts (fun x => cdf x a b) (fun fr p => invcdf fr p a b) 1 p_infty.
Proof.
  intros p P. destruct (inv_gen (ln (1 - p)) (fun x => cdf x a b) p) as [q H]; [apply ln_neg; lra| |].
  - intros x X. rewrite (proj1 (cdf_fin x ltac:(lra))), exp_ln by lra. unfold F. split; [intros H; injection H; lra|intros ->; f_equal; ring].
  - exists q. destruct H as [H1 [H2 [H3 [H4 H5]]]]. split; auto. split; auto. split; auto.
    assert (EV : forall fr, invcdf fr p a b = vexp (fr (zeqn a b (ln (1 - p))) (zlow a b (ln (1 - p)), zhigh a b (ln (1 - p))))).
    { intros fr. unfold invcdf, validate_p. rewrite vld. assert (E : vlog1p (- Fin p) = Fin (ln (1 - p))) by (veval; try reflexivity; do 2 f_equal; ring). rewrite E. veval. reflexivity. }
    split; intros fr; rewrite EV; [apply H4|apply H5].
Qed.
Lemma inv_sf : inverts (fun x => sf x a b) (fun fr p => invsf fr p a b) 1 p_infty.
Proof.
  intros p P. destruct (inv_gen (ln p) (fun x => sf x a b) p) as [q H]; [apply ln_neg; lra| |].
  - intros x X. rewrite (proj2 (cdf_fin x ltac:(lra))), exp_ln by lra. unfold F. split; [intros H; injection H; lra|intros ->; f_equal; ring].
  - exists q. destruct H as [H1 [H2 [H3 [H4 H5]]]]. split; auto. split; auto. split; auto.
    assert (EV : forall fr, invsf fr p a b = vexp (fr (zeqn a b (ln p)) (zlow a b (ln p), zhigh a b (ln p)))).
    { intros fr. unfold invsf, validate_p. rewrite vld. assert (E : vlog (Fin p) = Fin (ln p)) by (veval; try reflexivity; do 2 f_equal; ring). rewrite E. veval. reflexivity. }
    split; intros fr; rewrite EV; [apply H4|apply H5].
Qed.
Lemma ends fr : rejects_bad_p (fun p => invcdf fr p a b) /\ rejects_bad_p (fun p => invsf fr p a b) /\
  at_ends (fun p => invcdf fr p a b) (Fin 1) PInf /\ at_ends (fun p => invsf fr p a b) PInf (Fin 1).
Proof.
  split; [|split; [|split]].
  - split; [intros p [H|H]|split]; start; veval; reflexivity.
  - split; [intros p [H|H]|split]; start; veval; reflexivity.
  - unfold at_ends, invcdf, validate_p. rewrite !vld. veval. auto.
  - unfold at_ends, invsf, validate_p. rewrite !vld. veval. auto.
Qed.
Lemma mode_ok : is_mode (fun x => pdf x a b) (mode a b).
Proof.
  assert (M : exists m, 0 <= m /\ mode a b = Fin (exp m) /\ (a * (a + 2) / 6 < b /\ m = (- (a + 1) + sqrt (6 * b + 1)) / (2 * b) \/ b <= a * (a + 2) / 6 /\ m = 0)).
  { destruct (Rlt_le_dec (a * (a + 2) / 6) b) as [L|L].
    - exists ((- (a + 1) + sqrt (6 * b + 1)) / (2 * b)). split; [|split; [unfold mode; rewrite vld; veval; reflexivity|auto]].
      apply Rdiv_nonneg; [|lra]. pose proof (sqrt_pos (6 * b + 1)). pose proof (sqrt_sqrt (6 * b + 1) ltac:(lra)). set (r := sqrt (6 * b + 1)) in *. nra.
    - exists 0. split; [lra|]. split; [unfold mode; rewrite vld; veval; rewrite exp_0; reflexivity|auto]. }
  destruct M as [m [M0 [E D]]]. pose proof (exp_ge_1 m M0) as X1. exists (exp m), (f a b (exp m)). split; auto. split; [apply pdf_fin; auto|].
  assert (MM : forall x, 1 <= x -> f a b x <= f a b (exp m)).
  { intros x X. unfold f. rewrite ln_exp. apply fz_max; auto. destruct X as [X| <-]; [left; apply ln_pos; auto|rewrite ln_1; lra]. }
  intros x. destruct (Rlt_le_dec x 1) as [L|L].
  - exists 0. split; [apply out; auto|]. pose proof (MM 2 ltac:(lra)). pose proof (f_pos a b A B AB 2 ltac:(lra)). lra.
  - exists (f a b x). split; [apply pdf_fin; auto|auto].
Qed.
Definition MM (n : nat) : R := match n with 0 => 1 | 1 => 1 + 1 / a | _ => m2 a b end.
Lemma MM_ok n : (n <= 2)%nat -> integrates_to (fun x => x ^ n * f a b x) 1 p_infty (MM n).
Proof.
  intros N. assert (LT : Rbar_lt 1 p_infty) by exact I. destruct n as [|[|[|]]]; [| | |lia].
  - apply (integrates_ext 1 p_infty LT (f a b)); [intros; simpl; ring|].
    apply (integrates_ext 1 p_infty LT (fun t => toR (pdf (Fin t) a b))); [|apply mass]. intros x [X _]. simpl in X. rewrite pdf_fin by lra. auto.
  - apply (integrates_ext 1 p_infty LT (fun x => x * f a b x)); [intros; simpl; ring|]. apply m1_ok; auto.
  - apply m2_ok; auto.
Qed.
Lemma PDF x : inside 1 p_infty x -> pdf (Fin x) a b = Fin (f a b x).
Proof. intros [H _]. simpl in H. apply pdf_fin. lra. Qed.
Lemma mean_val : mean a b = Fin (1 + 1 / a). Proof. unfold mean. rewrite vld. veval. reflexivity. Qed.
Lemma mean_ok : mean_is (fun x => pdf x a b) 1 p_infty (mean a b).
Proof.
  apply (raw_mean_is 1 p_infty (fun x => pdf x a b) (f a b) MM 2 I PDF MM_ok); [lia|]. apply mean_val.
Qed.
Lemma var_ok : var_is (fun x => pdf x a b) 1 p_infty (mean a b) (var a b).
Proof.
  apply (raw_var_is 1 p_infty (fun x => pdf x a b) (f a b) MM 2 I PDF MM_ok eq_refl); [lia|apply mean_val|].
  pose proof (sb b B) as S. pose proof PI_RGT_0 as PP. pose proof (sqrt_sqrt b ltac:(lra)) as SS. unfold var. rewrite vld. change vpi with (Fin PI).
  assert (0 < a ^ 2 * sqrt b) by (apply Rmult_lt_0_compat; auto; apply pow_lt; auto).
  veval. unfold verfc. veval. fold (tt a b). f_equal. unfold mvar, MM, m2, Kc. field. lra.
Qed.
Lemma nll_ok xs : (forall x, In x xs -> 1 <= x) -> nll (map Fin xs) a b = vneg (loglik (fun x => logpdf x a b) xs).
Proof.
  intros H. unfold nll. rewrite vld, vxb_pass.
  - unfold loglik. rewrite map_map. reflexivity.
  - intros x I. split; simpl; auto.
Qed.
Lemma nll_bad xs : (exists x, In x xs /\ x < 1) -> nll (map Fin xs) a b = Exc ValueError.
Proof. intros H. unfold nll. rewrite vxb_low; auto. Qed.
End P.
Lemma bad_params (a b : val) : isnum a -> isnum b -> nonpositive a \/ nonpositive b \/ (exists x y : R, a = Fin x /\ b = Fin y /\ 0 < x /\ 0 < y /\ x * (x + 1) / 2 < y) ->
  support a b = Err ValueError /\
  always_ValueError [ fun x => pdf x a b; fun x => logpdf x a b; fun x => cdf x a b; fun x => sf x a b;
    fun p => invcdf (fun _ _ => NaN) p a b; fun p => invsf (fun _ _ => NaN) p a b; fun _ => mode a b; fun _ => mean a b; fun _ => var a b ].
Proof.
  intros N1 N2 D. assert (V : forall (T : Type) (CR : CanRaise T) (k : T), validate a b k = raise ValueError).
  { intros T CR k. unfold validate. destruct D as [D|[D|[x [y [-> [-> [X [Y D]]]]]]]].
    - exact (vp_bad a _ D).
    - exact (vp_pass a _ N1 (vp_bad b _ D)).
    - veval. reflexivity. }
  unfold support, pdf, logpdf, cdf, sf, invcdf, invsf, mode, mean, var. split; [apply V|]. all_ve; intros x Hx; try (apply vpp_pass; auto); apply V.
Qed.
(** The likelihood equations. *)
Lemma der_rsum (f f' : R -> R -> R) t (ys : list R) : (forall x, In x ys -> is_derive (f x) t (f' x t)) -> is_derive (fun t => rsum (map (fun x => f x t) ys)) t (rsum (map (fun x => f' x t) ys)).
Proof.
  induction ys as [|y ys IH]; intros H; [apply (is_derive_const 0)|]. cbn [map]. rewrite rsum_cons. apply (is_derive_ext (fun t => f y t + rsum (map (fun x => f x t) ys))); [intros; rewrite rsum_cons; auto|].
  apply (is_derive_plus (f y) (fun t => rsum (map (fun x => f x t) ys))); [apply H; left; auto|apply IH; intros; apply H; right; auto].
Qed.
Definition t2 (a b L : R) := a ^ 2 + 4 * a * b * L + a + 4 * b ^ 2 * L ^ 2 + 2 * b * L - 2 * b.
Lemma t2_pos a b L : 0 < a -> 0 < b -> b < a * (a + 1) / 2 -> 0 <= L -> 0 < t2 a b L.
Proof. intros A B AB Z. unfold t2. assert (0 <= b * L) by nra. assert (0 <= a * b * L) by nra. assert (0 <= b ^ 2 * L ^ 2) by nra. nra. Qed.
Lemma nll_val a b xs : 0 < a -> 0 < b -> b < a * (a + 1) / 2 -> (forall x, In x xs -> 1 <= x) ->
  nll (map Fin xs) a b = Fin (- rsum (map (fun x => ln (t2 a b (ln x)) - ln a - (2 + a + b * ln x) * ln x) xs)).
Proof.
  intros A B AB H. rewrite nll_ok by (auto; lra). unfold loglik. rewrite (vfsum_map _ (fun x => ln (t2 a b (ln x)) - ln a - (2 + a + b * ln x) * ln x)); auto.
  intros x I. pose proof (H x I) as X. assert (L : 0 <= ln x) by (destruct X as [X| <-]; [left; apply ln_pos; auto|rewrite ln_1; lra]).
  pose proof (t2_pos a b (ln x) A B AB L) as T. assert (CE : cf a b (ln x) = t2 a b (ln x) / a) by (unfold cf, t2; field; lra).
  assert (CP : 0 < cf a b (ln x)) by (rewrite CE; apply Rdiv_pos; auto).
  rewrite logpdf_fin; auto; try lra.
  - unfold f, fz. rewrite ln_mult, ln_exp, CE, ln_div by (auto; apply exp_pos). f_equal.
  - unfold f, fz. apply Rmult_lt_0_compat; auto. apply exp_pos.
Qed.
Lemma eqns_ok a b xs : 0 < a -> 0 < b -> b < a * (a + 1) / 2 -> (forall x, In x xs -> 1 <= x) ->
  exists u v, mle_eqns (map Fin xs) a b = (Fin u, Fin v) /\
    is_derive (fun t => toR (nll (map Fin xs) (Fin t) (Fin b))) a (- u) /\ is_derive (fun t => toR (nll (map Fin xs) (Fin a) (Fin t))) b (- v).
Proof.
  intros A B AB H. assert (LN : forall x, In x xs -> 0 <= ln x) by (intros x I; destruct (H x I) as [X| <-]; [left; apply ln_pos; auto|rewrite ln_1; lra]).
  assert (LV : forall x, In x xs -> vlog (Fin x) = Fin (ln x)) by (intros x I; pose proof (H x I); veval; reflexivity).
  exists (rsum (map (fun x => (2 * a + 4 * b * ln x + 1) / t2 a b (ln x) - ln x - 1 / a) xs)), (rsum (map (fun x => ((2 * a + 4 * b * ln x + 1) * 2 * ln x - 2) / t2 a b (ln x) - ln x ^ 2) xs)).
  split; [|split].
  - unfold mle_eqns. f_equal.
    + rewrite !map_map, map_length. rewrite (vfsum_map _ (fun x => (2 * a + 4 * b * ln x + 1) / t2 a b (ln x) - ln x)).
      * veval. f_equal. rewrite !rsum_minus, rsum_const. field. lra.
      * intros x I. rewrite LV by auto. pose proof (t2_pos a b (ln x) A B AB (LN x I)). unfold t2 in *. veval. reflexivity.
    + rewrite !map_map. rewrite (vfsum_map _ (fun x => ((2 * a + 4 * b * ln x + 1) * 2 * ln x - 2) / t2 a b (ln x) - ln x ^ 2)); auto.
      intros x I. rewrite LV by auto. pose proof (t2_pos a b (ln x) A B AB (LN x I)). unfold t2 in *. veval. reflexivity.
  - apply (is_derive_ext_loc (fun t => - rsum (map (fun x => ln (t2 t b (ln x)) - ln t - (2 + t + b * ln x) * ln x) xs))).
    + assert (D : exists e : posreal, forall t, Rabs (t - a) < e -> 0 < t /\ b < t * (t + 1) / 2).
      { set (d := a * (a + 1) / 2 - b). assert (0 < d / (a + 1)) by (apply Rdiv_pos; unfold d; lra).
        assert (E0 : 0 < Rmin (a / 2) (d / (a + 1))) by (apply Rmin_glb_lt; lra). exists (mkposreal _ E0). simpl. intros t T. apply Rabs_def2 in T.
        pose proof (Rmin_l (a / 2) (d / (a + 1))). pose proof (Rmin_r (a / 2) (d / (a + 1))). assert (T1 : a / 2 < t) by lra. split; [lra|].
        assert (T2 : a - d / (a + 1) < t) by lra. assert (E1 : d / (a + 1) * (a + 1) = d) by (field; lra). set (e := d / (a + 1)) in *.
        destruct (Rle_lt_dec a t); [unfold d in *; nra|]. unfold d in E1. assert (0 < a - t < e) by lra. nra. }
      destruct D as [e D]. exists e. intros t T. unfold ball in T; simpl in T; unfold AbsRing_ball, abs, minus, plus, opp in T; simpl in T.
      destruct (D t T) as [T1 T2]. rewrite nll_val by auto. reflexivity.
    + apply (is_derive_opp (fun t => rsum (map (fun x => ln (t2 t b (ln x)) - ln t - (2 + t + b * ln x) * ln x) xs))).
      apply (der_rsum (fun x t => ln (t2 t b (ln x)) - ln t - (2 + t + b * ln x) * ln x) (fun x t => (2 * t + 4 * b * ln x + 1) / t2 t b (ln x) - ln x - 1 / t)).
      intros x I. pose proof (t2_pos a b (ln x) A B AB (LN x I)) as T. unfold t2 in *. auto_derive; [repeat split; auto; nra|]. field. split; [lra|]. nra.
  - apply (is_derive_ext_loc (fun t => - rsum (map (fun x => ln (t2 a t (ln x)) - ln a - (2 + a + t * ln x) * ln x) xs))).
    + assert (E0 : 0 < Rmin b (a * (a + 1) / 2 - b)) by (apply Rmin_glb_lt; lra). exists (mkposreal _ E0). intros t T. unfold ball in T; simpl in T; unfold AbsRing_ball, abs, minus, plus, opp in T; simpl in T.
      apply Rabs_def2 in T. pose proof (Rmin_l b (a * (a + 1) / 2 - b)). pose proof (Rmin_r b (a * (a + 1) / 2 - b)).
      rewrite nll_val by (auto; lra). reflexivity.
    + apply (is_derive_opp (fun t => rsum (map (fun x => ln (t2 a t (ln x)) - ln a - (2 + a + t * ln x) * ln x) xs))).
      apply (der_rsum (fun x t => ln (t2 a t (ln x)) - ln a - (2 + a + t * ln x) * ln x) (fun x t => ((2 * a + 4 * t * ln x + 1) * 2 * ln x - 2) / t2 a t (ln x) - ln x ^ 2)).
      intros x I. pose proof (t2_pos a b (ln x) A B AB (LN x I)) as T. unfold t2 in *. auto_derive; [repeat split; auto; nra|]. field. nra.
Qed.
Lemma cif_ok {T} c e (k : res T) v : cif c (Err e) k = Ok v -> c = CB false /\ k = Ok v.
Proof. destruct c as [[]|]; simpl; try discriminate; auto. Qed.
Lemma bindv_ok {T} v (k : val -> res T) r : bindv v k = Ok r -> k v = Ok r.
Proof. destruct v; simpl; auto. discriminate. Qed.
Lemma mle_valid fr xs a0 b0 (a b : R) : checked_solver2 fr -> mle fr xs a0 b0 = Ok (Fin a, Fin b) ->
  0 < a /\ 0 < b <= a * (a + 1) / 2 /\ mle_eqns xs a b = (Fin 0, Fin 0).
Proof.
  intros CS. unfold mle, validate_x_bounds. intros H. apply cif_ok in H. destruct H as [_ H]. apply cif_ok in H. destruct H as [_ H].
  apply bindv_ok, bindv_ok in H. unfold validate in H. apply cif_ok in H. destruct H as [_ H]. apply cif_ok in H. destruct H as [_ H]. apply cif_ok in H. destruct H as [_ H].
  match type of H with bind ?v _ = _ => destruct v as [[ah bh]|] eqn:FR end; cbn [bind] in H; [|discriminate].
  apply cif_ok in H; destruct H as [C1 H]; apply cif_ok in H; destruct H as [C2 H]; apply cif_ok in H; destruct H as [C3 H]; injection H as -> ->.
  apply CS in FR. assert (C4 : cgt (Fin b) (Fin (a * (a + 1) / 2)) = CB false) by (rewrite <- C3; f_equal; veval; reflexivity).
  cbn in C1, C2, C4. injection C1 as C1; injection C2 as C2; injection C4 as C4. revert C1 C2 C4. unfold Rleb, Rltb.
  destruct (Rle_dec a 0), (Rle_dec b 0), (Rlt_dec (a * (a + 1) / 2) b); intros; try discriminate; repeat split; auto; lra.
Qed.
