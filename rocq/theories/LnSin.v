(** The integral of log sin over (0, pi/2) is -(pi/2) log 2. *)
From Coq Require Import Reals Lra List.
From Coquelicot Require Import Coquelicot.
From Verif Require Import Values Spec RLib DistLib LimLib IntLib.
Local Open Scope R_scope.
Set Bullet Behavior "Strict Subproofs".

Definition lsin (t : R) := ln (sin t).
(** A primitive of log sin on (0, pi), zero at pi/2. *)
Definition LS (t : R) := RInt lsin (PI / 2) t.
Lemma sin_in t : 0 < t < PI -> 0 < sin t. Proof. intros. apply sin_gt_0; lra. Qed.
Lemma lsin_cont t : 0 < t < PI -> continuous lsin t.
Proof. intros H. pose proof (sin_in t H). apply ex_derive_cont. unfold lsin. auto_derive. auto. Qed.
Lemma half_in : 0 < PI / 2 < PI. Proof. pose proof PI_RGT_0. lra. Qed.
Lemma LS_der t : 0 < t < PI -> is_derive LS t (lsin t).
Proof.
  intros H. assert (I : inside 0 PI t) by (split; simpl; lra). pose proof half_in.
  apply (prim_der 0 PI lsin (PI / 2)); [split; simpl; lra| |auto]. intros x [X1 X2]. apply lsin_cont. simpl in *. lra.
Qed.
Lemma LS_half : LS (PI / 2) = 0.
Proof. unfold LS. apply (RInt_point (V := R_CompleteNormedModule)). Qed.
Lemma const_on (G : R -> R) a b : (forall t, a < t < b -> is_derive G t 0) -> forall x y, a < x < b -> a < y < b -> G x = G y.
Proof.
  intros D x y X Y. destruct (MVT_gen G x y (fun _ => 0)) as [c [_ E]].
  - intros t T. apply D. unfold Rmin, Rmax in T. destruct (Rle_dec x y); lra.
  - intros t T. apply continuity_pt_filterlim. apply (ex_derive_continuous (V := R_NormedModule)). exists 0. apply D.
    unfold Rmin, Rmax in T. destruct (Rle_dec x y); lra.
  - lra.
Qed.
Lemma LS_refl t : 0 < t < PI -> LS (PI - t) = - LS t.
Proof.
  intros H. cut (LS (PI - t) + LS t = LS (PI - PI / 2) + LS (PI / 2)).
  { replace (PI - PI / 2) with (PI / 2) by field. rewrite LS_half. lra. }
  apply (const_on (fun t => LS (PI - t) + LS t) 0 PI); auto using half_in. intros x X. evar_last.
  - apply (is_derive_plus (fun t => LS (PI - t)) LS).
    + apply (is_derive_comp LS (fun t => PI - t)); [apply LS_der; lra|]. auto_derive; auto.
    + apply LS_der; auto.
  - unfold plus, scal; simpl; unfold mult; simpl. unfold lsin. rewrite (sin_PI_x x). ring.
Qed.
Lemma LS_double t : 0 < t < PI / 2 -> LS (2 * t) - 2 * (t * ln 2 + LS t - LS (PI / 2 - t)) = - (PI / 2) * ln 2.
Proof.
  intros H. pose proof half_in.
  assert (E : LS (2 * t) - 2 * (t * ln 2 + LS t - LS (PI / 2 - t)) = LS (2 * (PI / 4)) - 2 * (PI / 4 * ln 2 + LS (PI / 4) - LS (PI / 2 - PI / 4))).
  { apply (const_on (fun t => LS (2 * t) - 2 * (t * ln 2 + LS t - LS (PI / 2 - t))) 0 (PI / 2)); auto; [|lra]. intros x X.
    evar_last.
    - apply (is_derive_minus (fun t => LS (2 * t)) (fun t => 2 * (t * ln 2 + LS t - LS (PI / 2 - t)))).
      + apply (is_derive_comp LS (fun t => 2 * t)); [apply LS_der; lra|]. auto_derive; auto.
      + apply is_derive_scal. apply (is_derive_minus (fun t => t * ln 2 + LS t) (fun t => LS (PI / 2 - t))).
        * apply (is_derive_plus (fun t => t * ln 2) LS); [auto_derive; auto|apply LS_der; lra].
        * apply (is_derive_comp LS (fun t => PI / 2 - t)); [apply LS_der; lra|]. auto_derive; auto.
    - unfold minus, plus, opp, scal; simpl; unfold mult; simpl. unfold lsin.
      rewrite sin_shift.
      pose proof (cos_gt_0 x ltac:(lra) ltac:(lra)). pose proof (sin_in x ltac:(lra)).
      rewrite sin_2a, !ln_mult by lra. ring. }
  rewrite E. replace (2 * (PI / 4)) with (PI / 2) by field. replace (PI / 2 - PI / 4) with (PI / 4) by field. rewrite LS_half. field.
Qed.
Lemma sin_half t : 0 < t < 1 -> t / 2 <= sin t.
Proof.
  intros T. destruct (MVT_gen sin 0 t cos) as [c [C E]].
  - intros x _. auto_derive; auto. ring.
  - intros x _. apply continuity_pt_filterlim. apply (ex_derive_continuous (V := R_NormedModule)). auto_derive; auto.
  - rewrite Rmin_left, Rmax_right in C by lra. rewrite sin_0 in E. assert (1 / 2 <= cos c); [|nra].
    rewrite <- cos_PI3. pose proof PI2_3_2. apply cos_decr_1; lra.
Qed.
Lemma tln_bound t : 0 < t < 1 -> - 1 <= t * ln t.
Proof.
  intros T. pose proof (ln_ineq (/ t) ltac:(apply Rinv_0_lt_compat; lra)) as L. rewrite ln_Rinv in L by lra.
  assert (t * / t = 1) by (field; lra). nra.
Qed.
Lemma LS_lim0 : filterlim LS (at_right 0) (locally (PI / 2 * ln 2)).
Proof.
  pose proof half_in. pose proof PI2_3_2.
  assert (EX : exists L, filterlim (fun t => - LS t) (at_right 0) (locally L)).
  { assert (M : forall x y, inside 0 1 x -> inside 0 1 y -> x <= y -> - LS x <= - LS y).
    { intros x y X Y XY. apply (nonneg_between 0 1 (fun t => - LS t) (fun t => - lsin t)); auto. intros t T.
      destruct X as [X1 X2], Y as [Y1 Y2]. simpl in *. split; [apply (is_derive_opp LS), LS_der; lra|].
      pose proof (sin_in t ltac:(lra)). assert (ln (sin t) <= ln 1); [|rewrite ln_1 in *; unfold lsin; lra].
      apply ln_le_compat; auto. apply SIN_bound. }
    assert (C : inside 0 1 (1 / 2)) by (split; simpl; lra).
    destruct (mono_lo 0 1 (fun t => - LS t) (1 / 2) C M (- LS (1 / 2) - 3)) as [L [HL _]]; [|exists L; exact HL].
    intros x X XC. destruct X as [X1 X2]. simpl in X1, X2.
    pose proof (nonneg_between 0 1 (fun t => LS t - (t * ln t - t - t * ln 2)) (fun t => lsin t - (ln t - ln 2)) x (1 / 2)) as N.
    cbv beta in N. assert (N' : LS x - (x * ln x - x - x * ln 2) <= LS (1 / 2) - (1 / 2 * ln (1 / 2) - 1 / 2 - 1 / 2 * ln 2)).
    { apply N; [split; simpl; lra|auto|lra|]. intros t T. split.
      - apply (is_derive_minus LS (fun t => t * ln t - t - t * ln 2)); [apply LS_der; lra|]. auto_derive; [lra|]. field. lra.
      - unfold lsin. rewrite <- ln_div by lra. pose proof (ln_le_compat (t / 2) (sin t) ltac:(lra) (sin_half t ltac:(lra))). lra. }
    pose proof (tln_bound (1 / 2) ltac:(lra)). assert (0 < ln 2) by (apply ln_pos; lra).
    assert (x * ln x <= 0) by (pose proof (ln_neg x ltac:(lra)); nra).
    assert (ln 2 <= 1) by (pose proof (ln_ineq 2 ltac:(lra)); lra). nra. }
  destruct EX as [L HL]. assert (HL' : filterlim LS (at_right 0) (locally (- L))).
  { apply (flim_eq (at_right 0) (fun t => - - LS t)); [apply filter_forall; intros; ring|]. apply flim_opp; auto. }
  assert (E : - L - 2 * (0 * ln 2 + - L - 0) = - (PI / 2) * ln 2).
  { pose proof (at_right_proper_filter 0) as PF.
    apply (filterlim_locally_unique (F := at_right 0) (fun t => LS (2 * t) - 2 * (t * ln 2 + LS t - LS (PI / 2 - t)))).
    - apply flim_minus; [apply PF| |].
      + apply (filterlim_comp _ _ _ (fun t => 2 * t) LS (at_right 0) (at_right 0)); auto.
        intros P [e He]. exists (mkposreal (e / 2) ltac:(pose proof (cond_pos e); lra)). intros y B Y. apply He; [|lra].
        unfold ball in *; simpl in *; unfold AbsRing_ball, abs, minus, plus, opp in *; simpl in *.
        apply Rabs_def2 in B. apply Rabs_def1; lra.
      + apply flim_scal; [apply PF|]. apply flim_minus; [apply PF| |].
        * apply flim_plus; [apply PF| |exact HL']. apply (flim_right (fun t => t * ln 2) 0). apply ex_derive_cont. auto_derive; auto.
        * replace 0 with (LS (PI / 2 - 0)) at 2 by (rewrite Rminus_0_r; apply LS_half).
          apply (flim_right (fun t => LS (PI / 2 - t)) 0). apply ex_derive_cont. eexists.
          apply (is_derive_comp LS (fun t => PI / 2 - t)); [apply LS_der; lra|]. auto_derive; auto.
    - apply (flim_eq (at_right 0) (fun _ => - (PI / 2) * ln 2)); [|apply flim_const; apply PF].
      generalize (right_lt 0 (PI / 2) ltac:(lra)). apply filter_imp. intros t T. symmetry. apply LS_double; auto. }
  replace (PI / 2 * ln 2) with (- L) by lra. auto.
Qed.
Lemma LS_limPI : filterlim LS (at_left PI) (locally (- (PI / 2 * ln 2))).
Proof.
  pose proof half_in. apply (flim_eq (at_left PI) (fun t => - LS (PI - t))).
  - generalize (left_gt 0 PI ltac:(lra)). apply filter_imp. intros t T. rewrite LS_refl by auto. ring.
  - apply flim_opp.
    apply (filterlim_comp _ _ _ (fun t => PI - t) LS (at_left PI) (at_right 0)); [|apply LS_lim0].
    intros P [e He]. exists e. intros y B Y. apply He; [|lra].
    unfold ball in *; simpl in *; unfold AbsRing_ball, abs, minus, plus, opp in *; simpl in *. apply Rabs_def2 in B. apply Rabs_def1; lra.
Qed.
