(** The second moment of the standard logistic law, from logarithmic moments of the uniform law. *)
From Coq Require Import Reals Lra Lia List.
From Coquelicot Require Import Coquelicot.
From Verif Require Import Values VTac Spec RLib LimLib DistLib DistLS IntLib SubLib MomLib SFun GammaLib GammaLib3 GammaLib4 IncLib LogMom BetaLib TrigLib.
Local Open Scope R_scope.
Set Bullet Behavior "Strict Subproofs".

Lemma bf_h h z : 0 < h + 1 -> 0 < z < 1 -> bf (h + 1) 1 z = (h + 1) * Rpower z h.
Proof.
  intros H Z. unfold bf, beta_kernel. rewrite Beta_1 by auto. replace (h + 1 - 1) with h by ring. replace (1 - 1) with 0 by ring.
  rewrite Rpower_O by lra. field. lra.
Qed.
Lemma neg_ln_pos z : 0 < z < 1 -> 0 < - ln z.
Proof. intros Z. pose proof (ln_increasing z 1 ltac:(lra) ltac:(lra)). rewrite ln_1 in *. lra. Qed.
Lemma neg_ln_le z : 0 < z -> - ln z < 2 * Rpower z (- (1 / 2)).
Proof. intros Z. pose proof (ln_pow_le z (1 / 2) Z ltac:(lra)). lra. Qed.
Lemma cont_pl h z : 0 < z < 1 -> continuous (fun x => Rpower x h * - ln (1 - x)) z /\ continuous (fun x => Rpower x h * - ln x) z.
Proof. intros Z. split; apply ex_derive_cont; unfold Rpower; auto_derive; repeat split; lra. Qed.
Lemma mom_1 h : - (1 / 4) <= h <= 1 / 4 -> exists F, integral_fn 0 1 (fun x => Rpower x h * - ln (1 - x)) F ((digamma (h + 2) - digamma 1) / (h + 1)).
Proof.
  intros H. pose proof (if_scal _ _ _ _ _ 2 ltac:(lra) (Bi (h + 1) (1 / 2) ltac:(lra) ltac:(lra))) as B.
  destruct (if_dom 0 1 (fun x => Rpower x h * - ln (1 - x)) _ _ _ B) as [F [v I]].
  - intros z Z%in01. apply cont_pl; auto.
  - intros z Z%in01. pose proof (neg_ln_pos (1 - z) ltac:(lra)). pose proof (neg_ln_le (1 - z) ltac:(lra)). pose proof (Rpower_pos z h). split; [nra|].
    unfold beta_kernel. replace (h + 1 - 1) with h by ring. replace (1 / 2 - 1) with (- (1 / 2)) by field. nra.
  - exists F. replace ((digamma (h + 2) - digamma 1) / (h + 1)) with v; auto.
    apply (integrates_unique 0 1 lt01 (fun x => Rpower x h * - ln (1 - x))); [apply (if_integral I)|].
    pose proof (integrates_scal _ _ (- / (h + 1)) _ _ (b_ln1 (h + 1) 1 ltac:(lra) ltac:(lra))) as J.
    replace (h + 1 + 1) with (h + 2) in J by ring.
    replace (- / (h + 1) * (digamma 1 - digamma (h + 2))) with ((digamma (h + 2) - digamma 1) / (h + 1)) in J by (field; lra).
    revert J. apply (integrates_ext 0 1 lt01). intros z Z%in01. rewrite bf_h by lra. field. lra.
Qed.
Lemma mom_0 h : - (1 / 4) <= h <= 1 / 4 -> exists F, integral_fn 0 1 (fun x => Rpower x h * - ln x) F (/ (h + 1) ^ 2).
Proof.
  intros H. pose proof (if_scal _ _ _ _ _ 2 ltac:(lra) (Bi (h + 1 / 2) 1 ltac:(lra) ltac:(lra))) as B.
  destruct (if_dom 0 1 (fun x => Rpower x h * - ln x) _ _ _ B) as [F [v I]].
  - intros z Z%in01. apply cont_pl; auto.
  - intros z Z%in01. pose proof (neg_ln_pos z ltac:(lra)). pose proof (neg_ln_le z ltac:(lra)). pose proof (Rpower_pos z h). split; [nra|].
    unfold beta_kernel. replace (h + 1 / 2 - 1) with (h + - (1 / 2)) by field. replace (1 - 1) with 0 by ring. rewrite Rpower_O, Rpower_plus by lra. nra.
  - exists F. replace (/ (h + 1) ^ 2) with v; auto.
    apply (integrates_unique 0 1 lt01 (fun x => Rpower x h * - ln x)); [apply (if_integral I)|].
    pose proof (integrates_scal _ _ (- / (h + 1)) _ _ (b_ln (h + 1) 1 ltac:(lra) ltac:(lra))) as J.
    rewrite (digamma_succ (h + 1)) in J by lra.
    replace (- / (h + 1) * (digamma (h + 1) - (digamma (h + 1) + / (h + 1)))) with (/ (h + 1) ^ 2) in J by (field; lra).
    revert J. apply (integrates_ext 0 1 lt01). intros z Z%in01. rewrite bf_h by lra. field. lra.
Qed.
Lemma w_ok z : 0 < z < 1 -> 0 < - ln z /\ continuous (fun x => - ln x) z /\ 0 < z /\ continuous (fun x : R => x) z.
Proof. intros Z. split; [apply neg_ln_pos; auto|]. split; [apply ex_derive_cont; auto_derive; lra|]. split; [lra|apply continuous_id]. Qed.
Lemma w_ok1 z : 0 < z < 1 -> 0 < - ln (1 - z) /\ continuous (fun x => - ln (1 - x)) z /\ 0 < z /\ continuous (fun x : R => x) z.
Proof. intros Z. split; [apply neg_ln_pos; lra|]. split; [apply ex_derive_cont; auto_derive; lra|]. split; [lra|apply continuous_id]. Qed.
(** E ln^2 U = 2, E ln U ln (1-U) = 2 - pi^2/6. *)
Lemma ln_ln : integrates_to (fun x => ln x * - ln x) 0 1 (-2).
Proof.
  apply (log_mom 0 1 (fun x => - ln x) (fun x => x) (fun h => / (h + 1) ^ 2) (-2) (1 / 4)); [lra| |apply mom_0|].
  - intros z Z%in01. apply w_ok; auto.
  - auto_derive; [lra|]. field.
Qed.
Lemma ln_ln1 : integrates_to (fun x => ln x * - ln (1 - x)) 0 1 (PI ^ 2 / 6 - 2).
Proof.
  apply (log_mom 0 1 (fun x => - ln (1 - x)) (fun x => x) (fun h => (digamma (h + 2) - digamma 1) / (h + 1)) (PI ^ 2 / 6 - 2) (1 / 4)); [lra| |apply mom_1|].
  - intros z Z%in01. apply w_ok1; auto.
  - pose proof (digamma_trigamma 2 ltac:(lra)) as D. replace (PI ^ 2 / 6 - 2) with ((trigamma 2 * (0 + 1) - (digamma 2 - digamma 1)) / (0 + 1) ^ 2).
    + evar_last.
      * apply (is_derive_div (fun h => digamma (h + 2) - digamma 1) (fun h => h + 1) 0 (trigamma 2) 1); [| |lra].
        -- evar_last; [apply (is_derive_minus (fun h => digamma (h + 2)) (fun _ => digamma 1))|].
           ++ apply (is_derive_comp digamma (fun h => h + 2) 0 (trigamma 2) 1); [replace (0 + 2) with 2 by ring; exact D|auto_derive; auto; ring].
           ++ apply is_derive_const.
           ++ unfold minus, plus, opp, scal, zero; simpl; unfold mult; simpl. ring.
        -- auto_derive; auto.
      * replace (0 + 2) with 2 by ring. field.
    + replace 2 with (1 + 1) at 1 2 by ring. rewrite trigamma_succ, digamma_succ, trigamma_1 by lra. field.
Qed.
Lemma RSB : subst 0 1 0 1 (fun x => 1 - x) (fun _ => -1) (fun x => 1 - x).
Proof.
  constructor.
  - simpl; lra.
  - intros x X%in01. split; simpl; lra.
  - intros x _. auto_derive; auto; ring.
  - intros x _. apply continuous_const.
  - intros y Y%in01. split; [split; simpl; lra|ring].
Qed.
Lemma ln1_ln1 : integrates_to (fun x => ln (1 - x) * - ln (1 - x)) 0 1 (-2).
Proof.
  assert (DEC : forall x, inside 0 1 x -> (fun _ : R => -1) x < 0) by (intros; lra).
  assert (C : forall y, inside 0 1 y -> continuous (fun x => ln x * - ln x) y) by (intros y Y%in01; apply ex_derive_cont; auto_derive; lra).
  pose proof (sub_integral_dec RSB DEC (fun x => ln x * - ln x) (-2) C ln_ln) as J. revert J.
  apply (integrates_ext 0 1 lt01). intros x X. cbv beta. ring.
Qed.
Lemma logit2 : integrates_to (fun u => (ln u - ln (1 - u)) ^ 2) 0 1 (PI ^ 2 / 3).
Proof.
  replace (PI ^ 2 / 3) with (-1 * -2 + (-1 * -2 + 2 * (PI ^ 2 / 6 - 2))) by field.
  apply (integrates_ext 0 1 lt01 (fun u => -1 * (ln u * - ln u) + (-1 * (ln (1 - u) * - ln (1 - u)) + 2 * (ln u * - ln (1 - u))))); [intros; ring|].
  apply integrates_plus; [apply integrates_scal, ln_ln|]. apply integrates_plus; apply integrates_scal; [apply ln1_ln1|apply ln_ln1].
Qed.
(** Half of the integral of an even function. *)
Lemma integrates_half (g : R -> R) v : (forall x, continuous g x) -> (forall x, g (- x) = g x) ->
  integrates_to g m_infty p_infty v -> integrates_to g 0 p_infty (v / 2).
Proof.
  intros C E I. set (G := fun x => RInt g 0 x).
  assert (EX : forall a b, ex_RInt g a b) by (intros a b; apply (ex_RInt_continuous (V := R_CompleteNormedModule)); auto).
  assert (D : forall x, is_derive G x (g x)).
  { intros x. apply (is_derive_RInt g G 0 x); auto. apply filter_forall. intros y. apply (RInt_correct (V := R_CompleteNormedModule)), EX. }
  assert (O : forall x, RInt g (- x) x = 2 * G x).
  { intros x. rewrite <- (RInt_Chasles (V := R_CompleteNormedModule) g (- x) 0 x) by apply EX.
    replace (RInt g (- x) 0) with (G x); [unfold plus, G; simpl; ring|].
    pose proof (RInt_correct (V := R_CompleteNormedModule) g (- x) 0 (EX _ _)) as K. set (q := RInt g (- x) 0) in *.
    rewrite <- Ropp_0 in K. apply (is_RInt_comp_opp (V := R_NormedModule)) in K. apply (is_RInt_swap (V := R_NormedModule)) in K.
    apply (is_RInt_opp (V := R_NormedModule)) in K. unfold G. apply (is_RInt_unique (V := R_CompleteNormedModule)).
    unfold opp in K; simpl in K. rewrite Ropp_involutive in K. revert K. apply is_RInt_ext. intros y _. rewrite E. match goal with |- ?u = ?w => change (@eq R u w) end. ring. }
  replace (v / 2) with (v / 2 - 0) by ring. apply (mk_integral g G); simpl; auto.
  - assert (G0 : G 0 = 0) by apply (RInt_point (V := R_CompleteNormedModule)).
    assert (K : filterlim G (at_right 0) (locally (G 0))) by (apply flim_right; apply ex_derive_cont; eexists; apply D). rewrite G0 in K. exact K.
  - intros P HP. assert (H2 : locally v (fun y => P (y / 2))).
    { apply (ex_derive_cont (fun y => y / 2) v); [auto_derive; auto|]. exact HP. }
    destruct (I _ H2) as [A B [M HA] [N HB] HAB]. exists (Rmax (- M) N). intros x X. pose proof (Rmax_l (- M) N). pose proof (Rmax_r (- M) N).
    destruct (HAB (- x) x (HA (- x) ltac:(lra)) (HB x ltac:(lra))) as [y [Y1 Y2]]. simpl in *.
    apply (is_RInt_unique (V := R_CompleteNormedModule)) in Y1. rewrite O in Y1. rewrite <- Y1 in Y2. replace (G x) with (2 * G x / 2) by field. exact Y2.
Qed.
