(** Change of variable: an increasing (or decreasing) bijection between open intervals carries
    integrals and standard distributions along. *)
From Coq Require Import Reals Lra List Bool ZArith.
From Coquelicot Require Import Coquelicot.
From Verif Require Import Values VTac Spec RLib DistLib DistLS IntLib MomLib.
Local Open Scope R_scope.
Set Bullet Behavior "Strict Subproofs".

Lemma near_lo_pt lo hi P : Rbar_lt lo hi -> near_lo lo P -> exists y0, inside lo hi y0 /\ forall y, inside lo hi y -> y <= y0 -> P y.
Proof.
  intros LT H. pose proof (near_lo_inside lo hi LT) as NI.
  destruct lo as [a| |]; simpl in *; [| destruct hi; contradiction |].
  - destruct H as [e He]. destruct NI as [d Hd]. set (m := Rmin e d).
    assert (0 < m) by (apply Rmin_pos; [apply cond_pos|apply cond_pos]).
    pose proof (Rmin_l e d). pose proof (Rmin_r e d). fold m in H1, H0.
    exists (a + m / 2).
    assert (I : inside a hi (a + m / 2)).
    { apply Hd; [|lra]. unfold ball; simpl; unfold AbsRing_ball, abs, minus, plus, opp; simpl.
      replace (a + m / 2 + - a) with (m / 2) by ring. rewrite Rabs_pos_eq by lra. lra. }
    split; auto. intros y [Y1 Y2] L. simpl in Y1. apply He; auto.
    unfold ball; simpl; unfold AbsRing_ball, abs, minus, plus, opp; simpl. rewrite Rabs_pos_eq by lra. lra.
  - destruct H as [M HM]. destruct NI as [M' HM'].
    pose proof (Rmin_l M M'). pose proof (Rmin_r M M').
    exists (Rmin M M' - 1). split; [apply HM'; lra|]. intros y _ L. apply HM. lra.
Qed.
Lemma near_hi_pt lo hi P : Rbar_lt lo hi -> near_hi hi P -> exists y0, inside lo hi y0 /\ forall y, inside lo hi y -> y0 <= y -> P y.
Proof.
  intros LT H. pose proof (near_hi_inside lo hi LT) as NI.
  destruct hi as [a| |]; simpl in *; [| |destruct lo; contradiction].
  - destruct H as [e He]. destruct NI as [d Hd]. set (m := Rmin e d).
    assert (0 < m) by (apply Rmin_pos; [apply cond_pos|apply cond_pos]).
    pose proof (Rmin_l e d). pose proof (Rmin_r e d). fold m in H1, H0.
    exists (a - m / 2).
    assert (I : inside lo a (a - m / 2)).
    { apply Hd; [|lra]. unfold ball; simpl; unfold AbsRing_ball, abs, minus, plus, opp; simpl.
      replace (a - m / 2 + - a) with (- (m / 2)) by ring. rewrite Rabs_Ropp, Rabs_pos_eq by lra. lra. }
    split; auto. intros y [Y1 Y2] L. simpl in Y2. apply He; auto.
    unfold ball; simpl; unfold AbsRing_ball, abs, minus, plus, opp; simpl. rewrite Rabs_left by lra. lra.
  - destruct H as [M HM]. destruct NI as [M' HM'].
    pose proof (Rmax_l M M'). pose proof (Rmax_r M M').
    exists (Rmax M M' + 1). split; [apply HM'; lra|]. intros y _ L. apply HM. lra.
Qed.

(** [phi] is a bijection from (lo', hi') to (lo, hi) with inverse [psi]. *)
Record subst (lo' hi' lo hi : Rbar) (phi dphi psi : R -> R) : Prop := {
  sb_lt : Rbar_lt lo hi;
  sb_in : forall x, inside lo' hi' x -> inside lo hi (phi x);
  sb_der : forall x, inside lo' hi' x -> is_derive phi x (dphi x);
  sb_cont : forall x, inside lo' hi' x -> continuous dphi x;
  sb_inv : forall y, inside lo hi y -> inside lo' hi' (psi y) /\ phi (psi y) = y
}.

Section Sub.
Context {lo' hi' lo hi : Rbar} {phi dphi psi : R -> R}.
Hypothesis SB : subst lo' hi' lo hi phi dphi psi.
Let LT := sb_lt _ _ _ _ _ _ _ SB.
Lemma sub_pt : exists y, inside lo hi y.
Proof. destruct (near_lo_pt lo hi (fun _ => True) LT) as [y [H _]]; [|eauto]. pose proof (near_lo_filter lo). apply filter_true. Qed.
Lemma sb_lt' : Rbar_lt lo' hi'.
Proof.
  destruct sub_pt as [y H]. destruct (sb_inv _ _ _ _ _ _ _ SB y H) as [[A B] _]. eapply Rbar_lt_trans; eauto.
Qed.
Lemma sub_comp_cont (g : R -> R) : (forall y, inside lo hi y -> continuous g y) -> forall x, inside lo' hi' x -> continuous (fun x => g (phi x)) x.
Proof.
  intros C x Hx. apply (continuous_comp phi g); [|apply C, (sb_in _ _ _ _ _ _ _ SB); auto].
  apply ex_derive_cont. exists (dphi x). apply (sb_der _ _ _ _ _ _ _ SB); auto.
Qed.
Lemma sub_RInt (g : R -> R) a b : (forall y, inside lo hi y -> continuous g y) -> inside lo' hi' a -> inside lo' hi' b ->
  is_RInt (fun x => g (phi x) * dphi x) a b (RInt g (phi a) (phi b)).
Proof.
  intros C Ha Hb. apply (is_RInt_ext (fun x => scal (dphi x) (g (phi x)))).
  - intros x _. unfold scal; simpl; unfold mult; simpl. apply Rmult_comm.
  - apply (is_RInt_comp g phi dphi).
    + intros x Hx. apply C. apply (sb_in _ _ _ _ _ _ _ SB). apply (inside_between lo' hi' a b); auto; lra.
    + intros x Hx. assert (inside lo' hi' x) by (apply (inside_between lo' hi' a b); auto; lra).
      split; [apply (sb_der _ _ _ _ _ _ _ SB)|apply (sb_cont _ _ _ _ _ _ _ SB)]; auto.
Qed.

Section Inc.
Hypothesis INC : forall x, inside lo' hi' x -> 0 < dphi x.
Lemma sub_incr x y : inside lo' hi' x -> inside lo' hi' y -> x < y -> phi x < phi y.
Proof. apply (deriv_pos_incr lo' hi' phi dphi); [apply (sb_der _ _ _ _ _ _ _ SB)|apply INC]. Qed.
Lemma sub_lo : filterlim phi (near_lo lo') (near_lo lo).
Proof.
  intros P HP. unfold filtermap. destruct (near_lo_pt lo hi P LT HP) as [y0 [I0 H0]].
  destruct (sb_inv _ _ _ _ _ _ _ SB y0 I0) as [I1 E1].
  pose proof (near_lo_filter lo'). generalize (near_lo_below lo' hi' (psi y0) I1). apply filter_imp.
  intros x [Hx L]. apply H0; [apply (sb_in _ _ _ _ _ _ _ SB); auto|]. rewrite <- E1. left. apply sub_incr; auto.
Qed.
Lemma sub_hi : filterlim phi (near_hi hi') (near_hi hi).
Proof.
  intros P HP. unfold filtermap. destruct (near_hi_pt lo hi P LT HP) as [y0 [I0 H0]].
  destruct (sb_inv _ _ _ _ _ _ _ SB y0 I0) as [I1 E1].
  pose proof (near_hi_filter hi'). generalize (near_hi_above lo' hi' (psi y0) I1). apply filter_imp.
  intros x [Hx L]. apply H0; [apply (sb_in _ _ _ _ _ _ _ SB); auto|]. rewrite <- E1. left. apply sub_incr; auto.
Qed.
Lemma sub_integral (g : R -> R) v : (forall y, inside lo hi y -> continuous g y) -> integrates_to g lo hi v ->
  integrates_to (fun x => g (phi x) * dphi x) lo' hi' v.
Proof.
  intros C H P HP. specialize (H P HP). unfold filtermapi in *. destruct H as [A B HA HB HAB].
  pose proof (near_lo_filter lo'). pose proof (near_hi_filter hi').
  apply (Filter_prod _ _ _ (fun x => inside lo' hi' x /\ A (phi x)) (fun x => inside lo' hi' x /\ B (phi x))).
  - apply filter_and; [apply near_lo_inside, sb_lt'|apply (sub_lo A HA)].
  - apply filter_and; [apply near_hi_inside, sb_lt'|apply (sub_hi B HB)].
  - intros a b [Ia Ha] [Ib Hb]. destruct (HAB _ _ Ha Hb) as [y [Hy Py]]. exists y. split; auto. simpl in *.
    rewrite <- (is_RInt_unique _ _ _ _ Hy). apply sub_RInt; auto.
Qed.
Lemma sub_std F f Q : std lo hi F f Q -> std lo' hi' (fun x => F (phi x)) (fun x => f (phi x) * dphi x) (fun p => psi (Q p)).
Proof.
  intros [[_ S01 SD SP] SC SQ]. constructor.
  - constructor; [apply sb_lt'|..]; intros x Hx; pose proof (sb_in _ _ _ _ _ _ _ SB x Hx) as HI.
    + auto.
    + rewrite Rmult_comm. apply (is_derive_comp F phi); [auto|apply (sb_der _ _ _ _ _ _ _ SB); auto].
    + apply Rmult_lt_0_compat; auto.
  - intros x Hx. apply (continuous_mult (fun x => f (phi x)) dphi); [apply sub_comp_cont; auto|apply (sb_cont _ _ _ _ _ _ _ SB); auto].
  - intros p Hp. destruct (SQ p Hp) as [A B]. destruct (sb_inv _ _ _ _ _ _ _ SB (Q p) A) as [A' B']. split; auto. rewrite B'. auto.
Qed.
End Inc.

Section Dec.
Hypothesis DEC : forall x, inside lo' hi' x -> dphi x < 0.
Lemma sub_decr x y : inside lo' hi' x -> inside lo' hi' y -> x < y -> phi y < phi x.
Proof.
  intros Hx Hy L. cut (- phi x < - phi y); [lra|]. revert Hx Hy L.
  apply (deriv_pos_incr lo' hi' (fun x => - phi x) (fun x => - dphi x)).
  - intros t Ht. apply (is_derive_opp phi). apply (sb_der _ _ _ _ _ _ _ SB); auto.
  - intros t Ht. pose proof (DEC t Ht). lra.
Qed.
Lemma sub_lo_hi : filterlim phi (near_lo lo') (near_hi hi).
Proof.
  intros P HP. unfold filtermap. destruct (near_hi_pt lo hi P LT HP) as [y0 [I0 H0]].
  destruct (sb_inv _ _ _ _ _ _ _ SB y0 I0) as [I1 E1].
  pose proof (near_lo_filter lo'). generalize (near_lo_below lo' hi' (psi y0) I1). apply filter_imp.
  intros x [Hx L]. apply H0; [apply (sb_in _ _ _ _ _ _ _ SB); auto|]. rewrite <- E1. left. apply sub_decr; auto.
Qed.
Lemma sub_hi_lo : filterlim phi (near_hi hi') (near_lo lo).
Proof.
  intros P HP. unfold filtermap. destruct (near_lo_pt lo hi P LT HP) as [y0 [I0 H0]].
  destruct (sb_inv _ _ _ _ _ _ _ SB y0 I0) as [I1 E1].
  pose proof (near_hi_filter hi'). generalize (near_hi_above lo' hi' (psi y0) I1). apply filter_imp.
  intros x [Hx L]. apply H0; [apply (sb_in _ _ _ _ _ _ _ SB); auto|]. rewrite <- E1. left. apply sub_decr; auto.
Qed.
Lemma sub_integral_dec (g : R -> R) v : (forall y, inside lo hi y -> continuous g y) -> integrates_to g lo hi v ->
  integrates_to (fun x => g (phi x) * - dphi x) lo' hi' v.
Proof.
  intros C H P HP. specialize (H P HP). unfold filtermapi in *. destruct H as [A B HA HB HAB].
  pose proof (near_lo_filter lo'). pose proof (near_hi_filter hi').
  apply (Filter_prod _ _ _ (fun x => inside lo' hi' x /\ B (phi x)) (fun x => inside lo' hi' x /\ A (phi x))).
  - apply filter_and; [apply near_lo_inside, sb_lt'|apply (sub_lo_hi B HB)].
  - apply filter_and; [apply near_hi_inside, sb_lt'|apply (sub_hi_lo A HA)].
  - intros b a [Ib Hb] [Ia Ha]. destruct (HAB _ _ Ha Hb) as [y [Hy Py]]. exists y. split; auto. simpl in *.
    rewrite <- (is_RInt_unique _ _ _ _ Hy). pose proof (sub_RInt g b a C Ib Ia) as K.
    apply is_RInt_opp in K. rewrite (opp_RInt_swap g) in K.
    + revert K. apply is_RInt_ext. intros x _. unfold opp; simpl. ring.
    + apply ex_RInt_swap. eexists; eauto.
Qed.
Lemma sub_std_dec F f Q : std lo hi F f Q -> std lo' hi' (fun x => 1 - F (phi x)) (fun x => f (phi x) * - dphi x) (fun p => psi (Q (1 - p))).
Proof.
  intros [[_ S01 SD SP] SC SQ]. constructor.
  - constructor; [apply sb_lt'|..]; intros x Hx; pose proof (sb_in _ _ _ _ _ _ _ SB x Hx) as HI.
    + specialize (S01 _ HI). lra.
    + evar_last.
      * apply (is_derive_minus (fun _ => 1) (fun x => F (phi x))); [apply is_derive_const|].
        apply (is_derive_comp F phi); [auto|apply (sb_der _ _ _ _ _ _ _ SB); auto].
      * unfold scal, minus, plus, opp, zero; simpl. unfold mult; simpl. ring.
    + apply Rmult_lt_0_compat; auto. specialize (DEC x Hx). lra.
  - intros x Hx. apply (continuous_mult (fun x => f (phi x)) (fun x => - dphi x)); [apply sub_comp_cont; auto|].
    apply (continuous_opp dphi). apply (sb_cont _ _ _ _ _ _ _ SB); auto.
  - intros p Hp. destruct (SQ (1 - p) ltac:(lra)) as [A B]. destruct (sb_inv _ _ _ _ _ _ _ SB (Q (1 - p)) A) as [A' B']. split; auto. rewrite B'. lra.
Qed.
End Dec.
End Sub.
