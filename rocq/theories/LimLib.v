(** Limits used for moments. *)
From Coq Require Import Reals Lra List Bool ZArith.
From Coquelicot Require Import Coquelicot.
From Verif Require Import Values VTac Spec RLib.
Local Open Scope R_scope.
Set Bullet Behavior "Strict Subproofs".

Notation pinf := (Rbar_locally p_infty).
Notation minf := (Rbar_locally m_infty).

Section Flim.
Context {T : Type} (FF : (T -> Prop) -> Prop) {HF : Filter FF}.
Lemma flim_plus (f g : T -> R) (a b : R) : filterlim f FF (locally a) -> filterlim g FF (locally b) ->
  filterlim (fun x => f x + g x) FF (locally (a + b)).
Proof.
  intros A B. apply (filterlim_comp_2 f g Rplus A B).
  exact (filterlim_plus (V := R_NormedModule) a b).
Qed.
Lemma flim_mult (f g : T -> R) (a b : R) : filterlim f FF (locally a) -> filterlim g FF (locally b) ->
  filterlim (fun x => f x * g x) FF (locally (a * b)).
Proof.
  intros A B. apply (filterlim_comp_2 f g Rmult A B).
  exact (filterlim_mult (K := R_AbsRing) a b).
Qed.
Lemma flim_const (c : R) : filterlim (fun _ : T => c) FF (locally c).
Proof. apply filterlim_const. Qed.
Lemma flim_scal (f : T -> R) (a c : R) : filterlim f FF (locally a) -> filterlim (fun x => c * f x) FF (locally (c * a)).
Proof. intros A. apply flim_mult; auto. apply flim_const. Qed.
Lemma flim_opp (f : T -> R) a : filterlim f FF (locally a) -> filterlim (fun x => - f x) FF (locally (- a)).
Proof.
  intros A. apply (filterlim_comp _ _ _ f Ropp FF (locally a)); auto. exact (filterlim_opp (V := R_NormedModule) a).
Qed.
Lemma flim_minus (f g : T -> R) (a b : R) : filterlim f FF (locally a) -> filterlim g FF (locally b) ->
  filterlim (fun x => f x - g x) FF (locally (a - b)).
Proof. intros A B. apply flim_plus; auto. apply flim_opp; auto. Qed.
Lemma flim_cont (f : T -> R) (g : R -> R) a : filterlim f FF (locally a) -> continuous g a ->
  filterlim (fun x => g (f x)) FF (locally (g a)).
Proof. intros A C. apply (filterlim_comp _ _ _ f g FF (locally a)); auto. Qed.
Lemma flim_eq (f g : T -> R) a : FF (fun x => f x = g x) -> filterlim f FF (locally a) -> filterlim g FF (locally a).
Proof. intros E A. apply (filterlim_ext_loc f); auto. Qed.
Lemma flim_val (f : T -> R) (a b : R) : filterlim f FF (locally a) -> a = b -> filterlim f FF (locally b).
Proof. intros A <-. auto. Qed.
Lemma flim_squeeze0 (f g : T -> R) : FF (fun x => Rabs (f x) <= g x) -> filterlim g FF (locally 0) -> filterlim f FF (locally 0).
Proof.
  intros B G. apply (proj2 (filterlim_locally f 0)). intros e.
  pose proof (proj1 (filterlim_locally g 0) G e) as H.
  generalize (filter_and _ _ B H). apply filter_imp. intros x [X Y].
  unfold ball in *; simpl in *; unfold AbsRing_ball, abs, minus, plus, opp in *; simpl in *.
  rewrite Ropp_0, Rplus_0_r in *. pose proof (Rle_abs (g x)). lra.
Qed.
Lemma flim_squeeze (f g h : T -> R) a : FF (fun x => g x <= f x <= h x) -> filterlim g FF (locally a) -> filterlim h FF (locally a) ->
  filterlim f FF (locally a).
Proof.
  intros B G H. apply (proj2 (filterlim_locally f a)). intros e.
  pose proof (proj1 (filterlim_locally g a) G e) as G'. pose proof (proj1 (filterlim_locally h a) H e) as H'.
  generalize (filter_and _ _ B (filter_and _ _ G' H')). apply filter_imp. intros x [X [Y Z]].
  unfold ball in *; simpl in *; unfold AbsRing_ball, abs, minus, plus, opp in *; simpl in *.
  apply Rabs_def2 in Y. apply Rabs_def2 in Z. apply Rabs_def1; lra.
Qed.
End Flim.

Lemma flim_right (f : R -> R) a : continuous f a -> filterlim f (at_right a) (locally (f a)).
Proof. intros C. apply (filterlim_filter_le_1 (F := locally a)); auto. intros P. apply filter_le_within. Qed.
Lemma flim_left (f : R -> R) a : continuous f a -> filterlim f (at_left a) (locally (f a)).
Proof. intros C. apply (filterlim_filter_le_1 (F := locally a)); auto. intros P. apply filter_le_within. Qed.

Lemma pinf_gt M : pinf (fun x => M < x).
Proof. exists M. auto. Qed.
Lemma minf_lt M : minf (fun x => x < M).
Proof. exists M. auto. Qed.
Lemma right_lt a b : a < b -> at_right a (fun x => a < x < b).
Proof.
  intros H. assert (P : 0 < b - a) by lra. exists (mkposreal _ P). intros y B L.
  unfold ball in B; simpl in B; unfold AbsRing_ball, abs, minus, plus, opp in B; simpl in B.
  apply Rabs_def2 in B. lra.
Qed.
Lemma left_gt a b : a < b -> at_left b (fun x => a < x < b).
Proof.
  intros H. assert (P : 0 < b - a) by lra. exists (mkposreal _ P). intros y B L.
  unfold ball in B; simpl in B; unfold AbsRing_ball, abs, minus, plus, opp in B; simpl in B.
  apply Rabs_def2 in B. lra.
Qed.
Lemma lim_inv : filterlim (fun x => / x) pinf (locally 0).
Proof.
  apply (proj2 (filterlim_locally (fun x => / x) 0)). intros e. exists (/ e). intros x H.
  assert (P : 0 < / e) by (apply Rinv_0_lt_compat, cond_pos).
  unfold ball; simpl; unfold AbsRing_ball, abs, minus, plus, opp; simpl.
  rewrite Ropp_0, Rplus_0_r, Rabs_right.
  - rewrite <- (Rinv_inv e). apply Rinv_lt_contravar; auto. nra.
  - left. apply Rinv_0_lt_compat. lra.
Qed.
Lemma lim_bound (f : R -> R) C M : (forall x, M < x -> 0 < x -> Rabs (f x) <= C * / x) -> filterlim f pinf (locally 0).
Proof.
  intros B. apply (flim_squeeze0 pinf f (fun x => C * / x)).
  - generalize (filter_and _ _ (pinf_gt M) (pinf_gt 0)). apply filter_imp. intros x [X Y]. auto.
  - replace 0 with (C * 0) by ring. apply flim_scal; try apply Rbar_locally_filter. apply lim_inv.
Qed.
Lemma lim_opp_minf (f : R -> R) a : filterlim (fun x => f (- x)) pinf (locally a) -> filterlim f minf (locally a).
Proof.
  intros H P HP. destruct (H P HP) as [M HM]. exists (- M). intros x Hx.
  rewrite <- (Ropp_involutive x). apply HM. lra.
Qed.
Lemma lim_opp_pinf (f : R -> R) a : filterlim (fun x => f (- x)) minf (locally a) -> filterlim f pinf (locally a).
Proof.
  intros H P HP. destruct (H P HP) as [M HM]. exists (- M). intros x Hx.
  rewrite <- (Ropp_involutive x). apply HM. lra.
Qed.
(** Exponentials beat powers. *)
Lemma pow_exp_le n x : 0 <= x -> x ^ n <= INR n ^ n * exp x \/ n = 0%nat.
Proof.
  intros H. destruct n as [|n]; auto. left. set (m := Datatypes.S n). assert (P : 0 < INR m) by (apply lt_0_INR; unfold m; apply PeanoNat.Nat.lt_0_succ).
  assert (E : exp x = exp (x / INR m) ^ m).
  { rewrite <- Rpower_pow by apply exp_pos. unfold Rpower. rewrite ln_exp. f_equal. field. lra. }
  rewrite E, <- Rpow_mult_distr. apply pow_incr. split; auto. pose proof (exp_ineq (x / INR m)).
  apply Rle_trans with (INR m * (x / INR m)); [right; field; lra|]. apply Rmult_le_compat_l; lra.
Qed.
Lemma lim_pow_exp n : filterlim (fun x => x ^ n * exp (- x)) pinf (locally 0).
Proof.
  apply (lim_bound _ (INR (n + 1) ^ (n + 1)) 0). intros x H _.
  destruct (pow_exp_le (n + 1) x ltac:(lra)) as [B|B]; [|rewrite PeanoNat.Nat.add_comm in B; discriminate].
  pose proof (exp_pos x). rewrite Rabs_right.
  - rewrite exp_Ropp. apply (Rmult_le_reg_r (x * exp x)); [nra|].
    replace (x ^ n * / exp x * (x * exp x)) with (x ^ (n + 1)) by (rewrite pow_add; simpl; field; lra).
    replace (INR (n + 1) ^ (n + 1) * / x * (x * exp x)) with (INR (n + 1) ^ (n + 1) * exp x) by (field; lra). auto.
  - apply Rle_ge, Rmult_le_pos; [apply pow_le; lra|left; apply exp_pos].
Qed.
Lemma lim_exp : filterlim (fun x => exp (- x)) pinf (locally 0).
Proof. apply (flim_eq _ (fun x => x ^ 0 * exp (- x))); [exists 0; intros; simpl; ring|apply (lim_pow_exp 0)]. Qed.
Lemma lim_x_exp : filterlim (fun x => x * exp (- x)) pinf (locally 0).
Proof. apply (flim_eq _ (fun x => x ^ 1 * exp (- x))); [exists 0; intros; simpl; ring|apply (lim_pow_exp 1)]. Qed.
Lemma lim_x2_exp : filterlim (fun x => x ^ 2 * exp (- x)) pinf (locally 0).
Proof. apply (lim_pow_exp 2). Qed.
(** g(x) -> 0 along c x. *)
Lemma pinf_scal c : 0 < c -> filterlim (fun x => c * x) pinf pinf.
Proof. intros H P [M HM]. exists (M / c). intros x Hx. apply HM. apply (Rmult_lt_compat_l c) in Hx; auto.
  replace (c * (M / c)) with M in Hx by (field; lra). auto. Qed.
(** Real powers. *)
Lemma Rpower_le_pow x a n : 1 <= x -> a <= INR n -> Rpower x a <= x ^ n.
Proof. intros H L. rewrite <- Rpower_pow by lra. apply Rle_Rpower; auto. Qed.
Lemma INR_above a : exists n, a <= INR n.
Proof.
  exists (Z.to_nat (up a)). destruct (archimed a) as [H _]. destruct (Z_le_gt_dec 0 (up a)) as [P|P].
  - rewrite INR_IZR_INZ, Z2Nat.id by auto. lra.
  - apply Rle_trans with 0; [|apply pos_INR]. assert (IZR (up a) < 0) by (apply (IZR_lt _ 0), Z.gt_lt; auto). lra.
Qed.
Lemma lim_Rpower_exp a : filterlim (fun x => Rpower x a * exp (- x)) pinf (locally 0).
Proof.
  destruct (INR_above a) as [n Hn].
  apply (flim_squeeze0 pinf _ (fun x => x ^ n * exp (- x))); [|apply lim_pow_exp].
  exists 1. intros x H. rewrite Rabs_right.
  - apply Rmult_le_compat_r; [left; apply exp_pos|]. apply Rpower_le_pow; lra.
  - apply Rle_ge, Rmult_le_pos; left; [apply Rpower_pos|apply exp_pos].
Qed.
Lemma pinf_ln : filterlim ln pinf pinf.
Proof.
  intros P [M HM]. exists (exp M). intros x Hx. apply HM. pose proof (exp_pos M).
  rewrite <- (ln_exp M). apply ln_increasing; lra.
Qed.
Lemma minf_ln : filterlim ln (at_right 0) minf.
Proof.
  intros P [M HM]. unfold filtermap. generalize (right_lt 0 (exp M) (exp_pos M)). apply filter_imp.
  intros x [X Y]. apply HM. rewrite <- (ln_exp M). apply ln_increasing; lra.
Qed.
Lemma lim_Rpower_0 a : 0 < a -> filterlim (fun x => Rpower x a) (at_right 0) (locally 0).
Proof.
  intros A. apply (filterlim_comp _ _ _ ln (fun y => exp (a * y)) (at_right 0) minf); [apply minf_ln|].
  apply lim_opp_minf.
  apply (flim_eq _ (fun y => exp (- (a * y)))); [exists 0; intros; f_equal; ring|].
  apply (filterlim_comp _ _ _ (fun y => a * y) (fun y => exp (- y)) pinf pinf); [apply pinf_scal; auto|apply lim_exp].
Qed.
Lemma lim_Rpower_neg a : a < 0 -> filterlim (fun x => Rpower x a) pinf (locally 0).
Proof.
  intros A. apply (filterlim_comp _ _ _ ln (fun y => exp (a * y)) pinf pinf); [apply pinf_ln|].
  apply (flim_eq _ (fun y => exp (- (- a * y)))); [exists 0; intros; f_equal; ring|].
  apply (filterlim_comp _ _ _ (fun y => - a * y) (fun y => exp (- y)) pinf pinf); [apply pinf_scal; lra|apply lim_exp].
Qed.
Lemma lim_Rpower_ln_0 a : 0 < a -> filterlim (fun x => Rpower x a * ln x) (at_right 0) (locally 0).
Proof.
  intros A. apply (filterlim_comp _ _ _ ln (fun y => exp (a * y) * y) (at_right 0) minf); [apply minf_ln|].
  apply lim_opp_minf.
  apply (flim_eq _ (fun y => (- / a) * ((a * y) * exp (- (a * y))))).
  - exists 0. intros x H. replace (a * - x) with (- (a * x)) by ring. field. lra.
  - replace 0 with ((- / a) * 0) by ring. apply flim_scal; try apply Rbar_locally_filter.
    apply (filterlim_comp _ _ _ (fun y => a * y) (fun y => y * exp (- y)) pinf pinf); [apply pinf_scal; auto|apply lim_x_exp].
Qed.
Lemma lim_Rpower_ln_inf a : a < 0 -> filterlim (fun x => Rpower x a * ln x) pinf (locally 0).
Proof.
  intros A. apply (filterlim_comp _ _ _ ln (fun y => exp (a * y) * y) pinf pinf); [apply pinf_ln|].
  apply (flim_eq _ (fun y => (/ - a) * ((- a * y) * exp (- (- a * y))))).
  - exists 0. intros x H. replace (- (- a * x)) with (a * x) by ring. field. lra.
  - replace 0 with ((/ - a) * 0) by ring. apply flim_scal; try apply Rbar_locally_filter.
    apply (filterlim_comp _ _ _ (fun y => - a * y) (fun y => y * exp (- y)) pinf pinf); [apply pinf_scal; lra|apply lim_x_exp].
Qed.
(** A monotone bounded function has a limit. *)
Lemma mono_lim (F : R -> R) (a B : R) : (forall x y, a < x -> x <= y -> F x <= F y) -> (forall x, a < x -> F x <= B) ->
  exists L, filterlim F pinf (locally L) /\ forall x, a < x -> F x <= L.
Proof.
  intros M U.
  destruct (completeness (fun y => exists x, a < x /\ y = F x)) as [L [L1 L2]].
  - exists B. intros y [x [H ->]]. auto.
  - exists (F (a + 1)), (a + 1). split; auto. lra.
  - assert (UB : forall x, a < x -> F x <= L) by (intros x H; apply L1; exists x; auto).
    exists L. split; auto. apply (proj2 (filterlim_locally F L)). intros e.
    destruct (Classical_Prop.classic (exists x, a < x /\ L - e < F x)) as [[x0 [H0 H1]]|N].
    + exists x0. intros x H. unfold ball; simpl; unfold AbsRing_ball, abs, minus, plus, opp; simpl.
      pose proof (M x0 x H0 ltac:(lra)). pose proof (UB x ltac:(lra)). pose proof (cond_pos e). apply Rabs_def1; lra.
    + exfalso. assert (L <= L - e); [|pose proof (cond_pos e); lra]. apply L2. intros y [x [H ->]].
      destruct (Rle_lt_dec (F x) (L - e)); auto. exfalso. apply N. exists x. auto.
Qed.
(** Same at the right end of a finite interval. *)
Lemma mono_lim_left (F : R -> R) (a b B : R) : a < b -> (forall x y, a < x -> x <= y -> y < b -> F x <= F y) ->
  (forall x, a < x < b -> F x <= B) ->
  exists L, filterlim F (at_left b) (locally L) /\ forall x, a < x < b -> F x <= L.
Proof.
  intros AB M U.
  destruct (completeness (fun y => exists x, a < x < b /\ y = F x)) as [L [L1 L2]].
  - exists B. intros y [x [H ->]]. auto.
  - exists (F ((a + b) / 2)), ((a + b) / 2). split; auto. lra.
  - assert (UB : forall x, a < x < b -> F x <= L) by (intros x H; apply L1; exists x; auto).
    exists L. split; auto. apply (proj2 (filterlim_locally F L)). intros e.
    destruct (Classical_Prop.classic (exists x, a < x < b /\ L - e < F x)) as [[x0 [H0 H1]]|N].
    + generalize (left_gt x0 b ltac:(lra)). apply filter_imp. intros x H.
      unfold ball; simpl; unfold AbsRing_ball, abs, minus, plus, opp; simpl.
      pose proof (M x0 x ltac:(lra) ltac:(lra) ltac:(lra)). pose proof (UB x ltac:(lra)). pose proof (cond_pos e). apply Rabs_def1; lra.
    + exfalso. assert (L <= L - e); [|pose proof (cond_pos e); lra]. apply L2. intros y [x [H ->]].
      destruct (Rle_lt_dec (F x) (L - e)); auto. exfalso. apply N. exists x. auto.
Qed.
(** Syntax-directed limits; [base] closes the leaves. *)
Ltac ffil := first [apply Rbar_locally_filter | apply within_filter; apply locally_filter | apply locally_filter | typeclasses eauto].
Ltac flims base :=
  first [solve [base tt] |
  lazymatch goal with
  | |- filterlim (fun _ => ?c) ?FF _ => apply (flim_const FF c)
  | |- filterlim (fun x => @?f x + @?g x) ?FF _ => let H := fresh in assert (H : Filter FF) by ffil; eapply (@flim_plus _ FF H f g); [flims base | flims base]
  | |- filterlim (fun x => @?f x - @?g x) ?FF _ => let H := fresh in assert (H : Filter FF) by ffil; eapply (@flim_minus _ FF H f g); [flims base | flims base]
  | |- filterlim (fun x => - @?f x) ?FF _ => eapply (@flim_opp _ FF f); flims base
  | |- filterlim (fun x => ?c * @?f x) ?FF _ => let H := fresh in assert (H : Filter FF) by ffil; eapply (@flim_scal _ FF H f); flims base
  end | idtac].
Ltac lims := flims ltac:(fun _ => lazymatch goal with
  | |- filterlim (fun x => exp (- x)) pinf _ => apply lim_exp
  | |- filterlim (fun x => x * exp (- x)) pinf _ => apply lim_x_exp
  | |- filterlim (fun x => x ^ 2 * exp (- x)) pinf _ => apply lim_x2_exp
  | |- filterlim (fun x => x ^ ?n * exp (- x)) pinf _ => apply (lim_pow_exp n)
  | |- filterlim (fun x => / x) pinf _ => apply lim_inv
  | H : filterlim ?f ?F _ |- filterlim ?f ?F _ => exact H
  end).
Ltac limv := eapply flim_val; [lims | try ring; try lra].
