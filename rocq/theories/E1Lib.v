(** Facts about the exponential integral E1. *)
From Coq Require Import Reals Lra.
From Coquelicot Require Import Coquelicot.
From Verif Require Import Values VTac Spec RLib DistLib LimLib IntLib SFun GammaLib SFun2.
Local Open Scope R_scope.
Set Bullet Behavior "Strict Subproofs".

Lemma e1k_cont t : 0 < t -> continuous e1_kernel t.
Proof. intros T. unfold e1_kernel. apply ex_derive_cont. auto_derive. lra. Qed.
Lemma e1k_pos t : 0 < t -> 0 < e1_kernel t.
Proof. intros T. apply Rdiv_pos; auto. apply exp_pos. Qed.
Lemma e1k_le a t : 0 < a -> a <= t -> e1_kernel t <= exp (- t) / a.
Proof.
  intros A T. unfold e1_kernel. apply Rmult_le_compat_l; [left; apply exp_pos|]. apply Rinv_le_contravar; lra.
Qed.
Lemma e1_ex a : 0 < a -> exists F v, integral_fn a p_infty e1_kernel F v.
Proof.
  intros A. apply (mk_integral_fn a p_infty e1_kernel (a + 1) (fun t => - exp (- t) / a) (fun t => exp (- t) / a)
    (fun t => - exp (- t) / a) (fun t => exp (- t) / a) (- exp (- a) / a) 0).
  - split; simpl; auto; lra.
  - intros x [X _]. simpl in X. apply e1k_cont. lra.
  - intros x [X _]. simpl in X. apply e1k_pos. lra.
  - intros x [X _] _. simpl in X. split; [auto_derive; auto; field; lra|apply e1k_le; lra].
  - intros x [X _] _. simpl in X. split; [auto_derive; auto; field; lra|apply e1k_le; lra].
  - intros x [X _] _. simpl in X. apply Rmult_le_compat_r; [left; apply Rinv_0_lt_compat; auto|].
    pose proof (exp_le_compat (- x) (- a) ltac:(lra)). lra.
  - intros x _ _. pose proof (exp_pos (- x)). assert (0 < exp (- x) / a) by (apply Rdiv_pos; auto).
    replace (- exp (- x) / a) with (- (exp (- x) / a)) by (field; lra). lra.
Qed.
Lemma E1_from a : 0 < a -> exists F v, integral_fn a p_infty e1_kernel F v /\ forall x, a < x -> E1 x = v - F x.
Proof.
  intros A. destruct (e1_ex a A) as [F [v I]]. exists F, v. split; auto. intros x X.
  apply improper_eq; simpl; auto. apply (if_from a p_infty e1_kernel F v x); auto. split; simpl; auto.
Qed.
Lemma E1_der x : 0 < x -> is_derive E1 x (- (exp (- x) / x)).
Proof.
  intros X. destruct (E1_from (x / 2)) as [F [v [I E]]]; [lra|].
  apply (is_derive_ext_loc (fun y => v - F y)).
  - assert (P : 0 < x / 2) by lra. exists (mkposreal _ P). intros y B.
    unfold ball in B; simpl in B; unfold AbsRing_ball, abs, minus, plus, opp in B; simpl in B.
    apply Rabs_def2 in B. symmetry. apply E. lra.
  - evar_last; [apply (is_derive_minus (fun _ => v) F); [apply is_derive_const|]|].
    + apply (if_der _ _ _ _ _ I). split; simpl; auto. lra.
    + unfold minus, plus, opp, zero, e1_kernel; simpl. ring.
Qed.
Lemma E1_bounds x : 0 < x -> 0 < E1 x <= exp (- x) / x.
Proof.
  intros X. destruct (E1_from (x / 2)) as [F [v [I E]]]; [lra|]. rewrite E by lra.
  assert (Ix : inside (x / 2) p_infty x) by (split; simpl; auto; lra).
  split; [pose proof (if_range I x Ix); lra|].
  apply (integrates_le x p_infty e1_kernel (fun t => exp (- t) / x)); simpl; auto.
  - intros t [T _]. simpl in T. apply e1k_le; lra.
  - apply (if_from _ _ _ _ _ _ I Ix).
  - replace (exp (- x) / x) with (0 - - exp (- x) / x) by (field; lra).
    apply (mk_integral (fun t => exp (- t) / x) (fun t => - exp (- t) / x)); simpl; auto.
    + intros t _. auto_derive; auto. field. lra.
    + intros t _. apply ex_derive_cont. auto_derive. auto.
    + apply (flim_right (fun t => - exp (- t) / x)). apply ex_derive_cont. auto_derive. auto.
    + pose proof (near_hi_filter p_infty) as PF. simpl in PF.
      replace 0 with ((- / x) * 0) by ring. apply (flim_eq _ (fun t => (- / x) * exp (- t))); [apply filter_forall; intros; field; lra|].
      apply flim_scal; auto. apply lim_exp.
Qed.
