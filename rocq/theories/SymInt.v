(** The integral of an odd function over the line, when it exists, is 0. *)
From Coq Require Import Reals Lra List.
From Coquelicot Require Import Coquelicot.
From Verif Require Import Values Spec RLib DistLib LimLib IntLib.
Local Open Scope R_scope.
Set Bullet Behavior "Strict Subproofs".

Lemma odd_integral (g D d : R -> R) B : (forall x, continuous g x) -> (forall x, g (- x) = - g x) ->
  (forall x, 0 <= x -> 0 <= g x) -> (forall x, 0 <= x -> is_derive D x (d x) /\ g x <= d x) -> (forall x, 0 <= x -> D x <= B) ->
  integrates_to g m_infty p_infty 0.
Proof.
  intros CT ODD POS DOM BD. set (G := prim g 0 : R -> R).
  assert (IN : forall x, inside m_infty p_infty x) by (intros; split; simpl; auto).
  assert (GD : forall x, is_derive G x (g x)) by (intros x; apply (prim_der m_infty p_infty g 0); auto).
  assert (G0 : G 0 = 0) by apply prim_c. clearbody G.
  assert (CMP : forall x, is_derive (fun z => G (- z)) x (- g (- x))).
  { intros x. evar_last; [apply (is_derive_comp G Ropp x (g (- x)) (- (1))); [apply GD|auto_derive; auto]|]. unfold scal; simpl; unfold mult; simpl. ring. }
  assert (EV : forall x, G (- x) = G x).
  { intros x. destruct (MVT_gen (fun x => G (- x) - G x) 0 x (fun _ => 0)) as [c [_ E]].
    - intros y _. evar_last.
      + apply (is_derive_minus (fun x => G (- x)) G); [|apply GD]. apply CMP.
      + unfold minus, plus, opp; simpl. rewrite ODD. ring.
    - intros y _. apply continuity_pt_filterlim. apply (ex_derive_continuous (V := R_NormedModule) (fun x => G (- x) - G x)).
      eexists. apply (is_derive_minus (fun x => G (- x)) G); [|apply GD]. apply CMP.
    - cbv beta in E. rewrite Ropp_0 in E. lra. }
  destruct (mono_hi 0 p_infty G 1 ltac:(split; simpl; auto; lra)) with (B := B - D 0) as [L [HL _]].
  - intros x y [X _] [Y _] XY. simpl in X, Y. apply (nonneg_between m_infty p_infty G g); auto. intros t T. split; auto. apply POS. lra.
  - intros x [X _] _. simpl in X. pose proof (dom_hi 0 p_infty) as _.
    pose proof (nonneg_between m_infty p_infty (fun x => D x - G x) (fun x => d x - g x) 0 x ltac:(auto) ltac:(auto) ltac:(lra)) as N.
    cbv beta in N. rewrite G0 in N. cut (D 0 - 0 <= D x - G x); [pose proof (BD x ltac:(lra)); lra|]. apply N. intros t T.
    destruct (DOM t ltac:(lra)). split; [|lra]. apply (is_derive_minus D G); auto.
  - replace 0 with (L - L) by ring. apply (mk_integral g G); simpl; auto.
    apply (flim_eq (Rbar_locally m_infty) (fun x => G (- x))); [apply filter_forall; auto|].
    apply (filterlim_comp _ _ _ Ropp G (Rbar_locally m_infty) (Rbar_locally p_infty)); auto.
    intros P [M HM]. exists (- M). intros x X. apply HM. lra.
Qed.
