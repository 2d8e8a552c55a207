(** Laws on the line that are symmetric about 0, from their restriction to the positive half-line. *)
From Coq Require Import Reals Lra List.
From Coquelicot Require Import Coquelicot.
From Verif Require Import Values Spec RLib DistLib DistLS LimLib IntLib MomLib SymInt.
Local Open Scope R_scope.
Set Bullet Behavior "Strict Subproofs".

Lemma in_line x : inside m_infty p_infty x. Proof. split; simpl; auto. Qed.
Lemma lt_line : Rbar_lt m_infty p_infty. Proof. exact Logic.I. Qed.
Lemma in_half x : 0 < x -> inside 0 p_infty x. Proof. intros. split; simpl; auto. Qed.
Section Even.
Variable g : R -> R.
Hypothesis CT : forall x, continuous g x.
Hypothesis EV : forall x, g (- x) = g x.
Lemma P_der x : is_derive (prim g 0) x (g x).
Proof. apply (prim_der m_infty p_infty g 0); auto using in_line. Qed.
Lemma P_cont x : continuous (prim g 0) x. Proof. apply ex_derive_cont. eexists. apply P_der. Qed.
Lemma P_odd x : prim g 0 (- x) = - prim g 0 x.
Proof.
  assert (P0 : prim g 0 0 = 0) by apply prim_c. pose proof P_der as PD. set (P := prim g 0 : R -> R) in *. clearbody P.
  assert (CMP : forall x, is_derive (fun z => P (- z)) x (- g (- x))).
  { intros y. evar_last; [apply (is_derive_comp P Ropp y (g (- y)) (- (1))); [apply PD|auto_derive; auto]|]. unfold scal; simpl; unfold mult; simpl. ring. }
  assert (DD : forall y, is_derive (fun x => P (- x) + P x) y 0).
  { intros y. evar_last; [apply (is_derive_plus (fun x => P (- x)) P); [apply CMP|apply PD]|]. unfold plus; simpl. rewrite EV. ring. }
  destruct (MVT_gen (fun x => P (- x) + P x) 0 x (fun _ => 0)) as [c [_ E]].
  - intros y _. apply DD.
  - intros y _. apply continuity_pt_filterlim. apply (ex_derive_continuous (V := R_NormedModule) (fun x => P (- x) + P x)). eexists. apply DD.
  - cbv beta in E. rewrite Ropp_0 in E. lra.
Qed.
Lemma half_lim v : integrates_to g 0 p_infty v -> filterlim (prim g 0) (Rbar_locally p_infty) (locally v).
Proof.
  intros I. apply filterlim_locally. intros eps. assert (E2 : 0 < eps / 2) by (destruct eps; simpl; lra).
  destruct (I _ (locally_ball v (mkposreal _ E2))) as [A B HA HB HAB].
  assert (L0 : near_lo 0 (fun a => Rabs (prim g 0 a) < eps / 2)).
  { pose proof (flim_right (prim g 0) 0 (P_cont 0)) as L. rewrite prim_c in L. specialize (L _ (locally_ball 0 (mkposreal _ E2))). unfold filtermap in L. simpl near_lo. revert L. apply filter_imp. intros a H.
    unfold ball in H; simpl in H; unfold AbsRing_ball, abs, minus, plus, opp in H; simpl in H. rewrite Ropp_0, Rplus_0_r in H. exact H. }
  pose proof (near_lo_proper 0 p_infty Logic.I). destruct (filter_ex _ (filter_and _ _ HA L0)) as [a [Aa La]].
  generalize HB. apply filter_imp. intros b Bb. destruct (HAB a b Aa Bb) as [y [Y1 Y2]]. simpl in Y1.
  assert (RI : is_RInt g a b (prim g 0 b - prim g 0 a)) by (apply (is_RInt_derive (prim g 0) g); intros; [apply P_der|apply CT]).
  assert (E : y = prim g 0 b - prim g 0 a) by (rewrite <- (is_RInt_unique _ _ _ _ Y1); apply is_RInt_unique; auto). subst y.
  unfold ball in *; simpl in *; unfold AbsRing_ball, abs, minus, plus, opp in *; simpl in *. apply Rabs_def2 in La. apply Rabs_def2 in Y2. apply Rabs_def1; lra.
Qed.
Lemma even_integral v : integrates_to g 0 p_infty v -> integrates_to g m_infty p_infty (2 * v).
Proof.
  intros I. pose proof (half_lim v I) as L. replace (2 * v) with (v - - v) by ring.
  apply (mk_integral g (prim g 0)); simpl; auto.
  - intros; apply P_der.
  - apply (flim_eq (Rbar_locally m_infty) (fun x => - prim g 0 (- x))); [apply filter_forall; intros x; rewrite P_odd; ring|].
    apply flim_opp. apply (filterlim_comp _ _ _ Ropp (prim g 0) (Rbar_locally m_infty) (Rbar_locally p_infty)); auto.
    intros P [M HM]. exists (- M). intros x X. apply HM. lra.
Qed.
End Even.

Section Sym.
Variables f G Q0 : R -> R.
Hypothesis CT : forall x, continuous f x.
Hypothesis EV : forall x, f (- x) = f x.
Hypothesis POS : forall x, 0 < f x.
Hypothesis ST : std 0 p_infty G (fun x => 2 * f x) Q0.
Definition sF (x : R) := 1/2 + prim f 0 x.
Definition sQ (p : R) := if Rlt_dec p (1/2) then - Q0 (1 - 2 * p) else if Rlt_dec (1/2) p then Q0 (2 * p - 1) else 0.
Lemma sF_der x : is_derive sF x (f x).
Proof. evar_last; [apply (is_derive_plus (fun _ => 1/2) (prim f 0)); [apply is_derive_const|apply P_der; auto]|]. unfold plus, zero; simpl. ring. Qed.
Lemma sF_0 : sF 0 = 1/2. Proof. unfold sF. rewrite prim_c. ring. Qed.
Lemma sF_neg x : sF (- x) = 1 - sF x. Proof. unfold sF. rewrite P_odd by auto. field. Qed.
Lemma sF_pos x : 0 < x -> sF x = 1/2 + G x / 2.
Proof.
  intros X. set (D := fun x => 2 * prim f 0 x - G x).
  assert (DD : forall y, 0 < y -> is_derive D y 0).
  { intros y Y. unfold D. evar_last; [apply (is_derive_minus (fun x => 2 * prim f 0 x) G)|].
    - apply (is_derive_scal (prim f 0) y 2). apply P_der; auto.
    - apply (sm_der _ _ _ _ (st_smooth _ _ _ _ _ ST)). apply in_half; auto.
    - unfold minus, plus, opp; simpl. ring. }
  assert (CO : forall y, 0 < y -> D y = D x).
  { intros y Y. destruct (MVT_gen D y x (fun _ => 0)) as [c [_ E]].
    - intros t T. apply DD. unfold Rmin in T. destruct (Rle_dec y x); lra.
    - intros t T. apply continuity_pt_filterlim. apply (ex_derive_continuous (V := R_NormedModule) D). exists 0. apply DD. unfold Rmin in T. destruct (Rle_dec y x); lra.
    - lra. }
  assert (L : filterlim D (at_right 0) (locally 0)).
  { apply (flim_val _ _ (2 * 0 - 0)); [|ring]. unfold D. apply flim_minus; [apply at_right_proper_filter| |].
    - apply flim_scal; [apply at_right_proper_filter|]. pose proof (flim_right (prim f 0) 0 (P_cont f CT 0)) as L. rewrite prim_c in L. exact L.
    - apply (lim_lo _ _ _ _ _ (st_smooth _ _ _ _ _ ST) (st_quant _ _ _ _ _ ST)). }
  assert (L2 : filterlim D (at_right 0) (locally (D x))).
  { apply (flim_eq (at_right 0) (fun _ => D x)); [exists (mkposreal 1 Rlt_0_1); intros y _ Y; symmetry; apply CO; auto|]. apply flim_const. apply at_right_proper_filter. }
  pose proof (filterlim_locally_unique (F := at_right 0) D 0 (D x) L L2) as E. unfold D in E. unfold sF. lra.
Qed.
Lemma sF_range x : 0 < sF x < 1.
Proof.
  assert (P : forall x, 0 < x -> 1/2 < sF x < 1).
  { intros y Y. rewrite sF_pos by auto. pose proof (F_open01 _ _ _ _ (st_smooth _ _ _ _ _ ST) y (in_half y Y)). lra. }
  destruct (Rtotal_order x 0) as [N|[->|N]].
  - rewrite <- (Ropp_involutive x), sF_neg. pose proof (P (- x) ltac:(lra)). lra.
  - rewrite sF_0. lra.
  - pose proof (P x N). lra.
Qed.
Lemma sST : std m_infty p_infty sF f sQ.
Proof.
  constructor.
  - constructor; [exact Logic.I| | |]; intros x _.
    + pose proof (sF_range x). lra.
    + apply sF_der.
    + apply POS.
  - intros; apply CT.
  - intros p P. split; [apply in_line|]. unfold sQ. destruct (Rlt_dec p (1/2)) as [L|L].
    + rewrite sF_neg. destruct (st_quant _ _ _ _ _ ST (1 - 2 * p) ltac:(lra)) as [[I _] E]. simpl in I. rewrite sF_pos by auto. rewrite E. field.
    + destruct (Rlt_dec (1/2) p) as [L'|L'].
      * destruct (st_quant _ _ _ _ _ ST (2 * p - 1) ltac:(lra)) as [[I _] E]. simpl in I. rewrite sF_pos by auto. rewrite E. field.
      * rewrite sF_0. lra.
Qed.
Lemma sF_incr x y : x < y -> sF x < sF y.
Proof. apply (F_incr _ _ _ _ (st_smooth _ _ _ _ _ sST)); apply in_line. Qed.
Lemma sF_inj x y : sF x = sF y -> x = y.
Proof. apply (F_inj _ _ _ _ (st_smooth _ _ _ _ _ sST)); apply in_line. Qed.
End Sym.
