(** Proofs about M_genexpon. *)
From Coq Require Import Reals Lra List.
From Coq Require Ranalysis5.
From Coquelicot Require Import Coquelicot.
From Verif Require Import Values VTac Spec RLib DistLib DistLS LimLib MomLib PLib LambertLib SFun2 M_common M_sfun2.
From Verif Require Import M_genexpon.
Import ListNotations.
Local Open Scope R_scope.
Set Bullet Behavior "Strict Subproofs".

Section Std.
Variables a b c : R.
Hypothesis A : 0 < a.
Hypothesis B : 0 < b.
Hypothesis C : 0 < c.
Definition X (z : R) := - (a + b) * z + b / c * - (exp (- c * z) - 1).
Definition h (z : R) := a + b * - (exp (- c * z) - 1).
Definition F (z : R) := - (exp (X z) - 1).
Definition f (z : R) := h z * exp (X z).
Definition s0 (p : R) := b / (a + b) / c - ln (1 - p) / (a + b).
Definition Q (p : R) := s0 p + LambertW (- (b / (a + b)) * exp (- s0 p * c)) / c.
Lemma h_pos z : 0 <= z -> 0 < h z.
Proof. intros Z. unfold h. pose proof (exp_le_1 (- c * z) ltac:(nra)). nra. Qed.
Lemma X_der z : is_derive X z (- h z).
Proof. unfold X, h. auto_derive; auto. field. lra. Qed.
Lemma X_0 : X 0 = 0. Proof. unfold X. rewrite !Rmult_0_r, exp_0. ring. Qed.
Lemma X_le z : 0 <= z -> X z <= - a * z.
Proof.
  intros Z. unfold X. pose proof (exp_ineq (- c * z)) as E. assert (0 < b / c) by (apply Rdiv_pos; auto).
  assert (b / c * - (exp (- c * z) - 1) <= b / c * (c * z)) by (apply Rmult_le_compat_l; lra).
  replace (b / c * (c * z)) with (b * z) in H0 by (field; lra). lra.
Qed.
Lemma X_neg z : 0 < z -> X z < 0. Proof. intros Z. pose proof (X_le z ltac:(lra)). nra. Qed.
Lemma X_onto y : y < 0 -> exists z, 0 < z /\ X z = y.
Proof.
  intros Y. destruct (Ranalysis5.IVT_interv (fun z => y - X z) 0 (- y / a + 1)) as [z [Z E]].
  - intros z _. apply continuity_pt_filterlim. apply (ex_derive_continuous (V := R_NormedModule) (fun z => y - X z)). unfold X. auto_derive; auto.
  - assert (0 < - y / a) by (apply Rdiv_pos; lra). lra.
  - rewrite X_0. lra.
  - assert (0 < - y / a) by (apply Rdiv_pos; lra). pose proof (X_le (- y / a + 1) ltac:(lra)). 
    replace (- a * (- y / a + 1)) with (y - a) in H0 by (field; lra). lra.
  - exists z. split; [|lra]. destruct (Req_dec z 0) as [->|]; [rewrite X_0 in E; lra|lra].
Qed.
Lemma r_in : 0 < b / (a + b) < 1. Proof. split; [apply Rdiv_pos; lra|]. apply div_lt_1; lra. Qed.
Lemma w_eq p z : 0 < z -> X z = ln (1 - p) -> let w := c * (z - s0 p) in
  -1 <= w /\ - (b / (a + b)) * exp (- s0 p * c) = w * exp w.
Proof.
  intros Z E w. assert (W : w = - (b / (a + b)) * exp (- c * z)).
  { unfold w, s0. rewrite <- E. unfold X. field. lra. }
  split.
  - rewrite W. pose proof r_in. pose proof (exp_pos (- c * z)). pose proof (exp_le_1 (- c * z) ltac:(nra)).
    assert (b / (a + b) * exp (- c * z) <= b / (a + b) * 1) by (apply Rmult_le_compat_l; lra). lra.
  - rewrite W at 1. unfold w. rewrite Rmult_assoc, <- exp_plus. do 2 f_equal. ring.
Qed.
Lemma Q_eq p z : 0 < z -> X z = ln (1 - p) -> Q p = z.
Proof.
  intros Z E. destruct (w_eq p z Z E) as [W1 W2]. unfold Q. rewrite W2, LambertW_eq by auto. field. lra.
Qed.
Lemma ST : std 0 p_infty F f Q.
Proof.
  constructor.
  - constructor; simpl; auto.
    + intros z [Z _]. simpl in Z. unfold F. pose proof (exp_pos (X z)). pose proof (exp_lt_1 (X z) (X_neg z Z)). lra.
    + intros z [Z _]. unfold F, f. evar_last.
      * apply (is_derive_opp (fun z => exp (X z) - 1)). apply (is_derive_minus (fun z => exp (X z)) (fun _ => 1)); [|apply is_derive_const].
        apply (is_derive_comp exp X); [apply is_derive_exp|apply X_der].
      * unfold opp, minus, plus, opp, zero, scal; simpl; unfold mult; simpl. ring.
    + intros z [Z _]. simpl in Z. unfold f. apply Rmult_lt_0_compat; [apply h_pos; lra|apply exp_pos].
  - intros z _. unfold f, h, X. apply ex_derive_cont. auto_derive. auto.
  - intros p P. destruct (X_onto (ln (1 - p))) as [z [Z E]]; [apply ln_neg; lra|].
    rewrite (Q_eq p z Z E). split; [split; simpl; auto|]. unfold F. rewrite E, exp_ln by lra. ring.
Qed.
End Std.
Ltac start := unfold pdf, logpdf, cdf, sf, invcdf, invsf, support, validate_x, validate, validate_positive, validate_p, expo.

Section P.
Variables a b c l s : R.
Hypothesis A : 0 < a.
Hypothesis B : 0 < b.
Hypothesis C : 0 < c.
Hypothesis S : 0 < s.
Notation z x := ((x - l) / s).
Lemma z_nn x : l <= x -> 0 <= z x. Proof. intros. apply Rdiv_nonneg; lra. Qed.
Lemma vals (x : R) : l <= x -> cdf x a b c l s = Fin (F a b c (z x)) /\ sf x a b c l s = Fin (1 - F a b c (z x)) /\ pdf x a b c l s = Fin (f a b c (z x) / s) /\
  logpdf x a b c l s = Fin (ln (f a b c (z x))).
Proof.
  intros L. pose proof (z_nn x L) as Z. pose proof (h_pos a b c A B C _ Z) as HP. unfold f at 2. rewrite ln_mult by (auto; apply exp_pos). rewrite ln_exp.
  unfold h in HP. unfold F, f, h, X. start. veval. repeat split; auto; f_equal; ring.
Qed.
Lemma below (x : R) : x < l -> pdf x a b c l s = Exc ValueError /\ logpdf x a b c l s = Exc ValueError /\ cdf x a b c l s = Exc ValueError /\ sf x a b c l s = Exc ValueError.
Proof. intros L. start. veval. auto. Qed.
Lemma at_inf : cdf PInf a b c l s = Fin 1 /\ sf PInf a b c l s = Fin 0.
Proof. start. veval. unfold scale_inf. veval. split; f_equal; ring. Qed.
Lemma at_lo : F a b c (z l) = 0.
Proof. replace (z l) with 0 by (field; lra). unfold F. rewrite X_0, exp_0. ring. Qed.
Lemma invs p : 0 < p < 1 -> invcdf p a b c l s = Fin (l + s * Q a b c p) /\ invsf p a b c l s = Fin (l + s * Q a b c (1 - p)).
Proof.
  intros P. assert (K : forall q, 0 < q < 1 -> vlambertw (Fin (- (b / (a + b)) * exp (- s0 a b c q * c))) = Fin (LambertW (- (b / (a + b)) * exp (- s0 a b c q * c)))).
  { intros q Hq. destruct (X_onto a b c A B C (ln (1 - q))) as [y [Y E]]; [apply ln_neg; lra|].
    destruct (w_eq a b c A B C q y Y E) as [W1 W2]. rewrite W2, LambertW_eq by auto. apply vlambertw_eq; auto. }
  pose proof (K p P) as K1. pose proof (K (1 - p) ltac:(lra)) as K2. unfold Q.
  unfold s0 in *. replace (1 - (1 - p)) with p in * by ring.
  unfold invcdf, invsf, validate, validate_positive, validate_p. cbv zeta.
  assert (VR : (Fin b / (Fin a + Fin b))%V = Fin (b / (a + b))) by (veval; reflexivity). rewrite VR.
  assert (V1 : (Fin (b / (a + b)) / Fin c - vlog1p (- Fin p) / (Fin a + Fin b))%V = Fin (b / (a + b) / c - ln (1 - p) / (a + b))) by (veval; reflexivity).
  assert (V2 : (Fin (b / (a + b)) / Fin c - vlog (Fin p) / (Fin a + Fin b))%V = Fin (b / (a + b) / c - ln p / (a + b))) by (veval; reflexivity).
  rewrite V1, V2. revert K1 K2. generalize (b / (a + b)) (b / (a + b) / c - ln (1 - p) / (a + b)) (b / (a + b) / c - ln p / (a + b)). intros r y1 y2 K1 K2.
  split; veval; [rewrite K1|rewrite K2]; veval; f_equal; ring.
Qed.
(** The functions as they would be with the usual convention below the support. *)
Definition cdf' (x : val) := match x with Fin t => if Rltb t l then Fin 0 else cdf x a b c l s | NInf => Fin 0 | v => cdf v a b c l s end.
Definition sf' (x : val) := match x with Fin t => if Rltb t l then Fin 1 else sf x a b c l s | NInf => Fin 1 | v => sf v a b c l s end.
Definition pdf' (x : val) := match x with Fin t => if Rltb t l then Fin 0 else pdf x a b c l s | v => pdf v a b c l s end.
Definition logpdf' (x : val) := match x with Fin t => if Rltb t l then NInf else Fin (ln (f a b c (z t) / s)) | v => v end.
Lemma CERT' : cert pdf' logpdf' cdf' sf' (fun p => invcdf p a b c l s) (fun p => invsf p a b c l s) l p_infty
  (fun x => F a b c (z x)) (fun x => f a b c (z x) / s) (fun p => l + s * Q a b c p).
Proof.
  apply (ls_cert 0 p_infty (F a b c) (f a b c) (Q a b c) (ST a b c A B C) l s S).
  - simpl. f_equal. ring.
  - reflexivity.
  - constructor.
    + intros x [L _]. simpl in L. unfold cdf', sf'. rewrite !Rltb_false by lra. pose proof (vals x ltac:(lra)). tauto.
    + intros x L. simpl in L. unfold cdf', sf'. destruct (Rle_lt_or_eq_dec _ _ L) as [L1| ->].
      * rewrite !Rltb_true by lra. auto.
      * rewrite !Rltb_false by lra. destruct (vals l ltac:(lra)) as [E1 [E2 _]]. rewrite E1, E2, at_lo. split; f_equal; ring.
    + intros x [].
    + auto.
    + apply at_inf.
  - intros x [L _]. simpl in L. assert (l < x) by (destruct (Rlt_le_dec l x); auto; exfalso; assert (z x <= 0) by (apply Rmult_le_reg_r with s; auto; unfold Rdiv; rewrite Rmult_assoc, Rinv_l by lra; lra); lra).
    unfold pdf', logpdf'. rewrite !Rltb_false by lra. split; auto. apply vals. lra.
  - intros x [L|[]]. simpl in L. unfold pdf', logpdf'. rewrite !Rltb_true by lra. auto.
  - intros p P. apply invs; auto.
Qed.
Lemma cdf_in x : ext_le (Fin l) x -> cdf' x = cdf x a b c l s /\ sf' x = sf x a b c l s.
Proof. intros L. inversion L; subst; unfold cdf', sf'; auto. rewrite !Rltb_false by lra. auto. Qed.
Lemma compl x : ext_le (Fin l) x -> exists v, 0 <= v <= 1 /\ cdf x a b c l s = Fin v /\ sf x a b c l s = Fin (1 - v).
Proof.
  intros L. destruct (cdf_in x L) as [E1 E2]. rewrite <- E1, <- E2. apply (cert_complementary CERT').
  inversion L; subst; constructor.
Qed.
Lemma mono : (forall x y, ext_le (Fin l) x -> ext_le x y -> exists u v, cdf x a b c l s = Fin u /\ cdf y a b c l s = Fin v /\ u <= v) /\
  cdf (Fin l) a b c l s = Fin 0 /\ cdf PInf a b c l s = Fin 1 /\ support a b c l s = Ok (Fin l, PInf).
Proof.
  split; [|split; [destruct (vals l ltac:(lra)) as [E _]; rewrite E, at_lo; auto|split; [apply at_inf|start; veval; auto]]].
  intros x y L XY. assert (LY : ext_le (Fin l) y) by (inversion L; subst; inversion XY; subst; constructor; try lra; constructor).
  destruct (cdf_in x L) as [E1 _]. destruct (cdf_in y LY) as [E2 _]. rewrite <- E1, <- E2. apply (cert_nondecreasing CERT'); auto.
Qed.
Lemma density : forall x, l < x -> exists v, pdf (Fin x) a b c l s = Fin v /\ 0 <= v /\ is_derive (fun t => toR (cdf (Fin t) a b c l s)) x v.
Proof.
  intros x L. destruct (cert_density CERT') as [D _]. destruct (D x ltac:(split; simpl; auto)) as [v [E1 [E2 E3]]].
  exists v. unfold pdf' in E1. rewrite Rltb_false in E1 by lra. split; auto. split; auto.
  apply (is_derive_ext_loc (fun t => toR (cdf' (Fin t)))); auto. exists (mkposreal (x - l) ltac:(lra)). intros y Y.
  unfold ball in Y; simpl in Y; unfold AbsRing_ball, abs, minus, plus, opp in Y; simpl in Y. apply Rabs_def2 in Y.
  unfold cdf'. rewrite Rltb_false by lra. auto.
Qed.
Lemma mass : total_mass_one (fun x => pdf x a b c l s) l p_infty.
Proof.
  apply (integrates_ext l p_infty I (fun t => toR (pdf' (Fin t)))); [|apply (cert_total_mass CERT')].
  intros x [L _]. simpl in L. unfold pdf'. rewrite Rltb_false by lra. auto.
Qed.
Lemma inv_cdf : inverse_of (fun x => cdf x a b c l s) (fun p => invcdf p a b c l s) l p_infty.
Proof.
  destruct (cert_inverse CERT') as [I1 I2]. split.
  - intros p P. destruct (I1 p P) as [x [E1 [[L _] E2]]]. simpl in L. exists x. split; auto. split; [split; simpl; auto|].
    unfold cdf' in E2. rewrite Rltb_false in E2 by lra. auto.
  - intros x [L H]. destruct (I2 x (conj L H)) as [p [P [E1 E2]]]. simpl in L. exists p. unfold cdf' in E1. rewrite Rltb_false in E1 by lra. auto.
Qed.
Lemma inv_sf : inverse_of (fun x => sf x a b c l s) (fun p => invsf p a b c l s) l p_infty /\
  (forall p, 0 < p < 1 -> invsf (Fin p) a b c l s = invcdf (Fin (1 - p)) a b c l s).
Proof.
  split; [|apply (cert_invsf_invcdf CERT')].
  destruct (cert_inverse_sf CERT') as [I1 I2]. split.
  - intros p P. destruct (I1 p P) as [x [E1 [[L _] E2]]]. simpl in L. exists x. split; auto. split; [split; simpl; auto|].
    unfold sf' in E2. rewrite Rltb_false in E2 by lra. auto.
  - intros x [L H]. destruct (I2 x (conj L H)) as [p [P [E1 E2]]]. simpl in L. exists p. unfold sf' in E1. rewrite Rltb_false in E1 by lra. auto.
Qed.
Lemma ends : rejects_bad_p (fun p => invcdf p a b c l s) /\ rejects_bad_p (fun p => invsf p a b c l s) /\
  at_ends (fun p => invcdf p a b c l s) (Fin l) PInf /\ at_ends (fun p => invsf p a b c l s) PInf (Fin l).
Proof.
  assert (RJ : rejects_bad_p (fun p => invcdf p a b c l s) /\ rejects_bad_p (fun p => invsf p a b c l s)).
  { split; (split; [intros p [H|H]|split]; start; veval; reflexivity). }
  destruct RJ as [R1 R2]. split; auto. split; auto.
  pose proof (r_in a b A B) as RI.
  assert (K : vlambertw (Fin (- (b / (a + b)) * exp (- (b / (a + b) / c - 0 / (a + b)) * c))) = Fin (- (b / (a + b)))).
  { replace (- (b / (a + b) / c - 0 / (a + b)) * c) with (- (b / (a + b))) by (field; lra). apply vlambertw_eq. lra. }
  assert (K0 : vlambertw (Fin (- (b / (a + b)) * 0)) = Fin 0).
  { replace (- (b / (a + b)) * 0) with (0 * exp 0) by ring. apply vlambertw_eq. lra. }
  split; split.
  - unfold invcdf, validate, validate_positive, validate_p. cbv zeta.
    assert (V1 : (Fin b / (Fin a + Fin b) / Fin c - vlog1p (- Fin 0) / (Fin a + Fin b))%V = Fin (b / (a + b) / c - 0 / (a + b))) by (veval; rewrite Rminus_0_r, ln_1; reflexivity).
    rewrite V1. veval. rewrite K. veval. f_equal. field. lra.
  - unfold invcdf, validate, validate_positive, validate_p. cbv zeta.
    assert (V1 : (Fin b / (Fin a + Fin b) / Fin c - vlog1p (- Fin 1) / (Fin a + Fin b))%V = PInf) by (veval; unfold scale_inf; veval; reflexivity).
    rewrite V1. veval. unfold scale_inf. veval. rewrite K0. veval. reflexivity.
  - unfold invsf, validate, validate_positive, validate_p. cbv zeta.
    assert (V1 : (Fin b / (Fin a + Fin b) / Fin c - vlog (Fin 0) / (Fin a + Fin b))%V = PInf) by (veval; unfold scale_inf; veval; reflexivity).
    rewrite V1. veval. unfold scale_inf. veval. rewrite K0. veval. reflexivity.
  - unfold invsf, validate, validate_positive, validate_p. cbv zeta.
    assert (V1 : (Fin b / (Fin a + Fin b) / Fin c - vlog (Fin 1) / (Fin a + Fin b))%V = Fin (b / (a + b) / c - 0 / (a + b))) by (veval; rewrite ln_1; reflexivity).
    rewrite V1. veval. rewrite K. veval. f_equal. field. lra.
Qed.
Lemma log_unit : s = 1 -> forall x : R, l <= x -> log_of (fun x => pdf x a b c l s) (fun x => logpdf x a b c l s) x.
Proof.
  intros E x L. left. exists (f a b c (z x) / s). pose proof (z_nn x L) as Z.
  assert (FP : 0 < f a b c (z x)) by (apply Rmult_lt_0_compat; [apply h_pos; auto|apply exp_pos]).
  split; [apply Rdiv_pos; auto|]. destruct (vals x L) as [_ [_ [E1 E2]]]. split; auto. rewrite E2. do 2 f_equal. rewrite E. field.
Qed.
Lemma log_wrong : s <> 1 -> forall x : R, l <= x -> exists v, 0 < v /\ pdf x a b c l s = Fin v /\ logpdf x a b c l s = Fin (ln v + ln s) /\ ln s <> 0 /\
  ~ log_of (fun x => pdf x a b c l s) (fun x => logpdf x a b c l s) x.
Proof.
  intros E x L. exists (f a b c (z x) / s). pose proof (z_nn x L) as Z.
  assert (FP : 0 < f a b c (z x)) by (apply Rmult_lt_0_compat; [apply h_pos; auto|apply exp_pos]).
  assert (LS : ln s <> 0) by (intros H; apply E; apply ln_inv; try lra; rewrite H, ln_1; auto).
  split; [apply Rdiv_pos; auto|]. destruct (vals x L) as [_ [_ [E1 E2]]]. split; auto. split; [rewrite E2, ln_div by auto; f_equal; ring|]. split; auto.
  intros [[v [V [H1 H2]]]|[[H1 H2]|[H1 H2]]]; try (rewrite E2 in H2; discriminate). rewrite E1 in H1. rewrite E2 in H2. injection H1 as <-. injection H2 as H2.
  rewrite ln_div in H2 by auto. lra.
Qed.
End P.
Lemma bad_params (a b c l s : val) : isnum a -> isnum b -> isnum c -> isnum l -> isnum s -> nonpositive a \/ nonpositive b \/ nonpositive c \/ nonpositive s ->
  support a b c l s = Err ValueError /\
  always_ValueError [ fun x => pdf x a b c l s; fun x => logpdf x a b c l s; fun x => cdf x a b c l s; fun x => sf x a b c l s;
    fun p => invcdf p a b c l s; fun p => invsf p a b c l s ].
Proof.
  intros HA HB HC HL HS D. assert (V : forall (T : Type) (CR : CanRaise T) (k : T), validate a b c l s k = raise ValueError).
  { intros T CR k. unfold validate. destruct D as [D|[D|[D|D]]].
    - apply vp_bad; auto.
    - apply vp_pass; auto. apply vp_bad; auto.
    - apply vp_pass; auto. apply vp_pass; auto. apply vp_bad; auto.
    - apply vp_pass; auto. apply vp_pass; auto. apply vp_pass; auto. apply vp_bad; auto. }
  unfold support, pdf, logpdf, cdf, sf, invcdf, invsf, validate_x. split; [apply V|]. all_ve; intros x Hx; try (apply vpp_pass; auto); apply V.
Qed.
