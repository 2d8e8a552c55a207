(** Proofs about M_slash. *)
From Coq Require Import Reals Lra List.
From Coquelicot Require Import Coquelicot.
From Verif Require Import Values VTac Spec RLib LimLib DistLib DistLS IntLib MomLib PLib M_common
  SFun GammaLib GammaLib2 GammaLib3 M_sfun P_sfun TruncLib SpecInv NoInt SpecNoMom.
From Verif Require M_normal P_normal P_truncnorm P_power_normal SymLib.
From Verif Require Import M_slash.
Import ListNotations.
Local Open Scope R_scope.
Set Bullet Behavior "Strict Subproofs".

Definition k0 := nkernel 0.
Definition f (x : R) := if Req_EM_T x 0 then k0 / 2 else (k0 - nkernel x) / x ^ 2.
Definition F (x : R) := ncdf x - x * f x.
Definition Q (p : R) := inverse_fn m_infty p_infty F (p * 1).
Lemma k0_pos : 0 < k0. Proof. apply nkernel_pos. Qed.
Lemma k0_val : k0 = / sqrt (2 * PI).
Proof. unfold k0, nkernel. replace (- 0 ^ 2 / 2) with 0 by field. rewrite exp_0. field. pose proof sqrt2PI_pos. lra. Qed.
Lemma nk x : nkernel x = k0 * exp (- (x ^ 2 / 2)).
Proof. rewrite k0_val. unfold nkernel. replace (- x ^ 2 / 2) with (- (x ^ 2 / 2)) by field. unfold Rdiv. ring. Qed.
Lemma sq_pos x : x <> 0 -> 0 < x ^ 2. Proof. intros H. rewrite <- Rsqr_pow2. apply Rsqr_pos_lt; auto. Qed.
Lemma e_lo u : 0 <= u -> u / (1 + u) <= 1 - exp (- u).
Proof.
  intros H. pose proof (exp_ineq u) as E. pose proof (exp_pos u). rewrite exp_Ropp.
  replace (u / (1 + u)) with (1 - / (1 + u)) by (field; lra). apply Rplus_le_compat_l, Ropp_le_contravar, Rinv_le_contravar; lra.
Qed.
Lemma e_hi u : 1 - exp (- u) <= u. Proof. pose proof (exp_ineq (- u)). lra. Qed.
Lemma f_bounds x : k0 * / (2 + x ^ 2) <= f x <= k0 / 2.
Proof.
  pose proof k0_pos. assert (0 <= x ^ 2) by (apply pow2_ge_0). unfold f. destruct Req_EM_T as [->|N].
  - replace (2 + 0 ^ 2) with 2 by ring. lra.
  - pose proof (sq_pos x N). rewrite (nk x). pose proof (e_lo (x ^ 2 / 2) ltac:(lra)) as L. pose proof (e_hi (x ^ 2 / 2)) as U. set (e := exp (- (x ^ 2 / 2))) in *.
    replace (k0 - k0 * e) with (k0 * (1 - e)) by ring. split.
    + apply (Rmult_le_reg_r (x ^ 2)); auto. replace (k0 * (1 - e) / x ^ 2 * x ^ 2) with (k0 * (1 - e)) by (field; auto).
      replace (k0 * / (2 + x ^ 2) * x ^ 2) with (k0 * (x ^ 2 / 2 / (1 + x ^ 2 / 2))) by (field; lra). apply Rmult_le_compat_l; lra.
    + apply (Rmult_le_reg_r (x ^ 2)); auto. replace (k0 * (1 - e) / x ^ 2 * x ^ 2) with (k0 * (1 - e)) by (field; auto). nra.
Qed.
Lemma f_pos x : 0 < f x.
Proof.
  destruct (f_bounds x) as [L _]. eapply Rlt_le_trans; [|apply L]. apply Rmult_lt_0_compat; [apply k0_pos|]. apply Rinv_0_lt_compat. pose proof (pow2_ge_0 x). lra.
Qed.
Lemma near_ne x : x <> 0 -> locally x (fun t => t <> 0).
Proof.
  intros N. assert (P : 0 < Rabs x) by (apply Rabs_pos_lt; auto). exists (mkposreal _ P). intros y B E. subst y.
  unfold ball in B; simpl in B; unfold AbsRing_ball, abs, minus, plus, opp in B; simpl in B. rewrite Rplus_0_l, Rabs_Ropp in B. lra.
Qed.
Lemma f_ne x : x <> 0 -> f x = (k0 - nkernel x) / x ^ 2.
Proof. intros N. unfold f. destruct Req_EM_T; congruence. Qed.
Lemma f_0 : f 0 = k0 / 2. Proof. unfold f. destruct Req_EM_T; congruence. Qed.
Lemma f_cont x : continuous f x.
Proof.
  destruct (Req_dec x 0) as [->|N].
  - unfold continuous. rewrite f_0. apply (flim_squeeze (locally 0) f (fun x => k0 * / (2 + x ^ 2)) (fun _ => k0 / 2)).
    + apply filter_forall. apply f_bounds.
    + replace (k0 / 2) with (k0 * / (2 + 0 ^ 2)) by (replace (2 + 0 ^ 2) with 2 by ring; auto). apply (ex_derive_cont (fun x => k0 * / (2 + x ^ 2))). auto_derive. replace (2 + 0 * (0 * 1)) with 2 by ring. lra.
    + apply flim_const. apply locally_filter.
  - apply (continuous_ext_loc _ (fun x => (k0 - nkernel x) / x ^ 2)).
    + generalize (near_ne x N). apply filter_imp. intros t T. symmetry. apply f_ne. auto.
    + apply ex_derive_cont. unfold nkernel. pose proof sqrt2PI_pos. auto_derive. pose proof (sq_pos x N). simpl in *. repeat split; auto; lra.
Qed.
Lemma der x : is_derive F x (f x).
Proof.
  unfold F. destruct (Req_dec x 0) as [->|N].
  - rewrite f_0. replace (k0 / 2) with (k0 - k0 / 2) by field.
    apply (is_derive_minus ncdf (fun x => x * f x) 0 k0 (k0 / 2)); [apply ncdf_der|].
    apply is_derive_Reals. intros e E. destruct (proj1 (filterlim_locally f (f 0)) (f_cont 0) (mkposreal e E)) as [d D].
    exists d. intros h H0 HD. rewrite Rplus_0_l, Rmult_0_l, <- f_0. replace ((h * f h - 0) / h - f 0) with (f h - f 0) by (field; auto).
    apply (D h). unfold ball; simpl; unfold AbsRing_ball, abs, minus, plus, opp; simpl. rewrite Ropp_0, Rplus_0_r. auto.
  - apply (is_derive_ext_loc (fun x => ncdf x - (k0 - nkernel x) / x)).
    + generalize (near_ne x N). apply filter_imp. intros t T. rewrite f_ne by auto. match goal with |- ?a = ?b => change (@eq R a b) end. field. auto.
    + rewrite f_ne by auto. pose proof (ncdf_der x) as D1. pose proof (nkernel_der x) as D2.
      replace ((k0 - nkernel x) / x ^ 2) with (nkernel x - ((x * (x * nkernel x) - (k0 - nkernel x)) / x ^ 2)) by (field; auto).
      apply (is_derive_minus ncdf (fun x => (k0 - nkernel x) / x) x (nkernel x)); auto. set (w := nkernel) in *. clearbody w. auto_derive.
      * repeat split; auto. eexists; apply D2.
      * change (Derive (fun x0 => w x0) x) with (Derive w x). rewrite (is_derive_unique _ _ _ D2). field. auto.
Qed.
Lemma xf_bound x : x <> 0 -> Rabs (x * f x) <= k0 * / Rabs x.
Proof.
  intros N. rewrite f_ne by auto. replace (x * ((k0 - nkernel x) / x ^ 2)) with ((k0 - nkernel x) * / x) by (field; auto).
  rewrite Rabs_mult, Rabs_inv. apply Rmult_le_compat_r; [left; apply Rinv_0_lt_compat, Rabs_pos_lt; auto|].
  pose proof (nkernel_max x). pose proof (nkernel_pos x). unfold k0 in *. rewrite Rabs_right; lra.
Qed.
Lemma f_even x : f (- x) = f x.
Proof.
  destruct (Req_dec x 0) as [->|N]; [rewrite Ropp_0; auto|]. rewrite !f_ne by (auto; lra). rewrite nkernel_even. f_equal. ring.
Qed.
Lemma xf_lim : filterlim (fun x => x * f x) (Rbar_locally p_infty) (locally 0).
Proof. apply (lim_bound _ k0 0). intros x _ X. rewrite <- (Rabs_right x) at 3 by lra. apply xf_bound. lra. Qed.
Lemma xf_lim_m : filterlim (fun x => x * f x) (Rbar_locally m_infty) (locally 0).
Proof.
  apply lim_opp_minf. apply (filterlim_ext (fun x => - (x * f x))); [intros x; rewrite f_even; ring|]. rewrite <- Ropp_0. apply flim_opp. apply xf_lim.
Qed.
Lemma IF_ok : integral_fn m_infty p_infty f F 1.
Proof.
  constructor.
  - simpl; auto.
  - intros x _. apply f_cont.
  - intros x _. apply f_pos.
  - intros x _. apply der.
  - unfold near_lo. rewrite <- (Rminus_0_r 0). apply (flim_minus (Rbar_locally m_infty) ncdf (fun x => x * f x)); [apply (if_lo _ _ _ _ _ ncdf_if)|apply xf_lim_m].
  - unfold near_hi. rewrite <- (Rminus_0_r 1). apply (flim_minus (Rbar_locally p_infty) ncdf (fun x => x * f x)); [apply (if_hi _ _ _ _ _ ncdf_if)|apply xf_lim].
Qed.
Lemma ST : std m_infty p_infty F f Q.
Proof.
  pose proof (std_of_if _ _ _ _ _ IF_ok) as S0.
  replace F with (fun x => F x / 1) by (apply FunctionalExtensionality.functional_extensionality; intros; field).
  replace f with (fun x => f x / 1) by (apply FunctionalExtensionality.functional_extensionality; intros; field). exact S0.
Qed.
Lemma delta_fin (x : R) : delta x = Fin (k0 - nkernel x).
Proof.
  unfold delta, delta_x2_threshold. cbv zeta. change vpi with (Fin PI). cbn [vmul].
  change (clt (Fin (x * x)) (Fin (9 / 1000000))) with (CB (Rltb (x * x) (9 / 1000000))). pose proof sqrt2PI_pos as SP. pose proof PI_RGT_0.
  destruct (Rltb (x * x) (9 / 1000000)); cbn [cif].
  - veval. f_equal. rewrite (nk x), k0_val. replace (- (x * x) / 2) with (- (x ^ 2 / 2)) by field. unfold Rdiv. ring.
  - rewrite !P_power_normal.np. veval. f_equal.
Qed.
Lemma ceq0 (x : R) : ceq (Fin x) (Fin 0) = CB (Reqb x 0). Proof. reflexivity. Qed.
Lemma pdf_fin (x : R) : pdf x = Fin (f x) /\ logpdf x = Fin (ln (f x)).
Proof.
  assert (P0 : pdf (Fin 0) = Fin (k0 / 2)).
  { unfold pdf. rewrite ceq0, Reqb_true by auto. cbn [cif]. change vpi with (Fin PI). pose proof sqrt2PI_pos as SP. pose proof PI_RGT_0. veval. f_equal. rewrite k0_val. field. lra. }
  pose proof k0_pos. unfold logpdf. rewrite P0. destruct (Req_dec x 0) as [->|N].
  - rewrite P0, f_0. split; auto. rewrite ceq0, Reqb_true by auto. cbn [cif]. veval. reflexivity.
  - unfold pdf. rewrite ceq0, Reqb_false by auto. cbn [cif]. rewrite delta_fin, vpown_Fin. pose proof (sq_pos x N).
    rewrite f_ne by auto. rewrite vdiv_Fin by lra. split; auto. cbn [vabs].
    assert (D : 0 < k0 - nkernel x). { pose proof (f_pos x) as P. rewrite f_ne in P by auto. replace (k0 - nkernel x) with ((k0 - nkernel x) / x ^ 2 * x ^ 2) by (field; auto). pos. }
    pose proof (Rabs_pos_lt x N). veval. f_equal. rewrite ln_div by auto. replace (x ^ 2) with (Rabs x * Rabs x) by (rewrite <- Rabs_mult, Rabs_right; [ring|nra]). rewrite ln_mult by auto. ring.
Qed.
Lemma half : ncdf 0 = 1 / 2. Proof. pose proof (ncdf_opp 0) as H. rewrite Ropp_0 in H. lra. Qed.
Lemma cdf_fin (x : R) : cdf x = Fin (F x) /\ sf x = Fin (1 - F x).
Proof.
  unfold cdf, sf, F. destruct (Req_dec x 0) as [->|N].
  - rewrite ceq0, Reqb_true by auto. cbn [cif]. rewrite half. veval. split; f_equal; field.
  - rewrite ceq0, Reqb_false by auto. cbn [cif]. cbn [vneg]. rewrite !P_power_normal.nc, delta_fin. rewrite vdiv_Fin by auto. rewrite ncdf_opp, f_ne by auto.
    cbn [vsub vadd vneg]. split; f_equal; field; auto.
Qed.
Lemma delta_inf : delta PInf = Fin k0 /\ delta NInf = Fin k0.
Proof.
  pose proof (P_truncnorm.vnpdf_V p_infty) as HP. pose proof (P_truncnorm.vnpdf_V m_infty) as HM. cbn [val_of_Rbar] in HP, HM.
  unfold delta, delta_x2_threshold. cbv zeta. cbn [vmul clt cif]. rewrite HP, HM, !P_power_normal.np. unfold xk, xe. cbn [vsub vadd vneg]. unfold k0. vif. split; f_equal; ring.
Qed.
Lemma CERT : cert pdf logpdf cdf sf
  (fun p => match p with Fin p => Fin (Q p) | v => v end) (fun p => match p with Fin p => Fin (Q (1 - p)) | v => v end) m_infty p_infty F f Q.
Proof.
  destruct ST as [S1 S2 S3]. constructor; auto.
  - constructor.
    + intros x _. apply cdf_fin.
    + intros x [].
    + intros x [].
    + unfold cdf, sf. rewrite ?(proj1 delta_inf), ?(proj2 delta_inf). vif; cbn [vneg]. rewrite (vncdf_PInf 0 1), (vncdf_NInf 0 1) by lra. cbn [vdiv vsub vadd vneg]. split; f_equal; ring.
    + unfold cdf, sf. rewrite ?(proj1 delta_inf), ?(proj2 delta_inf). vif; cbn [vneg]. rewrite (vncdf_PInf 0 1), (vncdf_NInf 0 1) by lra. cbn [vdiv vsub vadd vneg]. split; f_equal; ring.
  - intros x _. apply pdf_fin.
  - intros x [[]|[]].
Qed.
Lemma mode_ok : is_mode pdf mode.
Proof.
  exists 0, (f 0). split; auto. split; [apply pdf_fin|]. intros x. exists (f x). split; [apply pdf_fin|]. rewrite f_0. apply f_bounds.
Qed.
Lemma reflect (x : R) : cdf (Fin (- x)) = sf x /\ pdf (Fin (- x)) = pdf x.
Proof.
  rewrite (proj1 (cdf_fin (- x))), (proj2 (cdf_fin x)), (proj1 (pdf_fin x)), (proj1 (pdf_fin (- x))), f_even. split; auto. unfold F. rewrite f_even, ncdf_opp. f_equal. ring.
Qed.
(** C43 *)
Lemma no_mean_ok : mean = Fin 0 /\ no_mean pdf m_infty p_infty.
Proof.
  split; auto. intros v. pose proof (f_pos 1) as P1. rewrite f_ne in P1 by lra. replace ((k0 - nkernel 1) / 1 ^ 2) with (k0 - nkernel 1) in P1 by field.
  refine (no_integral m_infty p_infty _ 1 (fun t => (k0 - nkernel 1) * ln t) (fun t => (k0 - nkernel 1) * / t) _ _ _ _ v).
  - apply SymLib.in_line.
  - intros x _. apply (continuous_ext (fun t => t * f t)); [intros; rewrite (proj1 (pdf_fin _)); auto|]. apply (continuous_mult (fun t => t) f); [apply continuous_id|apply f_cont].
  - intros x _ X. split; [auto_derive; [lra|field; lra]|]. rewrite (proj1 (pdf_fin x)). cbn [toR]. rewrite f_ne by lra.
    replace (x * ((k0 - nkernel x) / x ^ 2)) with ((k0 - nkernel x) * / x) by (field; lra). apply Rmult_le_compat_r; [left; apply Rinv_0_lt_compat; lra|].
    rewrite !nk. apply Rplus_le_compat_l, Ropp_le_contravar, Rmult_le_compat_l; [left; apply k0_pos|]. apply exp_le_compat. assert (1 ^ 2 <= x ^ 2) by (apply pow_incr; lra). lra.
  - intros M. exists (exp (M / (k0 - nkernel 1))). intros x X. pose proof (exp_pos (M / (k0 - nkernel 1))). apply (ln_increasing _ x) in X; auto. rewrite ln_exp in X.
    replace M with ((k0 - nkernel 1) * (M / (k0 - nkernel 1))) at 1 by (field; lra). apply Rmult_lt_compat_l; auto.
Qed.
(** C35-C37 *)
Lemma inv_unique (p : R) : 0 < p < 1 -> exists q, cdf (Fin q) = Fin p /\ sf (Fin q) = Fin (1 - p) /\ forall x, cdf (Fin x) = Fin p -> x = q.
Proof.
  intros H. exists (Q p). destruct (st_quant _ _ _ _ _ ST p H) as [_ E]. destruct (cdf_fin (Q p)) as [C1 C2]. rewrite C1, C2, E. split; auto. split; auto.
  intros x X. rewrite (proj1 (cdf_fin x)) in X. injection X as X. rewrite <- E in X. apply (F_inj _ _ _ _ (st_smooth _ _ _ _ _ ST)) in X; auto; apply SymLib.in_line.
Qed.
Lemma invcdf_ok p : 0 < p < 1 -> exists q, cdf (Fin q) = Fin p /\ (forall x, cdf (Fin x) = Fin p -> x = q) /\
  forall findroot, checked_solver1 findroot -> forall x, invcdf findroot (Fin p) = Fin x -> x = q.
Proof.
  intros H. destruct (inv_unique p H) as [q [H1 [H2 H3]]]. exists q. split; auto. split; auto. intros fr CS x. unfold invcdf, validate_p. cbv zeta. vif.
  change (ceq (Fin p) (Fin (1 / 2))) with (CB (Reqb p (1 / 2))). destruct (Req_dec p (1 / 2)) as [->|N].
  - rewrite Reqb_true by auto. cbn [cif]. intros E. injection E as <-. apply H3. rewrite (proj1 (cdf_fin 0)). unfold F. rewrite half. f_equal. ring.
  - rewrite Reqb_false by auto. cbn [cif]. intros E. apply CS in E. apply H3. rewrite (proj1 (cdf_fin x)) in *. cbn [vsub vadd vneg] in E. injection E as E. f_equal. lra.
Qed.
Lemma invsf_ok p : 0 < p < 1 -> exists q, sf (Fin q) = Fin p /\ (forall x, sf (Fin x) = Fin p -> x = q) /\
  forall findroot, checked_solver1 findroot -> forall x, invsf findroot (Fin p) = Fin x -> x = q.
Proof.
  intros H. destruct (inv_unique (1 - p) ltac:(lra)) as [q [H1 [H2 H3]]]. exists q. split; [rewrite H2; f_equal; ring|]. 
  assert (U : forall x, sf (Fin x) = Fin p -> x = q).
  { intros x X. apply H3. rewrite (proj1 (cdf_fin x)), (proj2 (cdf_fin x)) in *. injection X as X. f_equal. lra. }
  split; auto. intros fr CS x. unfold invsf, validate_p. cbv zeta. vif.
  change (ceq (Fin p) (Fin (1 / 2))) with (CB (Reqb p (1 / 2))). destruct (Req_dec p (1 / 2)) as [->|N].
  - rewrite Reqb_true by auto. cbn [cif]. intros E. injection E as <-. apply U. rewrite (proj2 (cdf_fin 0)). unfold F. rewrite half. f_equal. field.
  - rewrite Reqb_false by auto. cbn [cif]. intros E. apply CS in E. apply U. rewrite (proj2 (cdf_fin x)) in *. cbn [vsub vadd vneg] in E. injection E as E. f_equal. lra.
Qed.
Lemma ends fr : rejects_bad_p (invcdf fr) /\ rejects_bad_p (invsf fr) /\ at_ends (invcdf fr) NInf PInf /\ at_ends (invsf fr) PInf NInf.
Proof.
  split; [|split; [|split]].
  - unfold invcdf. split; [intros p H|split]; [apply vpp_bad; auto|apply vpp_pinf|apply vpp_ninf].
  - unfold invsf. split; [intros p H|split]; [apply vpp_bad; auto|apply vpp_pinf|apply vpp_ninf].
  - split; unfold invcdf, validate_p; vif; reflexivity.
  - split; unfold invsf, validate_p; vif; reflexivity.
Qed.
