(** Proofs about M_gompertz. *)
From Coq Require Import Reals Lra List.
From Coq Require Ranalysis5.
From Coquelicot Require Import Coquelicot.
From Verif Require Import Values VTac Spec RLib DistLib DistLS DistSc LimLib MomLib PLib XLib M_common M_sfun2 SpecStat SpecEst SpecInv LLib P_basic P_basic2 P_est SFun2 E1Lib.
From Verif Require Import M_gompertz.
Import ListNotations.
Local Open Scope R_scope.
Set Bullet Behavior "Strict Subproofs".

Section Std.
Variable c : R.
Hypothesis K : 0 < c.
Definition S1 (z : R) := exp (- c * (exp z - 1)).
Definition F (z : R) := 1 - S1 z.
Definition f (z : R) := c * exp (c + z - c * exp z).
Definition Q (p : R) := ln (1 + - ln (1 - p) / c).
Lemma f_S z : f z = c * exp z * S1 z.
Proof. unfold f, S1. rewrite Rmult_assoc, <- exp_plus. f_equal. f_equal. ring. Qed.
Lemma f_pos z : 0 < f z. Proof. apply Rmult_lt_0_compat; auto. apply exp_pos. Qed.
Lemma S1_der z : is_derive S1 z (- f z).
Proof. rewrite f_S. unfold S1. auto_derive; auto; unfold Rminus; ring. Qed.
Lemma f_cont z : continuous f z.
Proof. unfold f. apply ex_derive_cont. auto_derive. auto. Qed.
Lemma qa_pos p : 0 < p < 1 -> 0 < - ln (1 - p) / c.
Proof. intros H. apply Rdiv_pos; auto. pose proof (ln_neg (1 - p) ltac:(lra)). lra. Qed.
Lemma ST : std 0 p_infty F f Q.
Proof.
  constructor.
  - constructor; simpl; auto.
    + intros z [H _]. simpl in H. unfold F, S1. pose proof (exp_gt_1 z H).
      pose proof (exp_pos (- c * (exp z - 1))). pose proof (exp_le_1 (- c * (exp z - 1)) ltac:(nra)). lra.
    + intros z _. unfold F. evar_last; [apply (is_derive_minus (fun _ => 1) S1); [apply is_derive_const|apply S1_der]|].
      unfold minus, plus, opp, zero; simpl. ring.
    + intros z _. apply f_pos.
  - intros z _. apply f_cont.
  - intros p H. pose proof (qa_pos p H) as A. unfold Q. split; [split; simpl; auto; apply ln_pos; lra|].
    unfold F, S1. rewrite exp_ln by lra. replace (- c * (1 + - ln (1 - p) / c - 1)) with (ln (1 - p)) by (field; lra).
    rewrite exp_ln by lra. ring.
Qed.
Lemma S1_le z : 0 <= z -> S1 z <= exp (- (c * z)).
Proof. intros Z. apply exp_le_compat. pose proof (exp_ineq z). nra. Qed.
Lemma lim_cz : filterlim (fun z => c * z) (Rbar_locally p_infty) (Rbar_locally p_infty).
Proof. apply pinf_scal; auto. Qed.
Lemma pinf_filter : Filter (Rbar_locally p_infty). Proof. apply (near_hi_filter p_infty). Qed.
Lemma lim_zS : filterlim (fun z => z * S1 z) (Rbar_locally p_infty) (locally 0).
Proof.
  pose proof pinf_filter. apply (flim_squeeze0 _ _ (fun z => / c * (c * z * exp (- (c * z))))).
  - exists 0. intros z Z. pose proof (S1_le z ltac:(lra)). pose proof (exp_pos (- c * (exp z - 1))). fold (S1 z) in H1.
    rewrite Rabs_pos_eq by nra. replace (/ c * (c * z * exp (- (c * z)))) with (z * exp (- (c * z))) by (field; lra).
    apply Rmult_le_compat_l; lra.
  - replace 0 with (/ c * 0) by ring. apply flim_scal; auto.
    apply (filterlim_comp _ _ _ (fun z => c * z) (fun w => w * exp (- w)) _ _ _ lim_cz lim_x_exp).
Qed.
Lemma lim_expz : filterlim (fun z => exp (- z)) (Rbar_locally p_infty) (locally 0).
Proof. apply lim_exp. Qed.
Lemma cexp_inf : filterlim (fun z => c * exp z) (Rbar_locally p_infty) (Rbar_locally p_infty).
Proof.
  intros P [M HM]. exists (M / c). intros z Z. apply HM. pose proof (exp_ineq z).
  assert (M < c * z) by (apply (Rmult_lt_compat_l c) in Z; auto; replace (c * (M / c)) with M in Z by (field; lra); lra). nra.
Qed.
(** c e^z S(z) tends to 0. *)
Lemma lim_eS : filterlim (fun z => c * exp z * S1 z) (Rbar_locally p_infty) (locally 0).
Proof.
  pose proof pinf_filter. apply (flim_eq _ (fun z => exp c * (c * exp z * exp (- (c * exp z))))).
  - apply filter_forall. intros z. unfold S1. replace (- c * (exp z - 1)) with (c + - (c * exp z)) by ring. rewrite exp_plus. ring.
  - replace 0 with (exp c * 0) by ring. apply flim_scal; auto.
    apply (filterlim_comp _ _ _ (fun z => c * exp z) (fun w => w * exp (- w)) _ _ _ cexp_inf lim_x_exp).
Qed.
Lemma lim_S : filterlim S1 (Rbar_locally p_infty) (locally 0).
Proof.
  pose proof pinf_filter. apply (flim_squeeze0 _ _ (fun z => z * S1 z)); [|apply lim_zS].
  exists 1. intros z Z. pose proof (exp_pos (- c * (exp z - 1))) as P. fold (S1 z) in P. rewrite Rabs_pos_eq by lra. nra.
Qed.
Definition m1 := exp c * E1 c.
Lemma m1_ok : integrates_to (fun z => z * f z) 0 p_infty m1.
Proof.
  unfold m1. replace (exp c * E1 c) with (0 - - (exp c * E1 c)) by ring.
  apply (mk_integral (fun z => z * f z) (fun z => - (z * S1 z) - exp c * E1 (c * exp z))); simpl; auto.
  - intros z _. assert (P : 0 < c * exp z) by (apply Rmult_lt_0_compat; auto; apply exp_pos).
    assert (D : is_derive (fun z => E1 (c * exp z)) z (- (exp (- (c * exp z))))).
    { evar_last; [apply (is_derive_comp E1 (fun z => c * exp z)); [apply E1_der; auto|auto_derive; auto]|].
      unfold scal; simpl; unfold mult; simpl. pose proof (exp_pos z); field; repeat split; lra. }
    evar_last; [apply (is_derive_minus (fun z => - (z * S1 z)) (fun z => exp c * E1 (c * exp z)))|].
    + apply (is_derive_opp (fun z => z * S1 z)). apply (is_derive_mult (fun z => z) S1); [apply is_derive_id|apply S1_der|apply Rmult_comm].
    + apply (is_derive_scal (fun z => E1 (c * exp z)) z (exp c)). exact D.
    + unfold minus, plus, opp, mult, one, scal; simpl; unfold mult; simpl.
      assert (E : S1 z = exp c * exp (- (c * exp z))).
      { unfold S1. rewrite <- exp_plus. f_equal. ring. }
      rewrite E at 1. ring.
  - intros z _. apply (continuous_mult (fun z => z) f); [apply continuous_id|apply f_cont].
  - apply flim_val with (a := - (0 * S1 0) - exp c * E1 (c * exp 0)).
    + apply (flim_right (fun z => - (z * S1 z) - exp c * E1 (c * exp z)) 0).
      apply (continuous_minus (fun z => - (z * S1 z)) (fun z => exp c * E1 (c * exp z))).
      * apply ex_derive_cont. unfold S1. auto_derive. auto.
      * apply (continuous_scal_r (exp c) (fun z => E1 (c * exp z))).
        apply (continuous_comp (fun z => c * exp z) E1); [apply ex_derive_cont; auto_derive; auto|].
        apply ex_derive_cont. eexists. apply E1_der. rewrite exp_0. lra.
    + rewrite exp_0, Rmult_1_r. ring.
  - pose proof pinf_filter. apply flim_val with (a := - 0 - exp c * 0); [|ring].
    apply flim_minus; auto; [apply flim_opp; auto; apply lim_zS|]. apply flim_scal; auto.
    apply (flim_squeeze0 _ _ (fun z => / c * exp (- z))).
    + apply filter_forall. intros z. assert (P : 0 < c * exp z) by (apply Rmult_lt_0_compat; auto; apply exp_pos).
      destruct (E1_bounds _ P) as [B1 B2]. rewrite Rabs_pos_eq by lra. eapply Rle_trans; [exact B2|].
      pose proof (exp_le_1 (- (c * exp z)) ltac:(lra)) as L. rewrite (exp_Ropp z). pose proof (exp_pos z).
      replace (/ c * / exp z) with (1 / (c * exp z)) by (field; lra).
      apply Rmult_le_compat_r; [left; apply Rinv_0_lt_compat; auto|lra].
    + replace 0 with (/ c * 0) by ring. apply flim_scal; auto. apply lim_exp.
Qed.
Lemma me_ok : integrates_to (fun z => c * exp z * f z) 0 p_infty (c + 1).
Proof.
  replace (c + 1) with (- (0 + 0) - - (c + 1)) by ring.
  apply (mk_integral (fun z => c * exp z * f z) (fun z => - (c * exp z * S1 z + S1 z))); simpl; auto.
  - intros z _. rewrite f_S. unfold S1. auto_derive; auto; unfold Rminus; ring.
  - intros z _. unfold f. apply ex_derive_cont. auto_derive. auto.
  - apply flim_val with (a := - (c * exp 0 * S1 0 + S1 0)).
    + apply (flim_right (fun z => - (c * exp z * S1 z + S1 z)) 0). unfold S1. apply ex_derive_cont. auto_derive. auto.
    + unfold S1. rewrite exp_0. replace (- c * (1 - 1)) with 0 by ring. rewrite exp_0. ring.
  - pose proof pinf_filter. apply flim_opp; auto. apply flim_plus; auto; [apply lim_eS|apply lim_S].
Qed.
Lemma ent_ok : integrates_to (fun z => - (f z * ln (f z))) 0 p_infty (1 - ln c - exp c * E1 c).
Proof.
  assert (LT : Rbar_lt 0 p_infty) by exact I.
  replace (1 - ln c - exp c * E1 c) with ((- (ln c + c)) * 1 + ((-1) * m1 + (c + 1))) by (unfold m1; ring).
  apply (integrates_ext 0 p_infty LT (fun z => (- (ln c + c)) * f z + ((-1) * (z * f z) + c * exp z * f z))).
  - intros z _. unfold f at 5. rewrite ln_mult, ln_exp by (auto; apply exp_pos). ring.
  - apply (integrates_plus 0 p_infty (fun z => (- (ln c + c)) * f z)).
    + apply integrates_scal. apply (std_mass 0 p_infty LT F f Q ST).
    + apply (integrates_plus 0 p_infty (fun z => (-1) * (z * f z))); [|apply me_ok].
      apply integrates_scal. apply m1_ok.
Qed.
Lemma f_max z m : 0 <= z -> (1 <= c /\ m = 0 \/ c < 1 /\ m = - ln c) -> f z <= f m.
Proof.
  intros Z D. unfold f. apply Rmult_le_compat_l; [lra|]. apply exp_le_compat. destruct D as [[C ->]|[C ->]].
  - rewrite exp_0. pose proof (exp_ineq z). nra.
  - replace (exp (- ln c)) with (/ c) by (rewrite exp_Ropp, exp_ln by auto; reflexivity). rewrite Rinv_r by lra.
    assert (E : c * exp z = exp (ln c + z)) by (rewrite exp_plus, exp_ln by auto; reflexivity).
    rewrite E. pose proof (exp_ineq (ln c + z)). lra.
Qed.
End Std.

Ltac start := unfold pdf, logpdf, cdf, sf, invcdf, invsf, support, mode, mean, entropy, validate, validate_positive, validate_p.

Section P.
Variables c s : R.
Hypothesis Hc : 0 < c.
Hypothesis Hs : 0 < s.
Lemma z_pos x : 0 < x -> 0 < x / s. Proof. intros. apply Rdiv_pos; lra. Qed.
Lemma z_pos' x : 0 < x / s -> 0 < x.
Proof. intros. assert (0 < x / s * s) by nra. unfold Rdiv in H0. rewrite Rmult_assoc, Rinv_l in H0 by lra. lra. Qed.
Lemma lo_eq : Finite 0 = sc s 0. Proof. simpl. f_equal. ring. Qed.
Lemma lnf (x : R) : ln (f c (x / s) / s) = ln c + c + x / s - c * exp (x / s) - ln s.
Proof. rewrite ln_div by (auto; apply f_pos; auto). unfold f. rewrite ln_mult, ln_exp by (auto; apply exp_pos). ring. Qed.
Lemma pdf_fin (x : R) : 0 <= x -> pdf x c s = Fin (f c (x / s) / s) /\ logpdf x c s = Fin (ln (f c (x / s) / s)).
Proof.
  intros H. rewrite lnf. start. change (visinf (Fin x)) with (CB false). veval. auto.
Qed.
Lemma pdf_out (x : R) : x < 0 -> pdf x c s = Fin 0 /\ logpdf x c s = NInf.
Proof. intros H. start. veval. auto. Qed.
Lemma cdf_fin (x : R) : 0 < x -> cdf x c s = Fin (F c (x / s)) /\ sf x c s = Fin (1 - F c (x / s)).
Proof. intros Hx. pose proof (z_pos x Hx) as Z. start. veval. unfold F, S1. split; f_equal; ring. Qed.
Lemma CERT : cert (fun x => pdf x c s) (fun x => logpdf x c s) (fun x => cdf x c s) (fun x => sf x c s)
  (fun p => invcdf p c s) (fun p => invsf p c s) 0 p_infty (fun x => F c (x / s))
  (fun x => f c (x / s) / s) (fun p => s * Q c p).
Proof.
  apply (sc_cert 0 p_infty (F c) (f c) (Q c) (ST c Hc) s Hs); auto using lo_eq.
  - constructor.
    + intros x [H _]. simpl in H. apply cdf_fin; auto.
    + intros x H. simpl in H. start. veval. auto.
    + intros x [].
    + start. veval. auto.
    + start. veval. split; f_equal; lra.
  - intros x [H _]. simpl in H. apply pdf_fin. left. apply z_pos'; auto.
  - intros x [H|[]]. simpl in H. apply pdf_out; auto.
  - intros p H. pose proof (qa_pos c Hc p H). pose proof (qa_pos c Hc (1 - p) ltac:(lra)) as H1.
    replace (1 - (1 - p)) with p in H1 by ring. unfold Q. start. veval.
    replace (1 - (1 - p)) with p by ring. auto.
Qed.
Lemma log_all (x : R) : log_of (fun x => pdf x c s) (fun x => logpdf x c s) x.
Proof.
  revert x. apply (cert_log_ends CERT); intros x E; [|discriminate]. injection E as E; subst x.
  left. exists (f c (0 / s) / s). split; [apply Rdiv_pos; auto; apply f_pos; auto|]. apply pdf_fin. lra.
Qed.
Lemma ends : rejects_bad_p (fun p => invcdf p c s) /\ rejects_bad_p (fun p => invsf p c s) /\
  at_ends (fun p => invcdf p c s) (Fin 0) PInf /\ at_ends (fun p => invsf p c s) PInf (Fin 0).
Proof.
  split; [|split; [|split]].
  - split; [intros p [H|H]|split]; start; veval; reflexivity.
  - split; [intros p [H|H]|split]; start; veval; reflexivity.
  - unfold at_ends. start. veval. auto.
  - unfold at_ends. start. veval. auto.
Qed.
Lemma mode_ok : is_mode (fun x => pdf x c s) (mode c s).
Proof.
  assert (SI : 0 <= / s) by (left; apply Rinv_0_lt_compat; auto).
  assert (G : exists m, mode c s = Fin m /\ 0 <= m /\ (1 <= c /\ m / s = 0 \/ c < 1 /\ m / s = - ln c)).
  { destruct (Rle_lt_dec 1 c) as [C|C].
    - exists 0. split; [start; veval; reflexivity|]. split; [lra|]. left. split; auto. field. lra.
    - exists (- s * ln c). split; [start; veval; reflexivity|]. pose proof (ln_neg c ltac:(lra)). split; [nra|]. right. split; auto. field. lra. }
  destruct G as [m [E [M0 D]]]. exists m, (f c (m / s) / s). split; auto. split; [apply pdf_fin; auto|].
  intros x. destruct (Rlt_le_dec x 0) as [L|L].
  - exists 0. split; [apply pdf_out; auto|]. left. apply Rdiv_pos; auto. apply f_pos; auto.
  - exists (f c (x / s) / s). split; [apply pdf_fin; auto|]. apply Rmult_le_compat_r; auto. apply f_max; auto. apply Rdiv_nonneg; auto.
Qed.
Lemma PDF x : inside 0 p_infty x -> pdf (Fin x) c s = Fin (f c (x / s) / s).
Proof. intros [H _]. simpl in H. apply pdf_fin. lra. Qed.
Lemma mean_ok : mean_is (fun x => pdf x c s) 0 p_infty (mean c s).
Proof.
  apply (sc_mean_is 0 p_infty (F c) (f c) (Q c) (ST c Hc) s Hs (fun x => pdf x c s) 0 p_infty lo_eq eq_refl PDF _ (m1 c)).
  - apply m1_ok; auto.
  - start. change (vexp c) with (Fin (exp c)). unfold ve1. rewrite Rltb_true by lra. veval. unfold m1. f_equal. ring.
Qed.
Lemma entropy_ok : entropy_is (fun x => pdf x c s) 0 p_infty (entropy c s).
Proof.
  apply (sc_entropy_is 0 p_infty (F c) (f c) (Q c) (ST c Hc) s Hs (fun x => pdf x c s) 0 p_infty lo_eq eq_refl PDF _ (1 - ln c - exp c * E1 c)).
  - apply ent_ok; auto.
  - start. change (vexp c) with (Fin (exp c)). unfold ve1. rewrite Rltb_true by lra. veval. f_equal. ring.
Qed.
Lemma nll_ok xs : (forall x, In x xs -> 0 <= x) -> nll (map Fin xs) c s = vneg (loglik (fun x => logpdf x c s) xs).
Proof.
  intros H. unfold nll, validate, validate_positive. vif. rewrite vxb_pass.
  - unfold loglik. rewrite map_map. reflexivity.
  - intros x I. split; simpl; auto.
Qed.
Lemma nll_bad xs : (exists x, In x xs /\ x < 0) -> nll (map Fin xs) c s = Exc ValueError.
Proof. intros H. unfold nll, validate, validate_positive. vif. rewrite vxb_low; auto. Qed.
(** at the infinities the density is 0 and its logarithm -inf, and cdf and sf are 0 and 1 *)
Lemma at_inf : pdf PInf c s = Fin 0 /\ logpdf PInf c s = NInf /\ pdf NInf c s = Fin 0 /\ logpdf NInf c s = NInf /\
  cdf NInf c s = Fin 0 /\ sf NInf c s = Fin 1 /\ cdf PInf c s = Fin 1 /\ sf PInf c s = Fin 0.
Proof. unfold pdf, logpdf, cdf, sf, validate, validate_positive. repeat split; veval; try reflexivity. f_equal. ring. Qed.
Lemma nll_val xs : (forall x, In x xs -> 0 <= x) ->
  nll (map Fin xs) c s = Fin (INR (length xs) * (ln s - ln c - c) - rsum xs / s + c * rsum (map (fun x => exp (x / s)) xs)).
Proof.
  intros H. rewrite nll_ok by auto. unfold loglik. rewrite (vfsum_map _ (fun x => ln c + c - ln s + (x / s - c * exp (x / s)))).
  - simpl. f_equal. rewrite rsum_plus, rsum_const, rsum_minus, rsum_div, rsum_scal, map_id. ring.
  - intros x I. rewrite (proj2 (pdf_fin x (H x I))), lnf. f_equal. ring.
Qed.
End P.
Lemma scale_ok c : 0 < c -> scale_law (fun x => pdf x c) (fun x => cdf x c) (fun x => sf x c)
  (fun p => invcdf p c) (fun p => invsf p c) 0 p_infty.
Proof.
  intros K. apply (scale_from_cert (fun x => pdf x c) (fun x => logpdf x c) (fun x => cdf x c) (fun x => sf x c)
    (fun p => invcdf p c) (fun p => invsf p c) 0 p_infty (F c) (f c) (Q c)).
  intros s S. rewrite <- lo_eq. apply CERT; auto.
Qed.
Lemma validate_bad {A} `{CanRaise A} (c s : val) (k : A) : isnum c -> isnum s -> nonpositive c \/ nonpositive s ->
  validate c s k = raise ValueError.
Proof. intros N1 N2 [B|B]; unfold validate; [apply vp_bad; auto|apply vp_pass; auto; apply vp_bad; auto]. Qed.
Lemma bad_params (c s : val) : isnum c -> isnum s -> nonpositive c \/ nonpositive s ->
  support c s = Err ValueError /\
  always_ValueError [ fun x => pdf x c s; fun x => logpdf x c s; fun x => cdf x c s; fun x => sf x c s;
    fun p => invcdf p c s; fun p => invsf p c s; fun _ => mode c s; fun _ => mean c s; fun _ => entropy c s; fun x => nll [x] c s ].
Proof.
  intros N1 N2 B. unfold support, pdf, logpdf, cdf, sf, invcdf, invsf, mode, mean, entropy, nll.
  split; [|all_ve; intros x Hx]; rewrite ?validate_bad by auto; try reflexivity; apply vpp_pass; auto.
Qed.

(** Maximum likelihood. *)
Section Mle.
Variable xs : list R.
Hypothesis NE : xs <> [].
Hypothesis NN : forall x, In x xs -> 0 <= x.
Notation n := (INR (length xs)).
Notation E s := (rsum (map (fun x => exp (x / s)) xs)).
Notation XE s := (rsum (map (fun x => x * exp (x / s)) xs)).
Lemma np : 0 < n. Proof. apply length_pos; auto. Qed.
Lemma mean_exp (s : R) : 0 < s -> M_basic.mean (map (fun xi : val => vexp (xi / s)%V) (map Fin xs)) None = Fin (E s / n).
Proof. intros S. rewrite map_map. apply mean_of; auto. intros x I. veval. reflexivity. Qed.
Lemma mean_xexp (s : R) : 0 < s -> M_basic.mean (map (fun xi : val => (xi * vexp (xi / s))%V) (map Fin xs)) None = Fin (XE s / n).
Proof. intros S. rewrite map_map. apply mean_of; auto. intros x I. veval. reflexivity. Qed.
Lemma E_gt s : 0 < s -> (exists x, In x xs /\ 0 < x) -> n < E s.
Proof.
  intros S [x0 [I0 X0]]. destruct (Rle_lt_dec (E s) n) as [L|]; auto. exfalso.
  assert (G : forall x, In x xs -> 0 <= exp (x / s) - 1).
  { intros x I. pose proof (exp_ge_1 (x / s) (Rdiv_nonneg _ _ (NN x I) S)). lra. }
  assert (Z : rsum (map (fun x => exp (x / s) - 1) xs) = 0).
  { apply Rle_antisym; [|apply rsum_nonneg; auto]. rewrite rsum_minus, rsum_const. lra. }
  pose proof (rsum_nonneg_0 _ _ G Z x0 I0). cbv beta in *. pose proof (exp_gt_1 (x0 / s) (Rdiv_pos _ _ X0 S)). lra.
Qed.
(** For a given scale the likelihood in c is maximal at 1/(mean(exp(x/scale)) - 1). *)
Lemma c_opt c s : 0 < c -> 0 < s -> n < E s ->
  n * (ln s - ln (1 / (E s / n - 1)) - 1 / (E s / n - 1)) - rsum xs / s + 1 / (E s / n - 1) * E s <=
  n * (ln s - ln c - c) - rsum xs / s + c * E s.
Proof.
  intros C S L. pose proof np as N. set (k := E s / n - 1).
  assert (Kp : 0 < k) by (unfold k; pose proof (div_gt_1 (E s) n N L); lra).
  assert (EE : E s = n * (k + 1)) by (unfold k; field; lra). rewrite EE.
  assert (ln (1 / k) = - ln k) as -> by (unfold Rdiv; rewrite Rmult_1_l, ln_Rinv by auto; reflexivity).
  pose proof (ln_ineq (c * k) ltac:(nra)) as T. rewrite ln_mult in T by auto.
  assert (1 / k * (n * (k + 1)) = n * (1 + 1 / k)) as -> by (field; lra). nra.
Qed.
(** The equation for the scale with c free: the profile likelihood is log-concave in 1/scale. *)
Lemma h_tangent x b b0 T : 0 <= x -> 0 < b -> 0 < b0 ->
  exp (T * (b - b0)) * ((exp (x * b0) - 1) / b0 * (1 - T * (b - b0)) + (b - b0) * (x * exp (x * b0) / b0 - (exp (x * b0) - 1) / b0 ^ 2))
  <= (exp (x * b) - 1) / b.
Proof.
  intros X B B0. set (d := b - b0).
  set (D := fun x => (exp (x * b) - 1) / b - exp (T * d) * ((exp (x * b0) - 1) / b0 * (1 - T * d) + d * (x * exp (x * b0) / b0 - (exp (x * b0) - 1) / b0 ^ 2))).
  cut (0 <= D x); [unfold D; lra|].
  replace 0 with (D 0) by (unfold D; rewrite !Rmult_0_l, exp_0; field; lra).
  apply (mono_closed D (fun x => exp (x * b) - exp (T * d) * exp (x * b0) * (1 + (x - T) * d))); auto.
  - intros y Y. split.
    + unfold D. auto_derive; [repeat split; lra|]. field. lra.
    + assert (E1 : exp (x * b) = exp (x * b)) by reflexivity. clear E1.
      replace (exp (y * b)) with (exp (T * d) * exp (y * b0) * exp ((y - T) * d)) by (rewrite <- !exp_plus; f_equal; unfold d; ring).
      pose proof (exp_ineq ((y - T) * d)). pose proof (exp_pos (T * d)). pose proof (exp_pos (y * b0)).
      assert (0 < exp (T * d) * exp (y * b0)) by (apply Rmult_lt_0_compat; auto). nra.
  - apply ex_derive_cont. unfold D. auto_derive. repeat split; lra.
  - apply ex_derive_cont. unfold D. auto_derive. repeat split; lra.
Qed.
Lemma prof_opt s s0 : 0 < s -> 0 < s0 -> n < E s -> n < E s0 ->
  - s0 - rsum xs / n + XE s0 / n / (E s0 / n - 1) = 0 ->
  n * ln ((E s0 - n) * s0) - rsum xs / s0 <= n * ln ((E s - n) * s) - rsum xs / s.
Proof.
  intros S S0 L L0 EQ. pose proof np as N. set (T := rsum xs / n).
  set (d := / s - / s0). pose proof (Rinv_0_lt_compat _ S) as B. pose proof (Rinv_0_lt_compat _ S0) as B0.
  assert (H : exp (T * d) * ((E s0 - n) * s0 * (1 - T * d) + d * (XE s0 * s0 - (E s0 - n) * s0 ^ 2)) <= (E s - n) * s).
  { pose proof (rsum_le (fun x => exp (T * d) * ((exp (x * / s0) - 1) / / s0 * (1 - T * d) + d * (x * exp (x * / s0) / / s0 - (exp (x * / s0) - 1) / (/ s0) ^ 2)))
      (fun x => (exp (x * / s) - 1) / / s) xs) as R.
    rewrite rsum_scal, rsum_plus, rsum_scal_r, rsum_scal, rsum_minus, !rsum_div, !rsum_minus, !rsum_const in R.
    assert (R' : exp (T * d) * ((E s0 - n * 1) / / s0 * (1 - T * d) + d * (XE s0 / / s0 - (E s0 - n * 1) / (/ s0) ^ 2)) <= (E s - n * 1) / / s).
    { apply R. intros x I. apply h_tangent; auto. }
    replace ((E s0 - n * 1) / / s0) with ((E s0 - n) * s0) in R' by (field; lra).
    replace (XE s0 / / s0) with (XE s0 * s0) in R' by (field; lra).
    replace ((E s0 - n * 1) / (/ s0) ^ 2) with ((E s0 - n) * s0 ^ 2) in R' by (field; lra).
    replace ((E s - n * 1) / / s) with ((E s - n) * s) in R' by (field; lra). exact R'. }
  assert (Z : XE s0 * s0 - (E s0 - n) * s0 ^ 2 = T * ((E s0 - n) * s0)).
  { assert (XE s0 / n / (E s0 / n - 1) = s0 + T) by (unfold T; lra).
    assert (XE s0 = (s0 + T) * (E s0 - n)) as -> by (rewrite <- H0; field; split; lra). ring. }
  rewrite Z in H. replace ((E s0 - n) * s0 * (1 - T * d) + d * (T * ((E s0 - n) * s0))) with ((E s0 - n) * s0) in H by ring.
  assert (P0 : 0 < (E s0 - n) * s0) by (apply Rmult_lt_0_compat; lra).
  apply ln_le_compat in H; [|apply Rmult_lt_0_compat; auto; apply exp_pos].
  rewrite ln_mult, ln_exp in H by (auto; apply exp_pos).
  assert (TD : n * (T * d) = rsum xs / s - rsum xs / s0) by (unfold T, d; field; lra).
  nra.
Qed.
(** The equation for the scale with c given: the likelihood is convex in 1/scale. *)
Lemma s_opt c s s0 : 0 < c -> 0 < s -> 0 < s0 -> - s0 - rsum xs / n + c * (XE s0 / n) = 0 ->
  n * (ln s0 - ln c - c) - rsum xs / s0 + c * E s0 <= n * (ln s - ln c - c) - rsum xs / s + c * E s.
Proof.
  intros C S S0 EQ. pose proof np as N. set (d := / s - / s0).
  assert (A : rsum (map (fun x => exp (x / s0) + d * (x * exp (x / s0))) xs) <= E s).
  { apply rsum_le. intros x I. replace (exp (x / s)) with (exp (x / s0) * exp (d * x)) by (rewrite <- exp_plus; f_equal; unfold d; field; lra).
    pose proof (exp_ineq (d * x)). pose proof (exp_pos (x / s0)). nra. }
  rewrite rsum_plus, rsum_scal in A.
  pose proof (ln_ineq (s0 / s) (Rdiv_pos _ _ S0 S)) as L. rewrite ln_div in L by auto.
  assert (XX : c * XE s0 = n * s0 + rsum xs).
  { apply (Rmult_eq_reg_r (/ n)); [|apply Rinv_neq_0_compat; lra]. replace ((n * s0 + rsum xs) * / n) with (s0 + rsum xs / n) by (field; lra).
    unfold Rdiv in *. lra. }
  assert (D1 : d * (n * s0 + rsum xs) = n * (s0 / s - 1) + rsum xs / s - rsum xs / s0) by (unfold d; field; lra).
  assert (c * (E s0 + d * XE s0) <= c * E s) by (apply Rmult_le_compat_l; lra).
  replace (c * (E s0 + d * XE s0)) with (c * E s0 + d * (c * XE s0)) in H by ring. rewrite XX, D1 in H. nra.
Qed.
Lemma vxb (A : res (val * val)) : validate_x_bounds (map Fin xs) (Some (Fin 0)) (Some PInf) false true A = A.
Proof. apply vxb_pass. intros x I. split; simpl; auto. Qed.
Lemma chat_fin (s : R) : 0 < s -> n < E s ->
  (Fin 1 / (M_basic.mean (map (fun xi : val => vexp (xi / s)%V) (map Fin xs)) None - 1))%V = Fin (1 / (E s / n - 1)) /\ 0 < 1 / (E s / n - 1).
Proof.
  intros S L. rewrite mean_exp by auto. pose proof (div_gt_1 (E s) n np L). split; [|apply Rdiv_pos; lra].
  simpl. rewrite Reqb_false by lra. reflexivity.
Qed.
End Mle.
Lemma mle_c findroot s0 xs (s : R) : 0 < s -> (forall x, In x xs -> 0 <= x) -> (exists x, In x xs /\ 0 < x) ->
  exists c, mle findroot s0 (map Fin xs) None (Some (Fin s)) = Ok (Fin c, Fin s) /\
    minimises (fun c => 0 < c) (fun c => nll (map Fin xs) (Fin c) (Fin s)) c.
Proof.
  intros S NN P. assert (NE : xs <> []) by (destruct P as [x [I _]]; intros ->; destruct I).
  pose proof (E_gt xs NN s S P) as L. destruct (chat_fin xs NE s S L) as [EC CP].
  eexists. split.
  - unfold mle. rewrite vxb by auto. unfold validate_positive. vif. rewrite EC. reflexivity.
  - split; [exact CP|]. eexists. split; [apply nll_val; auto|]. intros c C. eexists. split; [apply nll_val; auto|].
    apply c_opt; auto.
Qed.
Lemma mle_scale findroot s0 xs (c s : R) : checked_solver1 findroot -> xs <> [] -> 0 < c -> 0 < s -> (forall x, In x xs -> 0 <= x) ->
  mle findroot s0 (map Fin xs) (Some (Fin c)) None = Ok (Fin c, Fin s) ->
  minimises (fun s => 0 < s) (fun s => nll (map Fin xs) (Fin c) (Fin s)) s.
Proof.
  intros CS NE C S NN. unfold mle. rewrite vxb by auto. unfold validate_positive. vif.
  destruct (findroot _ s0) as [r| | | |e] eqn:FR; simpl; try discriminate. intros H. injection H as ->.
  apply CS in FR. unfold mle_scale_eqn_c in FR. rewrite mean_xexp, mean_avg0 in FR by auto. simpl in FR. injection FR as FR.
  split; auto. eexists. split; [apply nll_val; auto|]. intros b B. eexists. split; [apply nll_val; auto|].
  apply s_opt; auto.
Qed.
Lemma mle_both findroot s0 xs (c s : R) : checked_solver1 findroot -> 0 < s -> (forall x, In x xs -> 0 <= x) -> (exists x, In x xs /\ 0 < x) ->
  mle findroot s0 (map Fin xs) None None = Ok (Fin c, Fin s) ->
  minimises (fun p => 0 < fst p /\ 0 < snd p) (fun p => nll (map Fin xs) (Fin (fst p)) (Fin (snd p))) (c, s).
Proof.
  intros CS S NN P. assert (NE : xs <> []) by (destruct P as [x [I _]]; intros ->; destruct I).
  pose proof (E_gt xs NN s S P) as L. destruct (chat_fin xs NE s S L) as [EC CP].
  unfold mle. rewrite vxb by auto.
  destruct (findroot _ s0) as [r| | | |e] eqn:FR; cbn [bindv]; try discriminate.
  2,3,4: match goal with |- bindv ?a _ = _ -> _ => destruct a; discriminate end.
  destruct (Fin 1 / (M_basic.mean (map (fun xi : val => vexp (xi / r)%V) (map Fin xs)) None - 1))%V as [r'| | | |e'] eqn:ER; cbn [bindv]; try discriminate.
  intros H. injection H as -> ->. rewrite EC in ER. injection ER as <-.
  apply CS in FR. unfold mle_scale_eqn in FR. rewrite mean_xexp, mean_exp, mean_avg0 in FR by auto.
  pose proof (div_gt_1 _ _ (np xs NE) L) as G. pose proof (np xs NE) as N.
  simpl in FR. rewrite Reqb_false in FR by lra. simpl in FR. injection FR as FR.
  split; [simpl; auto|]. eexists. split; [apply nll_val; auto|]. intros [c1 s1] [C1 S1']. simpl in C1, S1'.
  eexists. split; [apply nll_val; auto|]. simpl fst. simpl snd.
  pose proof (E_gt xs NN s1 S1' P) as L1.
  eapply Rle_trans; [|apply (c_opt xs NE c1 s1 C1 S1' L1)].
  assert (EE : forall t, 0 < t -> INR (length xs) < rsum (map (fun x => exp (x / t)) xs) ->
     INR (length xs) * (ln t - ln (1 / (rsum (map (fun x => exp (x / t)) xs) / INR (length xs) - 1)) - 1 / (rsum (map (fun x => exp (x / t)) xs) / INR (length xs) - 1))
       - rsum xs / t + 1 / (rsum (map (fun x => exp (x / t)) xs) / INR (length xs) - 1) * rsum (map (fun x => exp (x / t)) xs)
     = INR (length xs) * ln ((rsum (map (fun x => exp (x / t)) xs) - INR (length xs)) * t) - rsum xs / t + INR (length xs) * (1 - ln (INR (length xs)))).
  { intros t Tp LL. set (m := INR (length xs)) in *. set (e := rsum (map (fun x => exp (x / t)) xs)) in *.
    assert (0 < m) by exact N. rewrite ln_mult by lra.
    replace (1 / (e / m - 1)) with (m / (e - m)) by (field; lra). rewrite ln_div by lra.
    replace (m / (e - m) * e) with (m + m * (m / (e - m))) by (field; lra). ring. }
  rewrite !EE by auto.
  pose proof (prof_opt xs NE NN) as PO. pose proof (PO s1 s S1' S L1 L FR). lra.
Qed.
(** All data equal to 0: the estimate of c divides by zero. *)
Lemma mle_zero findroot s0 (s : R) : 0 < s -> mle findroot s0 [Fin 0] None (Some (Fin s)) = Err ZeroDivisionError.
Proof.
  intros S. unfold mle. change [Fin 0] with (map Fin [0]). rewrite vxb by (simpl; intros x [<-|[]]; lra).
  unfold validate_positive. vif. rewrite mean_exp by (auto; discriminate). simpl.
  rewrite Reqb_true; [reflexivity|]. unfold SpecStat.sum; simpl. replace (0 / s) with 0 by (field; lra). rewrite exp_0. field.
Qed.
(** Non-vacuity. *)
Definition try1 (r : R) : (val -> val) -> val -> val := fun g _ => match g (Fin r) with Fin z => if Reqb z 0 then Fin r else NaN | _ => NaN end.
Lemma try1_ok r : checked_solver1 (try1 r).
Proof.
  intros g x0 q. unfold try1. destruct (g (Fin r)) as [z| | | |] eqn:E; try discriminate. destruct (Reqb_spec z 0) as [[Z ->]|[Z ->]]; [|discriminate].
  intros H. injection H as <-. rewrite E, Z. auto.
Qed.
Lemma case_scale : exists fr c, checked_solver1 fr /\ 0 < c /\ mle fr (Fin 1) (map Fin [1]) (Some (Fin c)) None = Ok (Fin c, Fin 1).
Proof.
  pose proof (exp_pos (-1)). assert (C : 0 < 2 * exp (-1)) by lra.
  exists (try1 1), (2 * exp (-1)). split; [apply try1_ok|]. split; auto.
  assert (NN : forall x, In x [1] -> 0 <= x) by (intros x [<-|[]]; lra). assert (NE : [1] <> []) by discriminate.
  unfold mle. rewrite vxb by auto. unfold validate_positive. vif.
  assert (Z : mle_scale_eqn_c (map Fin [1]) (Fin (2 * exp (-1))) (Fin 1) = Fin 0).
  { unfold mle_scale_eqn_c. rewrite mean_xexp, mean_avg0 by (auto; lra). unfold average. cbn [map length sum SpecStat.sum fold_right INR].
    replace (1 / 1) with 1 by field. varith. f_equal. unfold sum. simpl.
    replace (2 * exp (-1) * ((1 * exp 1 + 0) / 1)) with (2 * (exp (-1) * exp 1)) by field. rewrite <- exp_plus.
    replace (-1 + 1) with 0 by ring. rewrite exp_0. lra. }
  unfold try1. rewrite Z, Reqb_true by auto. reflexivity.
Qed.
Definition g2 u := - (1 / u) - 3 / 2 + (exp u + 2 * exp (2 * u)) / (exp u + exp (2 * u) - 2).
Lemma root2 : exists u, 0 < u /\ g2 u = 0.
Proof.
  assert (P : forall u, 1 <= u -> 2 < exp u /\ exp (2 * u) = exp u * exp u).
  { intros u U. split; [pose proof (exp_ineq1 u ltac:(lra)); lra|]. rewrite <- exp_plus. f_equal. ring. }
  destruct (Ranalysis5.IVT_interv g2 1 6) as [u [U E]]; [| | | |exists u; split; [lra|auto]].
  - intros u [U1 U2]. destruct (P u U1) as [P1 P2]. apply continuity_pt_filterlim. apply (ex_derive_continuous (V := R_NormedModule) g2). unfold g2. auto_derive.
    rewrite P2. repeat split; auto; nra.
  - lra.
  - unfold g2. destruct (P 1 ltac:(lra)) as [P1 P2]. rewrite P2. set (y := exp 1) in *.
    assert ((y + 2 * (y * y)) / (y + y * y - 2) < 5 / 2); [|lra]. apply (Rmult_lt_reg_r (y + y * y - 2)); [nra|].
    unfold Rdiv at 1. rewrite Rmult_assoc, Rinv_l by nra. nra.
  - unfold g2. destruct (P 6 ltac:(lra)) as [P1 P2]. rewrite P2. set (y := exp 6) in *.
    assert (5 / 3 < (y + 2 * (y * y)) / (y + y * y - 2)); [|lra]. apply (Rmult_lt_reg_r (y + y * y - 2)); [nra|].
    unfold Rdiv at 2. rewrite Rmult_assoc, Rinv_l by nra. nra.
Qed.
Lemma case_both : exists fr c s, checked_solver1 fr /\ 0 < s /\ mle fr (Fin 1) (map Fin [1; 2]) None None = Ok (Fin c, Fin s).
Proof.
  destruct root2 as [u [U E]]. assert (UI : 0 < / u) by (apply Rinv_0_lt_compat; auto).
  assert (NN : forall x, In x [1; 2] -> 0 <= x) by (intros x [<-|[<-|[]]]; lra). assert (NE : [1; 2] <> []) by discriminate.
  assert (PX : exists x, In x [1; 2] /\ 0 < x) by (exists 1; split; [left; auto|lra]).
  pose proof (E_gt [1; 2] NN (/ u) UI PX) as L. destruct (chat_fin [1; 2] NE (/ u) UI L) as [EC CP].
  exists (try1 (/ u)). eexists. exists (/ u). split; [apply try1_ok|]. split; auto.
  unfold mle. rewrite vxb by auto.
  assert (Z : mle_scale_eqn (map Fin [1; 2]) (Fin (/ u)) = Fin 0).
  { unfold mle_scale_eqn. rewrite mean_xexp, mean_exp, mean_avg0 by auto.
    pose proof (div_gt_1 _ _ (np [1; 2] NE) L) as G. cbn [vneg vsub vadd]. rewrite vdiv_Fin by lra. cbn [vneg vsub vadd]. f_equal. rewrite <- E. unfold g2.
    pose proof (exp_increasing 0 u ltac:(lra)) as E0. rewrite exp_0 in E0.
    assert (X2 : exp (2 * u) = exp u * exp u) by (rewrite <- exp_plus; f_equal; ring).
    unfold average, sum. simpl. replace (1 / / u) with u by (field; lra). replace (2 / / u) with (2 * u) by (field; lra). rewrite X2.
    field. repeat split; nra. }
  unfold try1 at 1. rewrite Z, Reqb_true by auto. cbn [bindv]. rewrite EC. reflexivity.
Qed.
