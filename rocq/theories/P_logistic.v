(** Proofs about M_logistic and M_half_logistic share the logistic function. *)
From Coq Require Import Reals Lra List.
From Coquelicot Require Import Coquelicot.
From Verif Require Import Values VTac Spec RLib LimLib DistLib DistLS IntLib SubLib MomLib LogisLib PLib M_common SpecStat SpecEst LLib P_est P_stats.
From Verif Require Import M_logistic.
Import ListNotations.
Local Open Scope R_scope.
Set Bullet Behavior "Strict Subproofs".

Definition F (z : R) := 1 - / (exp z + 1).
Definition f (z : R) := exp z / (exp z + 1)^2.
Definition Q (p : R) := ln p - ln (1 - p).

Lemma ST : std m_infty p_infty F f Q.
Proof.
  constructor.
  - constructor; simpl; auto.
    + intros z _. unfold F. pose proof (exp_pos z).
      assert (0 < / (exp z + 1)) by (apply Rinv_0_lt_compat; lra).
      assert (/ (exp z + 1) * (exp z + 1) = 1) by (field; lra). nra.
    + intros z _. unfold F, f. pose proof (exp_pos z). auto_derive; [lra|]. field. lra.
    + intros z _. unfold f. pose proof (exp_pos z). apply Rdiv_pos; [lra|]. nra.
  - intros z _. unfold f. apply ex_derive_cont. pose proof (exp_pos z). auto_derive. nra.
  - intros p H. split; [split; simpl; auto|]. unfold F, Q. rewrite exp_minus, !exp_ln by lra. field. lra.
Qed.
Lemma cosh_pos x : 0 < cosh x.
Proof. unfold cosh. pose proof (exp_pos x). pose proof (exp_pos (- x)). lra. Qed.
Lemma vsech_Fin x : vsech (Fin x) = Fin (1 / cosh x).
Proof. unfold vsech. pose proof (cosh_pos x). veval. reflexivity. Qed.
Lemma half_half z : z / 2 + z / 2 = z. Proof. lra. Qed.
Lemma sech_sq z : (1 / cosh (z / 2))^2 = 4 * f z.
Proof.
  unfold f, cosh. rewrite exp_Ropp. pose proof (exp_pos (z / 2)) as P.
  replace (exp z) with (exp (z/2) * exp (z/2)) by (rewrite <- exp_plus; f_equal; lra).
  set (e := exp (z / 2)) in *. field. repeat split; nra.
Qed.
Lemma tanh_F z : (1 + tanh (z / 2)) / 2 = F z.
Proof. unfold F. rewrite tanh_exp. replace (2 * (z / 2)) with z by lra. pose proof (exp_pos z). field. lra. Qed.
Lemma f_max z : f z <= f 0.
Proof.
  unfold f. rewrite exp_0. pose proof (exp_pos z). replace (1 / (1 + 1)^2) with (1/4) by field.
  apply (Rmult_le_reg_r ((exp z + 1)^2)); [nra|]. unfold Rdiv at 1. rewrite Rmult_assoc, Rinv_l by nra. pose proof (Rle_0_sqr (exp z - 1)) as K. unfold Rsqr in K. nra.
Qed.
Ltac start := unfold pdf, logpdf, cdf, sf, invcdf, invsf, support, mean, mode, var, entropy, validate_loc_scale, validate_p.
Ltac seval := repeat (progress (veval; rewrite ?vsech_Fin)).

Section P.
Variables l s : R.
Hypothesis S : 0 < s.
Lemma pdf_fin (x : R) : pdf x l s = Fin (f ((x - l) / s) / s) /\ logpdf x l s = Fin (ln (f ((x - l) / s) / s)).
Proof.
  set (z := (x - l) / s).
  assert (C : 0 < 1 / cosh (z / 2)) by (apply Rdiv_pos; [lra|apply cosh_pos]).
  assert (P : 0 < f z) by (apply (sm_pos _ _ _ _ (st_smooth _ _ _ _ _ ST)); split; simpl; auto).
  start. seval. fold z. split; [|]; f_equal.
  - rewrite sech_sq. field. lra.
  - rewrite (ln_div (f z) s) by auto. replace (f z) with ((1 / cosh (z / 2))^2 / 4) by (rewrite sech_sq; field).
    assert (0 < (1 / cosh (z / 2))^2) by (apply pow_lt; auto).
    rewrite (ln_div ((1 / cosh (z / 2))^2) 4), (ln_mult 4 s) by lra. replace ((1 / cosh (z / 2))^2) with (1 / cosh (z / 2) * (1 / cosh (z / 2))) by ring.
    rewrite (ln_mult (1 / cosh (z/2)) (1 / cosh (z/2))) by auto. ring.
Qed.
Lemma CERT : cert (fun x => pdf x l s) (fun x => logpdf x l s) (fun x => cdf x l s) (fun x => sf x l s)
  (fun p => invcdf p l s) (fun p => invsf p l s) m_infty p_infty (fun x => F ((x - l) / s))
  (fun x => f ((x - l) / s) / s) (fun p => l + s * Q p).
Proof.
  apply (ls_cert m_infty p_infty F f Q ST l s S); auto.
  - constructor.
    + intros x _. rewrite <- tanh_F. start. veval. split; f_equal. lra.
    + intros x [].
    + intros x [].
    + start. veval. split; f_equal; lra.
    + start. veval. split; f_equal; lra.
  - intros x _. apply pdf_fin.
  - intros x [[]|[]].
  - intros p H. unfold Q. start. veval. split; f_equal. rewrite !Rplus_minus_r || idtac.
    replace (1 - (1 - p)) with p by ring. auto.
Qed.
Lemma ends : rejects_bad_p (fun p => invcdf p l s) /\ rejects_bad_p (fun p => invsf p l s) /\
  at_ends (fun p => invcdf p l s) NInf PInf /\ at_ends (fun p => invsf p l s) PInf NInf.
Proof.
  split; [|split; [|split]].
  - split; [intros p [H|H]|split]; start; veval; reflexivity.
  - split; [intros p [H|H]|split]; start; veval; reflexivity.
  - unfold at_ends. start. veval. auto.
  - unfold at_ends. start. veval. auto.
Qed.
Lemma mode_ok : is_mode (fun x => pdf x l s) (mode l s).
Proof.
  exists l, (f 0 / s). split; [start; veval; auto|]. split.
  - rewrite (proj1 (pdf_fin l)). replace ((l - l) / s) with 0 by (field; lra). auto.
  - intros x. eexists; split; [apply pdf_fin|]. apply Rmult_le_compat_r.
    + left. apply Rinv_0_lt_compat; auto.
    + apply f_max.
Qed.
Lemma nll_ok xs : nll (map Fin xs) l s = vneg (loglik (fun x => logpdf x l s) xs).
Proof.
  set (g := fun x => ln (1 / cosh ((x - l) / (2 * s)))).
  rewrite (loglik_fin _ (fun x => 2 * g x + - ln (4 * s))).
  - unfold nll, validate_loc_scale. veval. rewrite map_map.
    rewrite (vfsum_map _ g).
    + unfold vlen. rewrite map_length. varith. f_equal. rewrite rsum_plus, rsum_scal, rsum_const. ring.
    + intros x _. seval. unfold g. rewrite vlog_Fin; auto. apply Rdiv_pos; [lra|apply cosh_pos].
  - intros x _. start. seval. unfold g. replace ((x - l) / s / 2) with ((x - l) / (2 * s)) by (field; lra).
    rewrite vlog_Fin by (apply Rdiv_pos; [lra|apply cosh_pos]). varith. f_equal.
Qed.
End P.
Lemma mom_ok xs : ~ constant xs -> exists l s, mom (map Fin xs) = Ok (Fin l, Fin s) /\ 0 < s /\
  reproduces (mean (Fin l) (Fin s)) (var (Fin l) (Fin s)) xs.
Proof.
  intros C. pose proof (const_nil xs C) as N. pose proof (dev_pos xs C) as D. pose proof PI_RGT_0 as PP.
  set (v := sumsq_dev xs / INR (length xs)) in *.
  assert (S : 0 < sqrt (3 * v) / PI) by (apply Rdiv_pos; auto; apply sqrt_lt_R0; lra).
  exists (average xs), (sqrt (3 * v) / PI).
  split; [|split; auto].
  - unfold mom. rewrite mean_avg0, mean_sq by auto. fold v. cbn [bindv]. varith.
    replace (v + average xs ^ 2 - average xs ^ 2) with v by ring. reflexivity.
  - split; start; veval; auto. f_equal.
    replace ((sqrt (3 * v) / PI)^2) with ((sqrt (3 * v))^2 / PI^2) by (field; lra).
    rewrite pow2_sqrt by lra. fold v. field. lra.
Qed.
Lemma loc_scale : loc_scale_law pdf cdf sf invcdf invsf m_infty p_infty.
Proof. apply (loc_scale_from_cert pdf logpdf cdf sf invcdf invsf m_infty p_infty F f Q). exact CERT. Qed.
Lemma bad_params l s : nonpositive s ->
  support l s = Err ValueError /\
  always_ValueError [ fun x => pdf x l s; fun x => logpdf x l s; fun x => cdf x l s; fun x => sf x l s;
    fun p => invcdf p l s; fun p => invsf p l s; fun _ => mean l s; fun _ => mode l s; fun _ => var l s;
    fun _ => entropy l s; fun x => nll [x] l s ].
Proof.
  intros H. unfold support, pdf, logpdf, cdf, sf, invcdf, invsf, mean, mode, var, entropy, nll.
  split; [|all_ve; intros x Hx]; rewrite vls_bad by auto; reflexivity.
Qed.

(** Moments. *)
Definition A1 (z : R) := z * F z - ln (1 + exp z).
Lemma exp1_pos z : 0 < 1 + exp z. Proof. pose proof (exp_pos z). lra. Qed.
Lemma A1_even z : A1 (- z) = A1 z.
Proof.
  unfold A1, F. rewrite exp_Ropp. pose proof (exp_pos z).
  replace (1 + / exp z) with ((1 + exp z) / exp z) by (field; lra). rewrite ln_div, ln_exp by lra. field. lra.
Qed.
Lemma A1_der z : is_derive A1 z (z * f z).
Proof.
  unfold A1, F, f. pose proof (exp_pos z). auto_derive; [repeat split; lra|]. field. lra.
Qed.
Lemma A1_lim : filterlim A1 pinf (locally 0).
Proof.
  apply (flim_eq _ (fun x => - (x * / (exp x + 1)) - ln (1 + exp (- x)))).
  - exists 0. intros x H. rewrite <- (A1_even x). unfold A1, F. rewrite exp_Ropp. pose proof (exp_pos x).
    rewrite <- exp_Ropp, exp_Ropp. field. lra.
  - replace 0 with (- 0 - ln (1 + 0)) by (rewrite Rplus_0_r, ln_1; ring).
    apply flim_minus; try apply Rbar_locally_filter.
    + apply flim_opp; try apply Rbar_locally_filter. apply (flim_squeeze0 _ _ (fun x => x * exp (- x))); [|apply lim_x_exp].
      exists 0. intros x H. pose proof (exp_pos x). rewrite exp_Ropp, Rabs_right.
      * apply Rmult_le_compat_l; [lra|]. apply Rinv_le_contravar; lra.
      * apply Rle_ge, Rmult_le_pos; [lra|]. left. apply Rinv_0_lt_compat. lra.
    + apply (flim_cont _ (fun x => 1 + exp (- x)) ln).
      * apply flim_plus; try apply Rbar_locally_filter; [apply flim_const; apply Rbar_locally_filter|apply lim_exp].
      * apply ex_derive_cont. auto_derive. lra.
Qed.
Lemma A1_lim' : filterlim A1 minf (locally 0).
Proof. apply lim_opp_minf. apply (flim_eq _ A1); [exists 0; intros; symmetry; apply A1_even|apply A1_lim]. Qed.
Lemma f_cont z : continuous f z. Proof. apply (st_cont _ _ _ _ _ ST). split; simpl; auto. Qed.
Lemma zf_cont z : continuous (fun z => z * f z) z.
Proof. apply (continuous_mult (fun z => z) f); [apply continuous_id|apply f_cont]. Qed.
Lemma m1_ok : integrates_to (fun z => z * f z) m_infty p_infty 0.
Proof.
  replace 0 with (0 - 0) by ring. apply (mk_integral _ A1); simpl; auto.
  - intros; apply A1_der.
  - intros; apply zf_cont.
  - apply A1_lim'.
  - apply A1_lim.
Qed.
(** Entropy: with u = F, v = 1 - F, ln f = ln u + ln v. *)
Definition AE (z : R) := - (F z * ln (F z) - F z) + ((1 - F z) * ln (1 - F z) - (1 - F z)).
Lemma F01 z : 0 < F z < 1.
Proof. apply (F_open01 m_infty p_infty F f (st_smooth _ _ _ _ _ ST)). split; simpl; auto. Qed.
Lemma f_FF z : f z = F z * (1 - F z).
Proof. unfold f, F. pose proof (exp_pos z). field. lra. Qed.
Lemma F_der z : is_derive F z (f z).
Proof. apply (sm_der _ _ _ _ (st_smooth _ _ _ _ _ ST)). split; simpl; auto. Qed.
Lemma AE_der z : is_derive AE z (- (f z * ln (f z))).
Proof.
  pose proof (F01 z) as P.
  evar_last.
  - apply (is_derive_comp (fun u => - (u * ln u - u) + ((1 - u) * ln (1 - u) - (1 - u))) F); [|apply F_der].
    auto_derive; [repeat split; lra|reflexivity].
  - unfold scal; simpl; unfold mult; simpl. rewrite (f_FF z), ln_mult by lra. change (1 + - F z) with (1 - F z). field. lra.
Qed.
Lemma F_right : filterlim F minf (at_right 0).
Proof.
  intros P [e He]. pose proof (lim_lo m_infty p_infty F f Q (st_smooth _ _ _ _ _ ST) (st_quant _ _ _ _ _ ST)) as L.
  simpl in L. pose proof (proj1 (filterlim_locally F 0) L e) as B. unfold filtermap. revert B. apply filter_imp.
  intros x B. apply He; auto. apply F01.
Qed.
Lemma xlnx_lim : filterlim (fun x => x * ln x) (at_right 0) (locally 0).
Proof.
  apply (flim_eq _ (fun x => Rpower x 1 * ln x)).
  - generalize (right_lt 0 1 ltac:(lra)). apply filter_imp. intros x H. rewrite Rpower_1 by lra. ring.
  - apply lim_Rpower_ln_0. lra.
Qed.
Lemma F_sym z : F (- z) = 1 - F z.
Proof. unfold F. rewrite exp_Ropp. pose proof (exp_pos z). field. lra. Qed.
Lemma AE_odd z : AE (- z) = - AE z.
Proof. unfold AE. rewrite F_sym. replace (1 - (1 - F z)) with (F z) by ring. ring. Qed.
Lemma AE_lim' : filterlim AE minf (locally (-1)).
Proof.
  pose proof (lim_lo m_infty p_infty F f Q (st_smooth _ _ _ _ _ ST) (st_quant _ _ _ _ _ ST)) as L. simpl in L.
  assert (L1 : filterlim (fun x => F x * ln (F x)) minf (locally 0)).
  { apply (filterlim_comp _ _ _ F (fun x => x * ln x) minf (at_right 0)); [apply F_right|apply xlnx_lim]. }
  assert (L2 : filterlim (fun x => (1 - F x) * ln (1 - F x) - (1 - F x)) minf (locally ((1 - 0) * ln (1 - 0) - (1 - 0)))).
  { apply (flim_cont _ F (fun u => (1 - u) * ln (1 - u) - (1 - u))); auto. apply ex_derive_cont. auto_derive. lra. }
  unfold AE. eapply flim_val.
  - apply (flim_plus _ (fun z => - (F z * ln (F z) - F z))); [|exact L2]. lims; exact L.
  - rewrite !Rminus_0_r, ln_1. ring.
Qed.
Lemma AE_lim : filterlim AE pinf (locally 1).
Proof.
  apply lim_opp_pinf. apply (flim_eq _ (fun x => - AE x)); [exists 0; intros; symmetry; apply AE_odd|].
  apply (flim_val _ _ (- (-1))); [|ring]. apply flim_opp; try apply Rbar_locally_filter. apply AE_lim'.
Qed.
Lemma flnf_cont z : continuous (fun z => - (f z * ln (f z))) z.
Proof.
  apply (continuous_comp f (fun u => - (u * ln u))); [apply f_cont|]. apply ex_derive_cont. auto_derive.
  rewrite f_FF. pose proof (F01 z). nra.
Qed.
Lemma ent_ok : integrates_to (fun z => - (f z * ln (f z))) m_infty p_infty 2.
Proof.
  replace 2 with (1 - (-1)) by ring. apply (mk_integral _ AE); simpl; auto.
  - intros; apply AE_der.
  - intros; apply flnf_cont.
  - apply AE_lim'.
  - apply AE_lim.
Qed.
Lemma moments (l s : R) : 0 < s -> mean_is (fun x => pdf x l s) m_infty p_infty (mean l s) /\
  entropy_is (fun x => pdf x l s) m_infty p_infty (entropy l s).
Proof.
  intros S. assert (P : forall x : R, inside m_infty p_infty x -> pdf x l s = Fin (f ((x - l) / s) / s)) by (intros; apply pdf_fin; auto).
  split.
  - apply (ls_mean_is m_infty p_infty F f Q ST l s (fun x => pdf x l s) m_infty p_infty S eq_refl eq_refl P _ 0 m1_ok).
    start; veval; f_equal; ring.
  - apply (ls_entropy_is m_infty p_infty F f Q ST l s (fun x => pdf x l s) m_infty p_infty S eq_refl eq_refl P _ 2 ent_ok).
    start; veval; f_equal; ring.
Qed.
(** With U = F(Z) uniform, Z = log U - log (1-U). *)
Lemma LSB : subst m_infty p_infty 0 1 F f Q.
Proof.
  pose proof ST as S. destruct S as [SM C I]. constructor.
  - simpl; lra.
  - intros x _. unfold F. pose proof (exp_pos x). assert (0 < / (exp x + 1)) by (apply Rinv_0_lt_compat; lra).
    assert (/ (exp x + 1) * (exp x + 1) = 1) by (field; lra). split; simpl; nra.
  - intros x X. apply (sm_der _ _ _ _ SM); auto.
  - intros x X. apply C; auto.
  - intros y [Y1 Y2]. simpl in *. apply I; lra.
Qed.
Lemma m2_ok : integrates_to (fun z => z ^ 2 * f z) m_infty p_infty (PI ^ 2 / 3).
Proof.
  assert (INC : forall x, inside m_infty p_infty x -> 0 < f x) by (intros x _; unfold f; pose proof (exp_pos x); apply Rdiv_pos; [lra|nra]).
  assert (C : forall y, inside 0 1 y -> continuous (fun u => (ln u - ln (1 - u)) ^ 2) y) by (intros y [Y1 Y2]; simpl in *; apply ex_derive_cont; auto_derive; lra).
  pose proof (sub_integral LSB INC _ _ C logit2) as J. revert J. apply integrates_ext; [simpl; auto|].
  intros x _. f_equal. f_equal. unfold F. pose proof (exp_pos x).
  replace (1 - (1 - / (exp x + 1))) with (/ (exp x + 1)) by ring. replace (1 - / (exp x + 1)) with (exp x * / (exp x + 1)) by (field; lra).
  rewrite ln_mult, ln_exp by (auto; apply Rinv_0_lt_compat; lra). ring.
Qed.
Lemma var_ok (l s : R) : 0 < s -> var_is (fun x => pdf x l s) m_infty p_infty (mean l s) (var l s).
Proof.
  intros S. assert (P : forall x : R, inside m_infty p_infty x -> pdf x l s = Fin (f ((x - l) / s) / s)) by (intros; apply pdf_fin; auto).
  apply (ls_var_is m_infty p_infty F f Q ST l s (fun x => pdf x l s) m_infty p_infty S eq_refl eq_refl P _ _ 0 (PI ^ 2 / 3) m1_ok m2_ok);
    start; veval; f_equal; field.
Qed.
