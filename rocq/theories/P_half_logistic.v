(** Proofs about M_half_logistic. *)
From Coq Require Import Reals Lra List.
From Coquelicot Require Import Coquelicot.
From Verif Require Import Values VTac Spec RLib LimLib DistLib DistLS MomLib LogisLib PLib M_common M_half_logistic.
From Verif Require P_logistic.
Import ListNotations.
Local Open Scope R_scope.
Set Bullet Behavior "Strict Subproofs".

Definition F (z : R) := (1 - exp (- z)) / (1 + exp (- z)).
Definition f (z : R) := 2 * P_logistic.f z.
Definition Q (p : R) := - (ln (1 - p) - ln (1 + p)).
Lemma F_alt z : F z = 1 - 2 / (exp z + 1).
Proof. unfold F. rewrite exp_Ropp. pose proof (exp_pos z). field. lra. Qed.
Lemma F_0 : F 0 = 0. Proof. unfold F. rewrite Ropp_0, exp_0. field. Qed.

Lemma ST : std 0 p_infty F f Q.
Proof.
  constructor.
  - constructor; simpl; auto.
    + intros z [H _]. simpl in H. unfold F. pose proof (exp_pos (- z)). pose proof (exp_lt_1 (- z) ltac:(lra)).
      split; [apply Rdiv_nonneg; lra|]. apply (Rmult_le_reg_r (1 + exp (- z))); [lra|].
      unfold Rdiv. rewrite Rmult_assoc, Rinv_l by lra. lra.
    + intros z _. unfold F, f, P_logistic.f. pose proof (exp_pos (- z)) as P. auto_derive; [lra|].
      rewrite exp_Ropp in *. pose proof (exp_pos z). field. split; lra.
    + intros z _. unfold f, P_logistic.f. pose proof (exp_pos z).
      assert (0 < exp z / (exp z + 1)^2) by (apply Rdiv_pos; [lra|]; nra). lra.
  - intros z _. unfold f, P_logistic.f. apply ex_derive_cont. pose proof (exp_pos z). auto_derive. nra.
  - intros p H. unfold Q. split.
    + split; simpl; auto. pose proof (ln_neg (1 - p) ltac:(lra)). pose proof (ln_pos (1 + p) ltac:(lra)). lra.
    + unfold F. rewrite Ropp_involutive, exp_minus, !exp_ln by lra. field. lra.
Qed.
Ltac start := unfold pdf, logpdf, cdf, sf, invcdf, invsf, support, mean, mode, var, entropy, validate_loc_scale, validate_p.
Ltac seval := repeat (progress (veval; rewrite ?P_logistic.vsech_Fin)).

Section P.
Variables l s : R.
Hypothesis S : 0 < s.
Lemma lo_eq : Finite l = ls l s 0.
Proof. simpl. f_equal. ring. Qed.
Lemma z_pos x : l < x -> 0 < (x - l) / s. Proof. intros. apply Rdiv_pos; lra. Qed.
Lemma z_0 : (l - l) / s = 0. Proof. field. lra. Qed.
Lemma pdf_fin (x : R) : l <= x -> pdf x l s = Fin (f ((x - l) / s) / s) /\ logpdf x l s = Fin (ln (f ((x - l) / s) / s)).
Proof.
  intros Hx. set (z := (x - l) / s).
  assert (C : 0 < 1 / cosh (z / 2)) by (apply Rdiv_pos; [lra|apply P_logistic.cosh_pos]).
  assert (P : 0 < f z).
  { unfold f, P_logistic.f. pose proof (exp_pos z).
    assert (0 < exp z / (exp z + 1)^2) by (apply Rdiv_pos; [lra|]; nra). lra. }
  start. seval. fold z. split; [|]; f_equal.
  - rewrite P_logistic.sech_sq. unfold f. field. lra.
  - rewrite (ln_div (f z) s) by auto. replace (f z) with ((1 / cosh (z / 2))^2 / 2) by (rewrite P_logistic.sech_sq; unfold f; field).
    assert (0 < (1 / cosh (z / 2))^2) by (apply pow_lt; auto).
    rewrite (ln_div ((1 / cosh (z / 2))^2) 2) by lra. replace ((1 / cosh (z / 2))^2) with (1 / cosh (z / 2) * (1 / cosh (z / 2))) by ring.
    rewrite (ln_mult (1 / cosh (z/2)) (1 / cosh (z/2))) by auto. ring.
Qed.
Lemma cdf_fin (x : R) : l <= x -> cdf x l s = Fin (F ((x - l) / s)) /\ sf x l s = Fin (1 - F ((x - l) / s)).
Proof.
  intros Hx. pose proof (exp_pos (- ((x - l) / s))). start. veval. unfold F. split; f_equal; field; lra.
Qed.
Lemma CERT : cert (fun x => pdf x l s) (fun x => logpdf x l s) (fun x => cdf x l s) (fun x => sf x l s)
  (fun p => invcdf p l s) (fun p => invsf p l s) l p_infty (fun x => F ((x - l) / s))
  (fun x => f ((x - l) / s) / s) (fun p => l + s * Q p).
Proof.
  apply (ls_cert 0 p_infty F f Q ST l s S); auto using lo_eq.
  - constructor.
    + intros x [H _]. simpl in H. apply cdf_fin. lra.
    + intros x H. simpl in H. destruct H as [H| ->].
      * start. veval. auto.
      * destruct (cdf_fin l ltac:(lra)) as [-> ->]. rewrite z_0, F_0. split; f_equal; lra.
    + intros x [].
    + start. veval. auto.
    + start. veval. split; f_equal; lra.
  - intros x [H _]. simpl in H. apply pdf_fin.
    assert (0 < (x - l) / s * s) by nra. unfold Rdiv in H0. rewrite Rmult_assoc, Rinv_l in H0 by lra. lra.
  - intros x [H|[]]. simpl in H. start. veval. auto.
  - intros p H. unfold Q. start. veval.
    assert (A : 0 < p / 2 / (1 - p / 2)) by (apply Rdiv_pos; lra). veval.
    split; f_equal; [ring|]. rewrite ln_div by lra.
    replace (1 - (1 - p)) with (2 * (p / 2)) by field. replace (1 + (1 - p)) with (2 * (1 - p / 2)) by field.
    rewrite !ln_mult by lra. ring.
Qed.
Lemma log_all (x : R) : log_of (fun x => pdf x l s) (fun x => logpdf x l s) x.
Proof.
  revert x. apply (cert_log_ends CERT); intros x E; [|discriminate]. injection E as E; subst x.
  left. destruct (pdf_fin l ltac:(lra)) as [-> ->]. exists (f ((l - l) / s) / s). rewrite z_0.
  split; auto. unfold f, P_logistic.f. rewrite exp_0. apply Rdiv_pos; auto. lra.
Qed.
Lemma ends : rejects_bad_p (fun p => invcdf p l s) /\ rejects_bad_p (fun p => invsf p l s) /\
  at_ends (fun p => invcdf p l s) l PInf /\ at_ends (fun p => invsf p l s) PInf l.
Proof.
  split; [|split; [|split]].
  - split; [intros p [H|H]|split]; start; veval; reflexivity.
  - split; [intros p [H|H]|split]; start; veval; reflexivity.
  - unfold at_ends. start. veval. auto.
  - unfold at_ends. start. veval. auto.
Qed.
Lemma mode_ok : is_mode (fun x => pdf x l s) (mode l s).
Proof.
  exists l, (f 0 / s). split; [start; veval; auto|]. split.
  - rewrite (proj1 (pdf_fin l ltac:(lra))), z_0. auto.
  - intros x. destruct (Rlt_le_dec x l) as [H|H].
    + exists 0. split; [start; veval; auto|]. left. unfold f, P_logistic.f. rewrite exp_0. apply Rdiv_pos; lra.
    + eexists; split; [apply pdf_fin; auto|]. apply Rmult_le_compat_r.
      * left. apply Rinv_0_lt_compat; auto.
      * unfold f. pose proof (P_logistic.f_max ((x - l) / s)). lra.
Qed.
(** The half-logistic law is the logistic law folded at [loc]. *)
Lemma folded (x : R) : l <= x -> exists a b c d, pdf x l s = Fin a /\ M_logistic.pdf x l s = Fin b /\ a = 2 * b /\
  cdf x l s = Fin c /\ M_logistic.cdf x l s = Fin d /\ c = 2 * d - 1.
Proof.
  intros H. exists (f ((x - l) / s) / s), (P_logistic.f ((x - l) / s) / s), (F ((x - l) / s)), (P_logistic.F ((x - l) / s)).
  destruct (pdf_fin x H) as [-> _]. destruct (cdf_fin x H) as [-> _].
  rewrite (proj1 (P_logistic.pdf_fin l s S x)).
  rewrite (proj1 (co_in _ _ _ _ _ (ce_core _ _ _ _ _ _ _ _ _ _ _ (P_logistic.CERT l s S)) x (conj I I))).
  repeat split; auto.
  - unfold f. field. lra.
  - rewrite F_alt. unfold P_logistic.F. pose proof (exp_pos ((x - l) / s)). field. lra.
Qed.
End P.
Lemma loc_scale : loc_scale_law pdf cdf sf invcdf invsf 0 p_infty.
Proof.
  apply (loc_scale_from_cert pdf logpdf cdf sf invcdf invsf 0 p_infty F f Q).
  intros l s S. rewrite <- lo_eq. apply CERT; auto.
Qed.
Lemma bad_params l s : nonpositive s ->
  support l s = Err ValueError /\
  always_ValueError [ fun x => pdf x l s; fun x => logpdf x l s; fun x => cdf x l s; fun x => sf x l s;
    fun p => invcdf p l s; fun p => invsf p l s; fun _ => mean l s; fun _ => mode l s; fun _ => var l s;
    fun _ => entropy l s ].
Proof.
  intros H. unfold support, pdf, logpdf, cdf, sf, invcdf, invsf, mean, mode, var, entropy.
  split; [|all_ve; intros x Hx]; rewrite vls_bad by auto; reflexivity.
Qed.

(** Moments: twice the half-line integrals of the logistic. *)
Lemma m1_ok : integrates_to (fun z => z * f z) 0 p_infty (ln 4).
Proof.
  replace (ln 4) with (2 * 0 - 2 * P_logistic.A1 0).
  - apply (mk_integral _ (fun z => 2 * P_logistic.A1 z)); simpl; auto.
    + intros z _. unfold f. evar_last.
      * apply (is_derive_scal P_logistic.A1). apply P_logistic.A1_der.
      * ring.
    + intros z _. unfold f. apply (continuous_ext (fun z => scal 2 (z * P_logistic.f z))).
      * intros x. unfold scal; simpl; unfold mult; simpl. ring.
      * apply (continuous_scal_r 2 (fun z => z * P_logistic.f z)). apply P_logistic.zf_cont.
    + apply flim_scal; try apply within_filter, locally_filter. apply flim_right. apply ex_derive_cont.
      eexists. apply P_logistic.A1_der.
    + apply flim_scal; try apply Rbar_locally_filter. apply P_logistic.A1_lim.
  - unfold P_logistic.A1. rewrite exp_0. replace 4 with (2 * 2) by ring. rewrite ln_mult by lra.
    replace (1 + 1) with 2 by ring. ring.
Qed.
Lemma ent_ok : integrates_to (fun z => - (f z * ln (f z))) 0 p_infty (2 - ln 2).
Proof.
  assert (LT : Rbar_lt 0 p_infty) by (simpl; auto).
  apply (integrates_ext 0 p_infty LT (fun z => (- ln 2) * f z + 2 * (- (P_logistic.f z * ln (P_logistic.f z))))).
  - intros z _. unfold f. rewrite (ln_mult 2) by (try lra; rewrite P_logistic.f_FF; pose proof (P_logistic.F01 z); nra). ring.
  - replace (2 - ln 2) with (- ln 2 * 1 + 2 * 1) by ring. apply integrates_plus.
    + apply integrates_scal. apply (std_mass 0 p_infty LT F f Q ST).
    + apply integrates_scal. replace 1 with (1 - P_logistic.AE 0).
      * apply (mk_integral _ P_logistic.AE); simpl; auto.
        -- intros; apply P_logistic.AE_der.
        -- intros; apply P_logistic.flnf_cont.
        -- apply flim_right. apply ex_derive_cont. eexists. apply P_logistic.AE_der.
        -- apply P_logistic.AE_lim.
      * pose proof (P_logistic.AE_odd 0) as E. rewrite Ropp_0 in E. lra.
Qed.
Lemma moments (l s : R) : 0 < s -> mean_is (fun x => pdf x l s) l p_infty (mean l s) /\
  entropy_is (fun x => pdf x l s) l p_infty (entropy l s).
Proof.
  intros S. assert (P : forall x : R, inside l p_infty x -> pdf x l s = Fin (f ((x - l) / s) / s)) by (intros x [H _]; apply pdf_fin; simpl in *; auto; lra).
  split.
  - apply (ls_mean_is 0 p_infty F f Q ST l s (fun x => pdf x l s) l p_infty S ltac:(auto using lo_eq) eq_refl P _ (ln 4) m1_ok).
    start; veval; f_equal; ring.
  - apply (ls_entropy_is 0 p_infty F f Q ST l s (fun x => pdf x l s) l p_infty S ltac:(auto using lo_eq) eq_refl P _ (2 - ln 2) ent_ok).
    start; veval; f_equal; rewrite ln_div by lra; ring.
Qed.
Lemma m2_ok : integrates_to (fun z => z ^ 2 * f z) 0 p_infty (PI ^ 2 / 3).
Proof.
  assert (LT : Rbar_lt 0 p_infty) by (simpl; auto).
  replace (PI ^ 2 / 3) with (2 * (PI ^ 2 / 3 / 2)) by field.
  apply (integrates_ext 0 p_infty LT (fun z => 2 * (z ^ 2 * P_logistic.f z))); [intros; unfold f; ring|]. apply integrates_scal.
  apply integrates_half; [| |apply P_logistic.m2_ok].
  - intros x. apply ex_derive_cont. unfold P_logistic.f. pose proof (exp_pos x). auto_derive. nra.
  - intros x. unfold P_logistic.f. rewrite exp_Ropp. pose proof (exp_pos x). field. lra.
Qed.
Lemma var_ok (l s : R) : 0 < s -> var_is (fun x => pdf x l s) l p_infty (mean l s) (var l s).
Proof.
  intros S. assert (P : forall x : R, inside l p_infty x -> pdf x l s = Fin (f ((x - l) / s) / s)) by (intros x [H _]; apply pdf_fin; simpl in *; auto; lra).
  apply (ls_var_is 0 p_infty F f Q ST l s (fun x => pdf x l s) l p_infty S ltac:(auto using lo_eq) eq_refl P _ _ (ln 4) (PI ^ 2 / 3) m1_ok m2_ok);
    start; veval; f_equal; field.
Qed.
