(** Proofs about M_gumbel_max. *)
From Coq Require Import Reals Lra List.
From Coquelicot Require Import Coquelicot.
From Verif Require Import Values VTac Spec RLib DistLib DistLS PLib M_common SpecStat SpecEst LLib P_est.
From Verif Require Import SFun MomLib EulerLib SpecEuler WeibLib.
From Verif Require Import M_gumbel_max.
Import ListNotations.
Local Open Scope R_scope.
Set Bullet Behavior "Strict Subproofs".

Definition F (z : R) := exp (- exp (- z)).
Definition f (z : R) := exp (- (z + exp (- z))).
Definition Q (p : R) := - ln (- ln p).
Lemma ST : std m_infty p_infty F f Q.
Proof.
  constructor.
  - constructor; simpl; auto.
    + intros z _. unfold F. split; [left; apply exp_pos|]. pose proof (exp_pos (- z)). apply exp_le_1. lra.
    + intros z _. unfold F, f. auto_derive; auto. rewrite Ropp_plus_distr, exp_plus. ring.
    + intros z _. apply exp_pos.
  - intros z _. unfold f. apply ex_derive_cont. auto_derive. auto.
  - intros p H. split; [split; simpl; auto|]. unfold F, Q. pose proof (ln_neg p H).
    rewrite Ropp_involutive, exp_ln, Ropp_involutive, exp_ln by lra. auto.
Qed.
Ltac start := unfold pdf, logpdf, cdf, sf, invcdf, invsf, support, mean, mode, var, validate_loc_scale, validate_p.

Section P.
Variables l s : R.
Hypothesis S : 0 < s.
Lemma pdf_fin (x : R) : pdf x l s = Fin (f ((x - l) / s) / s) /\ logpdf x l s = Fin (ln (f ((x - l) / s) / s)).
Proof.
  set (z := (x - l) / s).
  assert (E : ln (f z / s) = - (z + exp (- z)) - ln s) by (unfold f; rewrite ln_div, ln_exp by (auto; apply exp_pos); reflexivity).
  assert (P : 0 < f z / s) by (apply Rdiv_pos; auto; apply exp_pos).
  rewrite <- (exp_ln _ P), E, ln_exp. start. veval. fold z. split; f_equal.
Qed.
Lemma CERT : cert (fun x => pdf x l s) (fun x => logpdf x l s) (fun x => cdf x l s) (fun x => sf x l s)
  (fun p => invcdf p l s) (fun p => invsf p l s) m_infty p_infty (fun x => F ((x - l) / s))
  (fun x => f ((x - l) / s) / s) (fun p => l + s * Q p).
Proof.
  apply (ls_cert m_infty p_infty F f Q ST l s S); auto.
  - constructor.
    + intros x _. unfold F. start. veval. split; f_equal; ring.
    + intros x [].
    + intros x [].
    + start. veval. rewrite ?Ropp_0, ?exp_0. split; f_equal; lra.
    + start. veval. rewrite ?Ropp_0, ?exp_0. split; f_equal; lra.
  - intros x _. apply pdf_fin.
  - intros x [[]|[]].
  - intros p H. unfold Q. start. pose proof (ln_neg p H). pose proof (ln_neg (1 - p) ltac:(lra)). veval.
    split; f_equal; [ring|]. replace (1 - (1 - p)) with p by ring. ring.
Qed.
Lemma ends : rejects_bad_p (fun p => invcdf p l s) /\ rejects_bad_p (fun p => invsf p l s) /\
  at_ends (fun p => invcdf p l s) NInf PInf /\ at_ends (fun p => invsf p l s) PInf NInf.
Proof.
  assert (L : ln (1 - 0) = 0) by (replace (1 - 0) with 1 by ring; apply ln_1).
  split; [|split; [|split]].
  - split; [intros p [H|H]|split]; start; veval; reflexivity.
  - split; [intros p [H|H]|split]; start; veval; reflexivity.
  - unfold at_ends. start. pose proof ln_1. veval. auto.
  - unfold at_ends. start. pose proof ln_1. veval. auto.
Qed.
Lemma mode_ok : is_mode (fun x => pdf x l s) (mode l s).
Proof.
  exists l, (f 0 / s). split; [start; veval; auto|]. split.
  - rewrite (proj1 (pdf_fin l)). replace ((l - l) / s) with 0 by (field; lra). auto.
  - intros x. eexists; split; [apply pdf_fin|]. apply Rmult_le_compat_r.
    + left. apply Rinv_0_lt_compat; auto.
    + unfold f. apply exp_le_compat. rewrite ?Ropp_0, exp_0.
      pose proof (exp_ineq (- ((x - l) / s))). lra.
Qed.
Lemma nll_ok xs : nll (map Fin xs) l s = vneg (loglik (fun x => logpdf x l s) xs).
Proof.
  set (z := fun x => (x - l) / s).
  rewrite (loglik_fin _ (fun x => (- (ln s +  z x) + - exp (-  (z x))))).
  - unfold nll, validate_loc_scale. veval. rewrite !map_map.
    rewrite (vfsum_map _ z), (vfsum_map _ (fun x => exp (-  (z x)))).
    + unfold vlen. rewrite map_length. varith. f_equal.
      rewrite rsum_plus.
      rewrite (rsum_ext (fun x => - (ln s +  z x)) (fun x => (-1) * (ln s +  z x))) by (intros; ring).
      rewrite (rsum_ext (fun x => - exp (-  z x)) (fun x => (-1) * exp (-  z x))) by (intros; ring).
      rewrite !rsum_scal, (rsum_plus (fun _ => ln s)), rsum_const.
       ring.
    + intros x _. veval. reflexivity.
    + intros x _. veval. reflexivity.
  - intros x _. start. veval. fold (z x). f_equal. ring.
Qed.
Lemma I1 : integrates_to (fun z => z * f z) m_infty p_infty (- digamma 1). Proof. exact u_1. Qed.
Lemma I2 : integrates_to (fun z => z ^ 2 * f z) m_infty p_infty (PI ^ 2 / 6 + digamma 1 ^ 2). Proof. exact u_2. Qed.
Lemma PDFI x : inside m_infty p_infty x -> pdf (Fin x) l s = Fin (f ((x - l) / s) / s).
Proof. intros _. apply pdf_fin. Qed.
Notation LSM lem := (lem m_infty p_infty F f Q ST l s (fun x => pdf x l s) m_infty p_infty S (eq_refl m_infty) (eq_refl p_infty) PDFI).
Lemma mean_ok g : euler_constant g -> mean_is (fun x => pdf x l s) m_infty p_infty (mean g l s).
Proof. intros G. apply euler_eq in G. apply (LSM ls_mean_is _ _ I1). unfold mean, validate_loc_scale. rewrite G. veval. f_equal. ring. Qed.
Lemma var_ok g : euler_constant g -> var_is (fun x => pdf x l s) m_infty p_infty (mean g l s) (var l s).
Proof.
  intros G. apply euler_eq in G. apply (LSM ls_var_is _ _ _ _ I1 I2); unfold mean, var, validate_loc_scale; rewrite ?G; change vpi with (Fin PI); veval; f_equal; field.
Qed.
End P.

(** The location estimate for a given scale is the global optimum. *)
Lemma mle_loc_opt solve solve_loc xs (s : R) : xs <> [] -> 0 < s ->
  exists l, mle solve solve_loc (map Fin xs) None (Some (Fin s)) = Ok (Fin l, Fin s) /\
  minimises (fun _ => True) (fun l => nll (map Fin xs) (Fin l) (Fin s)) l.
Proof.
  intros N S. pose proof (length_pos xs N) as LN.
  set (e := fun x => exp (-  x / s)).
  assert (EP : 0 < rsum (map e xs)) by (apply rsum_pos; auto; intros; apply exp_pos).
  assert (MP : 0 < rsum (map e xs) / INR (length xs)) by (apply Rdiv_pos; auto).
  exists (-  s * ln (rsum (map e xs) / INR (length xs))). split.
  - unfold mle. cbn [bindv]. rewrite map_map. rewrite (mean_of _ e).
    + change (sum (map e xs)) with (rsum (map e xs)). veval. reflexivity.
    + auto.
    + intros x _. unfold e. veval. reflexivity.
  - assert (NL : forall l : R, nll (map Fin xs) l s = Fin (INR (length xs) * ln s +  (sum xs - INR (length xs) * l) / s
        + exp ( l / s) * rsum (map e xs))).
    { intros l. unfold nll, validate_loc_scale. veval. rewrite !map_map.
      rewrite (vfsum_map _ (fun x => (x - l) / s)), (vfsum_map _ (fun x => exp ( l / s) * e x)).
      - unfold vlen. rewrite map_length. varith. f_equal. rewrite rsum_scal.
        rewrite (rsum_ext (fun x => (x - l) / s) (fun x => / s * (x + - l))) by (intros; field; lra).
        rewrite rsum_scal, rsum_plus, rsum_const, map_id. unfold sum, rsum. field. lra.
      - intros x _. veval. unfold e. rewrite <- exp_plus. f_equal. f_equal. field. lra.
      - intros x _. veval. reflexivity. }
    split; auto. eexists. split; [apply NL|]. intros l _. eexists. split; [apply NL|].
    set (u :=  l / s). set (m := ln (rsum (map e xs) / INR (length xs))).
    replace ( (-  s * m) / s) with (- m) by (field; lra).
    replace ( (sum xs - INR (length xs) * (-  s * m)) / s) with ( sum xs / s + INR (length xs) * m) by (field; lra).
    replace ( (sum xs - INR (length xs) * l) / s) with ( sum xs / s - INR (length xs) * u) by (unfold u; field; lra).
    replace (rsum (map e xs)) with (INR (length xs) * exp m) by (unfold m; rewrite exp_ln by auto; field; lra).
    replace (exp (- m) * (INR (length xs) * exp m)) with (INR (length xs)) by (rewrite exp_Ropp; pose proof (exp_pos m); field; lra).
    replace (exp u * (INR (length xs) * exp m)) with (INR (length xs) * exp (u + m)) by (rewrite exp_plus; ring).
    pose proof (exp_ineq (u + m)). nra.
Qed.
Lemma mom_ok (g : R) xs : ~ constant xs -> exists l s, mom (Fin g) (map Fin xs) = Ok (Fin l, Fin s) /\ 0 < s /\
  reproduces (mean (Fin g) (Fin l) (Fin s)) (var (Fin l) (Fin s)) xs.
Proof.
  intros C. pose proof (const_nil xs C) as N. pose proof (dev_pos xs C) as D. pose proof PI_RGT_0 as PP.
  set (v := sumsq_dev xs / INR (length xs)) in *.
  assert (S : 0 < sqrt (6 * v) / PI) by (apply Rdiv_pos; auto; apply sqrt_lt_R0; lra).
  exists (average xs - sqrt (6 * v) / PI * g), (sqrt (6 * v) / PI).
  split; [|split; auto].
  - unfold mom. rewrite mean_avg0, mean_sq by auto. fold v. cbn [bindv]. varith.
    replace (v + average xs ^ 2 - average xs ^ 2) with v by ring. reflexivity.
  - split; start; veval; f_equal; [ring|].
    replace ((sqrt (6 * v) / PI)^2) with ((sqrt (6 * v))^2 / PI^2) by (field; lra).
    rewrite pow2_sqrt by lra. fold v. field. lra.
Qed.
Lemma loc_scale : loc_scale_law pdf cdf sf invcdf invsf m_infty p_infty.
Proof. apply (loc_scale_from_cert pdf logpdf cdf sf invcdf invsf m_infty p_infty F f Q). exact CERT. Qed.
Lemma bad_params g l s : nonpositive s ->
  support l s = Err ValueError /\
  always_ValueError [ fun x => pdf x l s; fun x => logpdf x l s; fun x => cdf x l s; fun x => sf x l s;
    fun p => invcdf p l s; fun p => invsf p l s; fun _ => mean g l s; fun _ => mode l s; fun _ => var l s;
    fun x => nll [x] l s ].
Proof.
  intros H. unfold support, pdf, logpdf, cdf, sf, invcdf, invsf, mean, mode, var, nll.
  split; [|all_ve; intros x Hx]; rewrite vls_bad by auto; reflexivity.
Qed.
