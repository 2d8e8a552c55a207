(** Proofs about M_normal. *)
From Coq Require Import Reals Lra List.
From Coquelicot Require Import Coquelicot.
From Verif Require Import Values VTac Spec RLib LimLib DistLib DistLS IntLib MomLib PLib M_common SpecStat SpecEst LLib P_est P_basic2
  SFun GammaLib GammaLib2 GammaLib3 M_sfun P_sfun.
From Verif Require Import M_normal.
Import ListNotations.
Local Open Scope R_scope.
Set Bullet Behavior "Strict Subproofs".

Definition F := ncdf.
Definition f := nkernel.
Definition Q (p : R) := sqrt 2 * erfinv (2 * p - 1).
Lemma ST : std m_infty p_infty F f Q.
Proof.
  constructor.
  - constructor; simpl; auto.
    + intros z _. pose proof (if_range ncdf_if z (in_all z)). unfold F. lra.
    + intros z _. apply ncdf_der.
    + intros z _. apply nkernel_pos.
  - intros z _. apply (if_cont _ _ _ _ _ ncdf_if). apply in_all.
  - intros p H. split; [apply in_all|]. unfold F, Q, ncdf. pose proof sqrt2_pos.
    replace (sqrt 2 * erfinv (2 * p - 1) / sqrt 2) with (erfinv (2 * p - 1)) by (field; lra).
    rewrite erf_erfinv by lra. field.
Qed.
Lemma ncdf_neg x l s : 0 < s -> ncdf ((- x + 2 * l - l) / s) = 1 - ncdf ((x - l) / s).
Proof. intros S. rewrite <- ncdf_opp. f_equal. field. lra. Qed.
Ltac start := unfold pdf, logpdf, cdf, sf, invcdf, invsf, support, mean, median, mode, entropy, validate_loc_scale, validate_p, vpi.
Section P.
Variables l s : R.
Hypothesis S : 0 < s.
Lemma pdf_fin (x : R) : pdf x l s = Fin (f ((x - l) / s) / s) /\ logpdf x l s = Fin (ln (f ((x - l) / s) / s)).
Proof.
  pose proof PI_RGT_0. assert (0 < s ^ 2) by (apply pow_lt; auto). pose proof (nkernel_pos ((x - l) / s)).
  start. split.
  - rewrite vnpdf_Fin by auto. veval. reflexivity.
  - veval. f_equal. unfold f. rewrite (ln_div (nkernel ((x - l) / s)) s), nkernel_ln by auto. field. lra.
Qed.
Lemma CERT : cert (fun x => pdf x l s) (fun x => logpdf x l s) (fun x => cdf x l s) (fun x => sf x l s)
  (fun p => invcdf p l s) (fun p => invsf p l s) m_infty p_infty (fun x => F ((x - l) / s))
  (fun x => f ((x - l) / s) / s) (fun p => l + s * Q p).
Proof.
  pose proof sqrt2_pos as S2.
  apply (ls_cert m_infty p_infty F f Q ST l s S); auto.
  - constructor.
    + intros x _. start. veval. rewrite !vncdf_Fin by auto. split; auto. f_equal. apply ncdf_neg; auto.
    + intros x [].
    + intros x [].
    + start. veval. rewrite vncdf_NInf, vncdf_PInf by auto. auto.
    + start. veval. rewrite vncdf_NInf, vncdf_PInf by auto. auto.
  - intros x _. apply pdf_fin.
  - intros x [[]|[]].
  - intros p H. unfold Q. start. veval. rewrite !verfinv_Fin by lra. veval. split; f_equal; [ring|].
    replace (2 * (1 - p) - 1) with (1 - 2 * p) by ring. ring.
Qed.
Lemma ends : rejects_bad_p (fun p => invcdf p l s) /\ rejects_bad_p (fun p => invsf p l s) /\
  at_ends (fun p => invcdf p l s) NInf PInf /\ at_ends (fun p => invsf p l s) PInf NInf.
Proof.
  pose proof sqrt2_pos as S2. assert (0 < sqrt 2 * s) by pos.
  split; [|split; [|split]].
  - split; [intros p [H'|H']|split]; start; veval; reflexivity.
  - split; [intros p [H'|H']|split]; start; veval; reflexivity.
  - unfold at_ends. start. veval. rewrite verfinv_m1, verfinv_1 by ring. veval. auto.
  - unfold at_ends. start. veval. rewrite verfinv_1, verfinv_m1 by ring. veval. auto.
Qed.
Lemma mode_ok : is_mode (fun x => pdf x l s) (mode l s).
Proof.
  exists l, (f 0 / s). split; [start; veval; auto|]. split.
  - rewrite (proj1 (pdf_fin l)). replace ((l - l) / s) with 0 by (field; lra). auto.
  - intros x. eexists; split; [apply pdf_fin|]. apply Rmult_le_compat_r.
    + left. apply Rinv_0_lt_compat; auto.
    + apply nkernel_max.
Qed.
Lemma nll_ok xs : nll (map Fin xs) l s = vneg (loglik (fun x => logpdf x l s) xs).
Proof. unfold nll, validate_loc_scale, loglik. veval. rewrite map_map. reflexivity. Qed.
Lemma loglik_eq xs : loglik (fun x => logpdf x l s) xs =
  Fin (- (INR (length xs) * (ln (2 * PI) / 2 + ln s) + sum (map (fun x => (x - l) ^ 2) xs) / (2 * s ^ 2))).
Proof.
  rewrite (loglik_fin _ (fun x => - (ln (2 * PI) / 2 + ln s) + - (/ (2 * s ^ 2)) * (x - l) ^ 2)).
  - f_equal. change sum with rsum. rewrite rsum_plus, rsum_const, rsum_scal. unfold Rdiv. ring.
  - intros x _. rewrite (proj2 (pdf_fin x)). f_equal. pose proof (nkernel_pos ((x - l) / s)). unfold f. rewrite ln_div, nkernel_ln by auto. field. lra.
Qed.
End P.
Lemma loc_scale : loc_scale_law pdf cdf sf invcdf invsf m_infty p_infty.
Proof. apply (loc_scale_from_cert pdf logpdf cdf sf invcdf invsf m_infty p_infty F f Q). exact CERT. Qed.
Lemma bad_params l s : nonpositive s ->
  support l s = Err ValueError /\
  always_ValueError [ fun x => pdf x l s; fun x => logpdf x l s; fun x => cdf x l s; fun x => sf x l s;
    fun p => invcdf p l s; fun p => invsf p l s; fun _ => mean l s; fun _ => median l s; fun _ => mode l s;
    fun _ => entropy l s; fun x => nll [x] l s ].
Proof.
  intros H. unfold support, pdf, logpdf, cdf, sf, invcdf, invsf, mean, median, mode, entropy, nll.
  split; [|all_ve; intros x Hx]; rewrite ?vls_bad by auto; try reflexivity.
  all: unfold validate_p; destruct Hx as [? [? | |]|]; vcases; reflexivity.
Qed.
Lemma moments (l s : R) : 0 < s -> mean_is (fun x => pdf x l s) m_infty p_infty (mean l s) /\
  median_is (fun x => cdf x l s) (median l s) /\
  entropy_is (fun x => pdf x l s) m_infty p_infty (entropy l s).
Proof.
  intros S. assert (P : forall x : R, inside m_infty p_infty x -> pdf x l s = Fin (f ((x - l) / s) / s)) by (intros; apply pdf_fin; auto).
  pose proof PI_RGT_0.
  split; [|split].
  - apply (ls_mean_is m_infty p_infty F f Q ST l s (fun x => pdf x l s) m_infty p_infty S eq_refl eq_refl P _ 0 norm_m1).
    start; veval; f_equal; ring.
  - exists l. split; [start; veval; auto|]. start. veval. rewrite vncdf_Fin by auto. f_equal.
    replace ((l - l) / s) with 0 by (field; lra). unfold ncdf. replace (0 / sqrt 2) with 0 by (unfold Rdiv; ring). rewrite erf_0. field.
  - apply (ls_entropy_is m_infty p_infty F f Q ST l s (fun x => pdf x l s) m_infty p_infty S eq_refl eq_refl P _ _ norm_entropy).
    start; veval; f_equal; field.
Qed.
(** The variance, which the module does not expose, is s^2: used by lognormal and by others. *)
Lemma variance (l s : R) : 0 < s -> var_is (fun x => pdf x l s) m_infty p_infty (Fin l) (Fin (s ^ 2)).
Proof.
  intros S. assert (P : forall x : R, inside m_infty p_infty x -> pdf x l s = Fin (f ((x - l) / s) / s)) by (intros; apply pdf_fin; auto).
  apply (ls_var_is m_infty p_infty F f Q ST l s (fun x => pdf x l s) m_infty p_infty S eq_refl eq_refl P _ _ 0 1 norm_m1).
  - apply (integrates_ext m_infty p_infty I (fun z => z ^ 2 * nkernel z)); [intros; unfold f; ring|]. exact norm_m2.
  - f_equal; ring.
  - f_equal; ring.
Qed.
(** Maximum likelihood. *)
Lemma sumsq_about xs l : xs <> [] -> sum (map (fun x => (x - l) ^ 2) xs) = sumsq_dev xs + INR (length xs) * (average xs - l) ^ 2.
Proof.
  intros N. pose proof (length_pos xs N).
  unfold sumsq_dev. set (a := average xs).
  assert (E : sum xs = INR (length xs) * a) by (unfold a, average; field; lra).
  change sum with rsum in *.
  rewrite (rsum_ext (fun x => (x - l) ^ 2) (fun x => (x - a) ^ 2 + (2 * (a - l) * x + (l ^ 2 - a ^ 2)))) by (intros; ring).
  rewrite rsum_plus, rsum_plus, rsum_const, rsum_scal, map_id_R, E. ring.
Qed.
Lemma lik_opt n v d s : 0 < n -> 0 < v -> 0 <= d -> 0 < s ->
  n * ln (sqrt v) + (n * v) / (2 * (sqrt v) ^ 2) <= n * ln s + (n * v + n * d) / (2 * s ^ 2).
Proof.
  intros N V D S. pose proof (scale_opt n (n * v) (s ^ 2)) as K.
  assert (0 < s ^ 2) by (apply pow_lt; auto). specialize (K N ltac:(pos) ltac:(auto)).
  replace (n * v / n) with v in K by (field; lra).
  replace (ln (s ^ 2)) with (2 * ln s) in K by (simpl; rewrite Rmult_1_r, ln_mult by auto; ring).
  rewrite ln_sqrt by auto. rewrite pow2_sqrt by lra.
  replace (n * v / (2 * v)) with (n / 2) by (field; lra).
  assert (0 <= n * d / (2 * s ^ 2)) by (apply Rmult_le_pos; [nra|left; apply Rinv_0_lt_compat; lra]).
  replace ((n * v + n * d) / (2 * s ^ 2)) with ((n * v / s ^ 2) / 2 + n * d / (2 * s ^ 2)) by (field; lra). lra.
Qed.
Lemma mle_eval xs : ~ constant xs -> mle (map Fin xs) = Ok (Fin (average xs), Fin (sqrt (sumsq_dev xs / INR (length xs)))).
Proof.
  intros C. pose proof (const_nil xs C) as N. pose proof (length_pos xs N) as LN. pose proof (dev_pos xs C) as D.
  unfold mle, vlen. rewrite map_length, vfsum_Fin. varith. cbn [bindv]. rewrite map_map.
  rewrite (vfsum_map _ (fun x => (x - average xs) ^ 2)).
  - varith. cbn [bindv]. change (rsum (map (fun x : R => (x - average xs) ^ 2) xs)) with (sumsq_dev xs). rewrite vsqrt_Fin by lra. reflexivity.
  - intros x _. varith. reflexivity.
Qed.
Lemma mle_ok xs : ~ constant xs -> exists l s, mle (map Fin xs) = Ok (Fin l, Fin s) /\
  maximises (fun '(l, s) => 0 < s) (fun '(l, s) => loglik (fun x => logpdf x (Fin l) (Fin s)) xs) (l, s).
Proof.
  intros C. pose proof (const_nil xs C) as N. pose proof (length_pos xs N) as LN. pose proof (dev_pos xs C) as D.
  eexists _, _. split; [apply mle_eval; auto|].
  pose proof (sqrt_lt_R0 _ D) as SP. split; auto. eexists. split; [apply loglik_eq; auto|]. intros [l s] S.
  eexists. split; [apply loglik_eq; auto|]. apply Ropp_le_contravar.
  rewrite !sumsq_about by auto. set (v := sumsq_dev xs / INR (length xs)) in *.
  replace (sumsq_dev xs) with (INR (length xs) * v) by (unfold v; field; lra).
  pose proof (lik_opt (INR (length xs)) v ((average xs - l) ^ 2) s LN D (pow2_ge_0 _) S) as K.
  replace (INR (length xs) * v + INR (length xs) * (average xs - average xs) ^ 2) with (INR (length xs) * v) by ring. lra.
Qed.
Lemma nll_default_bad : nll_default [Fin 0] <> vneg (loglik logpdf_default [0]).
Proof.
  unfold nll_default, logpdf_default. change [Fin 0] with (map Fin [0]). rewrite nll_ok, !loglik_eq by lra. unfold vneg. intros E. injection E. simpl. lra.
Qed.
