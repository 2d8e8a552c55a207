(** Proofs about M_levy. *)
From Coq Require Import Reals Lra List.
From Coquelicot Require Import Coquelicot.
From Verif Require Import Values VTac Spec RLib LimLib DistLib DistLS IntLib SubLib MomLib PLib M_common SpecStat SpecEst
  SFun GammaLib GammaLib2 GammaLib3 M_sfun P_sfun.
From Verif Require Import M_levy.
Import ListNotations.
Local Open Scope R_scope.
Set Bullet Behavior "Strict Subproofs".

Definition phi (z : R) := / sqrt (2 * z).
Definition dphi (z : R) := - / (2 * z * sqrt (2 * z)).
Definition F (z : R) := 1 - erf (phi z).
Definition f (z : R) := hkernel (phi z) * - dphi z.
Definition Q (p : R) := / (2 * erfinv (1 - p) ^ 2).
Lemma SB : subst 0 p_infty 0 p_infty phi dphi (fun y => / (2 * y ^ 2)).
Proof.
  constructor.
  - exact I.
  - intros x [H _]. simpl in H. split; simpl; auto. unfold phi. apply Rinv_0_lt_compat, sqrt_lt_R0. lra.
  - intros x [H _]. simpl in H. unfold phi, dphi. assert (0 < sqrt (2 * x)) by (apply sqrt_lt_R0; lra).
    auto_derive; [repeat split; lra|]. rewrite sqrt_sqrt by lra. field. lra.
  - intros x [H _]. simpl in H. apply ex_derive_cont. unfold dphi. assert (0 < sqrt (2 * x)) by (apply sqrt_lt_R0; lra). auto_derive. 
    repeat split; try lra. apply Rgt_not_eq. nra.
  - intros y [H _]. simpl in H. assert (0 < y ^ 2) by (apply pow_lt; auto). split.
    + split; simpl; auto. apply Rinv_0_lt_compat. simpl in *. lra.
    + unfold phi. replace (2 * / (2 * y ^ 2)) with ((/ y) ^ 2) by (field; lra). rewrite sqrt_pow2 by (left; apply Rinv_0_lt_compat; auto). apply Rinv_inv.
Qed.
Lemma DEC x : inside 0 p_infty x -> dphi x < 0.
Proof. intros [H _]. simpl in H. unfold dphi. assert (0 < sqrt (2 * x)) by (apply sqrt_lt_R0; lra). assert (0 < / (2 * x * sqrt (2 * x))) by pos. lra. Qed.
Lemma ST : std 0 p_infty F f Q.
Proof. apply (sub_std_dec SB DEC erf hkernel erfinv erf_std). Qed.
Lemma f_eq z : 0 < z -> f z = exp (ln (1) / 2 - ln (2 * PI) / 2 + - 1 / (2 * z) - ln z * 3 / 2).
Proof.
  intros H. unfold f, hkernel, dphi, phi. pose proof PI_RGT_0. pose proof sqrtPI_pos. pose proof sqrt2_pos.
  assert (0 < sqrt z) by (apply sqrt_lt_R0; auto).
  rewrite sqrt_mult by lra.
  replace (ln 1 / 2 - ln (2 * PI) / 2 + -1 / (2 * z) - ln z * 3 / 2) with (- 1 / (2 * z) + - (ln (sqrt 2 * sqrt PI * z * sqrt z))).
  - rewrite exp_plus, (exp_Ropp (ln _)), exp_ln by pos.
    replace (- (/ (sqrt 2 * sqrt z)) ^ 2) with (- 1 / (2 * z)).
    + replace (2 / sqrt PI) with ((sqrt 2 * sqrt 2) / sqrt PI) by (rewrite sqrt_sqrt by lra; auto).
      replace (2 * z * (sqrt 2 * sqrt z)) with (sqrt 2 * sqrt 2 * z * (sqrt 2 * sqrt z)) by (rewrite sqrt_sqrt by lra; auto). field. lra.
    + rewrite <- (sqrt_sqrt 2) at 1 by lra. rewrite <- (sqrt_sqrt z) at 1 by lra. field. lra.
  - rewrite !ln_mult, !ln_sqrt, ln_1 by (auto; pos). field. lra.
Qed.
Ltac start := unfold pdf, logpdf, cdf, sf, invcdf, invsf, support, erfcinv, validate_loc_scale, validate_p, vpi.
Section P.
Variables l s : R.
Hypothesis S : 0 < s.
Lemma z_pos x : l < x -> 0 < (x - l) / s. Proof. intros. apply Rdiv_pos; lra. Qed.
Lemma z_pos' x : 0 < (x - l) / s -> l < x.
Proof. intros H. assert (0 < (x - l) / s * s) by nra. unfold Rdiv in H0. rewrite Rmult_assoc, Rinv_l in H0 by lra. lra. Qed.
Lemma pdf_fin (x : R) : l < x -> pdf x l s = Fin (f ((x - l) / s) / s) /\ logpdf x l s = Fin (ln (f ((x - l) / s) / s)).
Proof.
  intros H. pose proof (z_pos x H) as Z. pose proof PI_RGT_0. rewrite f_eq by auto.
  assert (E : exp (ln 1 / 2 - ln (2 * PI) / 2 + -1 / (2 * ((x - l) / s)) - ln ((x - l) / s) * 3 / 2) / s =
    exp (ln s / 2 - ln (2 * PI) / 2 + - s / (2 * (x - l)) - ln (x - l) * 3 / 2)).
  { unfold Rdiv at 1. rewrite <- (exp_ln (/ s)), <- exp_plus by pos. f_equal. rewrite ln_div, ln_1, ln_Rinv by lra. field. lra. }
  rewrite E, ln_exp. start. assert (0 < 2 * (x - l)) by lra. veval. auto.
Qed.
Lemma erf_arg (x : R) : l < x -> sqrt (s / (2 * (x - l))) = phi ((x - l) / s).
Proof.
  intros H. pose proof (z_pos x H). unfold phi. rewrite inv_sqrt_depr by lra. f_equal. field. lra.
Qed.
Lemma CERT : cert (fun x => pdf x l s) (fun x => logpdf x l s) (fun x => cdf x l s) (fun x => sf x l s)
  (fun p => invcdf p l s) (fun p => invsf p l s) l p_infty (fun x => F ((x - l) / s))
  (fun x => f ((x - l) / s) / s) (fun p => l + s * Q p).
Proof.
  apply (ls_cert 0 p_infty F f Q ST l s S); auto.
  - simpl. f_equal. ring.
  - constructor.
    + intros x [H _]. simpl in H. pose proof (z_pos x H). assert (0 < 2 * (x - l)) by lra.
      assert (0 < s / (2 * (x - l))) by pos. start. veval. rewrite erf_arg by auto. unfold verf, verfc, erfc, F.
      split; f_equal; ring.
    + intros x H. simpl in H. start. veval. auto.
    + intros x [].
    + start. veval. auto.
    + start. veval. unfold verf, verfc. assert (0 / 2 = 0) by lra. rewrite ?sqrt_0. unfold erfc. rewrite ?erf_0. split; f_equal; ring.
  - intros x [H _]. simpl in H. apply pdf_fin. apply z_pos'; auto.
  - intros x [H|[]]. simpl in H. start. veval. auto.
  - intros p H. unfold Q.
    assert (E : forall y, 0 < y < 1 -> 0 < 2 * erfinv y ^ 2).
    { intros y Hy. assert (0 < erfinv y) by (rewrite <- erfinv_0; apply erfinv_incr; lra). assert (0 < erfinv y ^ 2) by (apply pow_lt; auto). lra. }
    pose proof (E (1 - p) ltac:(lra)). pose proof (E p ltac:(lra)).
    start. veval. rewrite !verfinv_Fin by lra. veval. replace (1 - (1 - p)) with p by ring. split; auto.
Qed.
Lemma log_all (x : R) : log_of (fun x => pdf x l s) (fun x => logpdf x l s) x.
Proof.
  revert x. apply (cert_log_ends CERT); intros x E; [|discriminate]. injection E as E; subst x.
  right; left. start. veval. auto.
Qed.
Lemma ends_part : rejects_bad_p (fun p => invcdf p l s) /\ rejects_bad_p (fun p => invsf p l s) /\
  invcdf 0 l s = Fin l /\ invsf 1 l s = Fin l.
Proof.
  split; [|split; [|split]].
  - split; [intros p [H'|H']|split]; start; veval; reflexivity.
  - split; [intros p [H'|H']|split]; start; veval; reflexivity.
  - start. veval. rewrite verfinv_1 by ring. veval. f_equal. ring.
  - start. veval. rewrite verfinv_1 by ring. veval. f_equal. ring.
Qed.
Lemma ends_hi : invcdf 1 l s = Exc ZeroDivisionError /\ invsf 0 l s = Exc ZeroDivisionError.
Proof.
  start. veval. replace (1 - 1) with 0 by ring. rewrite verfinv_Fin, erfinv_0 by lra. veval.
  replace (2 * 0 ^ 2) with 0 by ring. rewrite vdiv_0. auto.
Qed.
(** The first positional argument of [support] is checked as a probability. *)
Lemma support_ok (p : R) : 0 <= p <= 1 -> support p (Some (Fin l)) (Some (Fin s)) = Ok (Fin l, PInf).
Proof. intros H. start. veval. auto. Qed.
(** So support(l, s), called like pdf(x, l, s) without x, is rejected or has the wrong lower end. *)
Lemma support_bad : (l < 0 \/ 1 < l -> support l (Some (Fin s)) None = Err ValueError) /\
  (0 <= l <= 1 -> support l (Some (Fin s)) None = Ok (Fin s, PInf)).
Proof. split; [intros [H|H]|intros H]; start; veval; auto. Qed.
Lemma cdf_laws : nondecreasing (fun x => cdf x l s) /\ supported_on (fun x => cdf x l s) (Fin l) PInf.
Proof. split; [exact (cert_nondecreasing CERT)|exact (cert_supported CERT)]. Qed.
End P.
Lemma loc_scale : loc_scale_law pdf cdf sf invcdf invsf 0 p_infty.
Proof.
  apply (loc_scale_from_cert pdf logpdf cdf sf invcdf invsf 0 p_infty F f Q). intros l s S. simpl. replace (l + s * 0) with l by ring. apply CERT; auto.
Qed.
Lemma bad_params l s : nonpositive s ->
  always_ValueError [ fun x => pdf x l s; fun x => logpdf x l s; fun x => cdf x l s; fun x => sf x l s;
    fun p => invcdf p l s; fun p => invsf p l s ].
Proof.
  intros H. unfold pdf, logpdf, cdf, sf, invcdf, invsf.
  all_ve; intros x Hx; rewrite ?vls_bad by auto; try reflexivity.
  all: unfold validate_p; destruct Hx as [? [? | |]|]; vcases; reflexivity.
Qed.
