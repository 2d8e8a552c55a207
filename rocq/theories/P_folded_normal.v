(** Proofs about M_folded_normal. *)
From Coq Require Import Reals Lra List Lia FunctionalExtensionality.
From Coquelicot Require Import Coquelicot.
From Verif Require Import Values VTac Spec RLib LimLib DistLib DistLS IntLib MomLib PLib M_common LLib
  SFun GammaLib GammaLib2 GammaLib3 M_sfun P_sfun TruncLib SpecInv M_fun.
From Verif Require M_normal P_normal P_truncnorm P_power_normal P_fun P_stats P_beta.
From Verif Require Import M_folded_normal.
Import ListNotations.
Local Open Scope R_scope.
Set Bullet Behavior "Strict Subproofs".

Lemma vok {A} `{CanRaise A} (s : R) (c : A) : 0 < s -> validate_sigma (Fin s) c = c.
Proof. intros S. unfold validate_sigma. change (cle (Fin s) (Fin 0)) with (CB (Rleb s 0)). rewrite Rleb_false by lra. reflexivity. Qed.
Lemma shift_inf (f : R -> R) c L : filterlim f (Rbar_locally p_infty) (locally L) -> filterlim (fun z => f (z + c)) (Rbar_locally p_infty) (locally L).
Proof. intros H P HP. destruct (H P HP) as [M HM]. exists (M - c). intros x X. apply HM. lra. Qed.
Lemma nk_opp z : nkernel (- z) = nkernel z.
Proof. unfold nkernel. replace ((- z) ^ 2) with (z ^ 2) by ring. auto. Qed.
Lemma nk_der z : is_derive nkernel z (- z * nkernel z).
Proof. apply nkernel_der. Qed.
Lemma ncdf_inf : filterlim ncdf (Rbar_locally p_infty) (locally 1). Proof. apply (if_hi _ _ _ _ _ ncdf_if). Qed.
Lemma nk_inf n : filterlim (fun x => x ^ n * nkernel x) (Rbar_locally p_infty) (locally 0).
Proof. apply (xk_hi n 0 p_infty). exact I. Qed.
Section Std.
Variable r : R.
Definition F z := ncdf (z + - r) + ncdf (z + r) - 1.
Definition f z := nkernel (z + - r) + nkernel (z + r).
Lemma sh_der (g : R -> R) c z d : is_derive g (z + c) d -> is_derive (fun z => g (z + c)) z d.
Proof.
  intros H. evar_last. apply (is_derive_comp g (fun z => z + c)); [apply H|]. auto_derive; auto. unfold scal; simpl; unfold mult; simpl. ring.
Qed.
Lemma F_der z : is_derive F z (f z).
Proof.
  unfold F, f. replace (nkernel (z + - r) + nkernel (z + r)) with (nkernel (z + - r) + nkernel (z + r) - 0) by ring.
  apply (is_derive_minus (fun z => ncdf (z + - r) + ncdf (z + r)) (fun _ => 1)); [|apply (is_derive_const 1)].
  apply (is_derive_plus (fun z => ncdf (z + - r)) (fun z => ncdf (z + r))); apply sh_der; apply ncdf_der.
Qed.
Lemma f_pos z : 0 < f z. Proof. unfold f. pose proof (nkernel_pos (z + - r)). pose proof (nkernel_pos (z + r)). lra. Qed.
Lemma f_exd z : ex_derive f z.
Proof. unfold f. apply (ex_derive_plus (fun z => nkernel (z + - r)) (fun z => nkernel (z + r))); eexists; apply sh_der; apply nk_der. Qed.
Lemma F_0 : F 0 = 0. Proof. unfold F. rewrite !Rplus_0_l, ncdf_opp. ring. Qed.
Lemma IFN : integral_fn 0 p_infty f F 1.
Proof.
  constructor.
  - exact I.
  - intros. apply ex_derive_cont, f_exd.
  - intros. apply f_pos.
  - intros. apply F_der.
  - replace (locally 0) with (locally (F 0)) by (rewrite F_0; auto). apply (flim_right F). apply ex_derive_cont. eexists. apply F_der.
  - replace 1 with (1 + 1 - 1) by ring. unfold F. change (near_hi p_infty) with (Rbar_locally p_infty).
    apply (flim_minus _ (fun z => ncdf (z + - r) + ncdf (z + r)) (fun _ => 1)); [|apply flim_const; typeclasses eauto].
    apply (flim_plus _ (fun z => ncdf (z + - r)) (fun z => ncdf (z + r))); apply shift_inf; apply ncdf_inf.
Qed.
Definition Q p := inverse_fn 0 p_infty F p.
Lemma ST : std 0 p_infty F f Q.
Proof.
  pose proof (std_of_if _ _ _ _ _ IFN) as H.
  assert (E1 : (fun x => F x / 1) = F) by (apply functional_extensionality; intros; field).
  assert (E2 : (fun x => f x / 1) = f) by (apply functional_extensionality; intros; field).
  assert (E3 : (fun p => inverse_fn 0 p_infty F (p * 1)) = Q) by (apply functional_extensionality; intros; unfold Q; rewrite Rmult_1_r; auto).
  rewrite E1, E2, E3 in H. exact H.
Qed.

Definition A1 z := r * ncdf (z + - r) - nkernel (z + - r) + (- r * ncdf (z + r) - nkernel (z + r)).
Lemma A_der c z : is_derive (fun z => c * ncdf (z + - c) - nkernel (z + - c)) z (z * nkernel (z + - c)).
Proof.
  replace (z * nkernel (z + - c)) with (c * nkernel (z + - c) - (- (z + - c) * nkernel (z + - c))) by ring.
  apply (is_derive_minus (fun z => c * ncdf (z + - c)) (fun z => nkernel (z + - c))).
  - apply (is_derive_scal (fun z => ncdf (z + - c))). apply sh_der, ncdf_der.
  - apply sh_der, nk_der.
Qed.
Lemma B_der c z : is_derive (fun z => (1 + c ^ 2) * ncdf (z + - c) - (z + c) * nkernel (z + - c)) z (z ^ 2 * nkernel (z + - c)).
Proof.
  replace (z ^ 2 * nkernel (z + - c)) with ((1 + c ^ 2) * nkernel (z + - c) - (1 * nkernel (z + - c) + (z + c) * (- (z + - c) * nkernel (z + - c)))) by ring.
  apply (is_derive_minus (fun z => (1 + c ^ 2) * ncdf (z + - c)) (fun z => (z + c) * nkernel (z + - c))).
  - apply (is_derive_scal (fun z => ncdf (z + - c))). apply sh_der, ncdf_der.
  - apply (is_derive_mult (fun z => z + c) (fun z => nkernel (z + - c))); [auto_derive; auto; ring|apply sh_der, nk_der|intros; apply Rmult_comm].
Qed.
Lemma nk_sh c : filterlim (fun z => nkernel (z + - c)) (Rbar_locally p_infty) (locally 0).
Proof. apply shift_inf. eapply filterlim_ext; [|apply (nk_inf 0)]. intros x. simpl. ring. Qed.
Lemma znk_sh c : filterlim (fun z => (z + c) * nkernel (z + - c)) (Rbar_locally p_infty) (locally 0).
Proof.
  apply (filterlim_ext (fun z => (z + - c) ^ 1 * nkernel (z + - c) + 2 * c * nkernel (z + - c))); [intros; ring|].
  replace 0 with (0 + 2 * c * 0) by ring. apply (flim_plus _ (fun z => (z + - c) ^ 1 * nkernel (z + - c)) (fun z => 2 * c * nkernel (z + - c))).
  - apply (shift_inf (fun z => z ^ 1 * nkernel z)). apply nk_inf.
  - apply (flim_scal _ (fun z => nkernel (z + - c))). apply nk_sh.
Qed.
Lemma A_int c : integrates_to (fun z => z * nkernel (z + - c)) 0 p_infty (c * (1 - ncdf (- c)) + nkernel c).
Proof.
  replace (c * (1 - ncdf (- c)) + nkernel c) with ((c * 1 - 0) - (c * ncdf (- c) - nkernel c)) by ring.
  apply (mk_integral _ (fun z => c * ncdf (z + - c) - nkernel (z + - c))).
  - exact I.
  - intros. apply A_der.
  - intros z _. apply (continuous_mult (fun z => z) (fun z => nkernel (z + - c))); [apply continuous_id|]. apply ex_derive_cont. eexists. apply sh_der, nk_der.
  - replace (c * ncdf (- c) - nkernel c) with (c * ncdf (0 + - c) - nkernel (0 + - c)) by (rewrite Rplus_0_l, nk_opp; ring).
    apply (flim_right (fun z => c * ncdf (z + - c) - nkernel (z + - c))). apply ex_derive_cont. eexists. apply A_der.
  - apply (flim_minus _ (fun z => c * ncdf (z + - c)) (fun z => nkernel (z + - c))); [|apply nk_sh].
    apply (flim_scal _ (fun z => ncdf (z + - c))). apply shift_inf, ncdf_inf.
Qed.
Lemma B_int c : integrates_to (fun z => z ^ 2 * nkernel (z + - c)) 0 p_infty ((1 + c ^ 2) * (1 - ncdf (- c)) + c * nkernel c).
Proof.
  replace ((1 + c ^ 2) * (1 - ncdf (- c)) + c * nkernel c) with (((1 + c ^ 2) * 1 - 0) - ((1 + c ^ 2) * ncdf (- c) - c * nkernel c)) by ring.
  apply (mk_integral _ (fun z => (1 + c ^ 2) * ncdf (z + - c) - (z + c) * nkernel (z + - c))).
  - exact I.
  - intros. apply B_der.
  - intros z _. apply (continuous_mult (fun z => z ^ 2) (fun z => nkernel (z + - c))); [apply ex_derive_cont; auto_derive; auto|]. apply ex_derive_cont. eexists. apply sh_der, nk_der.
  - replace ((1 + c ^ 2) * ncdf (- c) - c * nkernel c) with ((1 + c ^ 2) * ncdf (0 + - c) - (0 + c) * nkernel (0 + - c)) by (rewrite !Rplus_0_l, nk_opp; ring).
    apply (flim_right (fun z => (1 + c ^ 2) * ncdf (z + - c) - (z + c) * nkernel (z + - c))). apply ex_derive_cont. eexists. apply B_der.
  - apply (flim_minus _ (fun z => (1 + c ^ 2) * ncdf (z + - c)) (fun z => (z + c) * nkernel (z + - c))); [|apply znk_sh].
    apply (flim_scal _ (fun z => ncdf (z + - c))). apply shift_inf, ncdf_inf.
Qed.
Definition m (n : nat) := match n with O => 1 | 1%nat => 2 * nkernel r + r * (1 - 2 * ncdf (- r)) | _ => 1 + r ^ 2 end.
Lemma std_mom n : (n <= 2)%nat -> integrates_to (fun z => z ^ n * f z) 0 p_infty (m n).
Proof.
  intros N. assert (Rr : - - r = r) by ring. destruct n as [|[|[|n]]]; [| | |exfalso; lia].
  - apply (integrates_ext 0 p_infty I f); [intros; simpl; ring|]. apply (std_mass 0 p_infty I F f Q ST).
  - apply (integrates_ext 0 p_infty I (fun z => z * nkernel (z + - r) + z * nkernel (z + - - r))).
    + intros. rewrite Rr. unfold f. ring.
    + replace (m 1) with (r * (1 - ncdf (- r)) + nkernel r + (- r * (1 - ncdf (- - r)) + nkernel (- r))) by (simpl; rewrite Rr, nk_opp, ncdf_opp; ring).
      apply integrates_plus; apply A_int.
  - apply (integrates_ext 0 p_infty I (fun z => z ^ 2 * nkernel (z + - r) + z ^ 2 * nkernel (z + - - r))).
    + intros. rewrite Rr. unfold f. ring.
    + replace (m 2) with ((1 + r ^ 2) * (1 - ncdf (- r)) + r * nkernel r + ((1 + (- r) ^ 2) * (1 - ncdf (- - r)) + - r * nkernel (- r))) by (simpl; rewrite Rr, nk_opp, ncdf_opp; ring).
      apply integrates_plus; apply B_int.
Qed.
End Std.
(** tanh and the mode *)
Lemma tanh_der u : is_derive tanh u (1 - tanh u ^ 2).
Proof.
  unfold tanh, sinh, cosh. pose proof (exp_pos u). pose proof (exp_pos (- u)). auto_derive; [lra|]. field. lra.
Qed.
Lemma tanh_mono u v : u <= v -> tanh u <= tanh v.
Proof.
  intros H. rewrite !P_stats.tanh_exp. pose proof (exp_pos (2 * u)). pose proof (exp_le_compat (2 * u) (2 * v) ltac:(lra)).
  assert (/ (exp (2 * v) + 1) <= / (exp (2 * u) + 1)) by (apply Rinv_le_contravar; lra). unfold Rdiv. lra.
Qed.
Lemma tanh_0 : tanh 0 = 0. Proof. unfold tanh, sinh. rewrite Ropp_0. unfold Rdiv. ring. Qed.
Lemma tanh_lt1 u : tanh u < 1. Proof. rewrite P_stats.tanh_exp. pose proof (exp_pos (2 * u)). assert (0 < 2 / (exp (2 * u) + 1)) by (apply Rdiv_pos; lra). lra. Qed.
Lemma tanh_tan u v : 0 <= u -> 0 <= v -> tanh v <= tanh u + (1 - tanh u ^ 2) * (v - u).
Proof.
  intros U V. destruct (MVT_gen tanh u v (fun c => 1 - tanh c ^ 2)) as [c [C E]].
  - intros. apply tanh_der.
  - intros x _. apply continuity_pt_filterlim. apply (ex_derive_continuous tanh). eexists. apply tanh_der.
  - assert (TU : 0 <= tanh u) by (rewrite <- tanh_0; apply tanh_mono; auto).
    destruct (Rle_dec u v) as [L|L].
    + rewrite Rmin_left, Rmax_right in C by lra. pose proof (tanh_mono u c (proj1 C)). assert (tanh u ^ 2 <= tanh c ^ 2) by (simpl; nra). nra.
    + rewrite Rmin_right, Rmax_left in C by lra. pose proof (tanh_mono c u (proj2 C)). assert (0 <= tanh c) by (rewrite <- tanh_0; apply tanh_mono; lra). assert (tanh c ^ 2 <= tanh u ^ 2) by (simpl; nra). nra.
Qed.
Lemma tanh_le u : 0 <= u -> tanh u <= u.
Proof. intros U. pose proof (tanh_tan 0 u (Rle_refl 0) U). rewrite tanh_0 in H. lra. Qed.
Lemma tanh_ge u : 0 <= u -> u * (1 - tanh u ^ 2) <= tanh u.
Proof. intros U. pose proof (tanh_tan u 0 U (Rle_refl 0)). rewrite tanh_0 in H. lra. Qed.
Lemma tanh_ratio u v : 0 <= u <= v -> u * tanh v <= v * tanh u.
Proof.
  intros [U V]. pose proof (tanh_tan u v U ltac:(lra)). pose proof (tanh_ge u U).
  assert (u * tanh v <= u * (tanh u + (1 - tanh u ^ 2) * (v - u))) by (apply Rmult_le_compat_l; auto).
  assert (u * (1 - tanh u ^ 2) * (v - u) <= tanh u * (v - u)) by (apply Rmult_le_compat_r; lra). nra.
Qed.
Definition h (r z : R) := ln (cosh (r * z)) - z ^ 2 / 2.
Lemma cosh_pos u : 0 < cosh u. Proof. unfold cosh. pose proof (exp_pos u). pose proof (exp_pos (- u)). lra. Qed.
Lemma h_der r z : is_derive (h r) z (r * tanh (r * z) - z).
Proof. unfold h. pose proof (cosh_pos (r * z)) as P. unfold tanh, sinh, cosh in *. auto_derive; [lra|]. field. lra. Qed.
Lemma h_mvt r a b : exists c, Rmin a b <= c <= Rmax a b /\ h r b - h r a = (r * tanh (r * c) - c) * (b - a).
Proof.
  destruct (MVT_gen (h r) a b (fun c => r * tanh (r * c) - c)) as [c [C E]].
  - intros. apply h_der.
  - intros x _. apply continuity_pt_filterlim. apply (ex_derive_continuous (h r)). eexists. apply h_der.
  - exists c. auto.
Qed.
Lemma h_small r z : 0 <= r <= 1 -> 0 <= z -> h r z <= h r 0.
Proof.
  intros R Z. destruct (h_mvt r 0 z) as [c [C E]]. rewrite Rmin_left, Rmax_right in C by lra.
  pose proof (tanh_le (r * c) ltac:(apply Rmult_le_pos; lra)). assert (r * tanh (r * c) <= r * (r * c)) by (apply Rmult_le_compat_l; lra). assert (r * r <= 1) by nra. assert (r * (r * c) <= c) by (rewrite <- Rmult_assoc; apply Rle_trans with (1 * c); [apply Rmult_le_compat_r|]; lra). assert (r * tanh (r * c) - c <= 0) by lra. nra.
Qed.
Lemma h_large r t z : 0 < r -> 0 < t -> t = r * tanh (r * t) -> 0 <= z -> h r z <= h r t.
Proof.
  intros R T E Z. destruct (h_mvt r z t) as [c [C D]]. destruct (Rle_dec z t) as [L|L].
  - rewrite Rmin_left, Rmax_right in C by lra.
    assert (0 <= r * tanh (r * c) - c); [|nra].
    assert (K : r * c * tanh (r * t) <= r * t * tanh (r * c)) by (apply tanh_ratio; split; [apply Rmult_le_pos|apply Rmult_le_compat_l]; lra).
    assert (c * t <= t * (r * tanh (r * c))) by (rewrite E at 1; nra). nra.
  - rewrite Rmin_right, Rmax_left in C by lra.
    assert (r * tanh (r * c) - c <= 0); [|nra].
    assert (K : r * t * tanh (r * c) <= r * c * tanh (r * t)) by (apply tanh_ratio; split; [apply Rmult_le_pos|apply Rmult_le_compat_l]; lra).
    assert (t * (r * tanh (r * c)) <= c * t) by (rewrite E at 2; nra). nra.
Qed.
Lemma cosh_abs r z : cosh (Rabs r * z) = cosh (r * z).
Proof. unfold Rabs. destruct (Rcase_abs r); auto. unfold cosh. replace (- (- r * z)) with (r * z) by ring. replace (- r * z) with (- (r * z)) by ring. rewrite Rplus_comm. auto. Qed.
Lemma f_h r z : f r z = 2 * nkernel r * exp (h (Rabs r) z).
Proof.
  unfold h. rewrite cosh_abs. unfold Rminus. rewrite exp_plus, exp_ln by apply cosh_pos. unfold f, nkernel, cosh. pose proof sqrt2PI_pos.
  replace (- (z + - r) ^ 2 / 2) with (- r ^ 2 / 2 + (r * z + - (z ^ 2 / 2))) by field. replace (- (z + r) ^ 2 / 2) with (- r ^ 2 / 2 + (- (r * z) + - (z ^ 2 / 2))) by field.
  rewrite !exp_plus. field. lra.
Qed.
Lemma f_le r a b : h (Rabs r) a <= h (Rabs r) b -> f r a <= f r b.
Proof. intros H. rewrite !f_h. apply Rmult_le_compat_l; [pose proof (nkernel_pos r); lra|]. apply exp_le_compat; auto. Qed.

Section P.
Variables u s : R.
Hypothesis HS : 0 < s.
Let r := u / s.
Lemma arg1 x : (x - u) / s = (x - 0) / s + - r. Proof. unfold r. field. lra. Qed.
Lemma arg2 x : nkernel ((- x - u) / s) = nkernel ((x - 0) / s + r). Proof. rewrite <- nk_opp. f_equal. unfold r. field. lra. Qed.
Lemma arg3 x : ncdf ((- x - u) / s) = 1 - ncdf ((x - 0) / s + r). Proof. rewrite <- ncdf_opp. f_equal. unfold r. field. lra. Qed.
Lemma arg4 x : ncdf ((- x - - u) / s) = 1 - ncdf ((x - 0) / s + - r). Proof. rewrite <- ncdf_opp. f_equal. unfold r. field. lra. Qed.
Lemma nlp (x : R) : M_normal.logpdf x u s = Fin (ln (nkernel ((x - u) / s) / s)). Proof. apply P_normal.pdf_fin; auto. Qed.
Lemma pdf_fin (x : R) : 0 <= x -> pdf x u s = Fin (f r ((x - 0) / s) / s) /\ logpdf x u s = Fin (ln (f r ((x - 0) / s) / s)).
Proof.
  intros X. unfold pdf, logpdf. rewrite !vok by auto. vif. cbn [vneg]. rewrite !vnpdf_Fin, !nlp by auto. cbn [bindv].
  change [Fin (ln (nkernel ((x - u) / s) / s)); Fin (ln (nkernel ((- x - u) / s) / s))] with (map Fin [ln (nkernel ((x - u) / s) / s); ln (nkernel ((- x - u) / s) / s)]).
  rewrite P_fun.logsumexp_plain by discriminate. cbn [vadd map]. rewrite !rsum_cons, rsum_nil, Rplus_0_r.
  rewrite !exp_ln by (apply Rdiv_pos; auto; apply nkernel_pos). rewrite arg1, arg2. unfold f. split; [f_equal; field; lra|]. f_equal. f_equal. field. lra.
Qed.
Lemma pdf_neg (x : R) : x < 0 -> pdf x u s = Fin 0 /\ logpdf x u s = NInf.
Proof. intros X. unfold pdf, logpdf. rewrite !vok by auto. vif. auto. Qed.
Lemma cdf_fin (x : R) : 0 <= x -> cdf x u s = Fin (F r ((x - 0) / s)) /\ sf x u s = Fin (1 - F r ((x - 0) / s)).
Proof.
  intros X. unfold cdf, sf. rewrite !vok by auto. vif. cbn [vneg]. rewrite !vncdf_Fin by auto. cbn [vadd vsub vneg]. rewrite arg1, arg3, arg4. unfold F. split; f_equal; ring.
Qed.
Lemma lo_eq : 0 = 0 + s * 0. Proof. ring. Qed.
Lemma CERT : cert (fun x => pdf x u s) (fun x => logpdf x u s) (fun x => cdf x u s) (fun x => sf x u s)
  (fun p => match p with Fin p => Fin (0 + s * Q r p) | v => v end) (fun p => match p with Fin p => Fin (0 + s * Q r (1 - p)) | v => v end) 0 p_infty (fun x => F r ((x - 0) / s))
  (fun x => f r ((x - 0) / s) / s) (fun p => 0 + s * Q r p).
Proof.
  assert (Z0 : (0 - 0) / s = 0) by (field; lra).
  apply (ls_cert 0 p_infty (F r) (f r) (Q r) (ST r) 0 s HS); auto.
  - cbn [ls]. rewrite <- lo_eq. auto.
  - constructor.
    + intros x [H _]. simpl in H. apply cdf_fin. lra.
    + intros x H. simpl in H. destruct H as [H| ->].
      * unfold cdf, sf. rewrite !vok by auto. vif. auto.
      * destruct (cdf_fin 0 ltac:(lra)) as [-> ->]. rewrite Z0, F_0. split; f_equal; ring.
    + intros x [].
    + unfold cdf, sf. rewrite !vok by auto. vif. auto.
    + unfold cdf, sf. rewrite !vok by auto. vif. cbn [vneg]. rewrite vncdf_PInf, !vncdf_NInf by auto. cbn [vsub vneg vadd]. split; f_equal; ring.
  - intros x [H _]. simpl in H. apply pdf_fin. left. replace x with ((x - 0) / s * s) by (field; lra). apply Rmult_lt_0_compat; auto.
  - intros x [H|[]]. simpl in H. apply pdf_neg. auto.
Qed.
Lemma log_all (x : R) : log_of (fun x => pdf x u s) (fun x => logpdf x u s) x.
Proof.
  revert x. apply (cert_log_ends (CERT)); intros x E; [|discriminate]. injection E as E; subst x.
  left. destruct (pdf_fin 0 ltac:(lra)) as [-> ->]. eexists. split; [|split; [reflexivity|reflexivity]]. apply Rdiv_pos; auto. apply f_pos.
Qed.
Lemma M_int n : (n <= 2)%nat -> integrates_to (fun x => x ^ n * (f r ((x - 0) / s) / s)) 0 p_infty (s ^ n * m r n).
Proof.
  intros N. pose proof (ls_integral 0 s HS 0 p_infty (fun z => s ^ n * (z ^ n * f r z)) (s ^ n * m r n)) as L. cbn [ls] in L. rewrite <- lo_eq in L.
  apply (integrates_ext 0 p_infty Logic.I (fun x => s ^ n * (((x - 0) / s) ^ n * f r ((x - 0) / s)) / s)).
  - intros x _. replace (x ^ n) with (s ^ n * ((x - 0) / s) ^ n) by (rewrite <- Rpow_mult_distr; f_equal; field; lra). unfold Rdiv. ring.
  - apply L. apply integrates_scal. apply std_mom. auto.
Qed.
Definition M (n : nat) := s ^ n * m r n.
Lemma PF x : inside 0 p_infty x -> pdf (Fin x) u s = Fin (f r ((x - 0) / s) / s). Proof. intros [X _]. simpl in X. apply pdf_fin. lra. Qed.
Lemma M0 : M 0 = 1. Proof. unfold M, m. simpl. ring. Qed.
Lemma mean_eval : mean u s = Fin (M 1).
Proof.
  pose proof PI_RGT_0. unfold mean. rewrite vok by auto. cbv zeta. rewrite vdiv_Fin by lra. fold r. change vpi with (Fin PI). rewrite vpown_Fin. cbn [vneg]. rewrite !vdiv_Fin by lra.
  rewrite vncdf_Fin by lra. assert (0 < 2 / PI) by (apply Rdiv_pos; lra). veval. f_equal. unfold M, m. replace ((- r - 0) / 1) with (- r) by field.
  replace (nkernel r) with (sqrt (2 / PI) / 2 * exp (- r ^ 2 / 2)).
  - replace u with (s * r) at 1 by (unfold r; field; lra). field.
  - unfold nkernel. rewrite (sqrt_mult 2 PI), (sqrt_div 2 PI) by lra. pose proof (sqrt_lt_R0 2 ltac:(lra)). pose proof (sqrt_lt_R0 PI ltac:(lra)). replace (/ 2) with (/ (sqrt 2 * sqrt 2)) by (rewrite sqrt_sqrt; lra). unfold Rdiv at 1 2. replace (/ 2) with (/ (sqrt 2 * sqrt 2)) by (rewrite sqrt_sqrt; lra). field. lra.
Qed.
Lemma mean_ok : mean_is (fun x => pdf x u s) 0 p_infty (mean u s).
Proof. apply (raw_mean_is 0 p_infty _ _ M 2 Logic.I PF); auto with arith; [intros; apply M_int; auto|apply mean_eval]. Qed.
Lemma var_ok : var_is (fun x => pdf x u s) 0 p_infty (mean u s) (var u s).
Proof.
  apply (raw_var_is 0 p_infty _ _ M 2 Logic.I PF); auto with arith; [intros; apply M_int; auto|apply M0|apply mean_eval|].
  unfold var. rewrite vok, mean_eval by auto. rewrite !vpown_Fin. cbn [vadd vsub vneg]. f_equal. unfold mvar, M. cbn [m]. unfold r. field. lra.
Qed.
Lemma top t : 0 <= t -> (forall z, 0 <= z -> h (Rabs r) z <= h (Rabs r) t) -> is_mode (fun x => pdf x u s) (Fin (s * t)).
Proof.
  intros T H. exists (s * t), (f r t / s). split; auto. split.
  - rewrite (proj1 (pdf_fin (s * t) ltac:(apply Rmult_le_pos; lra))). do 3 f_equal. field. lra.
  - intros x. assert (IS : 0 < / s) by (apply Rinv_0_lt_compat; auto). destruct (Rlt_dec x 0) as [X|X].
    + exists 0. split; [apply pdf_neg; auto|]. left. apply Rdiv_pos; auto. apply f_pos.
    + eexists. split; [apply pdf_fin; lra|]. apply Rmult_le_compat_r; [lra|]. apply f_le. apply H. unfold Rdiv. rewrite Rminus_0_r. apply Rmult_le_pos; lra.
Qed.
Lemma r_abs : Rabs r = Rabs u / s. Proof. unfold r, Rdiv. rewrite Rabs_mult, (Rabs_right (/ s)); auto. left. apply Rinv_0_lt_compat; auto. Qed.
Lemma mode_small fr fuel : Rabs u <= s -> is_mode (fun x => pdf x u s) (mode fr fuel u s).
Proof.
  intros U. unfold mode. rewrite vok by auto. cbn [vabs]. change (cle (Fin (Rabs u)) (Fin s)) with (CB (Rleb (Rabs u) s)). rewrite Rleb_true by auto. cbn [cif]. replace 0 with (s * 0) by ring. apply top; [lra|].
  intros z Z. apply h_small; auto. split; [apply Rabs_pos|]. rewrite r_abs. apply (Rmult_le_reg_r s); auto. replace (Rabs u / s * s) with (Rabs u) by (field; lra). lra.
Qed.
Lemma mode_large fr fuel x : s < Rabs u -> checked_solver1 fr -> mode fr fuel u s = Fin x -> 0 < x -> is_mode (fun x => pdf x u s) (Fin x).
Proof.
  intros U CS. unfold mode. rewrite vok by auto. cbn [vabs]. change (cle (Fin (Rabs u)) (Fin s)) with (CB (Rleb (Rabs u) s)). rewrite Rleb_false by auto. cbn [cif]. cbv zeta. rewrite vdiv_Fin by lra. rewrite <- r_abs.
  assert (R0 : 0 < Rabs r) by (rewrite r_abs; apply Rdiv_pos; lra).
  match goal with |- bindv ?a _ = _ -> _ => destruct a end; cbn [bindv]; try discriminate;
   match goal with |- vmul _ (fr ?g ?a) = _ -> _ => destruct (fr g a) as [t| | | |] eqn:E end; try (cbn [vmul]; discriminate);
   try (clear E; veval; discriminate);
   apply CS in E; cbn [vsub vmul vneg vadd vtanh] in E; injection E as E; cbn [vmul]; intros X; injection X as <-; intros P;
   (assert (T : 0 < t) by nra); (apply top; [lra|]); intros z Z; apply h_large; auto; lra.
Qed.
Lemma reflect (x : R) : pdf x (Fin (- u)) s = pdf x u s /\ cdf x (Fin (- u)) s = cdf x u s.
Proof.
  unfold pdf, cdf. rewrite !vok by auto. destruct (Rltb_spec x 0) as [[X E]|[X E]]; change (clt (Fin x) (Fin 0)) with (CB (Rltb x 0)); rewrite E; cbn [cif]; auto.
  cbn [vneg]. rewrite !vnpdf_Fin, !vncdf_Fin by auto. cbn [vadd vsub vneg]. split; f_equal.
  - replace ((x - - u) / s) with (- ((- x - u) / s)) by (field; lra). replace ((- x - - u) / s) with (- ((x - u) / s)) by (field; lra). rewrite !nk_opp. ring.
  - replace ((x - - u) / s) with (- ((- x - u) / s)) by (field; lra). replace ((- x - - u) / s) with (- ((x - u) / s)) by (field; lra). rewrite !ncdf_opp. ring.
Qed.
Lemma folded (x : R) : 0 <= x -> exists a b, M_normal.cdf x u s = Fin a /\ M_normal.cdf (Fin (- x)) u s = Fin b /\ cdf x u s = Fin (a - b).
Proof.
  intros X. unfold M_normal.cdf, cdf, validate_loc_scale. rewrite vok by auto. vif. cbn [vneg]. rewrite !vncdf_Fin by auto. eauto.
Qed.
Lemma scale_ok (c x : R) : 0 < c -> cdf (Fin (c * x)) (Fin (c * u)) (Fin (c * s)) = cdf x u s /\ sf (Fin (c * x)) (Fin (c * u)) (Fin (c * s)) = sf x u s /\
  exists d, pdf x u s = Fin d /\ pdf (Fin (c * x)) (Fin (c * u)) (Fin (c * s)) = Fin (d / c).
Proof.
  intros HC. assert (CS : 0 < c * s) by (apply Rmult_lt_0_compat; auto). unfold cdf, sf, pdf. rewrite !vok by auto.
  change (clt (Fin (c * x)) (Fin 0)) with (CB (Rltb (c * x) 0)). change (clt (Fin x) (Fin 0)) with (CB (Rltb x 0)).
  assert (E : Rltb (c * x) 0 = Rltb x 0). { destruct (Rltb_spec x 0) as [[X ->]|[X ->]]; [apply Rltb_true|apply Rltb_false]; nra. }
  rewrite E. destruct (Rltb x 0); cbn [cif].
  - split; auto. split; auto. exists 0. split; auto. f_equal. field. lra.
  - cbn [vneg]. rewrite !vncdf_Fin, !vnpdf_Fin by auto. replace ((c * x - c * u) / (c * s)) with ((x - u) / s) by (field; lra). replace ((- (c * x) - c * u) / (c * s)) with ((- x - u) / s) by (field; lra).
    replace ((- (c * x) - - (c * u)) / (c * s)) with ((- x - - u) / s) by (field; lra). split; auto. split; auto. cbn [vadd]. eexists. split; [reflexivity|]. f_equal. field. lra.
Qed.
Lemma log_inf : pdf PInf u s = Fin 0 /\ logpdf PInf u s = NaN.
Proof.
  assert (0 < s ^ 2) by (apply pow_lt; auto). pose proof PI_RGT_0. assert (0 < s * sqrt (2 * PI)) by (apply Rmult_lt_0_compat; auto; apply sqrt_lt_R0; lra).
  unfold pdf, logpdf. rewrite !vok by auto. vif. split.
  - unfold vnpdf. change vpi with (Fin PI). veval. f_equal. field. pose proof sqrt2PI_pos; split; lra.
  - unfold M_normal.logpdf, validate_loc_scale. change vpi with (Fin PI). veval. reflexivity.
Qed.
End P.
(** The starting point of the search exists: the loop ends. *)
Definition good r x := x < r * tanh (r * x).
Lemma start_ok r n : forall x, 0 < r -> 0 < x -> good r (x / 2 ^ n) -> forall fuel, (n < fuel)%nat -> exists y, mode_getstart fuel (Fin x) (Fin r) = Fin y /\ 0 < y /\ good r y.
Proof.
  induction n as [|n IH]; intros x R X G fuel L; (destruct fuel as [|fuel]; [lia|]); cbn [mode_getstart]; unfold mode_eq; cbn [vmul vtanh vsub vneg vadd];
   change (cge (Fin (x + - (r * tanh (r * x)))) (Fin 0)) with (CB (Rleb 0 (x + - (r * tanh (r * x))))); destruct (Rleb_spec 0 (x + - (r * tanh (r * x)))) as [[A ->]|[A ->]]; cbn [cif].
  - exfalso. unfold good in G. simpl in G. replace (x / 1) with x in G by field. lra.
  - exists x. unfold good. split; auto. split; auto. lra.
  - rewrite vdiv_Fin by lra. apply IH; auto; [lra| |lia]. replace (x / 2 / 2 ^ n) with (x / 2 ^ Datatypes.S n); auto. simpl. field. apply pow_nonzero. lra.
  - exists x. unfold good. split; auto. split; auto. lra.
Qed.
Lemma good_small r x : 1 < r -> 0 < x -> r * x * (r * x) < 1 - / (r * r) -> good r x.
Proof.
  intros R X H. unfold good. pose proof (tanh_ge (r * x) ltac:(nra)) as T. pose proof (tanh_le (r * x) ltac:(nra)) as U. assert (0 <= tanh (r * x)) by (rewrite <- tanh_0; apply tanh_mono; nra).
  assert (T2 : tanh (r * x) ^ 2 <= r * x * (r * x)) by (simpl; nra). assert (RR : 0 < r * r) by nra. assert (I : r * r * / (r * r) = 1) by (field; lra).
  assert (0 < / (r * r)) by (apply Rinv_0_lt_compat; auto).
  assert (r * x * / (r * r) < r * x * (1 - tanh (r * x) ^ 2)) by (apply Rmult_lt_compat_l; nra).
  assert (K4 : r * (r * x * / (r * r)) < r * tanh (r * x)) by (apply Rmult_lt_compat_l; lra). replace (r * (r * x * / (r * r))) with x in K4 by (field; lra). auto.
Qed.
Lemma start_total r : 1 < r -> exists N, forall fuel, (N <= fuel)%nat -> exists y, mode_getstart fuel (Fin r) (Fin r) = Fin y /\ 0 < y /\ y < r * tanh (r * y).
Proof.
  intros R. assert (P : 0 < 1 - / (r * r)). { assert (/ (r * r) < / 1) by (apply Rinv_lt_contravar; nra). lra. }
  assert (RR : 0 < r * r) by nra. set (e := Rmin 1 ((1 - / (r * r)) / (r * r * (r * r)))). assert (E : 0 < e) by (apply Rmin_pos; [lra|apply Rdiv_pos; nra]).
  assert (E1 : e <= 1) by apply Rmin_l. assert (E2 : e * (r * r * (r * r)) <= 1 - / (r * r)).
  { apply Rle_trans with ((1 - / (r * r)) / (r * r * (r * r)) * (r * r * (r * r))); [apply Rmult_le_compat_r; [nra|apply Rmin_r]|]. right. field. lra. }
  destruct (pow_lt_1_zero (/ 2) ltac:(rewrite Rabs_right; lra) e E) as [n Hn]. specialize (Hn n (le_n n)).
  assert (W0 : 0 < (/ 2) ^ n) by (apply pow_lt; lra). rewrite Rabs_right in Hn by lra.
  exists (Datatypes.S n). intros fuel L. apply (start_ok r n r); [lra|lra| |lia]. replace (r / 2 ^ n) with (r * (/ 2) ^ n) by (rewrite pow_inv; unfold Rdiv; auto).
  set (w := (/ 2) ^ n) in *. apply good_small; [lra|apply Rmult_lt_0_compat; lra|]. apply Rlt_le_trans with (e * (r * r * (r * r))); auto.
  replace (r * (r * w) * (r * (r * w))) with (w * w * (r * r * (r * r))) by ring. apply Rmult_lt_compat_r; [nra|]. nra.
Qed.
Lemma mode_case : exists u fr x, checked_solver1 fr /\ 1 < Rabs u /\ 0 < x /\ mode fr 0 (Fin u) (Fin 1) = Fin x.
Proof.
  assert (T : 0 < tanh 2) by (rewrite P_stats.tanh_exp; pose proof (exp_ineq1 (2 * 2) ltac:(lra)); assert (2 / (exp (2 * 2) + 1) < 1) by (apply div_lt_1; lra); lra).
  pose proof (tanh_lt1 2) as T1. assert (A : 2 < 2 / tanh 2) by (apply (Rmult_lt_reg_r (tanh 2)); auto; replace (2 / tanh 2 * tanh 2) with 2 by (field; lra); lra).
  set (r := sqrt (2 / tanh 2)). assert (R2 : r * r = 2 / tanh 2) by (apply sqrt_sqrt; lra). assert (R : 5 / 4 < r) by (unfold r; apply Rsqr_incrst_0; [|lra|apply sqrt_pos]; rewrite Rsqr_sqrt by lra; unfold Rsqr; lra).
  exists r, (P_beta.try1 (2 / r)), (2 / r). split; [apply P_beta.try1_ok|]. rewrite Rabs_right by lra. split; [lra|]. assert (0 < 2 / r) by (apply Rdiv_pos; lra). split; auto.
  unfold mode. rewrite vok by lra. cbn [vabs]. rewrite Rabs_right by lra. change (cle (Fin r) (Fin 1)) with (CB (Rleb r 1)). rewrite Rleb_false by lra. cbn [cif]. cbv zeta. rewrite vdiv_Fin by lra.
  replace (r / 1) with r by field. change (clt (Fin r) (Fin (5 / 4))) with (CB (Rltb r (5 / 4))). rewrite Rltb_false by lra. cbn [cif bindv]. unfold P_beta.try1. cbn [vmul vtanh vsub vneg vadd].
  replace (r * (2 / r)) with 2 by (field; lra). rewrite Reqb_true; [cbn [vmul]; f_equal; ring|]. assert (2 / r = r * tanh 2); [|lra]. apply (Rmult_eq_reg_l r); [|lra]. replace (r * (2 / r)) with 2 by (field; lra). rewrite <- Rmult_assoc, R2. field. lra.
Qed.
Lemma bad_params u s fr fuel : isnum u -> isnum s -> nonpositive s ->
  always_ValueError [fun x => pdf x u s; fun x => logpdf x u s; fun x => cdf x u s; fun x => sf x u s; fun _ => mean u s; fun _ => mode fr fuel u s; fun _ => var u s] /\ support u s = Err ValueError.
Proof.
  intros NU NS B. assert (V : forall A (CR : CanRaise A) (c : A), validate_sigma s c = raise ValueError) by (intros; apply (vp_bad s c); auto).
  split; [|apply V]. unfold pdf, logpdf, cdf, sf, mean, mode, var. all_ve; intros x _; apply V.
Qed.
