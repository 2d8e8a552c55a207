(** The standard gamma law, shared by the distributions built on it. *)
From Coq Require Import Reals Lra Lia List.
From Coquelicot Require Import Coquelicot.
From Verif Require Import Values VTac Spec RLib LimLib DistLib DistLS IntLib SubLib MomLib SFun GammaLib GammaLib2 GammaLib3 M_sfun P_sfun.
Local Open Scope R_scope.
Set Bullet Behavior "Strict Subproofs".

Section G.
Variable a : R.
Hypothesis HA : 0 < a.
Definition gF (z : R) := lower_gamma a z / Gamma a.
Definition gf (z : R) := gamma_kernel a z / Gamma a.
Definition gQ (p : R) := inverse_fn 0 p_infty (lower_gamma a) (p * Gamma a).
Lemma gST : std 0 p_infty gF gf gQ.
Proof. apply (std_of_if _ _ _ _ _ (Gamma_if a HA)). Qed.
Lemma gf_ln z : 0 < z -> gf z = exp ((a - 1) * ln z - z - loggamma a).
Proof.
  intros H. pose proof (Gamma_pos a HA). unfold gf, gamma_kernel, Rpower, loggamma. rewrite exp_minus, exp_ln by auto. f_equal. unfold Rminus. rewrite exp_plus. reflexivity.
Qed.
Lemma gf_pos z : 0 < gf z. Proof. apply Rdiv_pos; [apply gk_pos|apply Gamma_pos; auto]. Qed.
Lemma vgl (z : R) : 0 < z -> vgammainc_lower (Fin a) (Fin z) = Fin (gF z).
Proof. intros H. unfold vgammainc_lower. rewrite (Rltb_true 0 a), (Reqb_false z 0), (Rltb_true 0 z) by lra. reflexivity. Qed.
Lemma vgu (z : R) : 0 < z -> vgammainc_upper (Fin a) (Fin z) = Fin (1 - gF z).
Proof.
  intros H. pose proof (Gamma_pos a HA). unfold vgammainc_upper. rewrite (Rltb_true 0 a), (Reqb_false z 0), (Rltb_true 0 z) by lra.
  f_equal. rewrite upper_gamma_eq by auto. unfold gF. field. lra.
Qed.
Lemma vgl0 : vgammainc_lower (Fin a) (Fin 0) = Fin 0.
Proof. unfold vgammainc_lower. rewrite (Rltb_true 0 a), (Reqb_true 0 0) by lra. reflexivity. Qed.
Lemma vgu0 : vgammainc_upper (Fin a) (Fin 0) = Fin 1.
Proof. unfold vgammainc_upper. rewrite (Rltb_true 0 a), (Reqb_true 0 0) by lra. reflexivity. Qed.
Lemma vgli : vgammainc_lower (Fin a) PInf = Fin 1.
Proof. unfold vgammainc_lower. rewrite (Rltb_true 0 a) by lra. reflexivity. Qed.
Lemma vgui : vgammainc_upper (Fin a) PInf = Fin 0.
Proof. unfold vgammainc_upper. rewrite (Rltb_true 0 a) by lra. reflexivity. Qed.
Lemma vlgam : vloggamma (Fin a) = Fin (loggamma a).
Proof. unfold vloggamma. rewrite Rltb_true by auto. reflexivity. Qed.
Lemma vgam : vgamma (Fin a) = Fin (Gamma a).
Proof. unfold vgamma. rewrite Rltb_true by auto. reflexivity. Qed.
Lemma vdig : vdigamma (Fin a) = Fin (digamma a).
Proof. unfold vdigamma. rewrite Rltb_true by auto. reflexivity. Qed.
Lemma vtrig : vtrigamma (Fin a) = Fin (trigamma a).
Proof. unfold vtrigamma. rewrite Rltb_true by auto. reflexivity. Qed.
(** E Z^r = Gamma(a + r) / Gamma(a). *)
Definition gM (r : R) := Gamma (a + r) / Gamma a.
Lemma g_moment r : 0 < a + r -> integrates_to (fun z => Rpower z r * gf z) 0 p_infty (gM r).
Proof.
  intros H. pose proof (Gamma_pos a HA) as G.
  apply (integrates_ext 0 p_infty I (fun z => / Gamma a * gamma_kernel (a + r) z)).
  - intros z [Z _]. simpl in Z. rewrite gk_shift. unfold gf. field. lra.
  - unfold gM, Rdiv. rewrite Rmult_comm. apply integrates_scal. apply Gamma_int; auto.
Qed.
Lemma g_momentn n : integrates_to (fun z => z ^ n * gf z) 0 p_infty (gM (INR n)).
Proof.
  pose proof (pos_INR n). apply (integrates_ext 0 p_infty I (fun z => Rpower z (INR n) * gf z)).
  - intros z [Z _]. simpl in Z. rewrite Rpower_pow by auto. auto.
  - apply g_moment. lra.
Qed.
Lemma gM_0 : gM 0 = 1.
Proof. unfold gM. rewrite Rplus_0_r. pose proof (Gamma_pos a HA). field. lra. Qed.
Lemma gM_succ r : 0 < a + r -> gM (r + 1) = (a + r) * gM r.
Proof. intros H. unfold gM. replace (a + (r + 1)) with (a + r + 1) by ring. rewrite Gamma_succ by auto. pose proof (Gamma_pos a HA). field. lra. Qed.
Lemma gM1 : gM 1 = a.
Proof. replace 1 with (0 + 1) by ring. rewrite gM_succ, gM_0 by lra. ring. Qed.
Lemma gM2 : gM 2 = a * (a + 1).
Proof. replace 2 with (1 + 1) by ring. rewrite gM_succ, gM1 by lra. ring. Qed.
Lemma gM3 : gM 3 = a * (a + 1) * (a + 2).
Proof. replace 3 with (2 + 1) by ring. rewrite gM_succ, gM2 by lra. ring. Qed.
Lemma gM4 : gM 4 = a * (a + 1) * (a + 2) * (a + 3).
Proof. replace 4 with (3 + 1) by ring. rewrite gM_succ, gM3 by lra. ring. Qed.
Lemma gM_pos r : 0 < a + r -> 0 < gM r.
Proof. intros. apply Rdiv_pos; apply Gamma_pos; auto. Qed.
(** E ln Z = digamma(a), E Z = a. *)
Lemma g_ln : integrates_to (fun z => ln z * gf z) 0 p_infty (digamma a).
Proof.
  pose proof (Gamma_pos a HA) as G. apply (integrates_ext 0 p_infty I (fun z => / Gamma a * lgk 1 a z)).
  - intros z _. unfold lgk, gf. field. lra.
  - rewrite digamma_eq by auto. unfold Rdiv. rewrite Rmult_comm. apply integrates_scal. apply Lg_int; auto.
Qed.
Lemma g_id : integrates_to (fun z => z * gf z) 0 p_infty a.
Proof. pose proof (g_momentn 1) as H. simpl INR in H. rewrite gM1 in H. eapply (integrates_ext 0 p_infty I); [|exact H]. intros z _. simpl. ring. Qed.
Lemma g_mass : integrates_to gf 0 p_infty 1.
Proof. apply (std_mass 0 p_infty I _ _ _ gST). Qed.
Lemma g_entropy : integrates_to (fun z => - (gf z * ln (gf z))) 0 p_infty (a + loggamma a + (1 - a) * digamma a).
Proof.
  replace (a + loggamma a + (1 - a) * digamma a) with (loggamma a * 1 + ((1 - a) * digamma a + 1 * a)) by ring.
  apply (integrates_ext 0 p_infty I (fun z => loggamma a * gf z + ((1 - a) * (ln z * gf z) + 1 * (z * gf z)))).
  - intros z [Z _]. simpl in Z. replace (ln (gf z)) with ((a - 1) * ln z - z - loggamma a) by (rewrite (gf_ln z Z), ln_exp; auto). ring.
  - apply integrates_plus; [apply integrates_scal, g_mass|apply integrates_plus; apply integrates_scal; [apply g_ln|apply g_id]].
Qed.
(** The density rises up to a - 1 and falls after. *)
Lemma gf_le x y : 0 < x -> 0 < y -> (y - x) * (a - 1 - y) >= 0 -> gf x <= gf y.
Proof.
  intros X Y H. rewrite !gf_ln by auto. apply exp_le_compat.
  assert (E : (a - 1) * (ln y - ln x) >= y - x); [|lra].
  destruct (Rle_dec 0 (a - 1)) as [A|A].
  - assert (K : ln (x / y) <= x / y - 1) by (apply ln_ineq, Rdiv_pos; lra). rewrite ln_div in K by lra.
    apply Rle_ge. apply Rle_trans with ((a - 1) * (1 - x / y)); [|nra].
    replace (y - x) with ((1 - x / y) * y) by (field; lra).
    assert (0 <= (1 - x / y) * (a - 1 - y)); [|lra].
    replace ((1 - x / y) * (a - 1 - y)) with ((y - x) * (a - 1 - y) * / y) by (field; lra). apply Rmult_le_pos; [lra|left; apply Rinv_0_lt_compat; auto].
  - assert (y <= x) by nra. assert (ln y <= ln x) by (destruct H0 as [L| ->]; [left; apply ln_increasing; auto|lra]). nra.
Qed.
Lemma gf_up x y : 0 < x -> x <= y -> y <= a - 1 -> gf x <= gf y.
Proof. intros. apply gf_le; nra. Qed.
Lemma gf_down x y : 0 < x -> a - 1 <= x -> x <= y -> gf y <= gf x.
Proof. intros. apply gf_le; nra. Qed.
End G.
