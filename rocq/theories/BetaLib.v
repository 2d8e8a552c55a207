(** The standard beta law, shared by the distributions built on it. *)
From Coq Require Import Reals Lra Lia List.
From Coquelicot Require Import Coquelicot.
From Verif Require Import Values VTac Spec RLib LimLib DistLib DistLS IntLib SubLib MomLib SFun GammaLib GammaLib2 GammaLib3 GammaLib4 IncLib LogMom M_sfun P_sfun.
Local Open Scope R_scope.
Set Bullet Behavior "Strict Subproofs".

Lemma der_exp_diff (u v : R -> R) c k x du dv : is_derive u x du -> is_derive v x dv -> is_derive (fun h => exp (u h + c - v h) * k) x ((du - dv) * exp (u x + c - v x) * k).
Proof.
  intros U V. auto_derive.
  - split; [exists du; auto|]. split; [exists dv; auto|]. auto.
  - change (Derive (fun x0 : R => u x0) x) with (Derive u x). change (Derive (fun x0 : R => v x0) x) with (Derive v x). rewrite (is_derive_unique _ _ _ U), (is_derive_unique _ _ _ V). unfold Rminus. ring.
Qed.

Section B.
Variables a b : R.
Hypothesis HA : 0 < a.
Hypothesis HB : 0 < b.
Definition bF (z : R) := lower_beta a b z / Beta a b.
Definition bf (z : R) := beta_kernel a b z / Beta a b.
Definition bQ (p : R) := inverse_fn 0 1 (lower_beta a b) (p * Beta a b).
Lemma bB : 0 < Beta a b. Proof. apply Beta_pos; auto. Qed.
Lemma bST : std 0 1 bF bf bQ.
Proof. apply (std_of_if _ _ _ _ _ (Bi a b HA HB)). Qed.
Lemma bf_ln z : 0 < z < 1 -> bf z = exp ((a - 1) * ln z + (b - 1) * ln (1 - z) - ln (Beta a b)).
Proof. intros H. pose proof bB. unfold bf, beta_kernel, Rpower. rewrite exp_minus, exp_ln, exp_plus by auto. reflexivity. Qed.
Lemma ln_bf z : 0 < z < 1 -> ln (bf z) = (a - 1) * ln z + (b - 1) * ln (1 - z) - ln (Beta a b).
Proof. intros H. rewrite bf_ln by auto. apply ln_exp. Qed.
Lemma bf_pos z : 0 < bf z. Proof. apply Rdiv_pos; [apply bk_pos|apply bB]. Qed.
Lemma vbet : vbeta (Fin a) (Fin b) = Fin (Beta a b).
Proof. unfold vbeta. rewrite !Rltb_true by auto. reflexivity. Qed.
Lemma ln_Beta : ln (Beta a b) = loggamma a + loggamma b - loggamma (a + b).
Proof.
  unfold Beta, loggamma. pose proof (Gamma_pos a HA). pose proof (Gamma_pos b HB). pose proof (Gamma_pos (a + b) ltac:(lra)).
  rewrite RLib.ln_div, ln_mult; auto. apply Rmult_lt_0_compat; auto.
Qed.
(** E Z^r (1-Z)^s = Beta(a + r, b + s) / Beta(a, b). *)
Definition bM (r s : R) := Beta (a + r) (b + s) / Beta a b.
Lemma b_if r s : 0 < a + r -> 0 < b + s -> exists F, integral_fn 0 1 (fun z => Rpower z r * Rpower (1 - z) s * bf z) F (bM r s).
Proof.
  intros R1 S1. pose proof bB. exists (fun z => / Beta a b * lower_beta (a + r) (b + s) z).
  apply (if_ext 0 1 (fun z => / Beta a b * beta_kernel (a + r) (b + s) z)).
  - intros z _. rewrite bk_shift, bk_shift'. unfold bf. field. lra.
  - unfold bM. replace (Beta (a + r) (b + s) / Beta a b) with (/ Beta a b * Beta (a + r) (b + s)) by (field; lra).
    apply if_scal; [apply Rinv_0_lt_compat; auto|]. apply Bi; auto.
Qed.
Lemma b_moment r s : 0 < a + r -> 0 < b + s -> integrates_to (fun z => Rpower z r * Rpower (1 - z) s * bf z) 0 1 (bM r s).
Proof. intros R1 S1. destruct (b_if r s R1 S1) as [F I]. apply (if_integral I). Qed.
Lemma b_pow r : 0 < a + r -> integrates_to (fun z => Rpower z r * bf z) 0 1 (bM r 0).
Proof.
  intros R1. apply (integrates_ext 0 1 lt01 (fun z => Rpower z r * Rpower (1 - z) 0 * bf z)).
  - intros z Z%in01. rewrite (Rpower_O (1 - z)) by lra. ring.
  - apply b_moment; lra.
Qed.
Lemma b_momentn n : integrates_to (fun z => z ^ n * bf z) 0 1 (bM (INR n) 0).
Proof.
  pose proof (pos_INR n). apply (integrates_ext 0 1 lt01 (fun z => Rpower z (INR n) * bf z)).
  - intros z Z%in01. rewrite Rpower_pow by lra. auto.
  - apply b_pow. lra.
Qed.
Lemma bM_pos r s : 0 < a + r -> 0 < b + s -> 0 < bM r s.
Proof. intros. apply Rdiv_pos; [apply Beta_pos; auto|apply bB]. Qed.
Lemma bM_0 : bM 0 0 = 1.
Proof. unfold bM. rewrite !Rplus_0_r. pose proof bB. field. lra. Qed.
Lemma bM_succ r s : 0 < a + r -> 0 < b + s -> bM (r + 1) s = (a + r) / (a + b + r + s) * bM r s.
Proof. intros H K. unfold bM. replace (a + (r + 1)) with (a + r + 1) by ring. rewrite Beta_succ by auto. pose proof bB. field. lra. Qed.
Lemma bM_pred r s : 0 < a + r -> 0 < b + s - 1 -> bM r (s - 1) = (a + b + r + s - 1) / (b + s - 1) * bM r s.
Proof. intros H K. unfold bM. replace (b + s) with (b + (s - 1) + 1) at 2 by ring. rewrite Beta_succ_r by lra. pose proof bB. field. lra. Qed.
Lemma bM1 : bM 1 0 = a / (a + b).
Proof. replace 1 with (0 + 1) by ring. rewrite bM_succ, bM_0 by lra. field. lra. Qed.
Lemma bM2 : bM 2 0 = a / (a + b) * ((a + 1) / (a + b + 1)).
Proof. replace 2 with (1 + 1) by ring. rewrite bM_succ, bM1 by lra. field. lra. Qed.
Lemma bM3 : bM 3 0 = a / (a + b) * ((a + 1) / (a + b + 1)) * ((a + 2) / (a + b + 2)).
Proof. replace 3 with (2 + 1) by ring. rewrite bM_succ, bM2 by lra. field. lra. Qed.
Lemma bM4 : bM 4 0 = a / (a + b) * ((a + 1) / (a + b + 1)) * ((a + 2) / (a + b + 2)) * ((a + 3) / (a + b + 3)).
Proof. replace 4 with (3 + 1) by ring. rewrite bM_succ, bM3 by lra. field. lra. Qed.
Lemma bf_cont z : 0 < z < 1 -> continuous bf z.
Proof. intros H. unfold bf, Rdiv. apply (continuous_scal_l (beta_kernel a b) (/ Beta a b) z). apply bk_cont; auto. Qed.
(** E ln Z = digamma(a) - digamma(a + b), and the same for 1 - Z. *)
Lemma Beta_exp x y : 0 < x -> 0 < y -> Beta x y = exp (loggamma x + loggamma y - loggamma (x + y)).
Proof.
  intros X Y. unfold Beta, loggamma. pose proof (Gamma_pos x X). pose proof (Gamma_pos y Y). pose proof (Gamma_pos (x + y) ltac:(lra)).
  rewrite exp_minus, exp_plus, !exp_ln by auto. reflexivity.
Qed.
Lemma der_comp_shift (f : R -> R) c x d : is_derive f (c + x) d -> is_derive (fun h => f (c + h)) x d.
Proof. intros H. evar_last. - apply (is_derive_comp f (fun h => c + h)); [exact H|auto_derive; auto]. - unfold scal; simpl; unfold mult; simpl. ring. Qed.
Lemma bM_der : is_derive (fun h => bM h 0) 0 (digamma a - digamma (a + b)).
Proof.
  pose proof bB as P. apply (is_derive_ext_loc (fun h => exp (loggamma (a + h) + loggamma b - loggamma (a + b + h)) / Beta a b)).
  - exists (mkposreal a HA). intros h H. unfold ball in H; simpl in H; unfold AbsRing_ball, abs, minus, plus, opp in H; simpl in H. apply Rabs_def2 in H.
    unfold bM. rewrite Rplus_0_r. rewrite (Beta_exp (a + h) b) by lra. replace (a + h + b) with (a + b + h) by ring. reflexivity.
  - assert (D1 : is_derive (fun h => loggamma (a + h)) 0 (digamma a)) by (apply der_comp_shift; rewrite Rplus_0_r; apply loggamma_digamma; auto).
    assert (D2 : is_derive (fun h => loggamma (a + b + h)) 0 (digamma (a + b))) by (apply der_comp_shift; rewrite Rplus_0_r; apply loggamma_digamma; lra).
    assert (E1 : loggamma (a + 0) + loggamma b - loggamma (a + b + 0) = ln (Beta a b)) by (rewrite ln_Beta, !Rplus_0_r; auto).
    evar_last; [apply (der_exp_diff (fun h => loggamma (a + h)) (fun h => loggamma (a + b + h)) (loggamma b) (/ Beta a b) 0 _ _ D1 D2)|].
    cbv beta. rewrite E1, exp_ln by auto. field. lra.
Qed.
Lemma b_ln : integrates_to (fun z => ln z * bf z) 0 1 (digamma a - digamma (a + b)).
Proof.
  apply (log_mom 0 1 bf (fun z => z) (fun h => bM h 0) _ (a / 2)).
  - lra.
  - intros z Z%in01. split; [apply bf_pos|]. split; [apply bf_cont; auto|]. split; [lra|]. apply continuous_id.
  - intros h H. destruct (b_if h 0 ltac:(lra) ltac:(lra)) as [F I]. exists F. eapply if_ext; [|exact I]. intros z Z%in01. cbv beta. rewrite (Rpower_O (1 - z)) by lra. ring.
  - apply bM_der.
Qed.
End B.
Lemma bM_sym a b r s : bM a b r s = bM b a s r.
Proof. unfold bM. rewrite Beta_sym, (Beta_sym a b). reflexivity. Qed.
Section B2.
Variables a b : R.
Hypothesis HA : 0 < a.
Hypothesis HB : 0 < b.
Notation bf := (bf a b).
Notation bM := (bM a b).
Lemma b_ln1 : integrates_to (fun z => ln (1 - z) * bf z) 0 1 (digamma b - digamma (a + b)).
Proof.
  apply (log_mom 0 1 bf (fun z => 1 - z) (fun h => bM 0 h) _ (b / 2)).
  - lra.
  - intros z Z%in01. split; [apply bf_pos; auto|]. split; [apply bf_cont; auto|]. split; [lra|]. apply ex_derive_cont. auto_derive. auto.
  - intros h H. destruct (b_if a b HA HB 0 h ltac:(lra) ltac:(lra)) as [F I]. exists F. eapply if_ext; [|exact I]. intros z Z%in01. cbv beta. rewrite (Rpower_O z) by lra. ring.
  - apply (is_derive_ext (fun h => BetaLib.bM b a h 0)); [intros h; apply bM_sym|]. rewrite (Rplus_comm a b). apply bM_der; auto.
Qed.
Lemma b_mass : integrates_to bf 0 1 1.
Proof. apply (std_mass 0 1 lt01 _ _ _ (bST a b HA HB)). Qed.
Lemma b_entropy : integrates_to (fun z => - (bf z * ln (bf z))) 0 1
  (ln (Beta a b) - (a - 1) * digamma a - (b - 1) * digamma b + (a + b - 2) * digamma (a + b)).
Proof.
  replace (_ - _ - _ + _) with (ln (Beta a b) * 1 + ((1 - a) * (digamma a - digamma (a + b)) + (1 - b) * (digamma b - digamma (a + b)))) by ring.
  apply (integrates_ext 0 1 lt01 (fun z => ln (Beta a b) * bf z + ((1 - a) * (ln z * bf z) + (1 - b) * (ln (1 - z) * bf z)))).
  - intros z Z%in01. rewrite (ln_bf a b HA HB z Z). ring.
  - apply integrates_plus; [apply integrates_scal, b_mass|apply integrates_plus; apply integrates_scal; [apply b_ln|apply b_ln1]; auto].
Qed.
(** The density rises where (a - 1) (1 - z) > (b - 1) z and falls where the opposite holds. *)
Lemma bf_le x y : 0 < x < 1 -> 0 < y < 1 -> (y - x) * ((a - 1) * (1 - y) - (b - 1) * y) >= 0 -> (1 <= a /\ 1 <= b) -> bf x <= bf y.
Proof.
  intros X Y H [A B]. rewrite !bf_ln by auto. apply exp_le_compat.
  assert (E : (a - 1) * (ln x - ln y) + (b - 1) * (ln (1 - x) - ln (1 - y)) <= 0); [|lra].
  assert (K1 : ln (x / y) <= x / y - 1) by (apply ln_ineq, Rdiv_pos; lra). rewrite RLib.ln_div in K1 by lra.
  assert (K2 : ln ((1 - x) / (1 - y)) <= (1 - x) / (1 - y) - 1) by (apply ln_ineq, Rdiv_pos; lra). rewrite RLib.ln_div in K2 by lra.
  apply Rle_trans with ((a - 1) * (x / y - 1) + (b - 1) * ((1 - x) / (1 - y) - 1)); [nra|].
  replace ((a - 1) * (x / y - 1) + (b - 1) * ((1 - x) / (1 - y) - 1)) with (- ((y - x) * ((a - 1) * (1 - y) - (b - 1) * y)) / (y * (1 - y))) by (field; lra).
  apply div_np; [lra|nra].
Qed.
End B2.
