(** Euler's reflection formula, from the one of trigamma. *)
From Coq Require Import Reals Lra Lia.
From Coquelicot Require Import Coquelicot.
From Verif Require Import Values VTac Spec RLib LimLib DistLib IntLib MomLib SFun GammaLib GammaLib2 GammaLib3 GammaLib4 IncLib EulerLib LnSin TrigLib.
Local Open Scope R_scope.
Set Bullet Behavior "Strict Subproofs".

Lemma sin_pi_pos p : 0 < p < 1 -> 0 < sin (PI * p).
Proof. intros H. pose proof PI_RGT_0. apply sin_gt_0; nra. Qed.
Definition rl1 (x : R) := digamma x - digamma (1 - x) + PI * cos (PI * x) / sin (PI * x).
Definition rl (x : R) := loggamma x + loggamma (1 - x) + ln (sin (PI * x)).
Lemma refl_comp (g : R -> R) d x : is_derive g (1 - x) d -> is_derive (fun t => g (1 - t)) x (- d).
Proof.
  intros D. evar_last; [apply (is_derive_comp g (fun t => 1 - t) x d (-1)); [exact D|auto_derive; auto; ring]|].
  unfold scal; simpl; unfold mult; simpl. ring.
Qed.
Lemma rl1_der x : 0 < x < 1 -> is_derive rl1 x 0.
Proof.
  intros X. pose proof (sin_pi_pos x X) as SP. unfold rl1. evar_last.
  - apply (is_derive_plus (fun t => digamma t - digamma (1 - t)) (fun t => PI * cos (PI * t) / sin (PI * t))).
    + apply (is_derive_minus digamma (fun t => digamma (1 - t))); [apply digamma_trigamma; lra|apply refl_comp, digamma_trigamma; lra].
    + instantiate (1 := - (PI / sin (PI * x)) ^ 2). auto_derive; [lra|].
      pose proof (sin2_cos2 (PI * x)) as E. unfold Rsqr in E. field_simplify; [|lra|lra].
      replace (cos (PI * x) ^ 2) with (1 - sin (PI * x) ^ 2) by nra. field. lra.
  - unfold minus, plus, opp; simpl. pose proof (trigamma_refl x X). lra.
Qed.
Lemma rl1_0 x : 0 < x < 1 -> rl1 x = 0.
Proof.
  intros X. rewrite (const_on rl1 0 1 rl1_der x (1 / 2)) by lra. unfold rl1. replace (1 - 1 / 2) with (1 / 2) by field.
  replace (PI * (1 / 2)) with (PI / 2) by field. rewrite cos_PI2. unfold Rdiv. ring.
Qed.
Lemma rl_der x : 0 < x < 1 -> is_derive rl x 0.
Proof.
  intros X. pose proof (sin_pi_pos x X) as SP. pose proof (rl1_0 x X) as Z. unfold rl. evar_last.
  - apply (is_derive_plus (fun t => loggamma t + loggamma (1 - t)) (fun t => ln (sin (PI * t)))).
    + apply (is_derive_plus loggamma (fun t => loggamma (1 - t))); [apply loggamma_digamma; lra|apply refl_comp, loggamma_digamma; lra].
    + instantiate (1 := PI * cos (PI * x) / sin (PI * x)). auto_derive; [lra|]. field. lra.
  - unfold plus; simpl. unfold rl1 in Z. lra.
Qed.
Lemma rl_pi x : 0 < x < 1 -> rl x = ln PI.
Proof.
  intros X. rewrite (const_on rl 0 1 rl_der x (1 / 2)) by lra. unfold rl. replace (1 - 1 / 2) with (1 / 2) by field.
  replace (PI * (1 / 2)) with (PI / 2) by field. rewrite sin_PI2, ln_1. unfold loggamma. replace (1 / 2) with (/ 2) by field. rewrite Gamma_half. pose proof PI_RGT_0.
  assert (0 < sqrt PI) by (apply sqrt_lt_R0; auto). rewrite <- (sqrt_sqrt PI) at 3 by lra. rewrite ln_mult by auto. ring.
Qed.
Lemma Gamma_reflection x : 0 < x < 1 -> Gamma x * Gamma (1 - x) = PI / sin (PI * x).
Proof.
  intros X. pose proof (rl_pi x X) as E. unfold rl, loggamma in E. pose proof PI_RGT_0. pose proof (sin_pi_pos x X).
  pose proof (Gamma_pos x ltac:(lra)). pose proof (Gamma_pos (1 - x) ltac:(lra)).
  rewrite <- !ln_mult in E; auto; [|apply Rmult_lt_0_compat; auto]. apply ln_inv in E; auto; [|repeat apply Rmult_lt_0_compat; auto].
  apply (Rmult_eq_reg_r (sin (PI * x))); [|lra]. rewrite E. field. lra.
Qed.
Lemma Beta_refl t : 0 < t < 1 -> Beta (1 - t) (1 + t) = PI * t / sin (PI * t).
Proof.
  intros T. unfold Beta. replace (1 - t + (1 + t)) with (1 + 1) by ring. rewrite Gamma_succ, Gamma_1 by lra.
  rewrite (Rplus_comm 1 t), Gamma_succ by lra. replace (Gamma (1 - t) * (t * Gamma t) / (1 * 1)) with (t * (Gamma t * Gamma (1 - t))) by field.
  rewrite Gamma_reflection by auto. unfold Rdiv. ring.
Qed.
