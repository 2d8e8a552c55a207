(** Student's t law with n degrees of freedom: X^2 / n is beta prime with parameters 1/2 and n/2. *)
From Coq Require Import Reals Lra Lia List.
From Coquelicot Require Import Coquelicot.
From Verif Require Import Values Spec RLib LimLib DistLib DistLS IntLib SubLib MomLib NoInt SymInt SymLib SFun SFun3 GammaLib GammaLib2 GammaLib3 IncLib BetaLib BpLib.
Local Open Scope R_scope.
Set Bullet Behavior "Strict Subproofs".

Lemma ln_sqrt x : 0 < x -> ln (sqrt x) = ln x / 2.
Proof. intros X. rewrite <- Rpower_sqrt by auto. unfold Rpower. rewrite ln_exp. field. Qed.
Section T.
Variable n : R.
Hypothesis HN : 0 < n.
Definition th := (n + 1) / 2.
Definition tlc := loggamma th - ln (n * PI) / 2 - loggamma (n / 2).
Definition tw (x : R) := 1 + x ^ 2 / n.
Definition tf (x : R) := exp (tlc - th * ln (tw x)).
Lemma tw_ge x : 1 <= tw x. Proof. unfold tw. pose proof (pow2_ge_0 x). assert (0 <= x ^ 2 / n) by (apply Rdiv_le_0_compat; auto). lra. Qed.
Lemma tw_der x : is_derive tw x (2 * x / n). Proof. unfold tw. auto_derive; [lra|]. simpl. field. lra. Qed.
Lemma tf_pos x : 0 < tf x. Proof. apply exp_pos. Qed.
Lemma tf_even x : tf (- x) = tf x. Proof. unfold tf, tw. replace ((- x) ^ 2) with (x ^ 2) by ring. reflexivity. Qed.
Lemma tf_der x : is_derive tf x (tf x * (- th * (2 * x / n / tw x))).
Proof.
  pose proof (tw_ge x) as W. pose proof (tw_der x) as D. unfold tf. set (w := tw) in *. clearbody w. auto_derive; [split; [eexists; eauto|lra]|].
  change (Derive (fun x0 => w x0) x) with (Derive w x). rewrite (is_derive_unique _ _ _ D). unfold Rminus. field. split; lra.
Qed.
Lemma tf_cont x : continuous tf x. Proof. apply ex_derive_cont. eexists. apply tf_der. Qed.
Lemma half_pos : 0 < 1/2. Proof. lra. Qed.
Lemma n2_pos : 0 < n / 2. Proof. lra. Qed.
Notation B := (Beta (1/2) (n / 2)).
Lemma lnB : ln B = ln PI / 2 + loggamma (n / 2) - loggamma th.
Proof.
  pose proof PI_RGT_0. rewrite ln_Beta by (lra). unfold th. replace ((n + 1) / 2) with (1/2 + n/2) by field. unfold loggamma at 1. replace (1/2) with (/2) at 1 by field. rewrite Gamma_half.
  rewrite ln_sqrt by auto. field.
Qed.
Definition tp (x : R) := x ^ 2 / n.
Definition tdp (x : R) := 2 * x / n.
Definition tq (z : R) := sqrt (n * z).
Lemma TSB : SubLib.subst 0 p_infty 0 p_infty tp tdp tq.
Proof.
  constructor.
  - exact Logic.I.
  - intros x [X _]. simpl in X. split; simpl; auto. unfold tp. apply Rdiv_pos; auto. apply pow_lt; auto.
  - intros x _. unfold tp, tdp. auto_derive; [lra|]. simpl. field. lra.
  - intros x _. apply ex_derive_cont. unfold tdp. auto_derive. auto.
  - intros z [Z _]. simpl in Z. assert (0 < n * z) by (apply Rmult_lt_0_compat; auto). split; [split; simpl; auto; apply sqrt_lt_R0; auto|].
    unfold tp, tq. rewrite pow2_sqrt by lra. field. lra.
Qed.
Lemma tdp_pos x : inside 0 p_infty x -> 0 < tdp x.
Proof. intros [X _]. simpl in X. unfold tdp. apply Rdiv_pos; auto. lra. Qed.
Lemma tf_pf x : 0 < x -> pf (1/2) (n/2) (tp x) * tdp x = 2 * tf x.
Proof.
  intros X. pose proof PI_RGT_0. assert (P : 0 < tp x) by (unfold tp; apply Rdiv_pos; auto; apply pow_lt; auto).
  rewrite pf_exp by (auto; lra). rewrite lnB. unfold tf, tlc, tw. fold (tp x). rewrite ln_mult by auto.
  assert (E : tdp x = 2 * exp (ln x - ln n)) by (unfold Rminus, tdp; rewrite exp_plus, exp_Ropp, !exp_ln by auto; field; lra). rewrite E.
  assert (LT : ln (tp x) = 2 * ln x - ln n) by (unfold tp; rewrite ln_div by (try apply pow_lt; auto); simpl pow; rewrite Rmult_1_r, ln_mult by auto; ring). rewrite LT.
  replace (1/2 + n/2) with th by (unfold th; field).
  rewrite <- Rmult_assoc, (Rmult_comm _ 2), Rmult_assoc, <- exp_plus. f_equal. f_equal. field.
Qed.
Definition tG (x : R) := pF (1/2) (n/2) (tp x).
Definition tQ0 (p : R) := tq (pQ (1/2) (n/2) p).
Lemma tG_std : std 0 p_infty tG (fun x => 2 * tf x) tQ0.
Proof.
  pose proof (sub_std TSB tdp_pos _ _ _ (pST (1/2) (n/2) half_pos n2_pos)) as S. destruct S as [[A1 A2 A3 A4] A5 A6].
  assert (E : forall x, inside 0 p_infty x -> pf (1/2) (n/2) (tp x) * tdp x = 2 * tf x) by (intros x [X _]; apply tf_pf; auto).
  constructor; [constructor|..]; auto.
  - intros x I. rewrite <- E by auto. apply A3; auto.
  - intros x I. rewrite <- E by auto. apply A4; auto.
  - intros x I. apply (continuous_mult (fun _ => 2) tf); [apply continuous_const|apply tf_cont].
Qed.
Definition tF := sF tf.
Definition tQ := sQ tQ0.
Lemma tST : std m_infty p_infty tF tf tQ.
Proof. apply (sST tf tG tQ0); [apply tf_cont|apply tf_even|apply tf_pos|apply tG_std]. Qed.
Lemma tF_0 : tF 0 = 1/2. Proof. apply sF_0. Qed.
Lemma tF_neg x : tF (- x) = 1 - tF x. Proof. apply sF_neg; [apply tf_cont|apply tf_even]. Qed.
Lemma tF_pos x : 0 < x -> tF x = 1/2 + tG x / 2. Proof. apply (sF_pos tf tG tQ0); [apply tf_cont|apply tG_std]. Qed.
Lemma tF_incr x y : x < y -> tF x < tF y. Proof. apply (F_incr _ _ _ _ (st_smooth _ _ _ _ _ tST)); apply in_line. Qed.
Lemma tF_inj x y : tF x = tF y -> x = y. Proof. apply (F_inj _ _ _ _ (st_smooth _ _ _ _ _ tST)); apply in_line. Qed.
Lemma tF_half x : 0 < x -> 1/2 < tF x. Proof. intros. rewrite <- tF_0. apply tF_incr; auto. Qed.
(** The integral of the kernel is x 2F1(1/2, h; 3/2; -x^2/n). *)
Definition tk (x : R) := exp (- th * ln (tw x)).
Lemma tk_cont x : continuous tk x.
Proof.
  pose proof (tw_ge x) as W. pose proof (tw_der x) as D. apply ex_derive_cont. unfold tk. set (w := tw) in *. clearbody w. auto_derive. split; [eexists; eauto|lra].
Qed.
Lemma tk_even x : tk (- x) = tk x. Proof. unfold tk, tw. replace ((- x) ^ 2) with (x ^ 2) by ring. reflexivity. Qed.
Lemma tf_tk x : tf x = exp tlc * tk x. Proof. unfold tf, tk. rewrite <- exp_plus. f_equal. ring. Qed.
Lemma prim_tk x : prim tf 0 x = exp tlc * prim tk 0 x.
Proof.
  unfold prim. change (exp tlc * RInt tk 0 x) with (scal (exp tlc) (RInt tk 0 x)). rewrite <- (RInt_scal (V := R_CompleteNormedModule) tk 0 x (exp tlc)).
  - apply RInt_ext. intros; apply tf_tk.
  - apply (ex_RInt_continuous (V := R_CompleteNormedModule)). intros; apply tk_cont.
Qed.
Lemma hyp_int x : x <> 0 -> integrates_to (hyp2f1_kernel (1/2) th (3/2) (- x ^ 2 / n)) 0 1 (2 / x * prim tk 0 x).
Proof.
  intros X. set (y := Rabs x). assert (Y : 0 < y) by (apply Rabs_pos_lt; auto). assert (YY : y ^ 2 = x ^ 2) by (unfold y; simpl; rewrite !Rmult_1_r; apply Rabs_mult_self || (rewrite <- Rabs_mult; apply Rabs_pos_eq; nra)).
  replace (2 / x * prim tk 0 x) with (2 / y * prim tk 0 y - 2 / y * prim tk 0 (y * 0)).
  2:{ rewrite Rmult_0_r, prim_c. unfold y, Rabs. destruct (Rcase_abs x); [|ring]. rewrite P_odd by (apply tk_cont || apply tk_even). field. auto. }
  pose proof (P_der tk tk_cont) as PD.
  assert (SQ : filterlim sqrt (at_right 0) (locally 0)) by (rewrite <- sqrt_0 at 2; apply flim_right, continuous_sqrt).
  assert (S1 : filterlim sqrt (at_left 1) (locally 1)) by (rewrite <- sqrt_1 at 2; apply flim_left, continuous_sqrt).
  assert (CP : forall u, continuous (fun s => 2 / y * prim tk 0 (y * s)) u).
  { intros u. apply (continuous_mult (fun _ => 2 / y) (fun s => prim tk 0 (y * s))); [apply continuous_const|]. apply (continuous_comp (fun s => y * s) (prim tk 0)); [|apply P_cont; apply tk_cont].
    apply (continuous_mult (fun _ => y) (fun s => s)); [apply continuous_const|apply continuous_id]. }
  apply (mk_integral (hyp2f1_kernel (1/2) th (3/2) (- x ^ 2 / n)) (fun t => 2 / y * prim tk 0 (y * sqrt t))).
  - simpl; lra.
  - intros t [T0 T1]. simpl in T0, T1. pose proof (sqrt_lt_R0 t T0) as ST. evar_last.
    + apply (is_derive_scal (fun t => prim tk 0 (y * sqrt t)) t (2 / y)). apply (is_derive_comp (prim tk 0) (fun t => y * sqrt t)); [apply PD|]. auto_derive; auto.
    + unfold scal; simpl; unfold mult; simpl. unfold hyp2f1_kernel, tk, tw. replace (1 - - (x * (x * 1)) / n * t) with (1 + (y * sqrt t) ^ 2 / n).
      2:{ rewrite Rpow_mult_distr, pow2_sqrt by lra. rewrite YY. field. lra. }
      replace (3/2 - 1/2 - 1) with 0 by field. rewrite Rpower_O by lra. replace (1/2 - 1) with (- / 2) by field. rewrite Rpower_Ropp, Rpower_sqrt by auto.
      unfold Rpower. simpl pow. field. lra.
  - intros t [T0 T1]. simpl in T0, T1. pose proof (pow2_ge_0 x). assert (0 <= x ^ 2 / n * t) by (apply Rmult_le_pos; [apply Rdiv_le_0_compat; auto|lra]).
    apply ex_derive_cont. unfold hyp2f1_kernel, Rpower. auto_derive. repeat split; auto; try lra.
  - apply (filterlim_comp _ _ _ sqrt (fun s => 2 / y * prim tk 0 (y * s)) (near_lo 0) (locally 0)); [exact SQ|apply CP].
  - replace (2 / y * prim tk 0 y) with (2 / y * prim tk 0 (y * 1)) by (rewrite Rmult_1_r; auto).
    apply (filterlim_comp _ _ _ sqrt (fun s => 2 / y * prim tk 0 (y * s)) (near_hi 1) (locally 1)); [exact S1|apply CP].
Qed.
Lemma hyp_eq x : x * hyp2f1 (1/2) th (3/2) (- x ^ 2 / n) = prim tk 0 x.
Proof.
  destruct (Req_dec x 0) as [->|X]; [rewrite prim_c; ring|].
  unfold hyp2f1. rewrite (improper_eq _ 0 1 _ ltac:(simpl; lra) (hyp_int x X)). replace (3/2 - 1/2) with 1 by field. replace (3/2) with (1/2 + 1) by field.
  rewrite Gamma_succ, Gamma_1 by lra. pose proof (Gamma_pos (1/2) half_pos). field. split; auto. lra.
Qed.
Lemma texp : exp tlc = Gamma th / (sqrt (PI * n) * Gamma (n / 2)).
Proof.
  pose proof PI_RGT_0. assert (0 < th) by (unfold th; lra). pose proof n2_pos. assert (NP : 0 < PI * n) by (apply Rmult_lt_0_compat; auto).
  unfold tlc, loggamma, Rminus. rewrite !exp_plus, !exp_Ropp, !exp_ln by (apply Gamma_pos; auto). rewrite Rmult_comm, (Rmult_comm n PI). rewrite <- ln_sqrt, exp_ln by (auto; apply sqrt_lt_R0; auto).
  field. split; [apply Rgt_not_eq, Gamma_pos; auto|apply Rgt_not_eq, sqrt_lt_R0; auto].
Qed.
End T.
