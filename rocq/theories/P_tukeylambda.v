(** Proofs about M_tukeylambda. *)
From Coq Require Import Reals Lra Lia List Ranalysis5.
From Coquelicot Require Import Coquelicot.
From Verif Require Import Values VTac Spec RLib LimLib LLib DistLib DistLS IntLib SubLib MomLib LSMom LSMom2 PLib M_common SpecStat SpecEst SpecRoot SpecInv
  SFun P_sfun M_sfun InvLib InvDer SpecDisc DiscLib.
From Verif Require M_logistic P_logistic IncLib GamLib GammaLib.
From Verif Require Import M_tukeylambda.
Import ListNotations.
Local Open Scope R_scope.
Set Bullet Behavior "Strict Subproofs".

Section Base.
Variable l : R.
Hypothesis HL : l <> 0.
Definition Q (p : R) := (Rpower p l - Rpower (1 - p) l) / l.
Definition q (p : R) := Rpower p (l - 1) + Rpower (1 - p) (l - 1).
Definition lo : Rbar := if Rltb 0 l then Finite (- (1 / l)) else m_infty.
Definition hi : Rbar := if Rltb 0 l then Finite (1 / l) else p_infty.
Definition F (x : R) := inverse_fn 0 1 Q x.
Definition f (x : R) := / q (F x).
Lemma q_pos p : 0 < q p.
Proof. unfold q. pose proof (Rpower_pos p (l - 1)). pose proof (Rpower_pos (1 - p) (l - 1)). lra. Qed.
Lemma Q_der p : 0 < p < 1 -> is_derive Q p (q p).
Proof.
  intros P. unfold Q. evar_last.
  - apply (is_derive_ext (fun p => / l * (Rpower p l - Rpower (1 - p) l))); [intros; unfold Rdiv; apply Rmult_comm|]. apply is_derive_scal.
    apply (is_derive_minus (fun p => Rpower p l) (fun p => Rpower (1 - p) l)); [apply is_derive_Rpower; lra|].
    apply (is_derive_comp (fun u => Rpower u l) (fun p => 1 - p)); [apply is_derive_Rpower; lra|]. auto_derive; [auto|reflexivity].
  - unfold minus, plus, opp, scal; simpl. unfold mult; simpl. unfold q. field. auto.
Qed.
Lemma q_cont p : 0 < p < 1 -> continuous q p.
Proof. intros P. unfold q. apply ex_derive_cont. unfold Rpower. auto_derive. lra. Qed.
Lemma Q_sym p : Q (1 - p) = - Q p.
Proof. unfold Q. replace (1 - (1 - p)) with p by ring. field. auto. Qed.
Lemma Q_half : Q (1 / 2) = 0.
Proof. unfold Q. replace (1 - 1 / 2) with (1 / 2) by field. field. auto. Qed.
Lemma Q_mono p r : 0 < p < 1 -> 0 < r < 1 -> p < r -> Q p < Q r.
Proof. apply (Q_incr Q q); [apply Q_der|intros; apply q_pos]. Qed.
Lemma Q_mono_le p r : 0 < p < 1 -> 0 < r < 1 -> p <= r -> Q p <= Q r.
Proof. intros P R0 [L| ->]; [left; apply Q_mono; auto|lra]. Qed.
Lemma Q_lt' p r : 0 < p < 1 -> 0 < r < 1 -> Q p < Q r -> p < r.
Proof. apply (Q_lt Q q); [apply Q_der|intros; apply q_pos]. Qed.
Lemma Q_le' p r : 0 < p < 1 -> 0 < r < 1 -> Q p <= Q r -> p <= r.
Proof. intros P R0 L. destruct (Rle_lt_dec p r) as [A|A]; auto. pose proof (Q_mono r p R0 P A). lra. Qed.
Lemma Q_in p : 0 < p < 1 -> inside lo hi (Q p).
Proof.
  intros P. unfold lo, hi. destruct (Rltb_spec 0 l) as [[L ->]|[L ->]]; [|split; exact I].
  pose proof (Rpower_pos p l). pose proof (Rpower_pos (1 - p) l). pose proof (Rpower_lt_1 p l P L). pose proof (Rpower_lt_1 (1 - p) l ltac:(lra) L).
  unfold Q. split; simpl; [replace (- (1 / l)) with ((- 1) / l) by (field; auto)|]; apply Rmult_lt_compat_r; try lra; apply Rinv_0_lt_compat; auto.
Qed.
(** Lower bounds of the quantile below zero. *)
Definition low (x : R) : R :=
  if Rltb 0 l then Rmin (Rpower ((1 + l * x) / 2) (1 / l)) (1 - Rpower ((1 - l * x) / 2) (1 / l))
  else Rpower (l * x + Rpower 2 (- l)) (1 / l).
Lemma half_pow y : Rpower (1 / 2) y = Rpower 2 (- y).
Proof. unfold Rpower. f_equal. rewrite ln_div, ln_1 by lra. ring. Qed.
Lemma Rpower_anti a b y : 0 < a -> a <= b -> y < 0 -> Rpower b y <= Rpower a y.
Proof. intros A B Y. unfold Rpower. apply exp_le_compat. assert (ln a <= ln b) by (destruct B as [B| ->]; [left; apply ln_increasing; auto|lra]). nra. Qed.
Lemma low_ok x : inside lo hi x -> x < 0 -> 0 < low x < 1 /\ Q (low x) <= x.
Proof.
  unfold lo, hi, low. destruct (Rltb_spec 0 l) as [[L ->]|[L ->]]; intros [I1 I2] X; simpl in I1, I2.
  - assert (W : -1 < l * x < 0). { split; [|nra]. replace (-1) with (l * - (1 / l)) by (field; lra). apply Rmult_lt_compat_l; auto. }
    set (a := Rpower ((1 + l * x) / 2) (1 / l)). set (b := Rpower ((1 - l * x) / 2) (1 / l)).
    assert (IL : 0 < 1 / l) by (apply Rdiv_pos; lra).
    assert (A : 0 < a < 1) by (split; [apply Rpower_pos|apply Rpower_lt_1; lra]). assert (B : 0 < b < 1) by (split; [apply Rpower_pos|apply Rpower_lt_1; lra]).
    set (m := Rmin a (1 - b)). assert (M : 0 < m < 1). { unfold m. split; [apply Rmin_glb_lt; lra|]. pose proof (Rmin_l a (1 - b)). lra. }
    split; auto. unfold Q. pose proof (Rmin_l a (1 - b)). pose proof (Rmin_r a (1 - b)). fold m in H, H0.
    assert (E1 : Rpower m l <= (1 + l * x) / 2). { rewrite <- (Rpower_inv ((1 + l * x) / 2) l) by lra. fold a. apply Rle_Rpower_l; lra. }
    assert (E2 : (1 - l * x) / 2 <= Rpower (1 - m) l). { rewrite <- (Rpower_inv ((1 - l * x) / 2) l) by lra. apply Rle_Rpower_l; [lra|]. split; [apply Rpower_pos|]. fold b. lra. }
    apply Rle_div_l; auto. lra.
  - assert (L' : l < 0) by lra. assert (W : 0 < l * x) by nra. pose proof (Rpower_pos 2 (- l)) as P2. set (y := l * x + Rpower 2 (- l)). assert (Y : 0 < y) by (unfold y; lra).
    assert (H2 : Rpower y (1 / l) <= 1 / 2). { rewrite <- (Rpower_inv' (1 / 2) l) by lra. rewrite half_pow. apply Rpower_anti; auto; [unfold y; lra|]. unfold Rdiv. rewrite Rmult_1_l. apply Rinv_lt_0_compat; auto. }
    pose proof (Rpower_pos y (1 / l)). split; [lra|]. unfold Q. rewrite Rpower_inv by lra.
    assert (E2 : Rpower (1 - Rpower y (1 / l)) l <= Rpower 2 (- l)) by (rewrite <- half_pow; apply Rpower_anti; lra).
    pose proof (Rinv_lt_0_compat l L') as IN. assert (LE : l * x <= y - Rpower (1 - Rpower y (1 / l)) l) by (unfold y at 1; lra). set (A := y - _) in *. clearbody A.
    apply Rminus_le. replace (A / l - x) with ((A - l * x) * / l) by (field; lra). nra.
Qed.
Lemma Q_continuity p : 0 < p < 1 -> continuity_pt Q p.
Proof. intros P. apply derivable_continuous_pt. exists (q p). apply is_derive_Reals. apply Q_der. auto. Qed.
Lemma onto_neg x : inside lo hi x -> x < 0 -> exists p, 0 < p < 1 /\ Q p = x.
Proof.
  intros I X. destruct (low_ok x I X) as [P L]. assert (LH : low x < 1 / 2) by (apply Q_lt'; auto; [lra|rewrite Q_half; lra]).
  destruct (f_interv_is_interv Q (low x) (1 / 2) x LH) as (p & [A B] & E).
  - rewrite Q_half. lra.
  - intros u U. apply Q_continuity. lra.
  - exists p. split; [lra|auto].
Qed.
Lemma lo_opp x : inside lo hi x -> inside lo hi (- x).
Proof. unfold lo, hi. destruct (Rltb 0 l); intros [A B]; split; simpl in *; auto; lra. Qed.
Lemma onto x : inside lo hi x -> exists p, 0 < p < 1 /\ Q p = x.
Proof.
  intros I. destruct (Rtotal_order x 0) as [L|[L|L]].
  - apply onto_neg; auto.
  - exists (1 / 2). split; [lra|]. rewrite Q_half. auto.
  - destruct (onto_neg (- x) (lo_opp x I) ltac:(lra)) as (p & P & E). exists (1 - p). split; [lra|]. rewrite Q_sym. lra.
Qed.
Lemma FQ x : inside lo hi x -> 0 < F x < 1 /\ Q (F x) = x.
Proof.
  intros I. destruct (onto x I) as (p & P & E). assert (FE : F x = p). { unfold F. rewrite <- E. apply inverse_fn_eq; [|split; simpl; lra]. intros u v [U1 U2] [V1 V2]. apply Q_mono; simpl in *; lra. }
  rewrite FE. auto.
Qed.
Lemma LT : Rbar_lt lo hi.
Proof. unfold lo, hi. destruct (Rltb_spec 0 l) as [[L ->]|[L ->]]; [|exact I]. simpl. assert (0 < 1 / l) by (apply Rdiv_pos; lra). lra. Qed.
Lemma ST : std lo hi F f Q.
Proof. apply (inv_std lo hi Q q F LT Q_der (fun p _ => q_pos p) q_cont Q_in FQ). Qed.
Lemma F_Q p : 0 < p < 1 -> F (Q p) = p.
Proof. apply (InvDer.F_Q lo hi Q q F Q_der (fun p _ => q_pos p) Q_in FQ). Qed.
Lemma F_sym x : inside lo hi x -> F (- x) = 1 - F x.
Proof. intros I. destruct (FQ x I) as [P E]. rewrite <- E at 1. rewrite <- Q_sym. apply F_Q. lra. Qed.
Lemma f_sym x : inside lo hi x -> f (- x) = f x.
Proof. intros I. unfold f. rewrite F_sym by auto. f_equal. unfold q. replace (1 - (1 - F x)) with (F x) by ring. ring. Qed.
End Base.

Section Cdf.
Variable l : R.
Hypothesis HL : l <> 0.
Notation lo := (lo l). Notation hi := (hi l). Notation Q := (Q l). Notation q := (q l). Notation F := (F l). Notation f := (f l).
Lemma le_div_neg a b c : c < 0 -> a <= b * c -> b <= a / c.
Proof. intros C A. replace a with (a / c * c) in A by (field; lra). nra. Qed.
Lemma up_ok z : l < 0 -> z < 0 -> let u := (if Rltb z (Rpower 2 (- l) / l) then Rpower (l * z) (1 / l) else 1 / 2) in F z <= u <= 1 / 2.
Proof.
  intros L Z u. unfold u. assert (I : inside lo hi z) by (unfold P_tukeylambda.lo, P_tukeylambda.hi; rewrite Rltb_false by lra; split; exact I). destruct (FQ l HL z I) as [P E].
  assert (FH : F z <= 1 / 2) by (apply Q_le' with l; auto; [lra|rewrite E, Q_half by auto; lra]).
  destruct (Rltb_spec z (Rpower 2 (- l) / l)) as [[C ->]|[C ->]]; [|lra].
  assert (IL : 1 / l < 0) by (unfold Rdiv; rewrite Rmult_1_l; apply Rinv_lt_0_compat; auto).
  assert (W : Rpower 2 (- l) <= l * z). { left. apply (Rmult_lt_gt_compat_neg_l l) in C; auto. replace (l * (Rpower 2 (- l) / l)) with (Rpower 2 (- l)) in C by (field; lra). lra. }
  pose proof (Rpower_pos 2 (- l)) as P2.
  assert (UH : Rpower (l * z) (1 / l) <= 1 / 2). { rewrite <- (Rpower_inv' (1 / 2) l) by lra. rewrite half_pow. apply Rpower_anti; auto. }
  pose proof (Rpower_pos (l * z) (1 / l)) as UP. split; auto. apply Q_le' with l; auto; [lra|]. rewrite E. unfold P_tukeylambda.Q. rewrite Rpower_inv by lra.
  apply le_div_neg; auto. pose proof (Rpower_pos (1 - Rpower (l * z) (1 / l)) l). lra.
Qed.
Lemma up_low z : l < 0 -> z < 0 -> let u := (if Rltb z (Rpower 2 (- l) / l) then Rpower (l * z) (1 / l) else 1 / 2) in Rpower 2 (1 / l) * u <= F z.
Proof.
  intros L Z u. assert (I : inside lo hi z) by (unfold P_tukeylambda.lo, P_tukeylambda.hi; rewrite Rltb_false by lra; split; exact I). destruct (FQ l HL z I) as [P E].
  destruct (up_ok z L Z) as [_ UH]. assert (UP : 0 < u) by (unfold u; destruct (Rltb z _); [apply Rpower_pos|lra]). fold u in UH.
  assert (IL : 1 / l < 0) by (unfold Rdiv; rewrite Rmult_1_l; apply Rinv_lt_0_compat; auto).
  assert (C1 : Rpower 2 (1 / l) < Rpower 2 0) by (apply Rpower_lt; lra). rewrite Rpower_O in C1 by lra. pose proof (Rpower_pos 2 (1 / l)) as C0.
  set (c := Rpower 2 (1 / l) * u) in *. assert (CP : 0 < c < 1 / 2) by (unfold c; nra).
  assert (CL : Rpower c l = 2 * Rpower u l). { unfold c. rewrite <- Rpower_mult_distr by auto. rewrite Rpower_inv by lra. reflexivity. }
  assert (CM : Rpower (1 - c) l <= Rpower 2 (- l)). { rewrite <- half_pow. apply Rpower_anti; lra. }
  apply Q_le' with l; auto; [lra|]. rewrite E. unfold P_tukeylambda.Q. rewrite CL. pose proof (Rpower_pos 2 (- l)) as P2. apply Rmult_le_reg_l with (- l); [lra|].
  replace (- l * ((2 * Rpower u l - Rpower (1 - c) l) / l)) with (Rpower (1 - c) l - 2 * Rpower u l) by (field; lra).
  unfold u. destruct (Rltb_spec z (Rpower 2 (- l) / l)) as [[K ->]|[K ->]].
  - assert (W : Rpower 2 (- l) <= l * z). { left. apply (Rmult_lt_gt_compat_neg_l l) in K; auto. replace (l * (Rpower 2 (- l) / l)) with (Rpower 2 (- l)) in K by (field; lra). lra. }
    rewrite Rpower_inv by lra. lra.
  - rewrite half_pow. assert (W : l * z <= Rpower 2 (- l)). { apply Rmult_le_compat_neg_l with (r := l) in K; [|lra]. replace (l * (Rpower 2 (- l) / l)) with (Rpower 2 (- l)) in K by (field; lra). lra. } lra.
Qed.
Lemma dn_ok z : l < 0 -> z < 0 -> let u := (if Rltb z (- Rpower 2 (- l - 1)) then 0 else 1 / 2 + Rpower 2 l * z) in 0 <= u <= F z.
Proof.
  intros L Z u. unfold u. assert (I : inside lo hi z) by (unfold P_tukeylambda.lo, P_tukeylambda.hi; rewrite Rltb_false by lra; split; exact I). destruct (FQ l HL z I) as [P E].
  destruct (Rltb_spec z (- Rpower 2 (- l - 1))) as [[C ->]|[C ->]]; [lra|].
  pose proof (Rpower_pos 2 l) as P2. assert (H2 : Rpower 2 l * Rpower 2 (- l - 1) = 1 / 2). { rewrite <- Rpower_plus. replace (l + (- l - 1)) with (- (1)) by ring. rewrite Rpower_Ropp, Rpower_1 by lra. field. }
  assert (U0 : 0 <= 1 / 2 + Rpower 2 l * z) by nra. split; auto. set (d := 1 / 2 + Rpower 2 l * z) in *. assert (D1 : d < 1 / 2) by (unfold d; nra).
  destruct U0 as [U0|U0]; [|lra]. apply Q_le' with l; auto; [lra|]. rewrite E.
  destruct (MVT_cor2 Q q d (1 / 2) D1) as (xi & EX & X).
  { intros c C0. apply is_derive_Reals. apply Q_der; auto. lra. }
  rewrite Q_half in EX by auto. assert (QX : Rpower 2 (- l) <= q xi).
  { unfold P_tukeylambda.q. pose proof (Rpower_pos (1 - xi) (l - 1)). assert (Rpower (1 / 2) (l - 1) <= Rpower xi (l - 1)) by (apply Rpower_anti; lra). rewrite half_pow in H0.
    assert (Rpower 2 (- l) <= Rpower 2 (- (l - 1))) by (apply Rle_Rpower; lra). lra. }
  assert (H3 : Rpower 2 l * Rpower 2 (- l) = 1) by (rewrite <- Rpower_plus; replace (l + - l) with 0 by ring; apply Rpower_O; lra).
  assert (HD : 1 / 2 - d = Rpower 2 l * - z) by (unfold d; ring). assert (0 < 1 / 2 - d) by lra. assert (Rpower 2 (- l) * (1 / 2 - d) <= q xi * (1 / 2 - d)) by (apply Rmult_le_compat_r; lra).
  rewrite HD in H0 at 1. nra.
Qed.
Lemma inv_in p : 0 < p < 1 -> forall a s : R, 0 < s -> invcdf (Fin p) (Fin l) (Fin a) (Fin s) = Fin (a + s * Q p).
Proof.
  intros P a s S. unfold invcdf, validate_p, validate_params, validate_loc_scale, vlog1p. destruct (Rlt_le_dec l 0); veval; reflexivity.
Qed.
Lemma inv_in0 p : 0 < p < 1 -> invcdf (Fin p) (Fin l) (Fin 0) (Fin 1) = Fin (Q p).
Proof. intros P. rewrite inv_in by (auto; lra). f_equal. ring. Qed.
Lemma inv_0 (a s : R) : 0 < s -> invcdf (Fin 0) (Fin l) (Fin a) (Fin s) = if Rltb 0 l then Fin (a - s / l) else NInf.
Proof.
  intros S. unfold invcdf, validate_p, validate_params, validate_loc_scale, vlog1p. destruct (Rltb_spec 0 l) as [[L ->]|[L ->]]; [|assert (l < 0) by lra; veval; reflexivity].
  veval. replace (1 - 0) with 1 by ring. rewrite ln_1, Rmult_0_r, exp_0. f_equal; field; lra.
Qed.
Lemma inv_1 (a s : R) : 0 < s -> invcdf (Fin 1) (Fin l) (Fin a) (Fin s) = if Rltb 0 l then Fin (a + s / l) else PInf.
Proof.
  intros S. unfold invcdf, validate_p, validate_params, validate_loc_scale, vlog1p. destruct (Rltb_spec 0 l) as [[L ->]|[L ->]]; [|assert (l < 0) by lra; veval; reflexivity].
  veval. f_equal. rewrite Rpower_1_l. field. lra.
Qed.

(** the extended quantile function on [0,1] for l > 0 *)
Definition Pw (t : R) := if Rltb 0 t then Rpower t l else 0.
Lemma Pw_pos t : 0 < t -> Pw t = Rpower t l. Proof. intros H. unfold Pw. rewrite Rltb_true; auto. Qed.
Lemma Pw_neg t : t <= 0 -> Pw t = 0. Proof. intros H. unfold Pw. rewrite Rltb_false; auto. Qed.
Lemma Pw_cont t : 0 < l -> continuous Pw t.
Proof.
  intros L. destruct (Rtotal_order t 0) as [H|[H|H]].
  - apply (continuous_ext_loc Pw (fun _ => 0) t); [|apply continuous_const].
    exists (mkposreal (- t) ltac:(lra)). intros y Y. rewrite Pw_neg; auto. unfold ball in Y; simpl in Y; unfold AbsRing_ball, abs, minus, plus, opp in Y; simpl in Y. apply Rabs_def2 in Y. lra.
  - subst. unfold continuous. rewrite (Pw_neg 0) by lra. intros P [e HP].
    destruct (Rlt_le_dec 0 l) as [L'|]; [|lra]. pose proof (lim_Rpower_0 l L) as K. specialize (K P). destruct K as [d K]; [exists e; exact HP|].
    exists d. intros y Y. destruct (Rlt_le_dec 0 y) as [G|G]; [rewrite Pw_pos by auto; apply K; auto|]. rewrite Pw_neg by auto. apply HP. apply ball_center.
  - apply (continuous_ext_loc Pw (fun y => Rpower y l) t).
    + exists (mkposreal t H). intros y Y. rewrite Pw_pos; auto. unfold ball in Y; simpl in Y; unfold AbsRing_ball, abs, minus, plus, opp in Y; simpl in Y. apply Rabs_def2 in Y. lra.
    + apply ex_derive_cont. eexists. apply is_derive_Rpower; auto.
Qed.
Definition Qe (t : R) := (Pw t - Pw (1 - t)) / l.
Lemma Qe_cont t : 0 < l -> continuous Qe t.
Proof.
  intros L. unfold Qe. apply (continuous_mult (fun t => Pw t - Pw (1 - t)) (fun _ => / l)); [|apply continuous_const].
  apply (continuous_minus Pw (fun t => Pw (1 - t))); [apply Pw_cont; auto|].
  apply (continuous_comp (fun t => 1 - t) Pw); [|apply Pw_cont; auto]. apply ex_derive_cont. auto_derive. auto.
Qed.
Lemma inv_e p : 0 < l -> 0 <= p <= 1 -> invcdf (Fin p) (Fin l) (Fin 0) (Fin 1) = Fin (Qe p).
Proof.
  intros L P. destruct (Req_dec p 0) as [->|P0]; [|destruct (Req_dec p 1) as [->|P1]].
  - rewrite inv_0 by lra. rewrite Rltb_true by auto. f_equal. unfold Qe. rewrite Pw_neg, Pw_pos by lra. replace (1 - 0) with 1 by ring. rewrite Rpower_1_l. field. lra.
  - rewrite inv_1 by lra. rewrite Rltb_true by auto. f_equal. unfold Qe. rewrite (Pw_pos 1), Pw_neg by lra. rewrite Rpower_1_l. field. lra.
  - rewrite inv_in0 by lra. f_equal. unfold Qe, P_tukeylambda.Q. rewrite !Pw_pos by lra. reflexivity.
Qed.

Section Loop.
Variables z delta : R.
Hypothesis I : inside lo hi z.
Hypothesis D : 0 < delta.
Notation r := (F z).
Lemma rP : 0 < r < 1 /\ Q r = z. Proof. apply FQ; auto. Qed.
Lemma sgn_mid p : 0 < p < 1 -> vsign (vsub (invcdf (Fin p) (Fin l) (Fin 0) (Fin 1)) (Fin z)) = if Rltb p r then Fin (-1) else if Rltb r p then Fin 1 else Fin 0.
Proof.
  intros P. rewrite inv_in0 by auto. destruct rP as [RP E]. destruct (Rtotal_order p r) as [H|[H|H]].
  - rewrite Rltb_true by auto. assert (Q p < z) by (rewrite <- E; apply Q_mono; auto; lra). cbn [vsub vadd vneg]. first [rewrite vsign_neg by lra|rewrite vsign_pos by lra]. reflexivity.
  - rewrite H, Rltb_false by lra. rewrite E. cbn [vsub vadd vneg]. replace (z + - z) with 0 by ring. rewrite vsign_0. reflexivity.
  - rewrite Rltb_false, Rltb_true by lra. assert (z < Q p) by (rewrite <- E; apply Q_mono; auto; lra). cbn [vsub vadd vneg]. first [rewrite vsign_neg by lra|rewrite vsign_pos by lra]. reflexivity.
Qed.

Definition sm_ok (sm : val) (a : R) := sm = Fin (-1) \/ sm = Fin 0 /\ a = r.
Lemma loop_S n (m delta0 sm z0 l0 a b : val) : refine_loop (Datatypes.S n) delta0 m sm z0 l0 a b =
  cif (cgt (vdiv (vsub b a) m) delta0)
   (bindv (vsign (vsub (invcdf (vdiv (vadd a b) (Fin 2)) l0 (Fin 0) (Fin 1)) z0)) (fun sg =>
      cif (ceq sg (Fin 0)) (Ok (vdiv (vadd a b) (Fin 2), vdiv (vadd a b) (Fin 2)))
       (cif (ceq sg sm) (refine_loop n delta0 m sm z0 l0 (vdiv (vadd a b) (Fin 2)) b) (refine_loop n delta0 m sm z0 l0 a (vdiv (vadd a b) (Fin 2)))))) (Ok (a, b)).
Proof. reflexivity. Qed.
Opaque refine_loop.
Lemma loop_ok m sm : 0 < m -> forall (n : nat) (a b : R), 0 <= a -> a <= r -> r <= b -> b <= 1 -> sm_ok sm a -> b - a <= delta * m * 2 ^ n ->
  exists a' b' : R, refine_loop (Datatypes.S n) (Fin delta) (Fin m) sm (Fin z) (Fin l) (Fin a) (Fin b) = Ok (Fin a', Fin b') /\ a <= a' /\ a' <= r /\ r <= b' /\ b' <= b /\ b' - a' <= delta * m.
Proof.
  intros M. destruct rP as [RP E]. induction n; intros a b A AR RB B SM W.
  - exists a, b. assert (W' : (b - a) / m <= delta) by (apply Rle_div_l; auto; lra). split; [|lra]. rewrite loop_S. veval. reflexivity.
  - rewrite loop_S. destruct (Rle_lt_dec ((b - a) / m) delta) as [G|G].
    + exists a, b. split; [veval; reflexivity|]. apply Rle_div_l in G; auto. lra.
    + assert (AB : delta * m < b - a) by (apply Rlt_div_r in G; auto). assert (0 < delta * m) by (apply Rmult_lt_0_compat; auto).
      assert (MD : a < (a + b) / 2 < b) by lra. assert (W2 : (b - a) / 2 <= delta * m * 2 ^ n) by (simpl in W; lra).
      veval. rewrite sgn_mid by lra. set (c := (a + b) / 2) in *. destruct (Rtotal_order c r) as [H1|[H1|H1]].
      * rewrite Rltb_true by auto. cbn [bindv]. destruct SM as [->|[-> AE]]; [|lra]. veval.
        destruct (IHn c b) as (a' & b' & EQ & P); [lra|lra|lra|auto|left; auto|unfold c; lra|]. exists a', b'. split; [exact EQ|lra].
      * rewrite H1, !Rltb_false by lra. cbn [bindv]. veval. exists r, r. repeat split; try lra.
      * rewrite Rltb_false, Rltb_true by lra. cbn [bindv]. destruct (IHn a c) as (a' & b' & EQ & P); [lra|lra|lra|lra|auto|unfold c; lra|].
        exists a', b'. split; [|lra]. destruct SM as [->|[-> AE]]; veval; exact EQ.
Qed.
Lemma refine_ok n a b : 2 <= delta * 2 ^ n -> 0 <= a -> a <= r -> r <= b -> b <= 1 ->
  exists a' b' : R, refine_bracket (Datatypes.S n) (Fin delta) (Fin a) (Fin b) (Fin z) (Fin l) = Ok (Fin a', Fin b') /\ a <= a' /\ a' <= r /\ r <= b' /\ b' <= b /\ b' - a' <= delta * ((a + b) / 2).
Proof.
  intros FU A AR RB B. destruct rP as [RP E].
  assert (SA : exists sm, vsign (vsub (invcdf (Fin a) (Fin l) (Fin 0) (Fin 1)) (Fin z)) = sm /\ sm_ok sm a /\ forall e, sm <> Exc e).
  { eexists. split; [reflexivity|]. destruct (Req_dec a 0) as [->|A0].
    - rewrite inv_0 by lra. destruct (Rltb_spec 0 l) as [[L ->]|[L ->]]; [|unfold vsign; simpl; split; [left; reflexivity|discriminate]].
      destruct I as [I1 _]. unfold P_tukeylambda.lo in I1. rewrite Rltb_true in I1 by auto. simpl in I1. cbn [vsub vadd vneg]. rewrite vsign_neg; [split; [left; reflexivity|discriminate]|]. lra.
    - rewrite sgn_mid by lra. destruct (Rltb_spec a r) as [[G ->]|[G ->]]; [split; [left; reflexivity|discriminate]|]. rewrite Rltb_false by lra. split; [right; split; [reflexivity|lra]|discriminate]. }
  assert (SB : exists sm, vsign (vsub (invcdf (Fin b) (Fin l) (Fin 0) (Fin 1)) (Fin z)) = sm /\ forall e, sm <> Exc e).
  { eexists. split; [reflexivity|]. destruct (Req_dec b 1) as [->|A0].
    - rewrite inv_1 by lra. destruct (Rltb 0 l); [|simpl; discriminate]. cbn [vsub vadd vneg]. unfold vsign. destruct (Rltb 0 _); [discriminate|]. destruct (Rltb _ 0); discriminate.
    - rewrite sgn_mid by lra. destruct (Rltb b r); [discriminate|]. destruct (Rltb r b); discriminate. }
  destruct SA as (sa & SA & SMA & NA). destruct SB as (sb & SB & NB).
  unfold refine_bracket. veval. cbn [bindv]. rewrite SA, SB. assert (BV : forall (v : val) (k : val -> res (val * val)), (forall e, v <> Exc e) -> bindv v k = k v) by (intros [| | | |] k NE; try reflexivity; exfalso; eapply NE; reflexivity).
  rewrite (BV sa), (BV sb) by auto.
  apply loop_ok; auto; [lra|]. assert (b - a <= 2 * ((a + b) / 2)) by lra. assert (0 < (a + b) / 2) by lra. nra.
Qed.

Lemma bracket_neg : l < 0 -> z <> 0 -> exists a b : R, cdf_solver_bracket (Fin z) (Fin l) = (Fin a, Fin b) /\ 0 <= a /\ a <= r /\ r <= b /\ b <= 1 /\ (z < 0 -> b <= 1 / 2 /\ Rpower 2 (1 / l) * b <= r).
Proof.
  intros L Z. destruct (Rtotal_order z 0) as [H|[H|H]]; [|lra|].
  - destruct (up_ok z L H) as [U1 U2]. destruct (dn_ok z L H) as [D1 D2]. eexists. eexists. split; [|repeat split; [apply D1|apply D2|apply U1|lra|apply U2|apply up_low; auto]].
    unfold cdf_solver_bracket. pose proof (Rpower_pos 2 (- l)). f_equal.
    + destruct (Rltb_spec z (- Rpower 2 (- l - 1))) as [[C0 ->]|[C0 ->]]; veval; reflexivity.
    + destruct (Rltb_spec z (Rpower 2 (- l) / l)) as [[C0 ->]|[C0 ->]]; veval; [|reflexivity]. assert (0 < l * z) by nra. veval. reflexivity.
  - assert (H' : - z < 0) by lra. destruct (up_ok (- z) L H') as [U1 U2]. destruct (dn_ok (- z) L H') as [D1 D2].
    rewrite F_sym in U1, D2 by auto.
    match type of U2 with ?u <= _ => set (U := u) in * end. match type of D1 with _ <= ?u => set (DD := u) in * end.
    exists (1 - U), (1 - DD). split; [|repeat split; lra].
    unfold cdf_solver_bracket. pose proof (Rpower_pos 2 (- l)). assert (0 < - l * z) by nra. f_equal.
    + unfold U. destruct (Rltb_spec (- z) (Rpower 2 (- l) / l)) as [[C0 ->]|[C0 ->]].
      * assert (- Rpower 2 (- l) / l < z) by (unfold Rdiv in *; lra). veval. f_equal. unfold Rpower. replace (l * - z) with (- l * z) by ring. replace (1 / l * ln (- l * z)) with (ln (- l * z) / l) by (field; lra). ring.
      * assert (z <= - Rpower 2 (- l) / l) by (unfold Rdiv in *; lra). veval. f_equal. lra.
    + unfold DD. destruct (Rltb_spec (- z) (- Rpower 2 (- l - 1))) as [[C0 ->]|[C0 ->]]; veval; f_equal; lra.
Qed.
(** [delta] against the root: the refined bracket stays away from 0 and 1. *)
Definition reach := 0 < l \/ delta < r < 1 - delta \/ (z < 0 /\ delta < 2 * Rpower 2 (1 / l)).
Lemma solve_ok fr n : bracket_solver fr -> 2 <= delta * 2 ^ n -> z <> 0 -> reach ->
  (let '(pmin, pmax) := cdf_solver_bracket (Fin z) (Fin l) in
   bindv pmin (fun pmin => bindv pmax (fun pmax =>
   match refine_bracket (Datatypes.S n) (Fin delta) pmin pmax (Fin z) (Fin l) with
   | Err e => Exc e
   | Ok b => fr (fun t => vsub (invcdf t (Fin l) (Fin 0) (Fin 1)) (Fin z)) b
   end))) = Fin r.
Proof.
  intros FR N Z RE. destruct rP as [RP E].
  assert (B : exists a b : R, cdf_solver_bracket (Fin z) (Fin l) = (Fin a, Fin b) /\ 0 <= a /\ a <= r /\ r <= b /\ b <= 1 /\ (l < 0 -> z < 0 -> b <= 1 / 2 /\ Rpower 2 (1 / l) * b <= r)).
  { destruct (Rlt_le_dec l 0) as [L|L].
    - destruct (bracket_neg L Z) as (a & b & BE & P). exists a, b. split; auto. repeat split; try apply P; auto.
    - exists 0, 1. split; [|lra]. unfold cdf_solver_bracket. veval. reflexivity. }
  destruct B as (a & b & -> & A & AR & RB & B & BH). cbn [bindv].
  destruct (refine_ok n a b N A AR RB B) as (a' & b' & -> & A1 & A2 & A3 & A4 & A5).
  assert (OK : exists G : R -> R, (forall t, a' <= t <= b' -> invcdf (Fin t) (Fin l) (Fin 0) (Fin 1) = Fin (G t) /\ continuity_pt G t /\ (0 < t < 1 -> G t = Q t)) /\ (forall t, a' <= t <= b' -> G t = z -> t = r) /\ G a' <= z <= G b').
  { destruct (Rlt_le_dec 0 l) as [L|L].
    - exists Qe. assert (EQ : forall t, 0 < t < 1 -> Qe t = Q t) by (intros t T; unfold Qe, P_tukeylambda.Q; rewrite !Pw_pos by lra; reflexivity).
      assert (E0 : Qe 0 < z). { unfold Qe. rewrite Pw_neg, Pw_pos by lra. replace (1 - 0) with 1 by ring. rewrite Rpower_1_l. destruct I as [I1 _]. unfold P_tukeylambda.lo in I1. rewrite Rltb_true in I1 by auto. simpl in I1. unfold Rdiv in *. lra. }
      assert (E1 : z < Qe 1). { unfold Qe. rewrite (Pw_pos 1), Pw_neg by lra. rewrite Rpower_1_l. destruct I as [_ I1]. unfold P_tukeylambda.hi in I1. rewrite Rltb_true in I1 by auto. simpl in I1. unfold Rdiv in *. lra. }
      split; [|split].
      + intros t T. split; [apply inv_e; auto; lra|]. split; [|apply EQ]. apply continuity_pt_filterlim. apply Qe_cont; auto.
      + intros t T TZ. destruct (Req_dec t 0) as [->|T0]; [lra|]. destruct (Req_dec t 1) as [->|T1]; [lra|]. rewrite EQ in TZ by lra. destruct (Rtotal_order t r) as [G|[G|G]]; auto; apply (Q_mono l HL) in G; lra.
      + split. * destruct (Req_dec a' 0) as [->|T0]; [lra|]. rewrite EQ by lra. rewrite <- E. apply Q_mono_le; auto; lra.
        * destruct (Req_dec b' 1) as [->|T0]; [lra|]. rewrite EQ by lra. rewrite <- E. apply Q_mono_le; auto; lra.
    - assert (LN : l < 0) by lra. assert (IN : 0 < a' /\ b' < 1).
      { assert (M1 : (a + b) / 2 <= 1) by lra. assert (W : b' - a' <= delta) by nra. destruct RE as [RE|[RE|[RZ RE]]]; [lra|lra|]. specialize (BH LN RZ). split; [|lra].
        assert (0 < a' \/ a' = 0) as [?|A0] by lra; auto. exfalso. assert (a = 0) by lra. subst a. assert (b' - a' <= delta * (b / 2)) by (replace (b / 2) with ((0 + b) / 2) by field; auto). assert (0 < b) by lra. nra. }
      exists Q. split; [|split].
      + intros t T. split; [apply inv_in0; lra|]. split; [|auto]. apply (Q_continuity l HL). lra.
      + intros t T TZ. rewrite <- E in TZ. destruct (Rtotal_order t r) as [G|[G|G]]; auto; apply (Q_mono l HL) in G; lra.
      + rewrite <- E. split; apply Q_mono_le; auto; lra. }
  destruct OK as (G & OK1 & OK2 & OK3).
  destruct (FR (fun t => vsub (invcdf t (Fin l) (Fin 0) (Fin 1)) (Fin z)) (fun t => G t - z) a' b') as (x & -> & X & XZ).
  - lra.
  - intros t T. destruct (OK1 t T) as [-> _]. reflexivity.
  - intros t T. destruct (OK1 t T) as (_ & C0 & _). apply continuity_pt_minus; auto. apply continuity_pt_const. intros u v. reflexivity.
  - left. lra.
  - f_equal. apply OK2; auto. lra.
Qed.
End Loop.
Section Vals.
Variables (fr : (val -> val) -> val * val -> val) (n : nat) (delta a s : R).
Hypothesis FR : bracket_solver fr.
Hypothesis D : 0 < delta.
Hypothesis N : 2 <= delta * 2 ^ n.
Hypothesis S : 0 < s.
Notation zz x := ((x - a) / s).
Lemma F_half : F 0 = 1 / 2.
Proof. rewrite <- (Q_half l HL). apply F_Q; auto. lra. Qed.
Lemma cdf_val (x : R) : inside lo hi (zz x) -> reach (zz x) delta -> cdf fr (Datatypes.S n) (Fin delta) (Fin x) (Fin l) (Fin a) (Fin s) = Fin (F (zz x)).
Proof.
  intros I RE. unfold cdf, validate_params, validate_loc_scale. destruct (Req_dec (zz x) 0) as [Z|Z].
  - rewrite Z, F_half. veval. reflexivity.
  - veval. set (z := zz x) in *. pose proof (solve_ok z delta I D fr n FR N Z RE) as K. destruct I as [I1 I2]. unfold P_tukeylambda.lo in I1. unfold P_tukeylambda.hi in I2.
    destruct (Rtotal_order l 0) as [L|[L|L]]; [rewrite Rltb_false in I1, I2 by lra|lra|rewrite Rltb_true in I1, I2 by lra; simpl in I1, I2; assert (- (1 / l) < z) by (unfold Rdiv in *; lra); assert (z < 1 / l) by (unfold Rdiv in *; lra)]; veval; exact K.
Qed.

Lemma inside_opp' z : inside lo hi z -> inside lo hi (- z).
Proof. unfold inside, P_tukeylambda.lo, P_tukeylambda.hi. destruct (Rltb 0 l); simpl; [lra|auto]. Qed.
End Vals.
Lemma sf_val fr n delta a s (x : R) : bracket_solver fr -> 0 < delta -> 2 <= delta * 2 ^ n -> 0 < s -> inside lo hi ((x - a) / s) -> reach (- ((x - a) / s)) delta ->
  sf fr (Datatypes.S n) (Fin delta) (Fin x) (Fin l) (Fin a) (Fin s) = Fin (1 - F ((x - a) / s)).
Proof.
  intros FR D N S I RE. assert (EZ : (- x - - a) / s = - ((x - a) / s)) by (field; lra).
  unfold sf. cbn [vneg]. rewrite (cdf_val fr n delta (- a) s FR D N S); rewrite EZ; auto using inside_opp'. rewrite F_sym; auto.
Qed.
Lemma pdf_val fr n delta a s (x : R) : bracket_solver fr -> 0 < delta -> 2 <= delta * 2 ^ n -> 0 < s -> inside lo hi ((x - a) / s) -> reach ((x - a) / s) delta ->
  pdf fr (Datatypes.S n) (Fin delta) (Fin x) (Fin l) (Fin a) (Fin s) = Fin (f ((x - a) / s) / s).
Proof.
  intros FR D N S I RE. set (z := (x - a) / s) in *.
  assert (K : cdf fr (Datatypes.S n) (Fin delta) (Fin z) (Fin l) (Fin 0) (Fin 1) = Fin (F z)).
  { assert (E1 : (z - 0) / 1 = z) by field. rewrite (cdf_val fr n delta 0 1 FR D N); rewrite ?E1; auto. lra. }
  destruct (FQ l HL z I) as [P E]. assert (QP := q_pos l (F z)). 
  unfold pdf, validate_params, validate_loc_scale, vlog1p. assert (EZ : vdiv (vsub (Fin x) (Fin a)) (Fin s) = Fin z) by (unfold z; veval; reflexivity). rewrite EZ, K. clearbody z.
  assert (V : vdiv (vdiv (Fin 1) (vadd (vpow (Fin (F z)) (vsub (Fin l) (Fin 1))) (vexp (vmul (vsub (Fin l) (Fin 1)) (vlog (vadd (Fin 1) (vneg (Fin (F z))))))))) (Fin s) = Fin (f z / s)).
  { unfold P_tukeylambda.f, P_tukeylambda.q, Rpower at 2. unfold P_tukeylambda.q, Rpower at 2 in QP. pose proof (Rpower_pos (F z) (l - 1)). pose proof (exp_pos ((l - 1) * ln (1 - F z))). veval. f_equal. field. split; [lra|]. unfold Rpower in *. lra. }
  destruct I as [I1 I2]. unfold P_tukeylambda.lo in I1. unfold P_tukeylambda.hi in I2.
  destruct (Rtotal_order l 0) as [L|[L|L]]; [|lra|rewrite Rltb_true in I1, I2 by lra; simpl in I1, I2; assert (- (1 / l) < z) by (unfold Rdiv in *; lra); assert (z < 1 / l) by (unfold Rdiv in *; lra)].
  - vif. exact V.
  - vif. exact V.
Qed.

(** ** Moments *)
Definition V (k : nat) := nsum (fun j => (-1) ^ j * Binomial.C k j * Beta (l * INR j + 1) (INR (k - j) * l + 1)) (k + 1) / l ^ k.
Definition M (k : nat) := if Nat.odd k then 0 else V k.
Lemma LT01 : Rbar_lt 0 1. Proof. simpl. lra. Qed.
Lemma Beta_int a b : 0 < a -> 0 < b -> integrates_to (fun p => Rpower p (a - 1) * Rpower (1 - p) (b - 1)) 0 1 (Beta a b).
Proof. intros A B. exact (if_integral (IncLib.Bi a b A B)). Qed.
Lemma Rpower_pow' x k : 0 < x -> Rpower x l ^ k = Rpower x (l * INR k).
Proof. intros X. rewrite <- Rpower_pow by apply Rpower_pos. apply Rpower_mult. Qed.
Lemma V_int k : -1 < l * INR k -> integrates_to (fun p => Q p ^ k) 0 1 (V k).
Proof.
  intros K. assert (LK : l ^ k <> 0) by (apply pow_nonzero; auto).
  apply (integrates_ext 0 1 LT01 (fun p => / l ^ k * nsum (fun j => ((-1) ^ j * Binomial.C k j) * (Rpower p (INR (k - j) * l + 1 - 1) * Rpower (1 - p) (l * INR j + 1 - 1))) (k + 1))).
  - intros p [P1 P2]. simpl in P1, P2. unfold P_tukeylambda.Q. unfold Rdiv. rewrite Rpow_mult_distr, pow_inv by auto. rewrite Rmult_comm. f_equal.
    replace (Rpower p l - Rpower (1 - p) l) with (- Rpower (1 - p) l + Rpower p l) by ring. rewrite binom_C. replace (k + 1)%nat with (Datatypes.S k) by lia. apply nsum_ext. intros j J.
    replace (- Rpower (1 - p) l) with (-1 * Rpower (1 - p) l) by ring. rewrite Rpow_mult_distr, !Rpower_pow' by lra. replace (INR (k - j) * l + 1 - 1) with (l * INR (k - j)) by ring. replace (l * INR j + 1 - 1) with (l * INR j) by ring. ring.
  - unfold V, Rdiv. rewrite (Rmult_comm _ (/ l ^ k)). apply integrates_scal.
    apply (integrates_nsum 0 1 LT01 (fun j p => ((-1) ^ j * Binomial.C k j) * (Rpower p (INR (k - j) * l + 1 - 1) * Rpower (1 - p) (l * INR j + 1 - 1))) (fun j => ((-1) ^ j * Binomial.C k j) * Beta (l * INR j + 1) (INR (k - j) * l + 1))); [|lia].
    intros j J. apply integrates_scal. rewrite IncLib.Beta_sym. pose proof (pos_INR j). pose proof (pos_INR (k - j)). assert (INR j <= INR k) by (apply le_INR; lia). assert (INR (k - j) <= INR k) by (apply le_INR; lia).
    apply Beta_int; destruct (Rlt_le_dec 0 l); nra.
Qed.
Lemma Q_cont p : 0 < p < 1 -> continuous Q p.
Proof. intros P. apply ex_derive_cont. eexists. apply Q_der; auto. Qed.
Lemma V_odd k : -1 < l * INR k -> Nat.odd k = true -> V k = 0.
Proof.
  intros K O. pose proof (V_int k K) as I.
  assert (SB : subst 0 1 0 1 (fun p => 1 - p) (fun _ => -1) (fun y => 1 - y)).
  { constructor; [simpl; lra| | | |].
    - intros x [A B]; simpl in A, B; split; simpl; lra.
    - intros x _. auto_derive; auto; ring.
    - intros; apply continuous_const.
    - intros y [A B]; simpl in A, B; split; [split; simpl; lra|ring]. }
  assert (DEC : forall x, inside 0 1 x -> (fun _ : R => -1) x < 0) by (intros; lra).
  assert (I2 : integrates_to (fun p => -1 * Q p ^ k) 0 1 (V k)).
  { apply (integrates_ext 0 1 LT01 (fun p => Q (1 - p) ^ k * - -1)).
    - intros p [P1 P2]. simpl in P1, P2. rewrite Q_sym by auto. apply Nat.odd_spec in O. destruct O as [j ->]. replace (2 * j + 1)%nat with (Datatypes.S (2 * j)) by lia. rewrite <- !tech_pow_Rmult, !pow_mult. replace ((- Q p) ^ 2) with (Q p ^ 2) by ring. ring.
    - apply (sub_integral_dec SB DEC (fun p => Q p ^ k) (V k)); auto. intros y [A B]. simpl in A, B. apply (continuous_comp Q (fun u => u ^ k)); [apply Q_cont; auto|]. apply ex_derive_cont. auto_derive. auto. }
  pose proof (integrates_unique 0 1 LT01 _ _ _ I2 (integrates_scal 0 1 (-1) _ _ I)). lra.
Qed.
Lemma M_int k : -1 < l * INR k -> integrates_to (fun p => Q p ^ k) 0 1 (M k).
Proof. intros K. unfold M. destruct (Nat.odd k) eqn:O; [|apply V_int; auto]. pose proof (V_int k K) as I. rewrite (V_odd k K O) in I. exact I. Qed.
Lemma sub_k k n : (k <= n)%nat -> -1 < l * INR n -> -1 < l * INR k.
Proof. intros K N. apply le_INR in K. pose proof (pos_INR k). destruct (Rlt_le_dec 0 l); nra. Qed.
Lemma M0 : M 0 = 1.
Proof. unfold M, V. simpl. unfold Binomial.C. simpl. replace (l * 0 + 1) with 1 by ring. replace (0 * l + 1) with 1 by ring. rewrite IncLib.Beta_1 by lra. field. Qed.
Lemma std_mom k : -1 < l * INR k -> standard_noncentral_moment k (Fin l) = Fin (M k).
Proof.
  intros K. unfold standard_noncentral_moment. destruct k as [|k]; [simpl Nat.eqb; rewrite M0; auto|]. change (Nat.eqb (Datatypes.S k) 0) with false. set (N := Datatypes.S k) in *. cbv iota. unfold M.
  destruct (Nat.odd N); auto. assert (l ^ N <> 0) by (apply pow_nonzero; auto).
  rewrite (vfsum_seq _ (fun j => (-1) ^ j * Binomial.C N j * Beta (l * INR j + 1) (INR (N - j) * l + 1))); [veval; reflexivity|].
  intros j J. pose proof (sub_k j N ltac:(lia) K). pose proof (sub_k (N - j) N ltac:(lia) K). unfold vbeta. cbn [vmul vadd]. rewrite !Rltb_true by lra. reflexivity.
Qed.
Section MomLS.
Variables a s : R.
Hypothesis S : 0 < s.
Lemma mom_val n : -1 < l * INR n -> noncentral_moment n (Fin l) (Fin a) (Fin s) = Fin (lsM a s M n).
Proof.
  intros K. unfold noncentral_moment, validate_params, validate_loc_scale. vif. destruct n as [|n].
  - simpl Nat.eqb. unfold lsM. cbn [nsum Nat.add]. rewrite M0. unfold Binomial.C. simpl. f_equal. field.
  - change (Nat.eqb (Datatypes.S n) 0) with false. cbv iota. apply vfsum_seq. intros k J. rewrite std_mom by (apply (sub_k k (Datatypes.S n)); auto; lia). veval. reflexivity.
Qed.
Lemma qmom n : -1 < l * INR n -> integrates_to (fun p => (a + s * Q p) ^ n) 0 1 (lsM a s M n).
Proof.
  intros K. unfold lsM. replace (n + 1)%nat with (Datatypes.S n) by lia.
  apply (integrates_ext 0 1 LT01 (fun z => nsum (fun i => (Binomial.C n i * a ^ (n - i) * s ^ i) * (Q z ^ i)) (Datatypes.S n))).
  + intros z _. rewrite (Rplus_comm a). rewrite binom_C. apply nsum_ext. intros i I. rewrite Rpow_mult_distr. ring.
  + apply (integrates_nsum 0 1 LT01 (fun i z => (Binomial.C n i * a ^ (n - i) * s ^ i) * (Q z ^ i)) (fun i => (Binomial.C n i * a ^ (n - i) * s ^ i) * M i)); [|lia].
    intros i I. apply integrates_scal. apply M_int. apply (sub_k i n); auto; lia.
Qed.
Lemma M2_val : -1 < l * 2 -> M 2 = 2 / l ^ 2 * (1 / (1 + 2 * l) - Gamma (l + 1) ^ 2 / Gamma (2 * l + 2)).
Proof.
  intros K. unfold M, V. change (Nat.odd 2) with false. cbv iota. cbn [nsum Nat.add]. unfold Binomial.C. simpl fact. simpl Nat.sub. simpl INR.
  replace (l * 0 + 1) with 1 by ring. replace ((1 + 1) * l + 1) with (2 * l + 1) by ring. replace (l * (1 + 1) + 1) with (2 * l + 1) by ring. replace (0 * l + 1) with 1 by ring.
  rewrite (IncLib.Beta_sym 1), IncLib.Beta_1 by lra. replace (l * 1 + 1) with (l + 1) by ring. replace (1 * l + 1) with (l + 1) by ring. unfold Beta. replace (l + 1 + (l + 1)) with (2 * l + 2) by ring.
  pose proof (GammaLib.Gamma_pos (2 * l + 2) ltac:(lra)). field. repeat split; lra.
Qed.
Lemma mean_val : -1 < l -> mean (Fin l) (Fin a) (Fin s) = Fin (a + s * M 1).
Proof. intros K. unfold mean, validate_params, validate_loc_scale, M. change (Nat.odd 1) with true. cbv iota. veval. f_equal. ring. Qed.
Lemma var_val : -1 < l * 2 -> var (Fin l) (Fin a) (Fin s) = Fin (s ^ 2 * M 2).
Proof.
  intros K. rewrite M2_val by auto. unfold var, validate_params, validate_loc_scale. assert (0 < Gamma (2 * l + 2)) by (apply GammaLib.Gamma_pos; lra).
  cbv zeta. change (vadd (Fin l) (Fin 1)) with (Fin (l + 1)). change (vadd (vmul (Fin 2) (Fin l)) (Fin 2)) with (Fin (2 * l + 2)). rewrite !GamLib.vgam by lra.
  assert (l ^ 2 <> 0) by (apply pow_nonzero; auto). veval. f_equal.
Qed.
End MomLS.
Lemma f_int k : -1 < l * INR k -> integrates_to (fun z => z ^ k * f z) lo hi (M k).
Proof.
  intros K. pose proof (ST l HL) as [[S1 S2 S3 S4] SC SQ].
  assert (SB : subst lo hi 0 1 F f Q).
  { constructor; [simpl; lra| |exact S3|exact SC|].
    - intros x Hx. destruct (FQ l HL x Hx) as [P _]. split; simpl; lra.
    - intros y [A B]. simpl in A, B. split; [apply Q_in; auto|apply F_Q; auto]. }
  apply (integrates_ext lo hi S1 (fun x => Q (F x) ^ k * f x)).
  - intros x Hx. destruct (FQ l HL x Hx) as [_ ->]. reflexivity.
  - apply (sub_integral SB S4 (fun p => Q p ^ k) (M k)); [|apply M_int; auto]. intros y [A B]. simpl in A, B. apply (continuous_comp Q (fun u => u ^ k)); [apply Q_cont; auto|]. apply ex_derive_cont. auto_derive. auto.
Qed.
End Cdf.

Lemma support_val (l a s : R) : 0 < s -> support (Fin l) (Fin a) (Fin s) = if Rleb l 0 then Ok (NInf, PInf) else Ok (Fin (a - s / l), Fin (a + s / l)).
Proof. intros S. unfold support, validate_params, validate_loc_scale. destruct (Rleb_spec l 0) as [[L ->]|[L ->]]; veval; reflexivity. Qed.

Section P.
Variables (fr : (val -> val) -> val * val -> val) (n : nat) (delta lam loc scale : R).
Hypothesis FR : bracket_solver fr.
Hypothesis D : 0 < delta.
Hypothesis N : 2 <= delta * 2 ^ n.
Hypothesis L : 0 < lam.
Hypothesis S : 0 < scale.
Let HL : lam <> 0. Proof. lra. Qed.
Notation F' := (F lam). Notation f' := (f lam).
Lemma LO : Finite (loc - scale / lam) = ls loc scale (lo lam).
Proof. unfold lo. rewrite Rltb_true by auto. simpl. f_equal. field. lra. Qed.
Lemma HI : Finite (loc + scale / lam) = ls loc scale (hi lam).
Proof. unfold hi. rewrite Rltb_true by auto. simpl. f_equal. field. lra. Qed.
Lemma out_lo x : x <= loc - scale / lam -> (x - loc) / scale <= - (1 / lam).
Proof. intros H. apply Rle_div_l; auto. replace (- (1 / lam) * scale) with (- (scale / lam)) by (field; lra). lra. Qed.
Lemma out_hi x : loc + scale / lam <= x -> 1 / lam <= (x - loc) / scale.
Proof. intros H. apply (Rle_div_r (1 / lam) (x - loc) scale); auto. replace (1 / lam * scale) with (scale / lam) by (field; lra). lra. Qed.
Notation cdf' := (fun x => cdf fr (Datatypes.S n) (Fin delta) x (Fin lam) (Fin loc) (Fin scale)).
Notation sf' := (fun x => sf fr (Datatypes.S n) (Fin delta) x (Fin lam) (Fin loc) (Fin scale)).
Lemma IL : 0 < 1 / lam. Proof. apply Rdiv_pos; lra. Qed.
Lemma cdf_gen_lo (x a : R) : (x - a) / scale <= - (1 / lam) -> cdf fr (Datatypes.S n) (Fin delta) (Fin x) (Fin lam) (Fin a) (Fin scale) = Fin 0.
Proof. intros H. pose proof IL. unfold cdf, validate_params, validate_loc_scale. veval. reflexivity. Qed.
Lemma cdf_gen_hi (x a : R) : 1 / lam <= (x - a) / scale -> cdf fr (Datatypes.S n) (Fin delta) (Fin x) (Fin lam) (Fin a) (Fin scale) = Fin 1.
Proof. intros H. pose proof IL. unfold cdf, validate_params, validate_loc_scale. veval. reflexivity. Qed.
Lemma neg_z x : (- x - - loc) / scale = - ((x - loc) / scale). Proof. field. lra. Qed.
Lemma CERT : cert (fun x => pdf fr (Datatypes.S n) (Fin delta) x (Fin lam) (Fin loc) (Fin scale)) (fun x => logpdf fr (Datatypes.S n) (Fin delta) x (Fin lam) (Fin loc) (Fin scale)) cdf' sf'
  (fun p => invcdf p (Fin lam) (Fin loc) (Fin scale)) (fun p => invsf p (Fin lam) (Fin loc) (Fin scale)) (Finite (loc - scale / lam)) (Finite (loc + scale / lam))
  (fun x => F' ((x - loc) / scale)) (fun x => f' ((x - loc) / scale) / scale) (fun p => loc + scale * Q lam p).
Proof.
  pose proof IL. apply (ls_cert (lo lam) (hi lam) F' f' (Q lam) (ST lam HL) loc scale S); [apply LO|apply HI| | | |].
  - constructor.
    + intros x Hx. rewrite LO, HI in Hx. apply ls_inside in Hx; auto. split; [apply cdf_val; auto; left; auto|apply sf_val; auto; left; auto].
    + intros x Hx. simpl in Hx. apply out_lo in Hx. split; [apply cdf_gen_lo; auto|]. unfold sf. cbn [vneg]. apply cdf_gen_hi. rewrite neg_z. lra.
    + intros x Hx. simpl in Hx. apply out_hi in Hx. split; [apply cdf_gen_hi; auto|]. unfold sf. cbn [vneg]. apply cdf_gen_lo. rewrite neg_z. lra.
    + unfold sf, cdf, validate_params, validate_loc_scale. split; veval; reflexivity.
    + unfold sf, cdf, validate_params, validate_loc_scale. split; veval; reflexivity.
  - intros x Hx. pose proof (pdf_val lam HL fr n delta loc scale x FR D N S Hx (or_introl L)) as E. split; auto. unfold logpdf. rewrite E. unfold validate_params, validate_loc_scale.
    assert (0 < f' ((x - loc) / scale) / scale) by (apply Rdiv_pos; auto; apply (sm_pos _ _ _ _ (st_smooth _ _ _ _ _ (ST lam HL))); auto). veval. reflexivity.
  - intros x Hx. assert (E : pdf fr (Datatypes.S n) (Fin delta) (Fin x) (Fin lam) (Fin loc) (Fin scale) = Fin 0).
    { unfold pdf, validate_params, validate_loc_scale. destruct Hx as [Hx|Hx]; simpl in Hx; [apply Rlt_le, out_lo in Hx|apply Rlt_le, out_hi in Hx]; veval; reflexivity. }
    split; auto. unfold logpdf. rewrite E. unfold validate_params, validate_loc_scale. veval. reflexivity.
  - intros p P. split; [apply inv_in; auto|]. unfold invsf. cbn [vneg]. rewrite inv_in by auto. cbn [vneg]. f_equal. rewrite Q_sym by auto. ring.
Qed.

Lemma compl : complementary (fun x => cdf fr (Datatypes.S n) delta x lam loc scale) (fun x => sf fr (Datatypes.S n) delta x lam loc scale).
Proof. exact (cert_complementary CERT). Qed.
Lemma supp : nondecreasing (fun x => cdf fr (Datatypes.S n) delta x lam loc scale) /\
  supported_on (fun x => cdf fr (Datatypes.S n) delta x lam loc scale) (Fin (loc - scale / lam)) (Fin (loc + scale / lam)) /\
  support lam loc scale = Ok (Fin (loc - scale / lam), Fin (loc + scale / lam)).
Proof. split; [exact (cert_nondecreasing CERT)|split; [exact (cert_supported CERT)|]]. rewrite support_val by auto. rewrite Rleb_false by lra. reflexivity. Qed.
Lemma dens : density_of (fun x => cdf fr (Datatypes.S n) delta x lam loc scale) (fun x => pdf fr (Datatypes.S n) delta x lam loc scale) (loc - scale / lam) (loc + scale / lam).
Proof. exact (cert_density CERT). Qed.
Lemma mass : total_mass_one (fun x => pdf fr (Datatypes.S n) delta x lam loc scale) (loc - scale / lam) (loc + scale / lam).
Proof. exact (cert_total_mass CERT). Qed.
Lemma log_ok (x : R) : log_of (fun x => pdf fr (Datatypes.S n) delta x lam loc scale) (fun x => logpdf fr (Datatypes.S n) delta x lam loc scale) x.
Proof.
  destruct (Req_dec x (loc - scale / lam)) as [E1|E1]; [|destruct (Req_dec x (loc + scale / lam)) as [E2|E2]].
  - right; left. assert (H : x <= loc - scale / lam) by lra. apply out_lo in H. pose proof IL. unfold logpdf, pdf, validate_params, validate_loc_scale. split; veval; reflexivity.
  - right; left. assert (H : loc + scale / lam <= x) by lra. apply out_hi in H. pose proof IL. unfold logpdf, pdf, validate_params, validate_loc_scale. split; veval; reflexivity.
  - apply (cert_log CERT); intros E; injection E as E; lra.
Qed.
Lemma inv_ok : inverse_of (fun x => cdf fr (Datatypes.S n) delta x lam loc scale) (fun p => invcdf p lam loc scale) (loc - scale / lam) (loc + scale / lam).
Proof. exact (cert_inverse CERT). Qed.
Lemma invsf_ok : inverse_of (fun x => sf fr (Datatypes.S n) delta x lam loc scale) (fun p => invsf p lam loc scale) (loc - scale / lam) (loc + scale / lam) /\
  (forall p, 0 < p < 1 -> invsf (Fin p) lam loc scale = invcdf (Fin (1 - p)) lam loc scale).
Proof. exact (conj (cert_inverse_sf CERT) (cert_invsf_invcdf CERT)). Qed.
Lemma PDF x : inside (Finite (loc - scale / lam)) (Finite (loc + scale / lam)) x -> pdf fr (Datatypes.S n) (Fin delta) (Fin x) (Fin lam) (Fin loc) (Fin scale) = Fin (f lam ((x - loc) / scale) / scale).
Proof. intros Hx. apply (ce_pdf _ _ _ _ _ _ _ _ _ _ _ CERT x Hx). Qed.
Notation LSM lem := (lem (lo lam) (hi lam) (F lam) (f lam) (Q lam) (ST lam HL) loc scale (fun x => pdf fr (Datatypes.S n) (Fin delta) x (Fin lam) (Fin loc) (Fin scale)) (Finite (loc - scale / lam)) (Finite (loc + scale / lam)) S LO HI PDF).
Lemma MOM k j : (j <= k)%nat -> integrates_to (fun z => z ^ j * f lam z) (lo lam) (hi lam) (M lam j).
Proof. intros _. apply f_int; auto. pose proof (pos_INR j). nra. Qed.
Lemma moment_ok k : moment_is (fun x => pdf fr (Datatypes.S n) delta x lam loc scale) (loc - scale / lam) (loc + scale / lam) k (noncentral_moment k lam loc scale).
Proof. pose proof (pos_INR k). apply (LSM lsm_moment (M lam) k (MOM k)); [lia|]. apply mom_val; auto. nra. Qed.
Lemma mean_var_ok : mean_is (fun x => pdf fr (Datatypes.S n) delta x lam loc scale) (loc - scale / lam) (loc + scale / lam) (mean lam loc scale) /\
  var_is (fun x => pdf fr (Datatypes.S n) delta x lam loc scale) (loc - scale / lam) (loc + scale / lam) (mean lam loc scale) (var lam loc scale).
Proof.
  split; [apply (LSM lsm_mean (M lam) 1%nat (MOM 1)); [lia|]|apply (LSM lsm_var (M lam) 2%nat (MOM 2)); [lia| |]].
  - apply mean_val; auto; lra.
  - apply mean_val; auto; lra.
  - unfold mvar. change (M lam 1) with 0. replace (M lam 2 - 0 ^ 2) with (M lam 2) by ring. apply var_val; auto; lra.
Qed.
End P.

(** every lambda <> 0, at the point whose probability is p *)
Lemma quant_ok fr n (delta lam loc scale p : R) : bracket_solver fr -> 0 < delta -> 2 <= delta * 2 ^ n -> lam <> 0 -> 0 < scale -> 0 < p < 1 ->
  exists x d : R, invcdf p lam loc scale = Fin x /\ invsf (Fin (1 - p)) lam loc scale = Fin x /\
   is_derive (fun u => toR (invcdf (Fin u) lam loc scale)) p d /\ 0 < d /\
   (0 < lam \/ delta < p < 1 - delta \/ (p < 1/2 /\ delta < 2 * Rpower 2 (1 / lam)) -> cdf fr (Datatypes.S n) delta (Fin x) lam loc scale = Fin p /\
      pdf fr (Datatypes.S n) delta (Fin x) lam loc scale = Fin (/ d) /\ logpdf fr (Datatypes.S n) delta (Fin x) lam loc scale = Fin (ln (/ d))) /\
   (0 < lam \/ delta < p < 1 - delta \/ (1/2 < p /\ delta < 2 * Rpower 2 (1 / lam)) -> sf fr (Datatypes.S n) delta (Fin x) lam loc scale = Fin (1 - p)).
Proof.
  intros FR D N L S P. set (z := Q lam p). assert (I : inside (lo lam) (hi lam) z) by (apply Q_in; auto). assert (FZ : F lam z = p) by (apply F_Q; auto).
  assert (EZ : (loc + scale * z - loc) / scale = z) by (field; lra). assert (HD : Q lam (1 / 2) = 0) by (apply Q_half; auto). assert (QP := q_pos lam p).
  assert (DP : 0 < scale * q lam p) by (apply Rmult_lt_0_compat; auto).
  exists (loc + scale * z), (scale * q lam p). split; [apply inv_in; auto|]. split; [|split; [|split; [|split]]]; auto.
  - unfold invsf. cbn [vneg]. rewrite inv_in by (auto; lra). cbn [vneg]. f_equal. rewrite Q_sym by auto. fold z. ring.
  - apply (is_derive_ext_loc (fun u => loc + scale * Q lam u)).
    + assert (LP : locally p (fun u => 0 < u < 1)) by (apply (locally_interval _ p 0 1); simpl; try lra; auto). revert LP. apply filter_imp. intros u U. rewrite inv_in by auto. reflexivity.
    + pose proof (Q_der lam L p P) as DQ. auto_derive; [exists (q lam p); auto|]. rewrite (is_derive_unique (fun x : R => Q lam x) p (q lam p) DQ). ring.
  - intros RE. assert (RE' : reach lam z delta). { unfold reach. rewrite FZ. destruct RE as [RE|[RE|[R1 R2]]]; auto. right; right. split; auto. rewrite <- HD. apply Q_mono; auto; lra. }
    assert (I' : inside (lo lam) (hi lam) ((loc + scale * z - loc) / scale)) by (rewrite EZ; auto). assert (RE2 : reach lam ((loc + scale * z - loc) / scale) delta) by (rewrite EZ; auto).
    assert (EP : pdf fr (Datatypes.S n) delta (Fin (loc + scale * z)) lam loc scale = Fin (/ (scale * q lam p))).
    { rewrite (pdf_val lam L fr n delta loc scale) by auto. rewrite EZ. f_equal. unfold f. rewrite FZ. field. lra. }
    split; [rewrite (cdf_val lam L fr n delta loc scale) by auto; rewrite EZ, FZ; auto|]. split; auto. unfold logpdf. rewrite EP. unfold validate_params, validate_loc_scale. assert (0 < / (scale * q lam p)) by (apply Rinv_0_lt_compat; auto). veval. reflexivity.
  - intros RE. assert (RE' : reach lam (- z) delta). { unfold reach. rewrite F_sym, FZ by auto. destruct RE as [RE|[RE|[R1 R2]]]; auto; [right; left; lra|]. right; right. split; auto. assert (0 < z) by (rewrite <- HD; apply Q_mono; auto; lra). lra. }
    rewrite (sf_val lam L fr n delta loc scale); auto; rewrite EZ; auto. rewrite FZ. reflexivity.
Qed.
Lemma qmoment_ok (lam loc scale : R) k : lam <> 0 -> 0 < scale -> -1 < lam * INR k ->
  exists m, noncentral_moment k lam loc scale = Fin m /\ integrates_to (fun p => toR (invcdf (Fin p) lam loc scale) ^ k) 0 1 m.
Proof.
  intros L S K. eexists. split; [apply mom_val; auto|]. apply (integrates_ext 0 1 LT01 (fun p => (loc + scale * Q lam p) ^ k)); [|apply qmom; auto].
  intros p [P1 P2]. simpl in P1, P2. rewrite inv_in by auto. reflexivity.
Qed.
Lemma qmean_var_ok (lam loc scale : R) : lam <> 0 -> 0 < scale ->
  (-1 < lam -> mean lam loc scale = Fin loc /\ integrates_to (fun p => toR (invcdf (Fin p) lam loc scale)) 0 1 loc) /\
  (-1/2 < lam -> exists v, var lam loc scale = Fin v /\ integrates_to (fun p => (toR (invcdf (Fin p) lam loc scale) - loc) ^ 2) 0 1 v).
Proof.
  intros L S. split.
  - intros K. assert (E : loc + scale * M lam 1 = loc) by (change (M lam 1) with 0; ring). split; [rewrite mean_val by auto; rewrite E; auto|].
    pose proof (qmom lam L loc scale 1 ltac:(simpl; lra)) as I.
    assert (E1 : lsM loc scale (M lam) 1 = loc + scale * M lam 1) by (unfold lsM; cbn [nsum Nat.add Nat.sub]; rewrite M0 by auto; unfold Binomial.C; simpl; field). rewrite E1, E in I.
    revert I. apply (integrates_ext 0 1 LT01). intros p [P1 P2]. simpl in P1, P2. rewrite inv_in by auto. simpl toR. ring.
  - intros K. exists (scale ^ 2 * M lam 2). split; [apply var_val; auto; lra|].
    apply (integrates_ext 0 1 LT01 (fun p => scale ^ 2 * Q lam p ^ 2)); [|apply integrates_scal; apply M_int; auto; simpl; lra].
    intros p [P1 P2]. simpl in P1, P2. rewrite inv_in by auto. simpl toR. ring.
Qed.
Lemma ends (lam loc scale : R) : 0 < scale -> rejects_bad_p (fun p => invcdf p lam loc scale) /\ rejects_bad_p (fun p => invsf p lam loc scale) /\
  (0 < lam -> at_ends (fun p => invcdf p lam loc scale) (Fin (loc - scale / lam)) (Fin (loc + scale / lam)) /\ at_ends (fun p => invsf p lam loc scale) (Fin (loc + scale / lam)) (Fin (loc - scale / lam))) /\
  (lam <= 0 -> at_ends (fun p => invcdf p lam loc scale) NInf PInf /\ at_ends (fun p => invsf p lam loc scale) PInf NInf).
Proof.
  intros S. split; [|split; [|split]].
  - split; [intros p [B|B]|split]; unfold invcdf, validate_p; veval; reflexivity.
  - split; [intros p [B|B]|split]; unfold invsf, invcdf, validate_p; veval; reflexivity.
  - intros L. unfold at_ends, invsf. cbn [vneg]. rewrite !inv_0, !inv_1 by lra. rewrite !Rltb_true by auto. cbn [vneg]. repeat split; f_equal; ring.
  - intros L. destruct (Req_dec lam 0) as [->|L0].
    + unfold at_ends, invsf, invcdf, validate_p, validate_params, validate_loc_scale, vlog1p. repeat split; veval; reflexivity.
    + unfold at_ends, invsf. cbn [vneg]. rewrite !inv_0, !inv_1 by lra. rewrite !Rltb_false by auto. repeat split.
Qed.
Lemma bad_params fr n delta lam loc scale : isnum scale -> nonpositive scale ->
  support lam loc scale = Err ValueError /\ noncentral_moment 2 lam loc scale = Exc ValueError /\
  always_ValueError [fun x => pdf fr n delta x lam loc scale; fun x => logpdf fr n delta x lam loc scale; fun x => cdf fr n delta x lam loc scale; fun x => sf fr n delta x lam loc scale;
    fun p => invcdf p lam loc scale; fun p => invsf p lam loc scale; fun _ => mean lam loc scale; fun _ => var lam loc scale].
Proof.
  intros N B. assert (V : forall A `{CanRaise A} (l0 : val) (k : A), validate_params lam l0 scale k = raise ValueError) by (intros A H l0 k; unfold validate_params, validate_loc_scale; inversion B; subst; vif; reflexivity).
  split; [apply (V (res (val * val)))|]. split; [apply (V val)|].
  all_ve; intros x X; first [apply (V val)|unfold invcdf; apply vpp_pass; auto; apply (V val)|unfold invsf, invcdf; rewrite vpp_pass; [reflexivity|auto|apply (V val)]].
Qed.
Lemma log_p (z : R) : 1 / (exp (- z) + 1) = P_logistic.F z /\ 1 / (exp z + 1) = 1 - P_logistic.F z.
Proof. unfold P_logistic.F. rewrite exp_Ropp. pose proof (exp_pos z). split; field; repeat split; lra. Qed.
Lemma cdf_0 fr n delta (x loc scale : R) : 0 < scale -> cdf fr n delta x 0 loc scale = Fin (P_logistic.F ((x - loc) / scale)).
Proof.
  intros S. destruct (log_p ((x - loc) / scale)) as [E _]. rewrite <- E. unfold cdf, validate_params, validate_loc_scale. pose proof (exp_pos (- ((x - loc) / scale))). destruct (Req_dec ((x - loc) / scale) 0) as [Z|Z].
  - veval. f_equal. rewrite Z, Ropp_0, exp_0. field.
  - veval. reflexivity.
Qed.
Lemma logistic_ok fr n delta (loc scale : R) : 0 < scale ->
  (forall x, ext x -> cdf fr n delta x 0 loc scale = M_logistic.cdf x loc scale /\ sf fr n delta x 0 loc scale = M_logistic.sf x loc scale) /\
  (forall x : R, pdf fr n delta x 0 loc scale = M_logistic.pdf x loc scale /\ logpdf fr n delta x 0 loc scale = M_logistic.logpdf x loc scale) /\
  (forall p, ext p -> invcdf p 0 loc scale = M_logistic.invcdf p loc scale /\ invsf p 0 loc scale = M_logistic.invsf p loc scale) /\
  support 0 loc scale = M_logistic.support loc scale /\ mean 0 loc scale = M_logistic.mean loc scale /\ var 0 loc scale = M_logistic.var loc scale.
Proof.
  intros S. pose proof (P_logistic.CERT loc scale S) as [[CI _ _ [CN1 CN2] [CP1 CP2]] _ _ _ CP _ _].
  assert (IN : forall x : R, inside m_infty p_infty x) by (intros; split; simpl; auto).
  assert (PD : forall x : R, pdf fr n delta x 0 loc scale = Fin (P_logistic.f ((x - loc) / scale) / scale)).
  { intros x. set (z := (x - loc) / scale). assert (K : cdf fr n delta (Fin z) (Fin 0) (Fin 0) (Fin 1) = Fin (P_logistic.F z)) by (rewrite cdf_0 by lra; f_equal; f_equal; field).
    unfold pdf, validate_params, validate_loc_scale, vlog1p. assert (EZ : vdiv (vsub (Fin x) (Fin loc)) (Fin scale) = Fin z) by (unfold z; veval; reflexivity). rewrite EZ, K. clearbody z.
    assert (P : 0 < P_logistic.F z < 1) by (destruct (log_p z) as [E1 E2]; pose proof (Rdiv_pos 1 (exp (- z) + 1) ltac:(lra) ltac:(pose proof (exp_pos (- z)); lra)); pose proof (Rdiv_pos 1 (exp z + 1) ltac:(lra) ltac:(pose proof (exp_pos z); lra)); lra).
    pose proof (Rpower_pos (P_logistic.F z) (0 - 1)). pose proof (exp_pos ((0 - 1) * ln (1 - P_logistic.F z))). veval. f_equal. f_equal.
    assert (E1 : Rpower (P_logistic.F z) (0 - 1) = / P_logistic.F z) by (replace (0 - 1) with (- (1)) by ring; rewrite Rpower_Ropp, Rpower_1 by lra; auto).
    assert (E2 : exp ((0 - 1) * ln (1 - P_logistic.F z)) = / (1 - P_logistic.F z)) by (replace ((0 - 1) * ln (1 - P_logistic.F z)) with (- ln (1 - P_logistic.F z)) by ring; rewrite exp_Ropp, exp_ln by lra; auto).
    rewrite E1, E2. pose proof (exp_pos z). assert (FE : P_logistic.F z = exp z / (exp z + 1)) by (unfold P_logistic.F; field; lra). rewrite FE. replace (1 - exp z / (exp z + 1)) with (1 / (exp z + 1)) by (field; lra). unfold P_logistic.f. assert (0 < exp z * (exp z + 1)) by nra. field. repeat split; try lra; nra. }
  split; [|split; [|split; [|split; [|split]]]].
  - intros x [r| |].
    + destruct (CI r (IN r)) as [-> ->]. split; [apply cdf_0; auto|]. unfold sf. cbn [vneg]. rewrite cdf_0 by auto. f_equal. replace ((- r - - loc) / scale) with (- ((r - loc) / scale)) by (field; lra).
      rewrite <- (proj2 (log_p _)), <- (proj1 (log_p _)), Ropp_involutive. reflexivity.
    + rewrite CP1, CP2. unfold sf, cdf, validate_params, validate_loc_scale. split; veval; f_equal; field.
    + rewrite CN1, CN2. unfold sf, cdf, validate_params, validate_loc_scale. split; veval; f_equal; field.
  - intros x. destruct (CP x (IN x)) as [E1 E2]. rewrite E1, E2. split; [apply PD|]. unfold logpdf. rewrite PD. unfold validate_params, validate_loc_scale.
    assert (0 < P_logistic.f ((x - loc) / scale) / scale) by (apply Rdiv_pos; auto; apply (sm_pos _ _ _ _ (st_smooth _ _ _ _ _ P_logistic.ST)); apply IN). veval. reflexivity.
  - intros p P. unfold invsf, invcdf, M_logistic.invcdf, M_logistic.invsf, validate_p, validate_params, validate_loc_scale, vlog1p. destruct P as [r| |]; [|split; veval; reflexivity|split; veval; reflexivity].
    destruct (Rlt_le_dec r 0) as [A|A]; [split; veval; reflexivity|]. destruct (Rlt_le_dec 1 r) as [B|B]; [split; veval; reflexivity|].
    destruct (Req_dec r 0) as [->|R0]; [split; veval; reflexivity|]. destruct (Req_dec r 1) as [->|R1]; [split; veval; reflexivity|]. split; veval; f_equal; ring.
  - unfold support, M_logistic.support, validate_params, validate_loc_scale. veval. reflexivity.
  - unfold mean, M_logistic.mean, validate_params, validate_loc_scale. veval. reflexivity.
  - unfold var, M_logistic.var, validate_params, validate_loc_scale. change vpi with (Fin PI). veval. f_equal. field.
Qed.
(** findings *)
Lemma neg_inf fr n (delta lam loc scale : R) : lam < 0 -> 0 < scale -> 0 < delta ->
  cdf fr (Datatypes.S n) delta NInf lam loc scale = Exc ZeroDivisionError /\ sf fr (Datatypes.S n) delta PInf lam loc scale = Exc ZeroDivisionError.
Proof.
  intros L S D. assert (E : forall a : R, cdf fr (Datatypes.S n) delta NInf lam a scale = Exc ZeroDivisionError).
  { intros a. assert (IL : 1 / lam < 0) by (unfold Rdiv; rewrite Rmult_1_l; apply Rinv_lt_0_compat; auto).
    assert (B : cdf_solver_bracket NInf (Fin lam) = (Fin 0, Fin 0)) by (unfold cdf_solver_bracket; pose proof (Rpower_pos 2 (- lam)); f_equal; veval; reflexivity).
    assert (RB : refine_bracket (Datatypes.S n) (Fin delta) (Fin 0) (Fin 0) NInf (Fin lam) = Err ZeroDivisionError).
    { unfold refine_bracket. rewrite inv_0 by lra. rewrite Rltb_false by lra. cbn [vsub vadd vneg vsign]. assert (E0 : vdiv (Fin (0 + 0)) (Fin 2) = Fin 0) by (veval; f_equal; field). rewrite E0. cbn [bindv]. rewrite loop_S. assert (E1 : vdiv (vsub (Fin 0) (Fin 0)) (Fin 0) = Exc ZeroDivisionError) by (cbn; rewrite Reqb_true by auto; reflexivity). rewrite E1. reflexivity. }
    unfold cdf, validate_params, validate_loc_scale. assert (EZ : vdiv (vsub NInf (Fin a)) (Fin scale) = NInf) by (veval; reflexivity). rewrite EZ, B. cbn [bindv]. rewrite RB. veval. reflexivity. }
  split; [apply E|]. unfold sf. cbn [vneg]. apply E.
Qed.
Lemma mom1_bad (lam loc scale : R) : lam <= -1 -> 0 < scale -> noncentral_moment 1 lam loc scale = Fin loc /\ mean lam loc scale = NaN.
Proof.
  intros L S. unfold noncentral_moment, mean, validate_params, validate_loc_scale. split; [|veval; reflexivity]. vif. cbn [Nat.eqb seq map vfsum Nat.add Nat.sub]. unfold standard_noncentral_moment. cbn [Nat.eqb Nat.odd Nat.even negb].
  unfold Binomial.C. veval. f_equal. simpl. field.
Qed.
Lemma mom2_bad (loc scale : R) : 0 < scale -> noncentral_moment 2 0 loc scale = Exc ZeroDivisionError /\ var 0 loc scale = Fin ((scale * PI) ^ 2 / 3).
Proof.
  intros S. split; [|unfold var, validate_params, validate_loc_scale; change vpi with (Fin PI); veval; reflexivity].
  assert (E : standard_noncentral_moment 2 (Fin 0) = Exc ZeroDivisionError).
  { unfold standard_noncentral_moment. cbn [Nat.eqb Nat.odd Nat.even negb]. rewrite (vfsum_seq _ (fun j => (-1) ^ j * Binomial.C 2 j * Beta 1 1)).
    - cbn [INR]. veval. generalize (nsum (fun j => (-1) ^ j * Binomial.C 2 j * Beta 1 1) (2 + 1)). intros u. replace (0 ^ 2) with 0 by ring. unfold vdiv. rewrite Reqb_true by auto. reflexivity.
    - intros j J. unfold vbeta. cbn [vmul vadd]. replace (0 * INR j + 1) with 1 by ring. replace (INR (2 - j) * 0 + 1) with 1 by ring. rewrite !Rltb_true by lra. reflexivity. }
  unfold noncentral_moment, validate_params, validate_loc_scale. vif. cbn [Nat.eqb seq map vfsum Nat.add Nat.sub]. rewrite E. cbn. reflexivity.
Qed.
Lemma loc_scale fr n (delta lam : R) : bracket_solver fr -> 0 < delta -> 2 <= delta * 2 ^ n -> 0 < lam ->
  loc_scale_law (fun x => pdf fr (S n) delta x lam) (fun x => cdf fr (S n) delta x lam) (fun x => sf fr (S n) delta x lam) (fun p => invcdf p lam) (fun p => invsf p lam) (Finite (- (1 / lam))) (Finite (1 / lam)).
Proof.
  intros FR D N L.
  apply (loc_scale_from_cert (fun x => pdf fr (S n) delta x lam) (fun x => logpdf fr (S n) delta x lam) (fun x => cdf fr (S n) delta x lam) (fun x => sf fr (S n) delta x lam) (fun p => invcdf p lam) (fun p => invsf p lam)
    (Finite (- (1 / lam))) (Finite (1 / lam)) (F lam) (f lam) (Q lam)).
  intros l s S. pose proof (CERT fr n delta lam l s FR D N L S) as K. replace (ls l s (Finite (- (1 / lam)))) with (Finite (l - s / lam)) by (simpl; f_equal; field; lra). replace (ls l s (Finite (1 / lam))) with (Finite (l + s / lam)) by (simpl; f_equal; field; lra). exact K.
Qed.
