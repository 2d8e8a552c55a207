(** Proofs about M_gamma_gompertz. *)
From Coq Require Import Reals Lra List.
From Coquelicot Require Import Coquelicot.
From Verif Require Import Values VTac Spec RLib DistLib DistLS DistSc LimLib MomLib PLib M_common M_fun.
From Verif Require Import M_gamma_gompertz.
Import ListNotations.
Local Open Scope R_scope.
Set Bullet Behavior "Strict Subproofs".

(** Weighted AM-GM with weights 1 and c. *)
Lemma ln_mix c w : 0 < c -> 0 < w -> ln w <= (c + 1) * ln ((c + w) / (c + 1)).
Proof.
  intros C W. set (g := (c + w) / (c + 1)). assert (G : 0 < g) by (apply Rdiv_pos; lra).
  assert (L2 : ln (w / g) <= w / g - 1) by (apply ln_ineq; apply Rdiv_pos; auto).
  assert (L3 : ln (1 / g) <= 1 / g - 1) by (apply ln_ineq; apply Rdiv_pos; lra).
  rewrite ln_div in L2, L3 by lra. rewrite ln_1 in L3.
  assert (X : (w / g - 1) + c * (1 / g - 1) = 0) by (unfold g; field; lra). nra.
Qed.

Section Std.
Variables c b : R.
Hypothesis Hc : 0 < c.
Hypothesis Hb : 0 < b.
Definition D (z : R) := b + (exp z - 1).
Definition U (z : R) := b / D z.
Definition F (z : R) := 1 - Rpower (U z) c.
Definition f (z : R) := c * exp z * Rpower b c / Rpower (D z) (c + 1).
Definition Q (p : R) := ln (1 + b * (Rpower (1 - p) (-1 / c) - 1)).
Lemma D_pos z : 0 <= z -> 0 < D z.
Proof. intros Z. pose proof (exp_ge_1 z Z). unfold D. lra. Qed.
Lemma D_gt z : 0 < z -> b < D z.
Proof. intros Z. pose proof (exp_gt_1 z Z). unfold D. lra. Qed.
Lemma U_pos z : 0 <= z -> 0 < U z.
Proof. intros Z. apply Rdiv_pos; auto. apply D_pos; auto. Qed.
Lemma f_pos z : 0 < f z.
Proof.
  unfold f. apply Rdiv_pos; [|apply Rpower_pos]. pose proof (exp_pos z). pose proof (Rpower_pos b c).
  apply Rmult_lt_0_compat; auto. apply Rmult_lt_0_compat; auto.
Qed.
Lemma U_der z : 0 <= z -> is_derive U z (- (b * exp z / (D z) ^ 2)).
Proof.
  intros Z. pose proof (D_pos z Z) as P. unfold D in P. unfold U, D. auto_derive; [lra|]. field. lra.
Qed.
Lemma q_pos p : 0 < p < 1 -> 0 < b * (Rpower (1 - p) (-1 / c) - 1).
Proof.
  intros H. pose proof (Rpower_gt_1_neg (1 - p) (-1 / c) ltac:(lra) ltac:(apply Rdiv_neg; lra)). apply Rmult_lt_0_compat; lra.
Qed.
Lemma S_der z : 0 <= z -> is_derive (fun z => Rpower (U z) c) z (- f z).
Proof.
  intros Z. pose proof (D_pos z Z) as P. pose proof (U_pos z Z) as UP. evar_last.
  - apply (is_derive_comp (fun w => Rpower w c) U); [apply is_derive_Rpower; auto|apply U_der; auto].
  - unfold scal; simpl; unfold mult; simpl. unfold f. rewrite Rpower_minus_1 by auto.
    unfold U at 1 2. rewrite Rpower_base_div by auto. rewrite Rpower_plus, Rpower_1 by auto.
    pose proof (Rpower_pos (D z) c). field. repeat split; lra.
Qed.
Lemma f_cont z : 0 <= z -> continuous f z.
Proof.
  intros Z. pose proof (D_pos z Z) as P. unfold D in P. apply ex_derive_cont. unfold f, D, Rpower. auto_derive.
  split; [lra|]. split; auto. apply Rgt_not_eq, exp_pos.
Qed.
Lemma ST : std 0 p_infty F f Q.
Proof.
  constructor.
  - constructor; simpl; auto.
    + intros z [H _]. simpl in H. unfold F. pose proof (Rpower_pos (U z) c). pose proof (D_gt z H) as G.
      pose proof (Rpower_lt_1 (U z) c) as L. assert (0 < U z < 1) by (split; [apply U_pos; lra|apply div_lt_1; lra]).
      specialize (L H1 Hc). lra.
    + intros z [H _]. simpl in H. unfold F.
      evar_last; [apply (is_derive_minus (fun _ => 1) (fun z => Rpower (U z) c)); [apply is_derive_const|apply S_der; lra]|].
      unfold minus, plus, opp, zero; simpl. ring.
    + intros z _. apply f_pos.
  - intros z [H _]. simpl in H. apply f_cont. lra.
  - intros p H. pose proof (q_pos p H) as A. unfold Q. split; [split; simpl; auto; apply ln_pos; lra|].
    unfold F, U, D. rewrite exp_ln by lra.
    replace (b / (b + (1 + b * (Rpower (1 - p) (-1 / c) - 1) - 1))) with (/ Rpower (1 - p) (-1 / c)).
    + rewrite <- Rpower_Ropp, Rpower_mult. replace (- (-1 / c) * c) with 1 by (field; lra). rewrite Rpower_1 by lra. ring.
    + pose proof (Rpower_pos (1 - p) (-1 / c)). field. split; nra.
Qed.
Lemma f_max z m : 0 <= z -> (b <= c + 1 /\ m = 0 \/ c + 1 < b /\ m = ln ((b - 1) / c)) -> f z <= f m.
Proof.
  intros Z DD. assert (M0 : 0 <= m).
  { destruct DD as [[_ ->]|[C ->]]; [lra|]. left. apply ln_pos. apply div_gt_1; lra. }
  pose proof (D_pos z Z) as DZ. pose proof (D_pos m M0) as DM.
  assert (E : forall y, f y = c * Rpower b c * exp (y - (c + 1) * ln (D y))).
  { intros y. unfold f. unfold Rminus. rewrite exp_plus, exp_Ropp. unfold Rpower. field. apply Rgt_not_eq, exp_pos. }
  rewrite !E. apply Rmult_le_compat_l; [pose proof (Rpower_pos b c); nra|]. apply exp_le_compat.
  cut (z - m <= (c + 1) * ln (D z / D m)); [rewrite ln_div by auto; lra|].
  set (w := exp (z - m)). assert (W : 0 < w) by apply exp_pos.
  assert (LW : z - m = ln w) by (unfold w; rewrite ln_exp; auto). rewrite LW.
  eapply Rle_trans; [apply (ln_mix c w Hc W)|]. apply Rmult_le_compat_l; [lra|].
  apply ln_le_compat; [apply Rdiv_pos; lra|]. destruct DD as [[C ->]|[C EM]].
  - assert (D 0 = b) as -> by (unfold D; rewrite exp_0; ring).
    assert (EW : w = exp z) by (unfold w; f_equal; ring). unfold D. rewrite <- EW.
    pose proof (exp_ge_1 z Z). rewrite <- EW in H.
    replace ((b + (w - 1)) / b) with (1 + (w - 1) / b) by (field; lra).
    replace ((c + w) / (c + 1)) with (1 + (w - 1) / (c + 1)) by (field; lra).
    apply Rplus_le_compat_l. apply Rmult_le_compat_l; [lra|]. apply Rinv_le_contravar; lra.
  - assert (MM : exp m = (b - 1) / c) by (rewrite EM, exp_ln; auto; apply Rdiv_pos; lra).
    assert (EZ : exp z = w * exp m) by (unfold w; rewrite <- exp_plus; f_equal; ring).
    unfold D. rewrite EZ, MM. right. field. assert (0 < (b - 1) * (c + 1)) by (apply Rmult_lt_0_compat; lra). repeat split; nra.
Qed.
(** The mean in the two cases that do not need a hypergeometric function. *)
Lemma lim_U1 : c = 1 -> filterlim (fun z => z * Rpower (U z) c) (Rbar_locally p_infty) (locally 0).
Proof.
  intros C. pose proof (near_hi_filter p_infty) as PF. simpl in PF. set (k := b / Rmin 1 b).
  assert (KM : 0 < Rmin 1 b) by (apply Rmin_glb_lt; lra).
  apply (flim_squeeze0 _ _ (fun z => k * (z * exp (- z)))).
  - exists 0. intros z Z. pose proof (U_pos z ltac:(lra)) as UP. rewrite C, Rpower_1 by auto.
    rewrite Rabs_pos_eq by nra. replace (k * (z * exp (- z))) with (z * (k * exp (- z))) by ring.
    apply Rmult_le_compat_l; [lra|]. unfold U, k. rewrite exp_Ropp. pose proof (exp_pos z) as EP.
    replace (b / Rmin 1 b * / exp z) with (b / (Rmin 1 b * exp z)) by (field; split; lra).
    apply Rmult_le_compat_l; [lra|]. apply Rinv_le_contravar; [apply Rmult_lt_0_compat; auto|].
    unfold D. pose proof (exp_ge_1 z ltac:(lra)). unfold Rmin. destruct (Rle_dec 1 b); nra.
  - replace 0 with (k * 0) by ring. apply flim_scal; auto. apply lim_x_exp.
Qed.
Lemma mean_c1 : c = 1 -> b <> 1 -> integrates_to (fun z => z * f z) 0 p_infty (b / (b - 1) * ln b).
Proof.
  intros C B. replace (b / (b - 1) * ln b) with ((- 0 - b / (b - 1) * 0) - (- (b / (b - 1) * ln b))) by ring.
  assert (EU : forall z, 0 <= z -> Rpower (U z) c = U z) by (intros z Z; rewrite C; apply Rpower_1, U_pos; auto).
  apply (mk_integral (fun z => z * f z) (fun z => - (z * Rpower (U z) c) - b / (b - 1) * ln (D z * exp (- z)))); simpl; auto.
  - intros z [H _]. simpl in H. pose proof (D_pos z ltac:(lra)) as DP. pose proof (exp_pos (- z)) as EP. evar_last.
    + apply (is_derive_minus (fun z => - (z * Rpower (U z) c)) (fun z => b / (b - 1) * ln (D z * exp (- z)))).
      * apply (is_derive_opp (fun z => z * Rpower (U z) c)).
        apply (is_derive_mult (fun z => z) (fun z => Rpower (U z) c)); [apply is_derive_id|apply S_der; lra|apply Rmult_comm].
      * unfold D in *. auto_derive; [apply Rmult_lt_0_compat; auto|]. reflexivity.
    + unfold minus, plus, opp, one, mult; simpl. rewrite EU by lra. unfold U, D in *.
      rewrite exp_Ropp. pose proof (exp_pos z). field. repeat split; try lra.
  - intros z [H _]. simpl in H. apply (continuous_mult (fun z => z) f); [apply continuous_id|apply f_cont; lra].
  - apply flim_val with (a := - (0 * Rpower (U 0) c) - b / (b - 1) * ln (D 0 * exp (- 0))).
    + apply (flim_right (fun z => - (z * Rpower (U z) c) - b / (b - 1) * ln (D z * exp (- z))) 0).
      assert (D0 : 0 < D 0) by (apply D_pos; lra).
      apply (continuous_minus (fun z => - (z * Rpower (U z) c)) (fun z => b / (b - 1) * ln (D z * exp (- z)))).
      * apply ex_derive_cont. eexists. apply (is_derive_opp (fun z => z * Rpower (U z) c)).
        apply (is_derive_mult (fun z => z) (fun z => Rpower (U z) c)); [apply is_derive_id|apply S_der; lra|apply Rmult_comm].
      * apply ex_derive_cont. unfold D in *. auto_derive. apply Rmult_lt_0_compat; auto. apply exp_pos.
    + unfold D. rewrite Ropp_0, exp_0. replace ((b + (1 - 1)) * 1) with b by ring. ring.
  - pose proof (near_hi_filter p_infty) as PF. simpl in PF. apply flim_minus; auto; [apply flim_opp; auto; apply lim_U1; auto|].
    apply flim_scal; auto. apply (flim_eq _ (fun z => ln (1 + (b - 1) * exp (- z)))).
    + apply filter_forall. intros z. f_equal. unfold D. rewrite exp_Ropp. pose proof (exp_pos z). field. lra.
    + apply flim_val with (a := ln (1 + (b - 1) * 0)); [|replace (1 + (b - 1) * 0) with 1 by ring; apply ln_1].
      apply (flim_cont _ (fun z => 1 + (b - 1) * exp (- z)) ln).
      * apply flim_plus; auto; [apply flim_const; auto|]. apply flim_scal; auto. apply lim_exp.
      * replace (1 + (b - 1) * 0) with 1 by ring. apply ex_derive_cont. auto_derive. lra.
Qed.
Lemma f_b1 z : b = 1 -> f z = c * exp (- (c * z)).
Proof.
  intros B. unfold f, D. rewrite B, Rpower_1_l. replace (1 + (exp z - 1)) with (exp z) by ring.
  unfold Rpower. rewrite ln_exp. replace (- (c * z)) with (z + - ((c + 1) * z)) by ring.
  rewrite exp_plus, exp_Ropp. field. apply Rgt_not_eq, exp_pos.
Qed.
Lemma mean_b1 : b = 1 -> integrates_to (fun z => z * f z) 0 p_infty (1 / c).
Proof.
  intros B. assert (LT : Rbar_lt 0 p_infty) by exact I.
  apply (integrates_ext 0 p_infty LT (fun z => z * (c * exp (- (c * z))))); [intros; rewrite f_b1; auto|].
  replace (1 / c) with ((- / c * (0 + 0)) - - (1 / c)) by (field; lra).
  apply (mk_integral _ (fun z => - / c * (c * z * exp (- (c * z)) + exp (- (c * z))))); simpl; auto.
  - intros z _. auto_derive; auto. field. lra.
  - intros z _. apply ex_derive_cont. auto_derive. auto.
  - apply flim_val with (a := - / c * (c * 0 * exp (- (c * 0)) + exp (- (c * 0)))).
    + apply (flim_right (fun z => - / c * (c * z * exp (- (c * z)) + exp (- (c * z)))) 0). apply ex_derive_cont. auto_derive. auto.
    + rewrite Rmult_0_r, Ropp_0, exp_0. field. lra.
  - pose proof (near_hi_filter p_infty) as PF. simpl in PF. apply flim_scal; auto.
    pose proof (pinf_scal c Hc) as CZ.
    apply flim_plus; auto.
    + apply (filterlim_comp _ _ _ (fun z => c * z) (fun w => w * exp (- w)) _ _ _ CZ lim_x_exp).
    + apply (filterlim_comp _ _ _ (fun z => c * z) (fun w => exp (- w)) _ _ _ CZ lim_exp).
Qed.
End Std.

Ltac start := unfold pdf, logpdf, cdf, sf, invcdf, invsf, support, mode, mean, validate, validate_positive, validate_p.

Section P.
Variables c b s : R.
Hypothesis Hc : 0 < c.
Hypothesis Hb : 0 < b.
Hypothesis Hs : 0 < s.
Lemma z_pos x : 0 < x -> 0 < x / s. Proof. intros. apply Rdiv_pos; lra. Qed.
Lemma z_pos' x : 0 < x / s -> 0 < x.
Proof. intros. assert (0 < x / s * s) by nra. unfold Rdiv in H0. rewrite Rmult_assoc, Rinv_l in H0 by lra. lra. Qed.
Lemma lo_eq : Finite 0 = sc s 0. Proof. simpl. f_equal. ring. Qed.
Lemma pdf_fin (x : R) : 0 <= x -> pdf x c b s = Fin (f c b (x / s) / s) /\ logpdf x c b s = Fin (ln (f c b (x / s) / s)).
Proof.
  intros H. pose proof (Rdiv_nonneg x s H Hs) as Z. pose proof (D_pos b Hb (x / s) Z) as DP. unfold D in DP.
  pose proof (Rpower_pos (b + (exp (x / s) - 1)) (c + 1)) as PP. pose proof (exp_pos (x / s)). pose proof (Rpower_pos b c).
  assert (0 < s * Rpower (b + (exp (x / s) - 1)) (c + 1)) by (apply Rmult_lt_0_compat; auto).
  split.
  - start. veval. unfold f, D. f_equal. field. lra.
  - start. veval. f_equal. rewrite ln_div by (auto; apply f_pos; auto). unfold f, D.
    rewrite ln_div by (auto; apply Rmult_lt_0_compat; auto; apply Rmult_lt_0_compat; auto).
    rewrite !ln_mult, ln_exp, !ln_Rpower by (auto; apply Rmult_lt_0_compat; auto). ring.
Qed.
Lemma pdf_out (x : R) : x < 0 -> pdf x c b s = Fin 0 /\ logpdf x c b s = NInf.
Proof. intros H. start. veval. auto. Qed.
Lemma cdf_fin (x : R) : 0 <= x -> cdf x c b s = Fin (F c b (x / s)) /\ sf x c b s = Fin (1 - F c b (x / s)).
Proof.
  intros H. pose proof (Rdiv_nonneg x s H Hs) as Z. pose proof (D_pos b Hb (x / s) Z) as DP. unfold D in DP.
  pose proof (U_pos b Hb (x / s) Z) as UP. unfold U, D in UP.
  destruct (Req_dec b 1) as [B|B].
  - assert (E : Rpower (U b (x / s)) c = exp (- c * (x / s))).
    { unfold U, D. rewrite B. replace (1 + (exp (x / s) - 1)) with (exp (x / s)) by ring. unfold Rdiv at 1. rewrite Rmult_1_l.
      rewrite <- exp_Ropp. unfold Rpower. rewrite ln_exp. f_equal. ring. }
    unfold F. rewrite E. start. veval. split; f_equal; ring.
  - unfold F, U, D. start. veval. replace (b - 1 + exp (x / s)) with (b + (exp (x / s) - 1)) by ring.
    veval. split; f_equal; ring.
Qed.
Lemma F0 : F c b 0 = 0.
Proof. unfold F, U, D. rewrite exp_0. replace (b / (b + (1 - 1))) with 1 by (field; lra). rewrite Rpower_1_l. ring. Qed.
Lemma CERT : cert (fun x => pdf x c b s) (fun x => logpdf x c b s) (fun x => cdf x c b s) (fun x => sf x c b s)
  (fun p => invcdf p c b s) (fun p => invsf p c b s) 0 p_infty (fun x => F c b (x / s))
  (fun x => f c b (x / s) / s) (fun p => s * Q c b p).
Proof.
  apply (sc_cert 0 p_infty (F c b) (f c b) (Q c b) (ST c b Hc Hb) s Hs); auto using lo_eq.
  - constructor.
    + intros x [H _]. simpl in H. apply cdf_fin; lra.
    + intros x H. simpl in H. destruct H as [H| ->]; [start; veval; auto|].
      destruct (cdf_fin 0 ltac:(lra)) as [-> ->]. replace (0 / s) with 0 by (field; lra). rewrite F0. split; f_equal; ring.
    + intros x [].
    + start. veval. auto.
    + start. destruct (Req_dec b 1) as [B|B].
      * veval. split; f_equal; lra.
      * veval. split; f_equal; lra.
  - intros x [H _]. simpl in H. apply pdf_fin. left. apply z_pos'; auto.
  - intros x [H|[]]. simpl in H. apply pdf_out; auto.
  - intros p H. pose proof (q_pos c b Hc Hb p H) as Q1. pose proof (q_pos c b Hc Hb (1 - p) ltac:(lra)) as Q2.
    replace (1 - (1 - p)) with p in Q2 by ring. unfold Q. replace (1 - (1 - p)) with p by ring.
    assert (E : exp (-1 / c * ln (1 - p)) = Rpower (1 - p) (-1 / c)) by reflexivity.
    assert (N : -1 / c < 0) by (apply Rdiv_neg; lra).
    start. unfold pow1pm1, xlog1py. veval. rewrite E. veval. auto.
Qed.
Lemma log_all (x : R) : log_of (fun x => pdf x c b s) (fun x => logpdf x c b s) x.
Proof.
  revert x. apply (cert_log_ends CERT); intros x E; [|discriminate]. injection E as E; subst x.
  left. exists (f c b (0 / s) / s). split; [apply Rdiv_pos; auto; apply f_pos; auto|]. apply pdf_fin. lra.
Qed.
Lemma ends_ok : rejects_bad_p (fun p => invcdf p c b s) /\ rejects_bad_p (fun p => invsf p c b s) /\
  at_ends (fun p => invcdf p c b s) (Fin 0) PInf /\ invsf (Fin 1) c b s = Fin 0.
Proof.
  assert (N : -1 / c < 0) by (apply Rdiv_neg; lra).
  split; [|split; [|split]].
  - split; [intros p [H|H]|split]; start; veval; reflexivity.
  - split; [intros p [H|H]|split]; start; veval; reflexivity.
  - unfold at_ends. start. unfold pow1pm1, xlog1py. split; veval.
    + rewrite Rminus_0_r, ln_1, Rmult_0_r, exp_0. replace (1 + b * (1 - 1)) with 1 by ring. veval. rewrite ln_1, Rmult_0_r. auto.
    + auto.
  - start. veval. rewrite Rpower_1_l. replace (1 + b * (1 - 1)) with 1 by ring. veval. rewrite ln_1, Rmult_0_r. auto.
Qed.
Lemma ends_hi : (exists k : positive, c = 2 / IZR (Zpos k)) -> invsf (Fin 0) c b s = Exc ZeroDivisionError.
Proof.
  intros [k0 K0]. pose proof (is_intb_half c k0 K0) as T. assert (N : -1 / c < 0) by (apply Rdiv_neg; lra).
  assert (V : vpow (Fin 0) (Fin (-1 / c)) = Exc ZeroDivisionError).
  { unfold vpow. unfold Rltb, Reqb. destruct (Rlt_dec 0 0); [lra|]. destruct (Req_EM_T 0 0); [|lra].
    destruct (Req_EM_T (-1 / c) 0); [lra|]. destruct (Rlt_dec 0 (-1 / c)); [lra|]. rewrite T. auto. }
  start. veval. unfold vpowm1. rewrite V. veval. auto.
Qed.
Lemma mode_ok : is_mode (fun x => pdf x c b s) (mode c b s).
Proof.
  assert (SI : 0 <= / s) by (left; apply Rinv_0_lt_compat; auto).
  assert (G : exists m, mode c b s = Fin m /\ 0 <= m /\ (b <= c + 1 /\ m / s = 0 \/ c + 1 < b /\ m / s = ln ((b - 1) / c))).
  { destruct (Rle_lt_dec b (c + 1)) as [C|C].
    - exists 0. split; [start; veval; reflexivity|]. split; [lra|]. left. split; auto. field. lra.
    - assert (0 < (b - 1) / c) by (apply Rdiv_pos; lra). exists (s * ln ((b - 1) / c)). split; [start; veval; reflexivity|].
      pose proof (ln_pos ((b - 1) / c) ltac:(apply div_gt_1; lra)). split; [nra|]. right. split; auto. field. lra. }
  destruct G as [m [E [M0 DD]]]. exists m, (f c b (m / s) / s). split; auto. split; [apply pdf_fin; auto|].
  intros x. destruct (Rlt_le_dec x 0) as [L|L].
  - exists 0. split; [apply pdf_out; auto|]. left. apply Rdiv_pos; auto. apply f_pos; auto.
  - exists (f c b (x / s) / s). split; [apply pdf_fin; auto|]. apply Rmult_le_compat_r; auto. apply f_max; auto. apply Rdiv_nonneg; auto.
Qed.
Lemma PDF x : inside 0 p_infty x -> pdf (Fin x) c b s = Fin (f c b (x / s) / s).
Proof. intros [H _]. simpl in H. apply pdf_fin. lra. Qed.
Lemma mean_ok h : b = 1 \/ c = 1 -> mean_is (fun x => pdf x c b s) 0 p_infty (mean h c b s).
Proof.
  intros DD. destruct (Req_dec b 1) as [B|B].
  - apply (sc_mean_is 0 p_infty (F c b) (f c b) (Q c b) (ST c b Hc Hb) s Hs (fun x => pdf x c b s) 0 p_infty lo_eq eq_refl PDF _ (1 / c)).
    + apply mean_b1; auto.
    + start. veval. f_equal. field. lra.
  - assert (C : c = 1) by tauto.
    apply (sc_mean_is 0 p_infty (F c b) (f c b) (Q c b) (ST c b Hc Hb) s Hs (fun x => pdf x c b s) 0 p_infty lo_eq eq_refl PDF _ (b / (b - 1) * ln b)).
    + apply mean_c1; auto.
    + start. assert (b - 1 <> 0) by lra. veval. f_equal. field. lra.
Qed.
End P.
Lemma scale_ok c b : 0 < c -> 0 < b -> scale_law (fun x => pdf x c b) (fun x => cdf x c b) (fun x => sf x c b)
  (fun p => invcdf p c b) (fun p => invsf p c b) 0 p_infty.
Proof.
  intros K B. apply (scale_from_cert (fun x => pdf x c b) (fun x => logpdf x c b) (fun x => cdf x c b) (fun x => sf x c b)
    (fun p => invcdf p c b) (fun p => invsf p c b) 0 p_infty (F c b) (f c b) (Q c b)).
  intros s S. rewrite <- lo_eq. apply CERT; auto.
Qed.
Lemma validate_bad {A} `{CanRaise A} (c b s : val) (k : A) : isnum c -> isnum b -> isnum s -> nonpositive c \/ nonpositive b \/ nonpositive s ->
  validate c b s k = raise ValueError.
Proof.
  intros N1 N2 N3 [B|[B|B]]; unfold validate; [apply vp_bad; auto|apply vp_pass; auto; apply vp_bad; auto|].
  apply vp_pass; auto. apply vp_pass; auto. apply vp_bad; auto.
Qed.
Lemma bad_params h (c b s : val) : isnum c -> isnum b -> isnum s -> nonpositive c \/ nonpositive b \/ nonpositive s ->
  support c b s = Err ValueError /\
  always_ValueError [ fun x => pdf x c b s; fun x => logpdf x c b s; fun x => cdf x c b s; fun x => sf x c b s;
    fun p => invcdf p c b s; fun p => invsf p c b s; fun _ => mode c b s; fun _ => mean h c b s ].
Proof.
  intros N1 N2 N3 B. unfold support, pdf, logpdf, cdf, sf, invcdf, invsf, mode, mean.
  split; [|all_ve; intros x Hx]; rewrite ?validate_bad by auto; reflexivity.
Qed.
