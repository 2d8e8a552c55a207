(** Proofs about M_genpareto. *)
From Coq Require Import Reals Lra List.
From Coquelicot Require Import Coquelicot.
From Verif Require Import Values VTac Spec SpecNoMom SpecTop RLib DistLib DistLS LimLib MomLib NoInt PLib XLib SpecStat SpecEst LLib P_basic P_est M_common M_fun.
From Verif Require Import M_genpareto.
Import ListNotations.
Local Open Scope R_scope.
Set Bullet Behavior "Strict Subproofs".

Section Std.
Variable xi : R.
Notation hi := (gp_top xi 0 1).
Definition G (z : R) := if Req_EM_T xi 0 then exp (- z) else Rpower (1 + xi * z) (-1 / xi).
Definition F (z : R) := 1 - G z.
Definition f (z : R) := if Req_EM_T xi 0 then exp (- z) else Rpower (1 + xi * z) (- (1 / xi + 1)).
Definition Q (p : R) := if Req_EM_T xi 0 then - ln (1 - p) else (Rpower (1 - p) (- xi) - 1) / xi.
Lemma in_iff z : inside 0 hi z <-> 0 < z /\ 0 < 1 + xi * z.
Proof.
  unfold inside, gp_top. destruct (Rle_dec 0 xi) as [X|X]; simpl.
  - split; [intros [H _]; split; auto; nra|intros [H _]; auto].
  - assert (E : xi * (0 - 1 / xi) = -1) by (field; lra). split; intros [H1 H2]; split; auto; nra.
Qed.
Lemma f_pos z : 0 < f z.
Proof. unfold f. destruct (Req_EM_T xi 0); [apply exp_pos|apply Rpower_pos]. Qed.
Lemma y_der z : is_derive (fun z => 1 + xi * z) z xi.
Proof. auto_derive; auto. ring. Qed.
Lemma pw_der k z : 0 < 1 + xi * z -> is_derive (fun z => Rpower (1 + xi * z) k) z (xi * (k * Rpower (1 + xi * z) (k - 1))).
Proof.
  intros Y. apply (is_derive_comp (fun w => Rpower w k) (fun z => 1 + xi * z)); [apply is_derive_Rpower; auto|apply y_der].
Qed.
Lemma G_der z : 0 < 1 + xi * z -> is_derive G z (- f z).
Proof.
  intros Y. unfold G, f. destruct (Req_EM_T xi 0) as [E|E].
  - auto_derive; auto. ring.
  - evar_last; [apply pw_der; auto|]. cbv beta. replace (- (1 / xi + 1)) with (-1 / xi - 1) by (field; auto). field. auto.
Qed.
Lemma f_cont z : 0 < 1 + xi * z -> continuous f z.
Proof.
  intros Y. apply ex_derive_cont. unfold f. destruct (Req_EM_T xi 0) as [E|E]; [auto_derive; auto|]. eexists. apply pw_der; auto.
Qed.
Lemma G_in z : 0 < z -> 0 < 1 + xi * z -> 0 < G z < 1.
Proof.
  intros Z Y. unfold G. destruct (Req_EM_T xi 0) as [E|E].
  - split; [apply exp_pos|apply exp_lt_1; lra].
  - split; [apply Rpower_pos|]. unfold Rpower. apply exp_lt_1.
    destruct (Rlt_le_dec 0 xi) as [P|P].
    + pose proof (ln_pos (1 + xi * z) ltac:(nra)). assert (0 < 1 / xi) by (apply Rdiv_pos; lra). replace (-1 / xi) with (- (1 / xi)) by (field; lra). pose proof (Rmult_lt_0_compat _ _ H0 H). lra.
    + pose proof (ln_neg (1 + xi * z) ltac:(nra)). assert (0 < -1 / xi).
      { replace (-1 / xi) with (1 / - xi) by (field; lra). apply Rdiv_pos; lra. }
      pose proof (Rmult_lt_0_compat _ (- ln (1 + xi * z)) H0 ltac:(lra)). lra.
Qed.
Lemma LT : Rbar_lt 0 hi.
Proof. unfold gp_top. destruct (Rle_dec 0 xi); simpl; auto. assert (0 < 1 / - xi) by (apply Rdiv_pos; lra). replace (1 / xi) with (- (1 / - xi)) by (field; lra). lra. Qed.
Lemma Q_y p : xi <> 0 -> 1 + xi * Q p = Rpower (1 - p) (- xi).
Proof. intros E. unfold Q. destruct (Req_EM_T xi 0); [contradiction|]. field. auto. Qed.
Lemma ST : std 0 hi F f Q.
Proof.
  constructor.
  - constructor.
    + apply LT.
    + intros z H. apply in_iff in H. unfold F. pose proof (G_in z (proj1 H) (proj2 H)). lra.
    + intros z H. apply in_iff in H. unfold F.
      evar_last; [apply (is_derive_minus (fun _ => 1) G); [apply is_derive_const|apply G_der; tauto]|].
      unfold minus, plus, opp, zero; simpl. ring.
    + intros z _. apply f_pos.
  - intros z H. apply in_iff in H. apply f_cont; tauto.
  - intros p H. rewrite in_iff. unfold F, G. destruct (Req_EM_T xi 0) as [E|E].
    + unfold Q. destruct (Req_EM_T xi 0); [|contradiction]. pose proof (ln_neg (1 - p) ltac:(lra)). rewrite E, Ropp_involutive, exp_ln by lra. lra.
    + rewrite Q_y by auto. pose proof (Rpower_pos (1 - p) (- xi)) as P. rewrite Rpower_mult.
      replace (- xi * (-1 / xi)) with 1 by (field; auto). rewrite Rpower_1 by lra. split; [|lra]. split; auto.
      unfold Q. destruct (Req_EM_T xi 0); [contradiction|]. destruct (Rlt_le_dec 0 xi) as [X|X].
      * pose proof (Rpower_gt_1_neg (1 - p) (- xi) ltac:(lra) ltac:(lra)). apply Rdiv_pos; lra.
      * pose proof (Rpower_lt_1 (1 - p) (- xi) ltac:(lra) ltac:(lra)).
        replace ((Rpower (1 - p) (- xi) - 1) / xi) with ((1 - Rpower (1 - p) (- xi)) / - xi) by (field; lra). apply Rdiv_pos; lra.
Qed.
(** Powers of y = 1 + xi z at the upper end. *)
Lemma y_top : xi <> 0 -> filterlim (fun z => 1 + xi * z) (near_hi hi) (if Rle_dec 0 xi then Rbar_locally p_infty else at_right 0).
Proof.
  intros E. unfold gp_top. destruct (Rle_dec 0 xi) as [X|X].
  - assert (X0 : 0 < xi) by lra. simpl. intros P [M HM]. exists ((M - 1) / xi). intros z Z. apply HM.
    apply (Rmult_lt_compat_l xi) in Z; auto. replace (xi * ((M - 1) / xi)) with (M - 1) in Z by (field; lra). lra.
  - simpl. intros P [e He]. unfold filtermap, at_left, within.
    assert (EP : 0 < e / - xi) by (apply Rdiv_pos; [apply cond_pos|lra]). exists (mkposreal _ EP). intros z B L.
    unfold ball in B; simpl in B; unfold AbsRing_ball, abs, minus, plus, opp in B; simpl in B. apply Rabs_def2 in B.
    set (t := 0 + - (1 / xi)) in *. assert (T : xi * t = -1) by (unfold t; field; lra).
    assert (T2 : xi * (e / - xi) = - e) by (field; lra). pose proof (cond_pos e).
    change (0 - 1 / xi) with t in L, B. apply He; [|nra].
    unfold ball; simpl; unfold AbsRing_ball, abs, minus, plus, opp; simpl. apply Rabs_def1; nra.
Qed.
Lemma pw_lim k : xi <> 0 -> k * xi < 1 -> filterlim (fun z => Rpower (1 + xi * z) (k - 1 / xi)) (near_hi hi) (locally 0).
Proof.
  intros E K. pose proof (y_top E) as YT. destruct (Rle_dec 0 xi) as [X|X].
  - apply (filterlim_comp _ _ _ (fun z => 1 + xi * z) (fun y => Rpower y (k - 1 / xi)) _ _ _ YT). apply lim_Rpower_neg.
    replace (k - 1 / xi) with ((k * xi - 1) / xi) by (field; auto). apply Rdiv_neg; lra.
  - apply (filterlim_comp _ _ _ (fun z => 1 + xi * z) (fun y => Rpower y (k - 1 / xi)) _ _ _ YT). apply lim_Rpower_0.
    replace (k - 1 / xi) with ((1 - k * xi) / - xi) by (field; auto). apply Rdiv_pos; lra.
Qed.
Lemma pwl_lim : xi <> 0 -> filterlim (fun z => Rpower (1 + xi * z) (-1 / xi) * ln (1 + xi * z)) (near_hi hi) (locally 0).
Proof.
  intros E. pose proof (y_top E) as YT. destruct (Rle_dec 0 xi) as [X|X].
  - apply (filterlim_comp _ _ _ (fun z => 1 + xi * z) (fun y => Rpower y (-1 / xi) * ln y) _ _ _ YT). apply lim_Rpower_ln_inf. apply Rdiv_neg; lra.
  - apply (filterlim_comp _ _ _ (fun z => 1 + xi * z) (fun y => Rpower y (-1 / xi) * ln y) _ _ _ YT). apply lim_Rpower_ln_0.
    replace (-1 / xi) with (1 / - xi) by (field; lra). apply Rdiv_pos; lra.
Qed.
(** E y^k = 1 / (1 - k xi). *)
Lemma mom_y k : xi <> 0 -> k * xi < 1 -> integrates_to (fun z => Rpower (1 + xi * z) k * f z) 0 hi (1 / (1 - k * xi)).
Proof.
  intros E K. replace (1 / (1 - k * xi)) with ((- (1 / (1 - k * xi)) * 0) - - (1 / (1 - k * xi))) by (field; lra).
  pose proof (near_hi_filter hi) as PF.
  apply (mk_integral _ (fun z => - (1 / (1 - k * xi)) * Rpower (1 + xi * z) (k - 1 / xi))).
  - apply LT.
  - intros z H. apply in_iff in H. evar_last.
    + apply is_derive_scal. apply pw_der; tauto.
    + cbv beta. unfold f. destruct (Req_EM_T xi 0); [contradiction|]. rewrite <- Rpower_plus.
      replace (k + - (1 / xi + 1)) with (k - 1 / xi - 1) by ring. field. split; [auto|lra].
  - intros z H. apply in_iff in H. apply (continuous_mult (fun z => Rpower (1 + xi * z) k) f); [|apply f_cont; tauto].
    apply ex_derive_cont. eexists. apply pw_der; tauto.
  - apply flim_val with (a := - (1 / (1 - k * xi)) * Rpower (1 + xi * 0) (k - 1 / xi)).
    + apply (flim_right (fun z => - (1 / (1 - k * xi)) * Rpower (1 + xi * z) (k - 1 / xi)) 0).
      apply ex_derive_cont. eexists. apply is_derive_scal. apply pw_der. lra.
    + rewrite Rmult_0_r, Rplus_0_r, Rpower_1_l. ring.
  - apply flim_scal; auto. apply pw_lim; auto.
Qed.
Lemma exp_mom1 : integrates_to (fun z => z * exp (- z)) 0 p_infty 1.
Proof.
  replace 1 with ((- 0 - 0) - - 1) by ring. pose proof (near_hi_filter p_infty) as PF.
  apply (mk_integral _ (fun z => - (z * exp (- z)) - exp (- z))); simpl; auto.
  - intros z _. auto_derive; auto. ring.
  - intros z _. apply ex_derive_cont. auto_derive; auto.
  - apply flim_val with (a := - (0 * exp (- 0)) - exp (- 0)); [|rewrite Ropp_0, exp_0; ring].
    apply (flim_right (fun z => - (z * exp (- z)) - exp (- z)) 0). apply ex_derive_cont. auto_derive; auto.
  - apply flim_minus; auto; [apply flim_opp; auto; apply lim_x_exp|apply lim_exp].
Qed.
Lemma exp_mom2 : integrates_to (fun z => z ^ 2 * exp (- z)) 0 p_infty 2.
Proof.
  replace 2 with ((- 0 + 2 * (- 0 - 0)) - - 2) by ring. pose proof (near_hi_filter p_infty) as PF.
  apply (mk_integral _ (fun z => - (z ^ 2 * exp (- z)) + 2 * (- (z * exp (- z)) - exp (- z)))); simpl near_lo; simpl near_hi; try exact I.
  - intros z _. auto_derive; auto. simpl. ring.
  - intros z _. apply ex_derive_cont. auto_derive; auto.
  - apply flim_val with (a := - (0 ^ 2 * exp (- 0)) + 2 * (- (0 * exp (- 0)) - exp (- 0))); [|rewrite Ropp_0, exp_0; ring].
    apply (flim_right (fun z => - (z ^ 2 * exp (- z)) + 2 * (- (z * exp (- z)) - exp (- z))) 0). apply ex_derive_cont. auto_derive; auto.
  - apply flim_plus; auto; [apply flim_opp; auto; apply lim_x2_exp|]. apply flim_scal; auto.
    apply flim_minus; auto; [apply flim_opp; auto; apply lim_x_exp|apply lim_exp].
Qed.
Lemma f_exp z : xi = 0 -> f z = exp (- z).
Proof. intros E. unfold f. destruct (Req_EM_T xi 0); tauto. Qed.
Lemma hi_exp : xi = 0 -> hi = p_infty.
Proof. intros E. unfold gp_top. destruct (Rle_dec 0 xi); auto. lra. Qed.
Lemma mom1 : xi < 1 -> integrates_to (fun z => z * f z) 0 hi (1 / (1 - xi)).
Proof.
  intros X. destruct (Req_dec xi 0) as [E|E].
  - apply (integrates_ext 0 hi LT (fun z => z * exp (- z))); [intros; rewrite f_exp; auto|].
    rewrite (hi_exp E), E. replace (1 / (1 - 0)) with 1 by field. apply exp_mom1.
  - replace (1 / (1 - xi)) with (/ xi * (1 / (1 - 1 * xi)) + (- / xi) * 1) by (field; split; lra).
    apply (integrates_ext 0 hi LT (fun z => / xi * (Rpower (1 + xi * z) 1 * f z) + (- / xi) * f z)).
    { intros z H. apply in_iff in H. rewrite Rpower_1 by tauto. field. auto. }
    apply (integrates_plus 0 hi (fun z => / xi * (Rpower (1 + xi * z) 1 * f z))); apply integrates_scal; [|apply (std_mass 0 hi LT F f Q ST)].
    apply mom_y; lra.
Qed.
Lemma mom2 : xi < 1 / 2 -> integrates_to (fun z => z ^ 2 * f z) 0 hi (2 / ((1 - xi) * (1 - 2 * xi))).
Proof.
  intros X. destruct (Req_dec xi 0) as [E|E].
  - apply (integrates_ext 0 hi LT (fun z => z ^ 2 * exp (- z))); [intros; rewrite f_exp; auto|].
    rewrite (hi_exp E), E. replace (2 / ((1 - 0) * (1 - 2 * 0))) with 2 by field. apply exp_mom2.
  - replace (2 / ((1 - xi) * (1 - 2 * xi))) with (/ xi ^ 2 * (1 / (1 - 2 * xi)) + ((- 2 / xi ^ 2) * (1 / (1 - 1 * xi)) + (/ xi ^ 2) * 1)) by (field; repeat split; lra).
    apply (integrates_ext 0 hi LT (fun z => / xi ^ 2 * (Rpower (1 + xi * z) 2 * f z) + ((- 2 / xi ^ 2) * (Rpower (1 + xi * z) 1 * f z) + (/ xi ^ 2) * f z))).
    { intros z H. apply in_iff in H. rewrite Rpower_1 by tauto. replace 2 with (INR 2) at 1 by (simpl; ring). rewrite Rpower_pow by tauto. field. auto. }
    apply (integrates_plus 0 hi (fun z => / xi ^ 2 * (Rpower (1 + xi * z) 2 * f z))); [apply integrates_scal, mom_y; lra|].
    apply (integrates_plus 0 hi (fun z => (- 2 / xi ^ 2) * (Rpower (1 + xi * z) 1 * f z))); apply integrates_scal; [apply mom_y; lra|apply (std_mass 0 hi LT F f Q ST)].
Qed.
Lemma ent : integrates_to (fun z => - (f z * ln (f z))) 0 hi (1 + xi).
Proof.
  pose proof (near_hi_filter hi) as PF. destruct (Req_dec xi 0) as [E|E].
  - apply (integrates_ext 0 hi LT (fun z => z * exp (- z))); [intros; rewrite f_exp, ln_exp by auto; ring|].
    rewrite (hi_exp E), E. replace (1 + 0) with 1 by ring. apply exp_mom1.
  - apply (integrates_ext 0 hi LT (fun z => (1 / xi + 1) * (ln (1 + xi * z) * f z))).
    { intros z H. unfold f. destruct (Req_EM_T xi 0); [contradiction|]. rewrite ln_Rpower. ring. }
    replace (1 + xi) with ((1 / xi + 1) * ((- 0 - xi * 0) - - xi)) by (field; auto). apply integrates_scal.
    apply (mk_integral _ (fun z => - (Rpower (1 + xi * z) (-1 / xi) * ln (1 + xi * z)) - xi * Rpower (1 + xi * z) (0 - 1 / xi))).
    + apply LT.
    + intros z H. apply in_iff in H. destruct H as [_ H]. evar_last.
      * apply (is_derive_minus (fun z => - (Rpower (1 + xi * z) (-1 / xi) * ln (1 + xi * z))) (fun z => xi * Rpower (1 + xi * z) (0 - 1 / xi))).
        -- apply (is_derive_opp (fun z => Rpower (1 + xi * z) (-1 / xi) * ln (1 + xi * z))).
           apply (is_derive_mult (fun z => Rpower (1 + xi * z) (-1 / xi)) (fun z => ln (1 + xi * z))); [apply pw_der; auto| |apply Rmult_comm].
           auto_derive; [exact H|reflexivity].
        -- apply is_derive_scal. apply pw_der; auto.
      * unfold minus, plus, opp, mult; simpl. unfold f. destruct (Req_EM_T xi 0); [contradiction|].
        replace (0 - 1 / xi - 1) with (- (1 / xi + 1)) by ring. replace (-1 / xi - 1) with (- (1 / xi + 1)) by (field; auto).
        replace (-1 / xi) with (- (1 / xi + 1) + 1) at 2 by (field; auto). rewrite Rpower_plus, Rpower_1 by auto. field. split; [auto|lra].
    + intros z H. apply in_iff in H. apply (continuous_mult (fun z => ln (1 + xi * z)) f); [|apply f_cont; tauto].
      apply ex_derive_cont. auto_derive. tauto.
    + apply flim_val with (a := - (Rpower (1 + xi * 0) (-1 / xi) * ln (1 + xi * 0)) - xi * Rpower (1 + xi * 0) (0 - 1 / xi)).
      * apply (flim_right (fun z => - (Rpower (1 + xi * z) (-1 / xi) * ln (1 + xi * z)) - xi * Rpower (1 + xi * z) (0 - 1 / xi)) 0).
        apply ex_derive_cont. unfold Rpower. auto_derive. lra.
      * rewrite Rmult_0_r, Rplus_0_r, !Rpower_1_l, ln_1. ring.
    + apply flim_minus; auto; [apply flim_opp; auto; apply pwl_lim; auto|]. apply flim_scal; auto. apply pw_lim; lra.
Qed.
(** For y >= 1 and xi >= 1/n the density is at least y^-(n+1). *)
Lemma f_lower n z : 0 < n -> 1 / n <= xi -> 0 <= z -> Rpower (1 + xi * z) (- (n + 1)) <= f z.
Proof.
  intros N X Z. assert (P : 0 < 1 / n) by (apply Rdiv_pos; lra). unfold f. destruct (Req_EM_T xi 0); [lra|].
  apply Rle_Rpower_base || apply Rle_Rpower; [nra|]. assert (1 / xi <= n); [|lra].
  apply (Rmult_le_reg_l xi); [lra|]. replace (xi * (1 / xi)) with 1 by (field; auto).
  apply (Rmult_le_compat_r n) in X; [|lra]. replace (1 / n * n) with 1 in X by (field; lra). lra.
Qed.
End Std.

Ltac start := unfold pdf, logpdf, cdf, sf, invcdf, invsf, support, mean, var, entropy, outside, validate, validate_positive, validate_p.

Section P.
Variables xi l s : R.
Hypothesis Hs : 0 < s.

Lemma lo_eq : Finite l = ls l s 0. Proof. simpl. f_equal. ring. Qed.
Lemma hi_eq : (gp_top xi l s) = ls l s (gp_top xi 0 1).
Proof. unfold gp_top. destruct (Rle_dec 0 xi); simpl; auto. f_equal. field. lra. Qed.
Lemma in_z x : inside l (gp_top xi l s) x <-> 0 < (x - l) / s /\ 0 < 1 + xi * ((x - l) / s).
Proof. rewrite hi_eq, lo_eq. rewrite ls_inside by auto. apply in_iff. Qed.
Lemma z_le z : 0 < 1 + xi * z -> xi < 0 -> z <= -1 / xi.
Proof. intros Y X. assert (E : xi * (-1 / xi) = -1) by (field; lra). nra. Qed.
Lemma z_gt z : 1 + xi * z < 0 -> xi < 0 -> -1 / xi < z.
Proof. intros Y X. assert (E : xi * (-1 / xi) = -1) by (field; lra). nra. Qed.
Lemma pdf_fin (x : R) : 0 <= (x - l) / s -> 0 < 1 + xi * ((x - l) / s) ->
  pdf x xi l s = Fin (f xi ((x - l) / s) / s) /\ logpdf x xi l s = Fin (ln (f xi ((x - l) / s) / s)).
Proof.
  intros Z Y. assert (Y' : 0 < 1 + (x - l) / s * xi) by lra.
  assert (C : (x - l) / s * xi = xi * ((x - l) / s)) by ring.
  rewrite (ln_div (f xi ((x - l) / s)) s) by (auto; apply f_pos). unfold f. destruct (Req_EM_T xi 0) as [E|E].
  - rewrite ln_exp. start. subst xi. veval. auto.
  - rewrite ln_Rpower. destruct (Rlt_le_dec xi 0) as [N|N].
    + pose proof (z_le _ Y N) as ZL. start. veval. rewrite C. split; f_equal; ring.
    + start. veval. rewrite C. split; f_equal; ring.
Qed.
Lemma cdf_fin (x : R) : 0 <= (x - l) / s -> 0 < 1 + xi * ((x - l) / s) ->
  cdf x xi l s = Fin (F xi ((x - l) / s)) /\ sf x xi l s = Fin (1 - F xi ((x - l) / s)).
Proof.
  intros Z Y. unfold F, G. destruct (Req_EM_T xi 0) as [E|E].
  - start. subst xi. veval. split; f_equal; ring.
  - destruct (Rlt_le_dec xi 0) as [N|N].
    + pose proof (z_le _ Y N) as ZL. start. veval. split; f_equal; ring.
    + start. veval. split; f_equal; ring.
Qed.
Lemma low (x : R) : x < l -> pdf x xi l s = Fin 0 /\ logpdf x xi l s = NInf /\ cdf x xi l s = Fin 0 /\ sf x xi l s = Fin 1.
Proof.
  intros X. assert (Z : (x - l) / s < 0) by (apply Rdiv_neg; lra).
  destruct (Rlt_le_dec xi 0) as [N|N]; start; veval; auto.
Qed.
Lemma high (x : R) : Rbar_lt (gp_top xi l s) x -> pdf x xi l s = Fin 0 /\ logpdf x xi l s = NInf /\ cdf x xi l s = Fin 1 /\ sf x xi l s = Fin 0.
Proof.
  intros X. unfold gp_top in X. destruct (Rle_dec 0 xi) as [N|N]; [destruct X|]. simpl in X.
  assert (XN : xi < 0) by lra. assert (IX : 0 < -1 / xi).
  { replace (-1 / xi) with (1 / - xi) by (field; lra). apply Rdiv_pos; lra. }
  assert (Z : -1 / xi < (x - l) / s).
  { apply (Rmult_lt_reg_l s); auto. replace (s * ((x - l) / s)) with (x - l) by (field; lra).
    replace (s * (-1 / xi)) with (- (s / xi)) by (field; lra). lra. }
  start. veval. auto.
Qed.
Lemma at_hi : xi < 0 -> cdf (Fin (l - s / xi)) xi l s = Fin 1 /\ sf (Fin (l - s / xi)) xi l s = Fin 0.
Proof.
  intros N. assert (Z : (l - s / xi - l) / s = -1 / xi) by (field; lra). assert (IX : 0 < -1 / xi).
  { replace (-1 / xi) with (1 / - xi) by (field; lra). apply Rdiv_pos; lra. }
  assert (Y : 1 + xi * (-1 / xi) = 0) by (field; lra).
  set (u := l - s / xi) in *. clearbody u.
  start. veval. rewrite Z, Y. veval. split; f_equal; ring.
Qed.
Lemma CERT : cert (fun x => pdf x xi l s) (fun x => logpdf x xi l s) (fun x => cdf x xi l s) (fun x => sf x xi l s)
  (fun p => invcdf p xi l s) (fun p => invsf p xi l s) l (gp_top xi l s) (fun x => F xi ((x - l) / s))
  (fun x => f xi ((x - l) / s) / s) (fun p => l + s * Q xi p).
Proof.
  apply (ls_cert 0 (gp_top xi 0 1) (F xi) (f xi) (Q xi) (ST xi) l s Hs); auto using lo_eq, hi_eq.
  - constructor.
    + intros x H. apply in_z in H. apply cdf_fin; [lra|tauto].
    + intros x H. simpl in H. destruct H as [H| ->]; [apply low; auto|].
      assert (Z : (l - l) / s = 0) by (field; lra). destruct (cdf_fin l) as [-> ->]; try (rewrite Z; lra).
      rewrite Z. unfold F, G. rewrite Rmult_0_r, Rplus_0_r, Rpower_1_l, Ropp_0, exp_0. destruct (Req_EM_T xi 0); split; f_equal; ring.
    + intros x H. unfold gp_top in H. destruct (Rle_dec 0 xi) as [N|N]; [destruct H|]. simpl in H. destruct H as [H| <-].
      * apply high. unfold gp_top. destruct (Rle_dec 0 xi); [contradiction|auto].
      * apply at_hi. lra.
    + destruct (Rlt_le_dec xi 0) as [N|N]; start; veval; auto.
    + destruct (Rtotal_order xi 0) as [N|[N|N]]; [| |assert (-1 / xi < 0) by (apply Rdiv_neg; lra)]; start; veval; split; auto; f_equal; ring.
  - intros x H. apply in_iff in H. apply pdf_fin; [lra|tauto].
  - intros x [H|H]; [simpl in H; split; apply low; auto|split; apply high; auto].
  - intros p H. unfold Q. destruct (Req_EM_T xi 0) as [E|E].
    + start. subst xi. veval. replace (1 - (1 - p)) with p by ring. split; f_equal; ring.
    + assert (E' : - xi <> 0) by lra. replace (1 - (1 - p)) with p by ring.
      start. unfold pow1pm1, xlog1py. veval. change (exp (- xi * ln (1 - p))) with (Rpower (1 - p) (- xi)). split; f_equal; field; auto.
Qed.
Lemma hi_val : val_of_Rbar (gp_top xi l s) = gp_top_v xi l s.
Proof. unfold gp_top, gp_top_v. destruct (Rle_dec 0 xi); reflexivity. Qed.
Lemma mono_supp : nondecreasing (fun x => cdf x xi l s) /\ supported_on (fun x => cdf x xi l s) l (gp_top_v xi l s) /\
  support xi l s = Ok (Fin l, gp_top_v xi l s).
Proof.
  split; [exact (cert_nondecreasing CERT)|]. split; [rewrite <- hi_val; exact (cert_supported CERT)|].
  unfold gp_top_v. destruct (Rle_dec 0 xi) as [N|N]; start; veval; auto.
Qed.
Lemma log_ok (x : R) : -1 < xi -> log_of (fun x => pdf x xi l s) (fun x => logpdf x xi l s) x.
Proof.
  intros X. revert x. apply (cert_log_ends CERT); intros x E.
  - injection E as E; subst x. left. assert (Z : (l - l) / s = 0) by (field; lra).
    exists (f xi ((l - l) / s) / s). split; [apply Rdiv_pos; auto; apply f_pos|]. apply pdf_fin; rewrite Z; lra.
  - unfold gp_top in E. destruct (Rle_dec 0 xi) as [N|N]; [discriminate|]. injection E as E; subst x.
    right; left. assert (XN : xi < 0) by lra. assert (IX : 1 < -1 / xi).
    { replace (-1 / xi) with (1 / - xi) by (field; lra). apply div_gt_1; lra. }
    assert (Z : (l - s / xi - l) / s = -1 / xi) by (field; lra).
    assert (Y : 1 + xi * (-1 / xi) = 0) by (field; lra). assert (Y' : 1 + -1 / xi * xi = 0) by (field; lra).
    assert (EX : 0 < - (1 / xi + 1)) by (replace (1 / xi) with (- (-1 / xi)) by (field; lra); lra).
    set (u := l - s / xi) in *. clearbody u.
    start. veval. rewrite Z, Y, Y'. veval. split; auto. f_equal. field. lra.
Qed.
Lemma log_end : xi = -1 -> pdf (Fin (l + s)) xi l s = Fin (1 / s) /\ logpdf (Fin (l + s)) xi l s = NaN.
Proof.
  intros ->. assert (Z : (l + s - l) / s = 1) by (field; lra). assert (E : -1 / -1 = 1) by field.
  assert (K : - (1 / -1 + 1) = 0) by field. assert (Y : 1 + 1 * -1 = 0) by ring. assert (Y' : 1 + -1 * 1 = 0) by ring.
  start. veval. auto.
Qed.
Lemma ends : rejects_bad_p (fun p => invcdf p xi l s) /\ rejects_bad_p (fun p => invsf p xi l s) /\
  at_ends (fun p => invcdf p xi l s) l (gp_top_v xi l s) /\ at_ends (fun p => invsf p xi l s) (gp_top_v xi l s) l.
Proof.
  split; [|split; [|split]].
  - split; [intros p [H|H]|split]; start; veval; reflexivity.
  - split; [intros p [H|H]|split]; start; veval; reflexivity.
  - unfold at_ends, gp_top_v. destruct (Rle_dec 0 xi) as [N|N]; start; veval; auto.
  - unfold at_ends, gp_top_v. destruct (Rle_dec 0 xi) as [N|N]; start; veval; auto.
Qed.
Lemma PDF x : inside l (gp_top xi l s) x -> pdf (Fin x) xi l s = Fin (f xi ((x - l) / s) / s).
Proof. intros H. apply in_z in H. apply pdf_fin; [lra|tauto]. Qed.
Lemma mean_ok : xi < 1 -> mean_is (fun x => pdf x xi l s) l (gp_top xi l s) (mean xi l s).
Proof.
  intros X. apply (ls_mean_is 0 (gp_top xi 0 1) (F xi) (f xi) (Q xi) (ST xi) l s (fun x => pdf x xi l s) l (gp_top xi l s) Hs lo_eq hi_eq PDF _ (1 / (1 - xi))).
  - apply mom1; auto.
  - start. assert (0 < 1 - xi) by lra. veval. f_equal. field. lra.
Qed.
Lemma var_ok : xi < 1 / 2 -> var_is (fun x => pdf x xi l s) l (gp_top xi l s) (mean xi l s) (var xi l s).
Proof.
  intros X. apply (ls_var_is 0 (gp_top xi 0 1) (F xi) (f xi) (Q xi) (ST xi) l s (fun x => pdf x xi l s) l (gp_top xi l s) Hs lo_eq hi_eq PDF _ _ (1 / (1 - xi)) (2 / ((1 - xi) * (1 - 2 * xi)))).
  - apply mom1; lra.
  - apply mom2; lra.
  - start. assert (0 < 1 - xi) by lra. veval. f_equal. field. lra.
  - start. assert (0 < 1 - xi) by lra. assert (0 < (1 - xi) ^ 2) by (apply pow_lt; auto). assert (0 < 1 - 2 * xi) by lra. veval. f_equal. field. split; lra.
Qed.
Lemma ent_ok : entropy_is (fun x => pdf x xi l s) l (gp_top xi l s) (entropy xi l s).
Proof.
  apply (ls_entropy_is 0 (gp_top xi 0 1) (F xi) (f xi) (Q xi) (ST xi) l s (fun x => pdf x xi l s) l (gp_top xi l s) Hs lo_eq hi_eq PDF _ (1 + xi)).
  - apply ent.
  - start. veval. f_equal. ring.
Qed.
(** 1/y is not integrable. *)
Lemma diverge (n : R) (g : R -> R) : 0 < n -> 1 / n <= xi -> (forall x, inside l (gp_top xi l s) x -> continuous g x) ->
  (exists K c, 0 < K /\ 1 <= (c - l) / s /\ forall x, c <= x -> K * Rpower (1 + xi * ((x - l) / s)) n * (f xi ((x - l) / s) / s) <= g x) ->
  forall v, ~ integrates_to g l (gp_top xi l s) v.
Proof.
  intros N X CT [K [c [KP [CP B]]]]. assert (P0 : 0 < 1 / n) by (apply Rdiv_pos; lra). assert (XP : 0 < xi) by lra.
  assert (HI : (gp_top xi l s) = p_infty) by (unfold gp_top; destruct (Rle_dec 0 xi); auto; lra).
  assert (ZP : forall x, c <= x -> 1 <= (x - l) / s).
  { intros x Hx. apply (Rmult_le_reg_l s); auto. apply (Rmult_le_compat_l s) in CP; [|lra].
    replace (s * ((x - l) / s)) with (x - l) by (field; lra). replace (s * ((c - l) / s)) with (c - l) in CP by (field; lra). lra. }
  apply (no_integral l (gp_top xi l s) g c (fun x => K / xi * ln (1 + xi * ((x - l) / s))) (fun x => K * / (1 + xi * ((x - l) / s)) * (/ s))); auto.
  - apply in_z. split; nra.
  - intros x _ Cx. pose proof (ZP x Cx) as Z1. assert (Y : 0 < 1 + xi * ((x - l) / s)) by nra. split.
    + auto_derive; [exact Y|]. unfold Rminus, Rdiv in *. field. repeat split; try lra. rewrite <- Rmult_assoc in Y. 
      assert (0 < (1 + xi * (x + - l) * / s) * s) by nra. rewrite Rmult_plus_distr_r in H. rewrite (Rmult_assoc _ (/ s)), Rinv_l in H by lra. lra.
    + eapply Rle_trans; [|apply B; auto]. set (z := (x - l) / s) in *. replace (K * Rpower (1 + xi * z) n * (f xi z / s)) with (K * (Rpower (1 + xi * z) n * f xi z) * / s) by (unfold Rdiv; ring).
      apply Rmult_le_compat_r; [left; apply Rinv_0_lt_compat; auto|]. apply Rmult_le_compat_l; [lra|].
      pose proof (f_lower xi n z N X ltac:(lra)) as FL.
      apply Rle_trans with (Rpower (1 + xi * z) n * Rpower (1 + xi * z) (- (n + 1))).
      * rewrite <- Rpower_plus. replace (n + - (n + 1)) with (Ropp 1) by ring. rewrite Rpower_Ropp, Rpower_1 by auto. lra.
      * apply Rmult_le_compat_l; auto. left. apply Rpower_pos.
  - intros M. rewrite HI. simpl. set (t := exp (M * xi / K)). exists (l + s * ((t - 1) / xi)). intros x Hx.
    assert (YT : t < 1 + xi * ((x - l) / s)).
    { replace (1 + xi * ((x - l) / s)) with (1 + (x - l) * (xi / s)) by (field; lra).
      assert (XS : 0 < xi / s) by (apply Rdiv_pos; auto). assert (T : t = 1 + s * ((t - 1) / xi) * (xi / s)) by (field; lra).
      rewrite T. apply Rplus_lt_compat_l. apply Rmult_lt_compat_r; auto. lra. }
    assert (L1 : M * xi / K < ln (1 + xi * ((x - l) / s))).
    { rewrite <- (ln_exp (M * xi / K)). apply ln_increasing; auto. apply exp_pos. }
    apply (Rmult_lt_compat_l (K / xi)) in L1; [|apply Rdiv_pos; auto]. replace (K / xi * (M * xi / K)) with M in L1 by (field; lra). auto.
Qed.
Lemma y_z x : 1 <= (x - l) / s -> 0 < xi -> 1 + xi * ((x - l) / s) <= (1 + xi) * ((x - l) / s).
Proof. intros. nra. Qed.
Lemma pdf_cont x : inside l (gp_top xi l s) x -> continuous (fun t => toR (pdf (Fin t) xi l s)) x.
Proof.
  intros H. apply (continuous_ext_loc _ (fun t => f xi ((t - l) / s) / s)).
  - generalize (inside_locally l (gp_top xi l s) x H). apply filter_imp. intros t T. rewrite PDF; auto.
  - apply (ce_cont _ _ _ _ _ _ _ _ _ _ _ CERT x H).
Qed.
Lemma no_mean_ok : 1 <= xi -> mean xi l s = NaN /\ no_mean (fun x => pdf x xi l s) l (gp_top xi l s).
Proof.
  intros X. split; [start; veval; auto|]. intros v. refine (diverge 1 _ ltac:(lra) ltac:(lra) _ _ v).
  - intros x H. apply (continuous_mult (fun t => t) (fun t => toR (pdf (Fin t) xi l s))); [apply continuous_id|apply pdf_cont; auto].
  - exists (s / (2 * (1 + xi))), (l + s * Rmax 1 (- 2 * l / s)). assert (K : 0 < s / (2 * (1 + xi))) by (apply Rdiv_pos; lra).
    split; auto. split; [replace ((l + s * Rmax 1 (-2 * l / s) - l) / s) with (Rmax 1 (-2 * l / s)) by (field; lra); apply Rmax_l|].
    intros x Hx. set (z := (x - l) / s) in *. assert (XE : x = l + s * z) by (unfold z; field; lra).
    assert (ZM : Rmax 1 (-2 * l / s) <= z) by nra. pose proof (Rmax_l 1 (-2 * l / s)) as M1. pose proof (Rmax_r 1 (-2 * l / s)) as M2.
    assert (Z1 : 1 <= z) by lra. assert (I : inside l (gp_top xi l s) x) by (apply in_z; fold z; split; nra).
    rewrite PDF by auto. simpl toR. fold z. rewrite Rpower_1 by nra.
    apply Rmult_le_compat_r; [left; apply Rdiv_pos; auto; apply f_pos|].
    apply Rle_trans with (s / (2 * (1 + xi)) * ((1 + xi) * z)).
    + apply Rmult_le_compat_l; [lra|]. apply y_z; auto; lra.
    + replace (s / (2 * (1 + xi)) * ((1 + xi) * z)) with (s * z / 2) by (field; lra).
      assert (-2 * l <= s * z); [|lra]. apply Rle_trans with (s * (-2 * l / s)); [right; field; lra|]. apply Rmult_le_compat_l; lra.
Qed.
Lemma no_var_ok : 1 / 2 <= xi -> var xi l s = NaN /\ no_var (fun x => pdf x xi l s) l (gp_top xi l s).
Proof.
  intros X. split; [start; veval; auto|]. intros m v. refine (diverge 2 _ ltac:(lra) ltac:(lra) _ _ v).
  - intros x H. apply (continuous_mult (fun t => (t - m) ^ 2) (fun t => toR (pdf (Fin t) xi l s))); [|apply pdf_cont; auto].
    apply ex_derive_cont. auto_derive; auto.
  - set (b := -2 * (l - m) / s). exists (s ^ 2 / (4 * (1 + xi) ^ 2)), (l + s * Rmax 1 b).
    assert (K : 0 < s ^ 2 / (4 * (1 + xi) ^ 2)) by (apply Rdiv_pos; [apply pow_lt; lra|]; pose proof (pow_lt (1 + xi) 2 ltac:(lra)); lra).
    split; auto. split; [replace ((l + s * Rmax 1 b - l) / s) with (Rmax 1 b) by (field; lra); apply Rmax_l|].
    intros x Hx. set (z := (x - l) / s) in *. assert (XE : x = l + s * z) by (unfold z; field; lra).
    assert (ZM : Rmax 1 b <= z) by nra. pose proof (Rmax_l 1 b) as M1. pose proof (Rmax_r 1 b) as M2.
    assert (Z1 : 1 <= z) by lra. assert (I : inside l (gp_top xi l s) x) by (apply in_z; fold z; split; nra).
    rewrite PDF by auto. simpl toR. fold z.
    apply Rmult_le_compat_r; [left; apply Rdiv_pos; auto; apply f_pos|].
    assert (PW : Rpower (1 + xi * z) 2 = (1 + xi * z) ^ 2) by (rewrite <- Rpower_pow by nra; f_equal; simpl; ring). rewrite PW.
    apply Rle_trans with (s ^ 2 / (4 * (1 + xi) ^ 2) * ((1 + xi) * z) ^ 2).
    + apply Rmult_le_compat_l; [lra|]. apply pow_incr. split; [nra|]. apply y_z; auto; lra.
    + replace (s ^ 2 / (4 * (1 + xi) ^ 2) * ((1 + xi) * z) ^ 2) with ((s * z / 2) ^ 2) by (field; lra).
      apply pow_incr. split; [nra|]. assert (-2 * (l - m) <= s * z); [|lra].
      apply Rle_trans with (s * b); [right; unfold b; field; lra|]. apply Rmult_le_compat_l; lra.
Qed.
Lemma nll_ok xs : (forall x, In x xs -> l <= x /\ Rbar_le x (gp_top xi l s)) -> nll (map Fin xs) xi l s = vneg (loglik (fun x => logpdf x xi l s) xs).
Proof.
  intros H. unfold nll, validate, validate_positive, gp_top in *. destruct (Rle_dec 0 xi) as [N|N]; vif.
  - rewrite vxb_pass; [unfold loglik; rewrite map_map; reflexivity|]. intros x I. destruct (H x I). split; simpl; auto.
  - assert (XN : xi < 0) by lra. veval. cbn [bindv]. rewrite vxb_pass; [unfold loglik; rewrite map_map; reflexivity|].
    intros x I. destruct (H x I). split; simpl; auto.
Qed.
Lemma nll_low xs : (exists x, In x xs /\ x < l) -> nll (map Fin xs) xi l s = Exc ValueError.
Proof.
  intros H. unfold nll, validate, validate_positive. destruct (Rle_dec 0 xi) as [N|N]; vif; [rewrite vxb_low; auto|].
  assert (XN : xi < 0) by lra. veval. cbn [bindv]. rewrite vxb_low; auto.
Qed.
Lemma nll_high xs : (forall x, In x xs -> l <= x) -> (exists x, In x xs /\ Rbar_lt (gp_top xi l s) x) -> nll (map Fin xs) xi l s = Exc ValueError.
Proof.
  intros L H. unfold nll, validate, validate_positive, gp_top in *. destruct (Rle_dec 0 xi) as [N|N]; [destruct H as [x [_ []]]|].
  assert (XN : xi < 0) by lra. vif. veval. cbn [bindv]. rewrite vxb_high; auto.
Qed.
End P.
Lemma loc_scale (xi : R) : loc_scale_law (fun x => pdf x xi) (fun x => cdf x xi) (fun x => sf x xi)
  (fun p => invcdf p xi) (fun p => invsf p xi) 0 (gp_top xi 0 1).
Proof.
  apply (loc_scale_from_cert (fun x => pdf x xi) (fun x => logpdf x xi) (fun x => cdf x xi) (fun x => sf x xi)
    (fun p => invcdf p xi) (fun p => invsf p xi) 0 (gp_top xi 0 1) (F xi) (f xi) (Q xi)).
  intros l s S. rewrite <- lo_eq, <- hi_eq by auto. apply CERT; auto.
Qed.
Lemma bad_params (xi l s : val) xs : isnum s -> nonpositive s ->
  support xi l s = Err ValueError /\ nll xs xi l s = Exc ValueError /\
  always_ValueError [ fun x => pdf x xi l s; fun x => logpdf x xi l s; fun x => cdf x xi l s; fun x => sf x xi l s;
    fun p => invcdf p xi l s; fun p => invsf p xi l s; fun _ => mean xi l s; fun _ => var xi l s; fun _ => entropy xi l s ].
Proof.
  intros N B. unfold support, nll, pdf, logpdf, cdf, sf, invcdf, invsf, mean, var, entropy, validate.
  split; [|split; [|all_ve; intros x Hx]]; rewrite vp_bad by auto; reflexivity.
Qed.
