(** Proofs about M_logseries. *)
From Coq Require Import Reals Lra Lia List ZArith Arith Bool.
From Coquelicot Require Import Coquelicot.
From Verif Require Import Values VTac Spec SpecStat SpecEst SpecInv SpecDisc LLib XLib PLib RLib LimLib DistLib IntLib SFun GammaLib M_common M_disc DiscLib IncLib CountLib M_logseries.
From Verif Require M_basic P_negative_binomial.
From Coq Require Ranalysis5.
Import ListNotations.
Local Open Scope R_scope.
Set Bullet Behavior "Strict Subproofs".

(** The remainder of the series of -ln (1 - t). *)
Definition term (t : R) (j : nat) := t ^ S j / INR (S j).
Definition T (k : nat) (t : R) := - ln (1 - t) - nsum (term t) k.
Lemma term_der j t : is_derive (fun t => term t j) t (t ^ j).
Proof.
  unfold term. assert (INR (S j) <> 0) by (apply not_0_INR; lia).
  apply (is_derive_ext (fun t => / INR (S j) * t ^ S j)); [intros u; unfold Rdiv; apply Rmult_comm|].
  replace (t ^ j) with (/ INR (S j) * (INR (S j) * 1 * t ^ j)) by (field; auto). apply (is_derive_scal (fun t => t ^ S j)).
  apply (is_derive_pow (fun t => t) (S j) t 1). apply @is_derive_id.
Qed.
Lemma nsum_der k t : is_derive (fun t => nsum (term t) k) t (nsum (pow t) k).
Proof.
  induction k as [|k IH]; cbn [nsum]; [apply @is_derive_const|]. apply (is_derive_plus (fun t => nsum (term t) k) (fun t => term t k)); [exact IH|apply term_der].
Qed.
Lemma geom k t : t < 1 -> nsum (pow t) k = (1 - t ^ k) / (1 - t).
Proof. intros H. induction k as [|k IH]; cbn [nsum]; [simpl; field; lra|]. rewrite IH. simpl. field. lra. Qed.
Lemma T_der k t : t < 1 -> is_derive (T k) t (t ^ k / (1 - t)).
Proof.
  intros H. unfold T. replace (t ^ k / (1 - t)) with (/ (1 - t) - nsum (pow t) k) by (rewrite geom by auto; field; lra).
  apply (is_derive_minus (fun t => - ln (1 - t)) (fun t => nsum (term t) k)); [|apply nsum_der]. auto_derive; [lra|]. field. lra.
Qed.
Lemma T_0 k : T k 0 = 0.
Proof. unfold T. rewrite nsum_0; [replace (1 - 0) with 1 by ring; rewrite ln_1; ring|]. intros i _. unfold term. simpl. unfold Rdiv. ring. Qed.
Lemma T_mvt k t : 0 < t < 1 -> exists c, 0 < c < t /\ T k t = c ^ k / (1 - c) * t.
Proof.
  intros H. destruct (MVT_cor2 (T k) (fun c => c ^ k / (1 - c)) 0 t ltac:(lra)) as [d [D1 D2]].
  - intros x X. apply is_derive_Reals. apply T_der. lra.
  - exists d. split; auto. rewrite T_0 in D1. lra.
Qed.
Lemma T_bound k t : 0 < t < 1 -> 0 < T k t <= t ^ k * (t / (1 - t)).
Proof.
  intros H. destruct (T_mvt k t H) as [c [C ->]]. assert (0 < c ^ k) by (apply pow_lt; lra). assert (c ^ k <= t ^ k) by (apply pow_incr; lra). assert (0 < / (1 - c)) by (apply Rinv_0_lt_compat; lra).
  assert (/ (1 - c) <= / (1 - t)) by (apply Rinv_le_contravar; lra). split; [unfold Rdiv; repeat apply Rmult_lt_0_compat; lra|].
  replace (t ^ k * (t / (1 - t))) with (t ^ k / (1 - t) * t) by (field; lra). apply Rmult_le_compat_r; [lra|]. unfold Rdiv. apply Rmult_le_compat; lra.
Qed.
Lemma lb0 k t : 0 < t < 1 -> lower_beta (INR k + 1) 0 t = T k t.
Proof.
  intros H. unfold lower_beta. apply improper_eq; [simpl; lra|]. replace (T k t) with (T k t - 0) by ring.
  assert (CT : forall x, x < 1 -> continuous (T k) x) by (intros x X; apply (ex_derive_continuous (T k)); eexists; apply T_der; auto).
  apply (mk_integral (beta_kernel (INR k + 1) 0) (T k)).
  - simpl. lra.
  - intros x [X1 X2]. simpl in X1, X2. evar_last; [apply T_der; lra|]. unfold beta_kernel. replace (INR k + 1 - 1) with (INR k) by ring. rewrite Rpower_INR by lra. replace (0 - 1) with (- (1)) by ring. rewrite Rpower_Ropp, Rpower_1 by lra. reflexivity.
  - intros x [X1 X2]. simpl in X1, X2. apply (ex_derive_cont (beta_kernel (INR k + 1) 0)). unfold beta_kernel, Rpower. auto_derive. lra.
  - simpl. rewrite <- (T_0 k) at 2. apply flim_right. apply CT. lra.
  - simpl. apply flim_left. apply CT. lra.
Qed.
Section P.
Variable p : R.
Hypothesis P : 0 < p < 1.
Let L := - ln (1 - p).
Lemma L_pos : p < L.
Proof. unfold L. pose proof (T_bound 1 p P) as [H _]. unfold T in H. cbn [nsum] in H. unfold term in H. simpl in H. lra. Qed.
Definition g (i : nat) : R := match i with O => 0 | S j => term p j / L end.
Lemma g_pos i : (0 < i)%nat -> 0 < g i.
Proof. intros H. pose proof L_pos. destruct i as [|i]; [lia|]. unfold g, term. apply Rdiv_pos; [|lra]. apply Rdiv_pos; [apply pow_lt; lra|apply lt_0_INR; lia]. Qed.
Lemma psum k : nsum g (S k) = 1 - T k p / L.
Proof.
  pose proof L_pos. rewrite nsum_first. unfold g at 1. rewrite (nsum_ext (fun i => g (S i)) (fun i => / L * term p i)) by (intros i _; unfold g, Rdiv; ring). rewrite nsum_scal. unfold T. fold L. field. lra.
Qed.
Lemma T_lim : is_lim_seq (fun k => T k p / L) 0.
Proof.
  pose proof L_pos. apply (is_lim_seq_le_le (fun _ => 0) _ (fun k => p ^ k * (p / (1 - p) / L))).
  - intros k. destruct (T_bound k p P) as [A B]. split; [left; apply Rdiv_pos; lra|]. unfold Rdiv at 1. replace (p ^ k * (p / (1 - p) / L)) with (p ^ k * (p / (1 - p)) * / L) by (field; lra). apply Rmult_le_compat_r; auto. left. apply Rinv_0_lt_compat. lra.
  - apply is_lim_seq_const.
  - replace 0 with (0 * (p / (1 - p) / L)) by ring. apply (is_lim_seq_scal_r (fun k => p ^ k) _ 0). apply is_lim_seq_geom. rewrite Rabs_pos_eq; lra.
Qed.
Lemma mass1 : is_series g 1.
Proof.
  apply (series_of_tail g (fun n => match n with O => 1 | S k => T k p / L end)).
  - intros [|n]; [simpl; ring|]. apply psum.
  - apply is_lim_seq_incr_1. apply T_lim.
Qed.
Lemma ok {A} `{CanRaise A} (k : A) : validate_p (Fin p) k = k.
Proof. unfold validate_p, clt, cgt, cmp, ltb. rewrite !Rltb_false by lra. reflexivity. Qed.
Lemma l1 : vlog1p (vneg (Fin p)) = Fin (- L).
Proof. unfold vlog1p. cbn [vneg vadd]. rewrite vlog_Fin by lra. unfold L. f_equal. rewrite Ropp_involutive. auto. Qed.
Lemma lg_nat i : (0 < i)%nat -> logpmf (Fin (INR i)) (Fin p) = Fin (ln (g i)).
Proof.
  intros I. pose proof L_pos. assert (0 < INR i) by (apply lt_0_INR; auto). assert (1 <= INR i) by (change 1 with (INR 1); apply le_INR; lia). unfold logpmf. rewrite ok. unfold clt, cmp, ltb. rewrite Rltb_false by lra. cbn [cif].
  rewrite l1. cbn [vneg]. rewrite Ropp_involutive. rewrite !vlog_Fin by lra. cbn [vmul vsub vadd vneg]. f_equal. destruct i as [|i]; [lia|]. unfold g, term. rewrite !ln_div; try lra; try (apply pow_lt; lra); [|apply Rdiv_pos; [apply pow_lt|]; lra].
  rewrite ln_pow by lra. ring.
Qed.
Lemma low (k : R) : k < 1 -> pmf (Fin k) (Fin p) = Fin 0 /\ logpmf (Fin k) (Fin p) = NInf /\ cdf (Fin k) (Fin p) = Fin 0 /\ sf (Fin k) (Fin p) = Fin 1.
Proof. intros K. unfold pmf, logpmf, cdf, sf. rewrite !ok. unfold clt, cmp, ltb. rewrite Rltb_true by lra. auto. Qed.
Lemma pmf_nat i : pmf (Fin (INR i)) (Fin p) = Fin (g i).
Proof.
  destruct i as [|i]; [apply low; simpl; lra|]. assert (1 <= INR (S i)) by (change 1 with (INR 1); apply le_INR; lia). unfold pmf. rewrite ok. unfold clt, cmp, ltb. rewrite Rltb_false by lra. cbn [cif]. rewrite lg_nat by lia. cbn [vexp]. rewrite exp_ln by (apply g_pos; lia). auto.
Qed.
Lemma pmf_in i : DiscLib.below None i -> pmf (Fin (IZR (Z.of_nat i))) (Fin p) = Fin (g i).
Proof. intros _. rewrite <- INR_IZR_INZ. apply pmf_nat. Qed.
Lemma pmf_z (k : Z) : (1 <= k)%Z -> pmf (Fin (IZR k)) (Fin p) = Fin (g (Z.to_nat k)).
Proof. intros K. replace k with (Z.of_nat (Z.to_nat k)) at 1 by lia. apply pmf_in. exact I. Qed.
Lemma up1 (h : Z -> R) v : h 0%Z = 0 -> sums_to h (Count 0) v -> sums_to h (Count 1) v.
Proof.
  unfold sums_to. intros H SS. apply (is_series_ext (fun i => h (Z.of_nat (S i)))); [intros i; f_equal; lia|]. apply (is_series_incr_1 (fun i => h (0 + Z.of_nat i)%Z)).
  match goal with |- is_series _ ?w => replace w with v; [exact SS|] end. unfold plus. simpl. rewrite H. ring.
Qed.
Lemma at0 : at_int (fun k => pmf k (Fin p)) 0 = 0.
Proof. unfold at_int. destruct (low 0) as [-> _]; [lra|reflexivity]. Qed.
Lemma dm1 c n v : dmoment (fun k => pmf k (Fin p)) (Count 0) c n v -> dmoment (fun k => pmf k (Fin p)) (Count 1) c n v.
Proof. unfold dmoment. apply up1. rewrite at0. ring. Qed.
Lemma mass_ok : support (Fin p) = Count 1 /\ mass_function (fun k => pmf k (Fin p)) (Count 1) /\ zero_outside (fun k => pmf k (Fin p)) (Count 1).
Proof.
  split; auto. split; [split|].
  - intros k K. simpl in K. exists (g (Z.to_nat k)). split; [apply pmf_z; auto|left; apply g_pos; lia].
  - apply up1; [apply at0|]. apply (sums_tot None). eapply tot_ext; [|exact mass1]. intros i _. unfold at_int. rewrite pmf_in by exact I. reflexivity.
  - intros k K. simpl in K. apply low. apply IZR_lt. lia.
Qed.
Lemma log_ok : log_law (fun k => pmf k (Fin p)) (fun k => logpmf k (Fin p)) (fun _ => True).
Proof.
  intros k _. destruct (Z_lt_dec k 1) as [K|K].
  - right; left. destruct (low (IZR k)) as [-> [-> _]]; auto. apply IZR_lt. auto.
  - left. exists (g (Z.to_nat k)). split; [apply g_pos; lia|]. split; [apply pmf_z; lia|]. replace k with (Z.of_nat (Z.to_nat k)) at 1 by lia. rewrite <- INR_IZR_INZ. apply lg_nat. lia.
Qed.
Lemma cdf_ok (k : Z) : cumulative (fun k => pmf k (Fin p)) (fun k => cdf k (Fin p)) (fun k => sf k (Fin p)) (Count 1) k.
Proof.
  pose proof L_pos. unfold cumulative. cbn [sum_upto]. destruct (Z_lt_dec k 1) as [K|K].
  - rewrite zsum_nil by lia. destruct (low (IZR k)) as [_ [_ [-> ->]]]; [apply IZR_lt; auto|]. split; auto. f_equal. ring.
  - replace (zsum (at_int (fun k => pmf k (Fin p))) 1 (k + 1)) with (zsum (at_int (fun k => pmf k (Fin p))) 0 (k + 1)) by (apply zsum_widen; try lia; intros j J; replace j with 0%Z by lia; apply at0).
    pose proof (disc_upto None (fun k => pmf k (Fin p)) g pmf_in k) as E. cbn [sum_upto sup0] in E. rewrite E. set (i := Z.to_nat k). replace (Z.to_nat (k + 1)) with (S i) by lia. replace k with (Z.of_nat i) by lia. rewrite psum.
    rewrite <- INR_IZR_INZ. assert (1 <= INR i) by (change 1 with (INR 1); apply le_INR; lia).
    assert (B : vbetainc0 (vadd (Fin (INR i)) (Fin 1)) (Fin p) = Fin (T i p)).
    { cbn [vadd vbetainc0]. rewrite !Rltb_true, !Reqb_false by lra. rewrite lb0 by auto. reflexivity. }
    unfold cdf, sf. rewrite !ok, B, l1. unfold clt, cmp, ltb. rewrite Rltb_false by lra. cbn [cif vneg]. rewrite !vdiv_Fin by lra. cbn [vadd]. split; f_equal; field; lra.
Qed.
Lemma mode_ok : smallest_mode (fun k => pmf k (Fin p)) (Count 1) (mode (Fin p)).
Proof.
  pose proof L_pos. unfold mode. rewrite ok. exists 1%Z, (g 1). split; [reflexivity|]. split; [simpl; lia|]. split; [apply pmf_z; lia|]. intros k K. simpl in K. exists (g (Z.to_nat k)). split; [apply pmf_z; auto|]. split; [|lia].
  destruct (Z.to_nat k) as [|j] eqn:E; [lia|]. unfold g, term. unfold Rdiv at 1 3. apply Rmult_le_compat_r; [left; apply Rinv_0_lt_compat; lra|]. simpl (INR 1). rewrite S_INR. pose proof (pos_INR j). simpl pow. rewrite Rmult_1_r.
  assert (p ^ j <= 1) by (rewrite <- (pow1 j); apply pow_incr; lra). assert (0 < p ^ j) by (apply pow_lt; lra). replace (p / 1) with p by field. apply Rle_div_l; [lra|]. nra.
Qed.
(** Moments. *)
Definition q := p / (1 - p).
Lemma q_pos : 0 < q. Proof. unfold q. apply Rdiv_pos; lra. Qed.
Notation h r := (P_negative_binomial.g r p).
Lemma g_geo i : INR (S i) * g (S i) = q / L * h 1 i.
Proof.
  pose proof L_pos. unfold g, term, q, P_negative_binomial.g. rewrite Rpower_1 by lra.
  assert (E : M_sfun.rising 1 i = INR (fact i)) by apply HgLib.rising_1. rewrite E. pose proof (INR_fact_lt_0 i). assert (INR (S i) <> 0) by (apply not_0_INR; lia). simpl pow. field. repeat split; lra.
Qed.
Definition F (r : nat) : R := match r with O => 1 | S r => INR (fact r) * q ^ S r / L end.
Lemma N0 r : 0 < r -> tot None (h r) 1. Proof. intros R. apply P_negative_binomial.mass1; lra. Qed.
Lemma sb r i : 0 < r -> INR (S i) * h r (S i) = q * r * h (r + 1) i.
Proof. intros R. rewrite P_negative_binomial.g_sb by lra. unfold q. field. lra. Qed.
Lemma N1 r : 0 < r -> tot None (fun i => INR i * h r i) (q * r).
Proof.
  intros R. rewrite <- (Rmult_1_r (q * r)). apply (tot_shift None (h r) (h (r + 1))); [intros i _; apply sb; auto|]. apply N0. lra.
Qed.
Lemma N2 r : 0 < r -> tot None (fun i => INR i * ((INR i - 1) * h r i)) (q * r * (q * (r + 1))).
Proof.
  intros R. apply (tot_shift None (fun i => (INR i - 1) * h r i) (fun i => INR i * h (r + 1) i)); [|apply N1; lra]. intros i _. transitivity ((INR (S i) - 1) * (INR (S i) * h r (S i))); [ring|]. rewrite sb, S_INR by auto. ring.
Qed.
Lemma N3 r : 0 < r -> tot None (fun i => INR i * ((INR i - 1) * (INR i - 2) * h r i)) (q * r * (q * (r + 1) * (q * (r + 2)))).
Proof.
  intros R. replace (r + 2) with (r + 1 + 1) by ring. apply (tot_shift None (fun i => (INR i - 1) * (INR i - 2) * h r i) (fun i => INR i * ((INR i - 1) * h (r + 1) i))); [|apply N2; lra]. intros i _.
  transitivity ((INR (S i) - 1) * (INR (S i) - 2) * (INR (S i) * h r (S i))); [ring|]. rewrite sb, S_INR by auto. ring.
Qed.
Lemma fall_tot r : (r <= 4)%nat -> tot None (fun i => fall (INR i) r * g i) (F r).
Proof.
  intros R. destruct r as [|[|[|[|[|r]]]]]; try lia; unfold F, fall.
  - eapply tot_ext; [|exact mass1]. intros i _. ring.
  - replace (INR (fact 0) * q ^ 1 / L) with (q / L * 1) by (simpl; unfold Rdiv; ring). apply (tot_shift None g (h 1)); [intros i _; apply g_geo|]. apply N0; lra.
  - eapply tot_ext; [|replace (INR (fact 1) * q ^ 2 / L) with (q / L * (q * 1)) by (simpl; unfold Rdiv; ring); apply (tot_shift None (fun i => (INR i - 1) * g i) (fun i => INR i * h 1 i)); [|apply N1; lra]].
    + intros i _. cbv beta. ring.
    + intros i _. transitivity ((INR (S i) - 1) * (INR (S i) * g (S i))); [ring|]. rewrite g_geo, S_INR. ring.
  - eapply tot_ext; [|replace (INR (fact 2) * q ^ 3 / L) with (q / L * (q * 1 * (q * (1 + 1)))) by (simpl; unfold Rdiv; ring); apply (tot_shift None (fun i => (INR i - 1) * (INR i - 2) * g i) (fun i => INR i * ((INR i - 1) * h 1 i))); [|apply N2; lra]].
    + intros i _. cbv beta. ring.
    + intros i _. transitivity ((INR (S i) - 1) * (INR (S i) - 2) * (INR (S i) * g (S i))); [ring|]. rewrite g_geo, S_INR. ring.
  - eapply tot_ext; [|replace (INR (fact 3) * q ^ 4 / L) with (q / L * (q * 1 * (q * (1 + 1) * (q * (1 + 2))))) by (simpl; unfold Rdiv; ring); apply (tot_shift None (fun i => (INR i - 1) * (INR i - 2) * (INR i - 3) * g i) (fun i => INR i * ((INR i - 1) * (INR i - 2) * h 1 i))); [|apply N3; lra]].
    + intros i _. cbv beta. ring.
    + intros i _. transitivity ((INR (S i) - 1) * (INR (S i) - 2) * (INR (S i) - 3) * (INR (S i) * g (S i))); [ring|]. rewrite g_geo, S_INR. ring.
Qed.
Lemma raw r : (r <= 4)%nat -> tot None (fun i => INR i ^ r * g i) (raw_of F r).
Proof. apply raw_from_fall. apply fall_tot. Qed.
Lemma var_eq : dvar (raw_of F) = p * (L - p) / ((1 - p) ^ 2 * L ^ 2).
Proof. pose proof L_pos. unfold dvar, raw_of, F, q. simpl. field. lra. Qed.
Lemma var_pos : 0 < dvar (raw_of F).
Proof. pose proof L_pos. rewrite var_eq. apply Rdiv_pos; apply Rmult_lt_0_compat; try lra; apply pow_lt; lra. Qed.
Lemma moments_ok : dmean_is (fun k => pmf k (Fin p)) (Count 1) (mean (Fin p)) /\ dvar_is (fun k => pmf k (Fin p)) (Count 1) (var (Fin p)).
Proof.
  pose proof L_pos. split.
  - unfold mean. rewrite ok, l1. cbn [vsub vadd vneg]. rewrite vdiv_Fin by lra. rewrite vdiv_Fin by lra.
    match goal with |- dmean_is _ _ (Fin ?v) => replace v with (F 1) by (unfold F, q; simpl; field; lra) end.
    destruct (disc_mean None (fun k => pmf k (Fin p)) g pmf_in _ (fall_tot 1 ltac:(lia))) as [r [E M]]. exists r. split; auto. apply dm1. exact M.
  - unfold var. rewrite ok, l1. cbv zeta. cbn [vmul vsub vadd vneg]. rewrite !vpown_Fin. rewrite vdiv_Fin by (apply pow_nonzero; lra). rewrite vdiv_Fin by (apply pow_nonzero; lra).
    match goal with |- dvar_is _ _ (Fin ?v) => replace v with (dvar (raw_of F)) by (rewrite var_eq; field; lra) end.
    destruct (disc_var None (fun k => pmf k (Fin p)) g pmf_in (raw_of F) ltac:(intros; apply raw; lia) eq_refl) as [m [v [A [B E]]]]. exists m, v. repeat split; auto; apply dm1; auto.
Qed.
Lemma shape_ok : dskewness_is (fun k => pmf k (Fin p)) (Count 1) (skewness (Fin p)) /\ dkurtosis_is (fun k => pmf k (Fin p)) (Count 1) (kurtosis (Fin p)).
Proof.
  pose proof L_pos. pose proof var_pos as V. assert (PL : 0 < p * (L - p)) by (apply Rmult_lt_0_compat; lra). split.
  - unfold skewness. rewrite ok, l1. cbv zeta. cbn [vmul vsub vadd vneg]. rewrite !vpown_Fin. cbn [vmul vsub vadd vneg]. unfold vsqrt. rewrite Rltb_false by nra. cbn [vneg vmul].
    replace (- p * (p + - L)) with (p * (L - p)) by ring. set (u := sqrt (p * (L - p))). assert (UP : 0 < u) by (apply sqrt_lt_R0; auto). assert (U2 : u * u = p * (L - p)) by (apply sqrt_sqrt; lra).
    rewrite vdiv_Fin by nra.
    match goal with |- dskewness_is _ _ (Fin ?v) => replace v with (dcen3 (raw_of F) / (dvar (raw_of F) * sqrt (dvar (raw_of F)))) end.
    + destruct (disc_skewness None (fun k => pmf k (Fin p)) g pmf_in (raw_of F) ltac:(intros; apply raw; lia) eq_refl V) as [m [v [c [A [B [C [D E]]]]]]]. exists m, v, c. repeat split; auto; apply dm1; auto.
    + assert (SV : sqrt (dvar (raw_of F)) = u / ((1 - p) * L)).
      { apply sqrt_lem_1; [left; auto|left; apply Rdiv_pos; auto; apply Rmult_lt_0_compat; lra|]. rewrite var_eq. replace (u / ((1 - p) * L) * (u / ((1 - p) * L))) with (u * u / ((1 - p) ^ 2 * L ^ 2)) by (field; lra). rewrite U2. auto. }
      rewrite SV, var_eq. unfold dcen3, raw_of, F, q. simpl. field. repeat split; try lra; nra.
  - unfold kurtosis. rewrite ok, l1. cbv zeta. cbn [vmul vsub vadd vneg]. rewrite !vpown_Fin. cbn [vmul vsub vadd vneg]. rewrite vdiv_Fin by (apply Rmult_integral_contrapositive_currified; [lra|apply pow_nonzero; lra]).
    match goal with |- dkurtosis_is _ _ (Fin ?v) => replace v with (dcen4 (raw_of F) / dvar (raw_of F) ^ 2 - 3) end.
    + destruct (disc_kurtosis None (fun k => pmf k (Fin p)) g pmf_in (raw_of F) ltac:(intros; apply raw; lia) eq_refl V) as [m [v [c [A [B [C [D E]]]]]]]. exists m, v, c. repeat split; auto; apply dm1; auto.
    + rewrite var_eq. unfold dcen4, raw_of, F, q. simpl. field. repeat split; try lra; nra.
Qed.
(** Likelihood. *)
Lemma x_ok xs : (forall x, In x xs -> (1 <= x)%nat) -> call (fun t => cand (visint t) (cge t (Fin 1))) (vNs xs) = CB true.
Proof.
  induction xs as [|x xs IH]; intros X; auto. unfold vNs in *. cbn [map call]. unfold vN at 1 2. unfold visint at 1. rewrite is_intb_INR. unfold cge, cmp, leb. rewrite Rleb_true by (change 1 with (INR 1); apply le_INR; apply X; simpl; auto).
  cbn [cand andb]. apply IH. intros y Y. apply X. simpl; auto.
Qed.
Lemma nll_eval xs cs : (forall x, In x xs -> (1 <= x)%nat) -> good_counts xs cs -> nll (vNs xs) (Fin p) (vcounts cs) = Fin (- wsum (fun x => ln (g x)) xs (counts_for xs cs)).
Proof.
  intros X G. unfold nll. rewrite ok, x_ok by auto. cbn [cnot negb cif].
  rewrite (counts_pass _ xs) by (auto; unfold vNs; apply map_length). rewrite zip_counts_pass, (zip_sum _ (fun x => ln (g x))) by (intros x I; apply lg_nat; apply X; auto). reflexivity.
Qed.
Lemma nll_laws (xs cs : list nat) : (forall x, In x xs -> (1 <= x)%nat) ->
  nll (vNs xs) (Fin p) None = vneg (loglik (fun t => logpmf t (Fin p)) (map INR xs)) /\
  (length cs = length xs -> nll (vNs xs) (Fin p) (Some (vNs cs)) = nll (vNs (expand xs cs)) (Fin p) None) /\
  (forall bad, bad_counts xs bad -> nll (vNs xs) (Fin p) (Some (map Fin bad)) = Exc ValueError).
Proof.
  intros X. split; [|split].
  - change (@None (list val)) with (vcounts None). rewrite (nll_eval xs None) by (auto; unfold good_counts; simpl; apply repeat_length). simpl counts_for. rewrite wsum_expand, expand_ones.
    unfold loglik. rewrite map_map, (vfsum_map _ (fun x => ln (g x))); [reflexivity|]. intros x I. apply lg_nat; apply X; auto.
  - intros E. change (@None (list val)) with (vcounts None). change (Some (vNs cs)) with (vcounts (Some cs)). rewrite (nll_eval xs (Some cs)) by auto.
    rewrite (nll_eval _ None); [|intros x I; apply X; eapply expand_in; eauto|unfold good_counts; simpl; apply repeat_length].
    rewrite (counts_of_expand (fun x => ln (g x)) xs (Some cs)). reflexivity.
  - intros bad BD. unfold nll. rewrite ok, x_ok by auto. cbn [cnot negb cif].
    apply counts_bad. destruct BD as [BD|BD]; [left; unfold vNs; rewrite map_length; auto|right; auto].
Qed.
Lemma ln_g x : (1 <= x)%nat -> ln (g x) = INR x * ln p - ln (INR x) - ln L.
Proof.
  intros X. pose proof L_pos. destruct x as [|j]; [lia|]. assert (0 < INR (S j)) by (apply lt_0_INR; lia). unfold g, term. rewrite !ln_div; try lra; try (apply pow_lt; lra); [|apply Rdiv_pos; [apply pow_lt|]; lra].
  rewrite ln_pow by lra. ring.
Qed.
End P.
(** Maximum likelihood. *)
Definition LL (t : R) := - ln (1 - t).
Definition mu (t : R) := t / ((1 - t) * LL t).
Lemma LL_gt t : 0 < t < 1 -> t < LL t. Proof. apply L_pos. Qed.
Lemma LL_der t : t < 1 -> is_derive LL t (/ (1 - t)).
Proof. intros H. unfold LL. auto_derive; [lra|]. field. lra. Qed.
Lemma mu_der t : 0 < t < 1 -> is_derive mu t ((LL t - t) / ((1 - t) ^ 2 * LL t ^ 2)).
Proof.
  intros H. pose proof (LL_gt t H). unfold mu, LL in *. auto_derive; unfold Rminus in *; [repeat split; try lra; apply Rmult_integral_contrapositive_currified; lra|]. field. lra.
Qed.
Lemma mu_incr s t : 0 < s -> s < t -> t < 1 -> mu s < mu t.
Proof.
  intros S T' T1. destruct (MVT_cor2 mu (fun t => (LL t - t) / ((1 - t) ^ 2 * LL t ^ 2)) s t T') as [d [E D]].
  - intros x X. apply is_derive_Reals. apply mu_der. lra.
  - pose proof (LL_gt d ltac:(lra)). assert (0 < (LL d - d) / ((1 - d) ^ 2 * LL d ^ 2)) by (apply Rdiv_pos; [lra|apply Rmult_lt_0_compat; apply pow_lt; lra]). nra.
Qed.
Definition phi (m t : R) := ln (LL t) - m * ln t.
Lemma phi_der m t : 0 < t < 1 -> is_derive (phi m) t ((mu t - m) / t).
Proof.
  intros H. pose proof (LL_gt t H). unfold phi, mu, LL in *. auto_derive; unfold Rminus in *; [repeat split; lra|]. field. repeat split; lra.
Qed.
Lemma phi_min m p t : 0 < p < 1 -> mu p = m -> 0 < t < 1 -> phi m p <= phi m t.
Proof.
  intros P E T'. destruct (Rtotal_order t p) as [H|[->|H]]; [|lra|].
  - destruct (MVT_cor2 (phi m) (fun t => (mu t - m) / t) t p H) as [d [Q D]]; [intros x X; apply is_derive_Reals; apply phi_der; lra|].
    pose proof (mu_incr d p ltac:(lra) ltac:(lra) ltac:(lra)). assert ((mu d - m) / d < 0) by (apply Rlt_div_l; lra). nra.
  - destruct (MVT_cor2 (phi m) (fun t => (mu t - m) / t) p t H) as [d [Q D]]; [intros x X; apply is_derive_Reals; apply phi_der; lra|].
    pose proof (mu_incr p d ltac:(lra) ltac:(lra) ltac:(lra)). assert (0 < (mu d - m) / d) by (apply Rdiv_pos; lra). nra.
Qed.
Lemma func_in t : 0 < t < 1 -> mle_func (Fin t) = Fin (mu t).
Proof.
  intros H. pose proof (LL_gt t H). unfold mle_func. rewrite l1 by auto. cbn [vsub vadd vneg vmul]. rewrite vdiv_Fin by (apply Rmult_integral_contrapositive_currified; unfold LL in *; lra). unfold mu, LL in *. f_equal. field. lra.
Qed.
Lemma func_root t m : 1 < m -> vsub (mle_func (Fin t)) (Fin m) = Fin 0 -> 0 < t < 1 /\ mu t = m.
Proof.
  intros M E. destruct (Rlt_dec 0 t) as [T0|T0]; [destruct (Rlt_dec t 1) as [T1|T1]|].
  - rewrite func_in in E by lra. cbn [vsub vadd vneg] in E. injection E as E. split; lra.
  - exfalso. unfold mle_func, vlog1p in E. cbn [vsub vadd vneg] in E. destruct (Req_dec t 1) as [->|N].
    + unfold vlog in E. rewrite Rltb_false, Reqb_true in E by lra. replace (1 + - (1)) with 0 in E by ring. unfold vmul, scale_inf in E. rewrite Reqb_true in E by lra. discriminate E.
    + unfold vlog in E. rewrite Rltb_false, Reqb_false in E by lra. discriminate E.
  - exfalso. unfold mle_func, vlog1p in E. cbn [vsub vadd vneg] in E. rewrite vlog_Fin in E by lra. cbn [vmul] in E. destruct (Req_dec t 0) as [->|N].
    + replace (1 + - 0) with 1 in E by ring. rewrite ln_1, Rmult_0_r in E. simpl in E. rewrite Reqb_true in E by auto. discriminate E.
    + assert (LP : 0 < ln (1 + - t)) by (rewrite <- ln_1; apply ln_increasing; lra). rewrite vdiv_Fin in E by (apply Rmult_integral_contrapositive_currified; lra). cbn [vadd] in E. injection E as E.
      assert (Q : - t / (1 + - t) <= ln (1 + - t)).
      { pose proof (exp_ineq1_le (- ln (1 + - t))) as X. rewrite exp_Ropp, exp_ln in X by lra. replace (- t / (1 + - t)) with (1 - / (1 + - t)) by (field; lra). lra. }
      assert (- t / ((1 + - t) * ln (1 + - t)) <= 1); [|lra]. replace (- t / ((1 + - t) * ln (1 + - t))) with ((- t / (1 + - t)) / ln (1 + - t)) by (field; lra). apply Rle_div_l; lra.
Qed.
Section Mle.
Variables (xs : list nat) (cs : option (list nat)).
Hypothesis X : forall x, In x xs -> (1 <= x)%nat.
Hypothesis G : good_counts xs cs.
Let c := counts_for xs cs.
Hypothesis W : 0 < wtot xs c.
Let m := wsum INR xs c / wtot xs c.
Lemma nll_val p : 0 < p < 1 -> nll (vNs xs) (Fin p) (vcounts cs) = Fin (wsum (fun x => ln (INR x)) xs c + wtot xs c * phi m p).
Proof.
  intros P. rewrite nll_eval by auto. f_equal. fold c. rewrite (wsum_ext (fun x => ln (g p x)) (fun x => (ln p * INR x + -1 * ln (INR x)) + - ln (LL p))).
  - rewrite !wsum_plus, !wsum_scal, wsum_const. unfold m, phi. field. lra.
  - intros x I. rewrite ln_g by auto. unfold LL. ring.
Qed.
Lemma mle_min fr1 fr2 guess p : 1 < m -> checked_solver1 fr1 -> checked_solver fr2 -> mle fr1 fr2 guess (vNs xs) (vcounts cs) = Fin p -> minimises (fun t => 0 < t < 1) (fun t => nll (vNs xs) (Fin t) (vcounts cs)) p.
Proof.
  intros M C1 C2. unfold mle. rewrite mean_counts by auto. fold c. fold m. cbn [bindv]. unfold ceq, cgt, cmp, eqb, ltb. rewrite Reqb_false by lra. cbn [cif].
  intros E. assert (R : vsub (mle_func (Fin p)) (Fin m) = Fin 0).
  { destruct (Rltb (exp 1) m); cbn [cif] in E; [apply C1 in E|cbv zeta in E; apply C2 in E]; exact E. }
  destruct (func_root p m M R) as [P Q]. split; auto. eexists. split; [apply nll_val; auto|]. intros t T'. eexists. split; [apply nll_val; auto|].
  apply Rplus_le_compat_l. apply Rmult_le_compat_l; [lra|]. apply phi_min; auto.
Qed.
Lemma mle_ones fr1 fr2 guess : m = 1 -> mle fr1 fr2 guess (vNs xs) (vcounts cs) = Fin 0.
Proof. intros M. unfold mle. rewrite mean_counts by auto. fold c. fold m. cbn [bindv]. unfold ceq, cmp, eqb. rewrite Reqb_true by auto. reflexivity. Qed.
End Mle.
Lemma mean_gt xs cs : (forall x, In x xs -> (1 <= x)%nat) -> (exists x, In x (expand xs cs) /\ x <> 1%nat) -> 0 < wtot xs cs /\ wtot xs cs < wsum INR xs cs.
Proof.
  intros X [x [I N]]. unfold wtot. rewrite !wsum_expand. assert (Y : forall y, In y (expand xs cs) -> (1 <= y)%nat) by (intros y Y; apply X; eapply expand_in; eauto).
  assert (P : forall l, (forall y, In y l -> (1 <= y)%nat) -> 0 <= sum (map (fun _ : nat => 1) l) <= sum (map INR l)).
  { induction l as [|y l IH]; intros H; simpl; [unfold sum; simpl; lra|]. unfold sum in *. simpl. specialize (IH (fun z Z => H z (or_intror Z))). assert (1 <= INR y) by (change 1 with (INR 1); apply le_INR; apply H; simpl; auto). lra. }
  revert I Y. generalize (expand xs cs). induction l as [|y l IH]; intros I Y; [destruct I|]. unfold sum in *. simpl. assert (YL : forall z, In z l -> (1 <= z)%nat) by (intros z Z; apply Y; simpl; auto). destruct (P l YL).
  destruct I as [->|I].
  - assert (2 <= INR x) by (change 2 with (INR 2); apply le_INR; specialize (Y x (or_introl eq_refl)); lia). lra.
  - specialize (IH I YL). assert (1 <= INR y) by (change 1 with (INR 1); apply le_INR; apply Y; simpl; auto). lra.
Qed.
Lemma mle_ok (fr1 : (val -> val) -> val -> val) (fr2 : (val -> val) -> val * val -> val) (guess : val -> val) (xs : list nat) (cs : option (list nat)) (p : R) : checked_solver1 fr1 -> checked_solver fr2 ->
  (forall x, In x xs -> (1 <= x)%nat) -> good_counts xs cs -> (exists x, In x (expand xs (counts_for xs cs)) /\ x <> 1%nat) ->
  mle fr1 fr2 guess (vNs xs) (vcounts cs) = Fin p -> minimises (fun t => 0 < t < 1) (fun t => nll (vNs xs) (Fin t) (vcounts cs)) p.
Proof.
  intros C1 C2 X G E. destruct (mean_gt xs _ X E) as [W M]. apply mle_min; auto. apply Rlt_div_r; lra.
Qed.
Lemma all_one (fr1 : (val -> val) -> val -> val) (fr2 : (val -> val) -> val * val -> val) (guess : val -> val) (n : nat) : (0 < n)%nat ->
  mle fr1 fr2 guess (vNs (repeat 1%nat n)) None = Fin 0 /\
  (forall s t, 0 < s < t -> t < 1 -> exists u v, nll (vNs (repeat 1%nat n)) (Fin s) None = Fin u /\ nll (vNs (repeat 1%nat n)) (Fin t) None = Fin v /\ 0 < u < v).
Proof.
  intros N. change None with (vcounts None). assert (X : forall x, In x (repeat 1%nat n) -> (1 <= x)%nat) by (intros x I; apply repeat_spec in I; lia).
  assert (G : good_counts (repeat 1%nat n) None) by (unfold good_counts; simpl; apply repeat_length).
  assert (E : expand (repeat 1%nat n) (counts_for (repeat 1%nat n) None) = repeat 1%nat n) by (apply expand_ones).
  assert (N' : 0 < INR n) by (apply lt_0_INR; auto).
  assert (W : wtot (repeat 1%nat n) (counts_for (repeat 1%nat n) None) = INR n) by (rewrite wtot_len, E, repeat_length; auto).
  assert (S1 : wsum INR (repeat 1%nat n) (counts_for (repeat 1%nat n) None) = INR n) by (rewrite wsum_expand, E, map_repeat, sum_repeat; simpl; ring).
  assert (L1 : wsum (fun x => ln (INR x)) (repeat 1%nat n) (counts_for (repeat 1%nat n) None) = 0) by (rewrite wsum_expand, E, map_repeat, sum_repeat; simpl; rewrite ln_1; ring).
  split; [apply mle_ones; auto; rewrite ?W, ?S1; [lra|field; lra]|]. intros s t ST T1. eexists. eexists. split; [apply nll_val; auto; rewrite ?W; lra|]. split; [apply nll_val; auto; rewrite ?W; lra|].
  rewrite W, S1, L1. replace (INR n / INR n) with 1 by (field; lra). rewrite !Rplus_0_l. split.
  - apply Rmult_lt_0_compat; auto. unfold phi. rewrite Rmult_1_l. pose proof (LL_gt s ltac:(lra)). pose proof (ln_increasing s (LL s) ltac:(lra) ltac:(lra)). lra.
  - apply Rmult_lt_compat_l; auto. destruct (MVT_cor2 (phi 1) (fun t => (mu t - 1) / t) s t ltac:(lra)) as [d [Q D]]; [intros x Y; apply is_derive_Reals; apply phi_der; lra|].
    assert (1 < mu d).
    { unfold mu. pose proof (LL_gt d ltac:(lra)). apply Rlt_div_r; [apply Rmult_lt_0_compat; lra|]. rewrite Rmult_1_l.
      assert (Q2 : (1 - d) * LL d < d); [|exact Q2]. destruct (MVT_cor2 (fun d => d - (1 - d) * LL d) (fun d => LL d) 0 d ltac:(lra)) as [e [Q2 D2]].
      - intros x Y. apply is_derive_Reals. unfold LL. auto_derive; [lra|]. unfold Rminus. field. lra.
      - pose proof (LL_gt e ltac:(lra)). unfold LL at 2 in Q2. replace (1 - 0) with 1 in Q2 by ring. rewrite ln_1 in Q2. assert (0 < LL e * (d - 0)) by (apply Rmult_lt_0_compat; lra). lra. }
    assert (0 < (mu d - 1) / d) by (apply Rdiv_pos; lra). nra.
Qed.
Lemma mle_case : exists fr1 fr2 p, checked_solver1 fr1 /\ checked_solver fr2 /\ mle fr1 fr2 (fun m => m) (vNs [1; 1; 2]%nat) None = Fin p.
Proof.
  set (f := fun t => mu t - 4 / 3).
  assert (R : exists p, 0 < p < 1 /\ mu p = 4 / 3).
  { assert (C : forall a, / 10 <= a <= 9 / 10 -> continuity_pt f a).
    { intros a A. apply continuity_pt_filterlim. apply (ex_derive_continuous f). unfold f. eexists. apply (is_derive_minus mu (fun _ => 4 / 3)); [apply mu_der; lra|apply @is_derive_const]. }
    assert (A : mu (/ 10) < 4 / 3).
    { unfold mu. pose proof (LL_gt (/ 10) ltac:(lra)). apply Rlt_div_l; [apply Rmult_lt_0_compat; lra|]. nra. }
    assert (B : 4 / 3 < mu (9 / 10)).
    { unfold mu. pose proof (LL_gt (9 / 10) ltac:(lra)). apply (Rlt_div_r (4 / 3)); [apply Rmult_lt_0_compat; lra|]. assert (U : LL (9 / 10) <= 6).
      { unfold LL. replace (1 - 9 / 10) with (/ 10) by field. rewrite ln_Rinv by lra. rewrite Ropp_involutive. rewrite <- (ln_exp 6). apply ln_le; [lra|]. pose proof (exp_ineq1_le 3) as E1. replace 6 with (3 + 3) by ring. rewrite exp_plus. nra. }
      nra. }
    destruct (Ranalysis5.IVT_interv f (/ 10) (9 / 10)) as [z [Z1 Z2]]; auto; try (unfold f; lra). exists z. unfold f in Z2. split; lra. }
  destruct R as [p [P E]]. exists (fun _ _ => NaN), (fun g _ => match g (Fin p) with Fin z => if Reqb z 0 then Fin p else NaN | _ => NaN end), p.
  split; [intros g x0 r Q; discriminate Q|]. split.
  - intros g x0 x1 r. destruct (g (Fin p)) as [z| | | |] eqn:Q; try discriminate. destruct (Reqb_spec z 0) as [[Z ->]|[Z ->]]; [|discriminate]. intros Y. injection Y as <-. rewrite Q, Z. auto.
  - unfold mle. change None with (vcounts None). assert (W : wtot [1; 1; 2]%nat (counts_for [1; 1; 2]%nat None) = 3) by (unfold wtot, wsum, sum; simpl; ring). rewrite mean_counts; [|reflexivity|rewrite W; lra]. rewrite W.
    replace (wsum INR [1; 1; 2]%nat (counts_for [1; 1; 2]%nat None)) with 4 by (unfold wsum, sum; simpl; ring). cbn [bindv]. unfold ceq, cgt, cmp, eqb, ltb. rewrite Reqb_false by lra. cbn [cif]. pose proof (exp_ineq1 1 ltac:(lra)). rewrite Rltb_false by lra. cbn [cif]. cbv zeta.
    rewrite func_in by auto. cbn [vsub vadd vneg]. rewrite Reqb_true by lra. auto.
Qed.
(** Parameters. *)
Lemma bad_params (p : R) (xs : list val) : p < 0 \/ 1 < p ->
  always_ValueError [fun k => pmf k (Fin p); fun k => logpmf k (Fin p); fun k => cdf k (Fin p); fun k => sf k (Fin p);
    fun _ => mean (Fin p); fun _ => mode (Fin p); fun _ => var (Fin p); fun _ => skewness (Fin p); fun _ => kurtosis (Fin p); fun _ => nll xs (Fin p) None].
Proof.
  intros H. assert (B : forall {A} `{CanRaise A} (k : A), validate_p (Fin p) k = raise ValueError).
  { intros A CR k. unfold validate_p, clt, cgt, cmp, ltb. destruct H as [H|H]; [rewrite Rltb_true by lra|rewrite (Rltb_false p 0), Rltb_true by lra]; reflexivity. }
  all_ve; intros x _; apply B.
Qed.
Lemma ends_bad (k : nat) : (0 < k)%nat -> logpmf (Fin (INR k)) (Fin 0) = NaN /\ pmf (Fin (INR k)) (Fin 0) = NaN /\ pmf (Fin (INR k)) (Fin 1) = Fin 0 /\
  cdf (Fin (INR k)) (Fin 0) = Exc ZeroDivisionError /\ mean (Fin 0) = Exc ZeroDivisionError /\ mean (Fin 1) = Exc ZeroDivisionError.
Proof.
  intros K. assert (1 <= INR k) by (change 1 with (INR 1); apply le_INR; lia).
  assert (V0 : forall {A} `{CanRaise A} (c : A), validate_p (Fin 0) c = c) by (intros A CR c; unfold validate_p, clt, cgt, cmp, ltb; rewrite !Rltb_false by lra; reflexivity).
  assert (V1 : forall {A} `{CanRaise A} (c : A), validate_p (Fin 1) c = c) by (intros A CR c; unfold validate_p, clt, cgt, cmp, ltb; rewrite !Rltb_false by lra; reflexivity).
  assert (L0 : vlog1p (vneg (Fin 0)) = Fin 0) by (unfold vlog1p; cbn [vneg vadd]; rewrite vlog_Fin by lra; f_equal; replace (1 + - 0) with 1 by ring; apply ln_1).
  assert (L1 : vlog1p (vneg (Fin 1)) = NInf) by (unfold vlog1p; cbn [vneg vadd]; unfold vlog; rewrite Rltb_false, Reqb_true by lra; auto).
  assert (Z : vlog (Fin 0) = NInf) by (unfold vlog; rewrite Rltb_false, Reqb_true by lra; auto).
  assert (Z' : vlog (Fin (- 0)) = NInf) by (unfold vlog; rewrite Rltb_false, Reqb_true by lra; auto).
  assert (A : logpmf (Fin (INR k)) (Fin 0) = NaN).
  { unfold logpmf. rewrite V0, L0. unfold clt, cmp, ltb. rewrite Rltb_false by lra. cbn [cif]. cbn [vneg]. rewrite Z, Z', vlog_Fin by lra. cbn [vmul]. unfold scale_inf. rewrite Reqb_false, Rltb_true by lra. reflexivity. }
  split; [exact A|]. split; [unfold pmf; rewrite V0, A; unfold clt, cmp, ltb; rewrite Rltb_false by lra; reflexivity|].
  split. { unfold pmf, logpmf. rewrite !V1, L1. unfold clt, cmp, ltb. rewrite Rltb_false by lra. cbn [cif vneg]. rewrite !vlog_Fin by lra. reflexivity. }
  split. { unfold cdf. rewrite V0, L0. unfold clt, cmp, ltb. rewrite Rltb_false by lra. cbn [cif vadd]. unfold vbetainc0. rewrite Rltb_true, Reqb_true by lra. simpl. rewrite Reqb_true by lra. reflexivity. }
  split. { unfold mean. rewrite V0, L0. cbn [vsub vadd vneg]. rewrite vdiv_Fin by lra. simpl. rewrite Reqb_true by lra. reflexivity. }
  unfold mean. rewrite V1. cbn [vsub vadd vneg]. replace (1 + - (1)) with 0 by ring. simpl. rewrite Reqb_true by lra. reflexivity.
Qed.
