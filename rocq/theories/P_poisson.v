From Coq Require Import Reals Lra Lia List ZArith Arith Bool.
From Coquelicot Require Import Coquelicot.
From Verif Require Import Values VTac Spec SpecStat SpecEst SpecDisc LLib XLib PLib RLib LimLib DistLib MomLib SFun GammaLib M_common M_sfun M_disc DiscLib IncLib CountLib M_poisson.
Import ListNotations.
Local Open Scope R_scope.
Set Bullet Behavior "Strict Subproofs".

Definition g (lam : R) (i : nat) : R := lam ^ i * exp (- lam) / INR (fact i).
Lemma fact_pos i : 0 < INR (fact i).
Proof. apply lt_0_INR. apply lt_O_fact. Qed.
Lemma g_pos lam i : 0 < lam -> 0 < g lam i.
Proof. intros H. unfold g. apply Rdiv_lt_0_compat; [apply Rmult_lt_0_compat; [apply pow_lt; auto|apply exp_pos]|apply fact_pos]. Qed.
Lemma g_S lam i : INR (S i) * g lam (S i) = lam * g lam i.
Proof.
  unfold g. change (fact (S i)) with (S i * fact i)%nat. rewrite mult_INR. simpl pow. pose proof (fact_pos i).
  pose proof (pos_INR i). rewrite S_INR. field. lra.
Qed.
Lemma ln_g lam i : 0 < lam -> ln (g lam i) = INR i * ln lam - lam - ln (INR (fact i)).
Proof.
  intros H. pose proof (fact_pos i). pose proof (pow_lt lam i H). pose proof (exp_pos (- lam)). unfold g, Rdiv.
  rewrite ln_mult; [|apply Rmult_lt_0_compat; auto|apply Rinv_0_lt_compat; auto].
  rewrite ln_mult by auto. rewrite ln_exp, ln_Rinv by auto. rewrite <- Rpower_pow by auto. unfold Rpower. rewrite ln_exp. ring.
Qed.
Section P.
Variable lam : R.
Hypothesis L : 0 < lam.
Lemma pos_ok {A} `{CanRaise A} (k : A) : validate_positive (Fin lam) k = k.
Proof. unfold validate_positive, cle, cmp, leb. rewrite Rleb_false by lra. reflexivity. Qed.
Lemma neg_ok n : clt (Fin (INR n)) (Fin 0) = CB false.
Proof. unfold clt, cmp, ltb. rewrite Rltb_false by apply pos_INR. reflexivity. Qed.
Lemma neg_bad (k : Z) : (k < 0)%Z -> clt (Fin (IZR k)) (Fin 0) = CB true.
Proof. intros H. unfold clt, cmp, ltb. rewrite Rltb_true; auto. apply IZR_lt in H. exact H. Qed.
Lemma pmf_nat i : pmf (Fin (INR i)) (Fin lam) = Fin (g lam i).
Proof.
  unfold pmf. rewrite pos_ok, neg_ok. cbn [cif]. rewrite vpow_Fin by auto. unfold vfactorial. 
  cbn [vadd vgamma vneg vexp]. pose proof (pos_INR i). rewrite Rltb_true by lra.
  rewrite Gamma_fact. cbn [vmul]. rewrite vdiv_Fin by apply INR_fact_neq_0. unfold g. rewrite Rpower_pow by auto. reflexivity.
Qed.
Lemma pmf_in i : below None i -> pmf (Fin (IZR (Z.of_nat i))) (Fin lam) = Fin (g lam i).
Proof. intros _. rewrite <- INR_IZR_INZ. apply pmf_nat. Qed.
Lemma mass1 : is_series (g lam) 1.
Proof.
  pose proof (is_exp_Reals lam) as E. unfold is_pseries in E.
  pose proof (is_series_scal (exp (- lam)) _ _ E) as S.
  match type of S with is_series _ ?v => replace v with 1 in S by (unfold scal; simpl; unfold mult; simpl; rewrite <- exp_plus; replace (- lam + lam) with 0 by ring; symmetry; apply exp_0) end.
  eapply is_series_ext; [|exact S]. intros n. unfold g, scal; simpl. unfold mult; simpl. rewrite pow_n_pow. unfold Rdiv. ring.
Qed.
Lemma support_ok : support (Fin lam) = Ok (Count 0).
Proof. unfold support. apply pos_ok. Qed.
Lemma mass : mass_function (fun k => pmf k (Fin lam)) (Count 0).
Proof. apply (disc_mass None _ (g lam)); [apply pmf_in|intros; left; apply g_pos; auto|apply mass1]. Qed.
Lemma outside : zero_outside (fun k => pmf k (Fin lam)) (Count 0).
Proof. intros k K. simpl in K. unfold pmf. rewrite pos_ok, neg_bad by lia. reflexivity. Qed.
Lemma log_ok : log_law (fun k => pmf k (Fin lam)) (fun k => logpmf k (Fin lam)) (fun _ => True).
Proof.
  intros k _. destruct (Z_lt_dec k 0) as [K|K].
  - right. left. split; [apply outside; simpl; lia|]. unfold logpmf. rewrite pos_ok, neg_bad by auto. reflexivity.
  - left. assert (E : k = Z.of_nat (Z.to_nat k)) by lia. rewrite E. set (i := Z.to_nat k). exists (g lam i).
    split; [apply g_pos; auto|]. split; [apply pmf_in; exact I|].
    rewrite <- INR_IZR_INZ. unfold logpmf. rewrite pos_ok, neg_ok. cbn [cif]. rewrite vlog_Fin by auto.
    pose proof (pos_INR i). pose proof (fact_pos i). cbn [vadd vloggamma]. rewrite Rltb_true by lra. cbn [vmul vsub vadd vneg]. f_equal.
    unfold loggamma. rewrite Gamma_fact, ln_g by auto. ring.
Qed.
Lemma psum n : nsum (g lam) (S n) = upper_gamma (INR n + 1) lam / Gamma (INR n + 1).
Proof.
  induction n as [|n IH].
  - simpl INR. rewrite upper_gamma_eq by lra.
    pose proof (Gamma_if 1 ltac:(lra)) as G.
    replace (0 + 1) with 1 by ring. rewrite Gamma_1.
    assert (E : lower_gamma 1 lam = 1 - exp (- lam)).
    { unfold lower_gamma. apply improper_eq; [simpl; lra|].
      replace (1 - exp (- lam)) with (- exp (- lam) - - exp (- 0)) by (rewrite Ropp_0, exp_0; ring).
      apply (integrates_ext 0 lam ltac:(simpl; lra) (fun t => exp (- t))).
      { intros x [X1 X2]; simpl in *. unfold gamma_kernel. replace (1 - 1) with 0 by ring. rewrite Rpower_O by lra. ring. }
      apply (mk_integral _ (fun t => - exp (- t))); [simpl; lra|..].
      - intros x _. auto_derive; auto. ring.
      - intros x _. apply ex_derive_cont. auto_derive; auto.
      - apply (flim_right (fun t => - exp (- t))). apply ex_derive_cont. auto_derive; auto.
      - apply (flim_left (fun t => - exp (- t))). apply ex_derive_cont. auto_derive; auto. }
    rewrite E. unfold g. simpl. field.
  - change (nsum (g lam) (S (S n))) with (nsum (g lam) (S n) + g lam (S n)). rewrite IH.
    pose proof (pos_INR n). rewrite S_INR. rewrite !upper_gamma_eq by lra. rewrite (lower_gamma_succ (INR n + 1)) by lra.
    rewrite (Gamma_succ (INR n + 1)) by lra. replace (Rpower lam (INR n + 1)) with (lam ^ S n) by (rewrite <- S_INR, Rpower_pow; auto).
    assert (Gn : INR (fact (S n)) = (INR n + 1) * Gamma (INR n + 1)).
    { rewrite <- Gamma_fact, S_INR. apply Gamma_succ. lra. }
    unfold g. rewrite Gn. pose proof (Gamma_pos (INR n + 1) ltac:(lra)). field. lra.
Qed.
Lemma cdf_ok (k : Z) : cumulative (fun k => pmf k (Fin lam)) (fun k => cdf k (Fin lam)) (fun k => sf k (Fin lam)) (Count 0) k.
Proof.
  unfold cumulative. change (Count 0) with (sup0 None). rewrite (disc_upto None _ (g lam) pmf_in). unfold cdf, sf. rewrite !pos_ok.
  destruct (Z_lt_dec k 0) as [K|K].
  - rewrite neg_bad by auto. replace (Z.to_nat (k + 1)) with O by lia. simpl. split; auto. f_equal. ring.
  - assert (E : k = Z.of_nat (Z.to_nat k)) by lia. rewrite E. set (i := Z.to_nat k).
    rewrite <- INR_IZR_INZ, neg_ok. cbn [cif vadd vgammainc_upper vgammainc_lower]. pose proof (pos_INR i).
    rewrite Rltb_true, Reqb_false, Rltb_true by lra. replace (Z.to_nat (Z.of_nat i + 1)) with (S i) by lia. rewrite psum.
    split; auto. f_equal. rewrite upper_gamma_eq by lra. pose proof (Gamma_pos (INR i + 1) ltac:(lra)). field. lra.
Qed.
Lemma mode_small : smallest_mode (fun k => pmf k (Fin lam)) (Count 0) (mode (Fin lam)).
Proof.
  unfold mode. rewrite pos_ok. destruct (vceil_spec lam) as [z [-> Z]]. rewrite vint_IZR. cbn [vsub vadd vneg].
  replace (IZR z + - (1)) with (IZR (z - 1)) by (rewrite minus_IZR; ring).
  assert (0 < z)%Z by (apply lt_IZR; lra).
  apply (threshold_smallest (Count 0) _ (fun k => g lam (Z.to_nat k)) lam).
  - intros k K. simpl in K. replace k with (Z.of_nat (Z.to_nat k)) at 1 by lia. apply pmf_in. exact I.
  - intros k K K'. simpl in K, K'. pose proof (g_S lam (Z.to_nat (k - 1))) as E. replace (S (Z.to_nat (k - 1))) with (Z.to_nat k) in E by lia.
    rewrite INR_IZR_INZ, Z2Nat.id in E by lia. assert (0 < IZR k) by (apply IZR_lt; lia).
    pose proof (g_pos lam (Z.to_nat (k - 1)) L). pose proof (g_pos lam (Z.to_nat k) L). split; intros H3; nra.
  - simpl. lia.
  - rewrite minus_IZR. lra.
  - rewrite minus_IZR. lra.
Qed.
Lemma mass_ok : support (Fin lam) = Ok (Count 0) /\ mass_function (fun k => pmf k (Fin lam)) (Count 0) /\ zero_outside (fun k => pmf k (Fin lam)) (Count 0).
Proof. split; [apply support_ok|split; [apply mass|apply outside]]. Qed.
Definition F (n : nat) := lam ^ n.
Lemma fall_tot n : (n <= 4)%nat -> tot None (fun i => fall (INR i) n * g lam i) (F n).
Proof.
  assert (T0 : tot None (fun i => 1 * g lam i) 1) by (eapply tot_ext; [|apply mass1]; intros; ring).
  assert (ST : forall (q q' : nat -> R) v, (forall i, q' (S i) = INR (S i) * q i) -> q' O = 0 -> tot None (fun i => q i * g lam i) v -> tot None (fun i => q' i * g lam i) (lam * v)).
  { intros q q' v E Z T. eapply tot_ext; [|apply (tot_shift None (fun i => (match i with O => 0 | S j => q j end) * g lam i) (fun i => q i * g lam i) lam v); [|exact T]].
    - intros [|i] _; [rewrite Z; simpl; ring|rewrite E; ring].
    - intros i _. pose proof (g_S lam i) as G. replace (INR (S i) * (q i * g lam (S i))) with (q i * (INR (S i) * g lam (S i))) by ring. rewrite G. ring. }
  assert (T1 : tot None (fun i => INR i * g lam i) (lam * 1)) by (apply (ST (fun _ => 1)); auto; intros; ring).
  assert (T2 : tot None (fun i => INR i * (INR i - 1) * g lam i) (lam * (lam * 1))) by (apply (ST INR); auto; [intros; rewrite S_INR|simpl]; ring).
  assert (T3 : tot None (fun i => INR i * (INR i - 1) * (INR i - 2) * g lam i) (lam * (lam * (lam * 1)))) by (apply (ST (fun i => INR i * (INR i - 1))); auto; [intros; rewrite S_INR|simpl]; ring).
  assert (T4 : tot None (fun i => INR i * (INR i - 1) * (INR i - 2) * (INR i - 3) * g lam i) (lam * (lam * (lam * (lam * 1))))) by (apply (ST (fun i => INR i * (INR i - 1) * (INR i - 2))); auto; [intros; rewrite S_INR|simpl]; ring).
  intros N. unfold F. destruct n as [|[|[|[|[|n]]]]]; try lia; simpl pow; assumption.
Qed.
Lemma raw n : (n <= 4)%nat -> tot None (fun i => INR i ^ n * g lam i) (raw_of F n).
Proof. apply raw_from_fall. apply fall_tot. Qed.
Lemma mean_ok : dmean_is (fun k => pmf k (Fin lam)) (Count 0) (mean (Fin lam)).
Proof.
  unfold mean. rewrite pos_ok. apply (disc_mean None _ (g lam) pmf_in). 
  assert (E : raw_of F 1 = lam) by (unfold F; simpl; ring). pose proof (raw 1 ltac:(lia)) as T. rewrite E in T. eapply tot_ext; [|exact T].
  intros; simpl; ring.
Qed.
Lemma dvar_eq : dvar (raw_of F) = lam.
Proof. unfold dvar, F; simpl. ring. Qed.
Lemma var_ok : dvar_is (fun k => pmf k (Fin lam)) (Count 0) (var (Fin lam)).
Proof.
  unfold var. rewrite pos_ok. pose proof (disc_var None (fun k => pmf k (Fin lam)) (g lam) pmf_in (raw_of F)) as V. rewrite dvar_eq in V. apply V; [|reflexivity]. intros n N. apply raw. lia.
Qed.
Lemma skewness_ok : dskewness_is (fun k => pmf k (Fin lam)) (Count 0) (skewness (Fin lam)).
Proof.
  unfold skewness. rewrite pos_ok, vsqrt_Fin by lra. pose proof (sqrt_lt_R0 lam L). rewrite vdiv_Fin by lra.
  replace (1 / sqrt lam) with (dcen3 (raw_of F) / (dvar (raw_of F) * sqrt (dvar (raw_of F)))).
  - apply (disc_skewness None _ (g lam) pmf_in); [apply raw|reflexivity|rewrite dvar_eq; auto].
  - rewrite dvar_eq. unfold dcen3, F; simpl. field. lra.
Qed.
Lemma kurtosis_ok : dkurtosis_is (fun k => pmf k (Fin lam)) (Count 0) (kurtosis (Fin lam)).
Proof.
  unfold kurtosis. rewrite pos_ok. rewrite vdiv_Fin by lra.
  replace (1 / lam) with (dcen4 (raw_of F) / dvar (raw_of F) ^ 2 - 3).
  - apply (disc_kurtosis None _ (g lam) pmf_in); [apply raw|reflexivity|rewrite dvar_eq; auto].
  - rewrite dvar_eq. unfold dcen4, F; simpl. field. lra.
Qed.
Lemma moments_ok : dmean_is (fun k => pmf k (Fin lam)) (Count 0) (mean (Fin lam)) /\
  dvar_is (fun k => pmf k (Fin lam)) (Count 0) (var (Fin lam)) /\
  dskewness_is (fun k => pmf k (Fin lam)) (Count 0) (skewness (Fin lam)) /\
  dkurtosis_is (fun k => pmf k (Fin lam)) (Count 0) (kurtosis (Fin lam)).
Proof. auto using mean_ok, var_ok, skewness_ok, kurtosis_ok. Qed.
Definition lg (x : nat) : R := ln (g lam x).
Lemma logpmf_nat x : logpmf (vN x) (Fin lam) = Fin (lg x).
Proof.
  destruct (log_ok (Z.of_nat x) I) as [[f [P [A B]]]|[[A B]|[A B]]]; rewrite <- INR_IZR_INZ, pmf_nat in A; try discriminate.
  - injection A as <-. rewrite <- INR_IZR_INZ in B. exact B.
  - injection A as A. pose proof (g_pos lam x L). lra.
Qed.
Lemma ge0 xs : call (fun t => cand (visint t) (cge t (Fin 0))) (vNs xs) = CB true.
Proof.
  induction xs as [|x xs IH]; auto. unfold vNs in *. cbn [map call]. unfold vN at 1 2, visint at 1. rewrite is_intb_INR.
  unfold cge, cmp, leb at 1. rewrite Rleb_true by apply pos_INR. exact IH.
Qed.
Lemma nll_eval xs cs : good_counts xs cs -> nll (vNs xs) (Fin lam) (vcounts cs) = Fin (- wsum lg xs (counts_for xs cs)).
Proof.
  intros G. unfold nll. rewrite pos_ok, xb_nat by (intros; exact I). rewrite ge0. cbn [cnot negb cif].
  rewrite (counts_pass _ xs) by (auto; unfold vNs; apply map_length). rewrite zip_counts_pass, (zip_sum _ lg) by (intros; apply logpmf_nat). reflexivity.
Qed.
End P.
Lemma nll_is lam xs : 0 < lam -> nll (vNs xs) (Fin lam) None = vneg (loglik (fun t => logpmf t (Fin lam)) (map INR xs)).
Proof.
  intros L. change (@None (list val)) with (vcounts None). rewrite (nll_eval lam L xs None) by (unfold good_counts; simpl; apply repeat_length). simpl counts_for. rewrite wsum_expand, expand_ones.
  unfold loglik. rewrite map_map, (vfsum_map _ (lg lam)); [reflexivity|]. intros x _. apply (logpmf_nat lam L).
Qed.
Lemma nll_counts lam xs cs : 0 < lam -> length cs = length xs ->
  nll (vNs xs) (Fin lam) (Some (vNs cs)) = nll (vNs (expand xs cs)) (Fin lam) None.
Proof.
  intros L E. change (@None (list val)) with (vcounts None). change (Some (vNs cs)) with (vcounts (Some cs)). rewrite (nll_eval lam L xs (Some cs)) by exact E. 
  rewrite (nll_eval lam L _ None) by (unfold good_counts; simpl; apply repeat_length).
  rewrite (counts_of_expand (lg lam) xs (Some cs)). reflexivity.
Qed.
Lemma nll_bad lam xs cs : 0 < lam -> bad_counts xs cs -> nll (vNs xs) (Fin lam) (Some (map Fin cs)) = Exc ValueError.
Proof.
  intros L B. unfold nll. rewrite (pos_ok lam L), xb_nat by (intros; exact I). rewrite ge0. cbn [cnot negb cif].
  apply counts_bad. destruct B as [B|B]; [left; unfold vNs; rewrite map_length; auto|right; auto].
Qed.
Lemma nll_laws (lam : R) (xs cs : list nat) : 0 < lam ->
  nll (vNs xs) (Fin lam) None = vneg (loglik (fun t => logpmf t (Fin lam)) (map INR xs)) /\
  (length cs = length xs -> nll (vNs xs) (Fin lam) (Some (vNs cs)) = nll (vNs (expand xs cs)) (Fin lam) None) /\
  (forall bad, bad_counts xs bad -> nll (vNs xs) (Fin lam) (Some (map Fin bad)) = Exc ValueError).
Proof. intros L. split; [apply nll_is; auto|split; [intros; apply nll_counts; auto|intros; apply nll_bad; auto]]. Qed.
Lemma mle_opt (xs : list nat) (cs : option (list nat)) : good_counts xs cs -> 0 < sum (map INR (expand xs (counts_for xs cs))) ->
  exists l, mle (vNs xs) (vcounts cs) = Fin l /\ minimises (fun l => 0 < l) (fun l => nll (vNs xs) (Fin l) (vcounts cs)) l.
Proof.
  intros G P. rewrite <- wsum_expand in P. set (c := counts_for xs cs) in *.
  assert (W : 0 < wtot xs c).
  { assert (0 <= wtot xs c) by (apply wsum_nonneg; intros; lra). destruct (Rle_lt_dec (wtot xs c) 0) as [Z|]; auto. exfalso.
    assert (Z0 : wtot xs c = 0) by lra. rewrite wtot_len in Z0. rewrite wsum_expand in P.
    destruct (expand xs c) as [|a l]; [simpl in P; lra|]. simpl length in Z0. rewrite S_INR in Z0. pose proof (pos_INR (length l)). lra. }
  exists (wsum INR xs c / wtot xs c). assert (M : 0 < wsum INR xs c / wtot xs c) by (apply Rdiv_lt_0_compat; auto).
  set (m := wsum INR xs c / wtot xs c) in *. split.
  - unfold mle. rewrite (counts_pass _ xs) by (auto; unfold vNs; apply map_length).
    unfold m, c. rewrite <- mean_counts by auto. destruct cs; reflexivity.
  - assert (V : forall l, 0 < l -> nll (vNs xs) (Fin l) (vcounts cs) = Fin (wtot xs c * (l - m * ln l) + wsum (fun x => ln (INR (fact x))) xs c)).
    { intros l Hl. rewrite nll_eval by auto. f_equal. fold c.
      rewrite (wsum_ext (lg l) (fun x => ln l * INR x + (- l + -1 * ln (INR (fact x))))).
      - rewrite !wsum_plus, !wsum_scal, wsum_const. unfold m. field. lra.
      - intros x _. unfold lg. rewrite ln_g by auto. ring. }
    split; [exact M|]. eexists. split; [apply V; exact M|]. intros l Hl. eexists. split; [apply V; exact Hl|].
    apply Rplus_le_compat_r. apply Rmult_le_compat_l; [lra|].
    pose proof (exp_ineq1_le (ln l - ln m)) as E. rewrite exp_minus, !exp_ln in E by auto.
    assert (m * (1 + (ln l - ln m)) <= m * (l / m)) by (apply Rmult_le_compat_l; lra).
    replace (m * (l / m)) with l in H by (field; lra). lra.
Qed.
Lemma bad_lam (lam : val) : nonpositive lam -> support lam = Err ValueError /\ always_ValueError [(fun x => pmf x lam); (fun x => logpmf x lam); (fun x => cdf x lam); (fun x => sf x lam)] /\
  mean lam = Exc ValueError /\ mode lam = Exc ValueError /\ var lam = Exc ValueError /\ skewness lam = Exc ValueError /\ kurtosis lam = Exc ValueError.
Proof.
  intros H. split; [unfold support; apply vp_bad; auto|]. split; [|unfold mean, mode, var, skewness, kurtosis; rewrite !vp_bad by auto; auto].
  repeat constructor; intros x _; unfold pmf, logpmf, cdf, sf; rewrite vp_bad by auto; reflexivity.
Qed.
