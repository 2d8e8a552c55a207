From Coq Require Import Reals Lra Lia List ZArith Arith Bool.
From Coquelicot Require Import Coquelicot.
From Verif Require Import Values VTac Spec SpecStat SpecEst SpecDisc LLib XLib PLib SFun GammaLib GammaLib3 M_common M_sfun M_disc M_fun SpecInt BinLib DiscLib IncLib CountLib DiscLib2 HgLib P_logb M_negative_binomial.
From Verif Require M_basic P_fun P_binomial.
From Coq Require Ranalysis5.
Import ListNotations.
Local Open Scope R_scope.
Set Bullet Behavior "Strict Subproofs".

(** r (r+1) ... (r+i-1) / i! * p^i (1-p)^r *)
Definition g (r p : R) (i : nat) : R := rising r i / INR (fact i) * p ^ i * Rpower (1 - p) r.
Lemma rising_Gamma r i : 0 < r -> rising r i = Gamma (r + INR i) / Gamma r.
Proof.
  intros H. pose proof (Gamma_pos r H). induction i as [|i IH]; [simpl; rewrite Rplus_0_r; field; lra|].
  rewrite rising_last, IH, S_INR. replace (r + (INR i + 1)) with (r + INR i + 1) by ring. pose proof (pos_INR i). rewrite Gamma_succ by lra. field. lra.
Qed.
Lemma g_nonneg r p i : 0 < r -> 0 <= p < 1 -> 0 <= g r p i.
Proof.
  intros H P. unfold g. apply Rmult_le_pos; [apply Rmult_le_pos|left; apply exp_pos].
  - left. apply Rdiv_lt_0_compat; [apply rising_pos; auto|apply INR_fact_lt_0].
  - apply pow_le. lra.
Qed.
Lemma g_pos r p i : 0 < r -> 0 < p < 1 -> 0 < g r p i.
Proof.
  intros H P. unfold g. apply Rmult_lt_0_compat; [apply Rmult_lt_0_compat|apply exp_pos].
  - apply Rdiv_lt_0_compat; [apply rising_pos; auto|apply INR_fact_lt_0].
  - apply pow_lt. lra.
Qed.
Lemma g_S r p i : 0 < r -> (INR i + 1) * g r p (S i) = (r + INR i) * p * g r p i.
Proof.
  intros H. unfold g. rewrite rising_last. change (fact (S i)) with (S i * fact i)%nat. rewrite mult_INR, S_INR. simpl pow. pose proof (INR_fact_lt_0 i). pose proof (pos_INR i). field. lra.
Qed.
Lemma g_0 r i : g r 0 i = if Nat.eqb i 0 then 1 else 0.
Proof. unfold g. destruct i as [|i]; simpl; [unfold Rpower; rewrite Rminus_0_r, ln_1, Rmult_0_r, exp_0; field|ring]. Qed.
Lemma g_sb r p i : 0 < r -> 0 <= p < 1 -> INR (S i) * g r p (S i) = (p * r / (1 - p)) * g (r + 1) p i.
Proof.
  intros H P. unfold g. rewrite Rpower_plus, Rpower_1 by lra. change (rising r (S i)) with (r * rising (r + 1) i). change (fact (S i)) with (S i * fact i)%nat. rewrite mult_INR. simpl pow. pose proof (INR_fact_lt_0 i).
  pose proof (pos_INR i). rewrite S_INR. field. lra.
Qed.
Lemma psum r p k : 0 < r -> 0 < p < 1 -> nsum (g r p) (S k) = 1 - Ireg (INR k + 1) r p.
Proof.
  intros H P. induction k as [|k IH].
  - simpl. rewrite !Rplus_0_l. unfold Ireg. rewrite lower_beta_1l by lra. rewrite Beta_sym, Beta_1 by lra. unfold g. simpl. field. lra.
  - change (nsum (g r p) (S (S k))) with (nsum (g r p) (S k) + g r p (S k)). rewrite IH. rewrite S_INR. pose proof (pos_INR k). rewrite (Ireg_up1 (INR k + 1)) by lra.
    replace (Rpower p (INR k + 1)) with (p ^ S k) by (rewrite <- S_INR, Rpower_INR by lra; reflexivity). unfold g. rewrite rising_Gamma by lra. rewrite <- Gamma_fact, S_INR. unfold Beta. rewrite (Gamma_succ (INR k + 1)) by lra. replace (INR k + 1 + r) with (r + (INR k + 1)) by ring.
    pose proof (Gamma_pos (INR k + 1) ltac:(lra)). pose proof (Gamma_pos r H). pose proof (Gamma_pos (r + (INR k + 1)) ltac:(lra)). field. repeat split; lra.
Qed.
Lemma tail_lim r p : 0 < r -> 0 < p < 1 -> is_lim_seq (fun k => Ireg (INR k + 1) r p) 0.
Proof.
  intros H P. set (a k := p ^ k * lower_beta 1 r p / Beta (INR k + 1) r).
  assert (L1 := lb_range 1 r p ltac:(lra) H P).
  assert (A : forall k, 0 < a k).
  { intros k. pose proof (pos_INR k). unfold a. apply Rdiv_lt_0_compat; [apply Rmult_lt_0_compat; [apply pow_lt|]; lra|apply Beta_pos; lra]. }
  apply (is_lim_seq_le_le (fun _ => 0) _ a).
  - intros k. pose proof (pos_INR k). pose proof (Ireg_range (INR k + 1) r p ltac:(lra) H P). split; [lra|]. unfold Ireg, a. pose proof (Beta_pos (INR k + 1) r ltac:(lra) H).
    apply Rmult_le_compat_r; [left; apply Rinv_0_lt_compat; auto|]. pose proof (lower_beta_le (INR k + 1) r p ltac:(lra) H P) as Q. replace (INR k + 1 - 1) with (INR k) in Q by ring. rewrite Rpower_INR in Q by lra. exact Q.
  - apply is_lim_seq_const.
  - apply (ratio_lim_0 a p); [lra|auto|]. apply (is_lim_seq_ext (fun k => p + p * (r / (INR k + 1)))).
    + intros k. unfold a. pose proof (pos_INR k). rewrite S_INR, Beta_succ by lra. simpl pow. pose proof (Beta_pos (INR k + 1) r ltac:(lra) H). pose proof (pow_lt p k ltac:(lra)). field. repeat split; try lra.
    + enough (Q : is_lim_seq (fun k => p + p * (r / (INR k + 1))) (p + p * 0)) by (replace (p + p * 0) with p in Q by ring; exact Q).
      apply is_lim_seq_plus'; [apply is_lim_seq_const|]. apply (is_lim_seq_scal_l (fun k => r / (INR k + 1)) p 0). apply lim_inv_INR.
Qed.
Lemma mass1 r p : 0 < r -> 0 <= p < 1 -> is_series (g r p) 1.
Proof.
  intros H P. destruct (Req_dec p 0) as [->|N].
  - apply (series_of_tail (g r 0) (fun n => match n with O => 1 | _ => 0 end)).
    + intros [|n]; [simpl; ring|]. rewrite nsum_first, nsum_0; [rewrite g_0; simpl; ring|]. intros i _. rewrite g_0. reflexivity.
    + apply is_lim_seq_incr_1. apply is_lim_seq_const.
  - apply (series_of_tail (g r p) (fun n => match n with O => 1 | S k => Ireg (INR k + 1) r p end)).
    + intros [|n]; [simpl; ring|]. apply psum; lra.
    + apply is_lim_seq_incr_1. apply tail_lim; lra.
Qed.
Lemma mean1 r p : 0 < r -> 0 <= p < 1 -> tot None (fun i => INR i * g r p i) (p * r / (1 - p)).
Proof.
  intros H P. pose proof (tot_shift None (g r p) (g (r + 1) p) (p * r / (1 - p)) 1) as T. rewrite Rmult_1_r in T. apply T; [intros i _; apply g_sb; auto|apply mass1; lra].
Qed.
Lemma ok {A} `{CanRaise A} r p (k : A) : 0 < r -> 0 <= p <= 1 -> validate (Fin r) (Fin p) true k = k.
Proof. intros H1 H2. unfold validate. unfold cle, cmp, leb. rewrite Rleb_false, !Rleb_true by lra. reflexivity. Qed.
Lemma neg_bad (k : Z) : (k < 0)%Z -> clt (Fin (IZR k)) (Fin 0) = CB true.
Proof. intros H. unfold clt, cmp, ltb. rewrite Rltb_true; auto. apply IZR_lt in H. exact H. Qed.
Lemma binomR_rising r i : 0 < r -> binomR (INR i + r - 1) (INR i) = rising r i / INR (fact i).
Proof.
  intros R. pose proof (pos_INR i). unfold binomR. rewrite Gamma_fact, rising_Gamma by auto. replace (INR i + r - 1 + 1) with (r + INR i) by ring. replace (INR i + r - 1 - INR i + 1) with r by ring.
  pose proof (INR_fact_lt_0 i). pose proof (Gamma_pos r R). field. lra.
Qed.
Section P.
Variables (r p : R).
Hypotheses (R1 : 1 <= r) (P : 0 <= p < 1).
Lemma log_bin i : logbinomial vloggamma (vsub (vadd (Fin (INR i)) (Fin r)) (Fin 1)) (Fin (INR i)) = Fin (ln (rising r i / INR (fact i))).
Proof. pose proof (pos_INR i). cbn [vadd vsub vneg]. replace (INR i + r + - (1)) with (INR i + r - 1) by ring. rewrite lb_binomR by lra. rewrite binomR_rising by lra. reflexivity. Qed.
Lemma xl1 : xlog1py (Fin r) (vneg (Fin p)) = Fin (r * ln (1 - p)).
Proof. unfold xlog1py. cbn [vneg]. unfold vlog1p. cbn [vadd]. rewrite vlog_Fin by lra. vif. reflexivity. Qed.
Lemma lg_nat i : 0 < p -> logpmf (Fin (INR i)) (Fin r) (Fin p) = Fin (ln (g r p i)).
Proof.
  intros P0. unfold logpmf. rewrite ok by lra. rewrite int_nat, lt0_INR. cbn [cif]. rewrite log_bin, xl1, P_fun.xlogy_fin' by lra. cbn [vadd]. f_equal. unfold g.
  assert (0 < rising r i / INR (fact i)) by (apply Rdiv_lt_0_compat; [apply rising_pos; lra|apply INR_fact_lt_0]).
  rewrite !ln_mult; auto; [|apply pow_lt; lra|apply Rmult_lt_0_compat; auto; apply pow_lt; lra|apply exp_pos].
  rewrite <- (Rpower_INR i) by lra. unfold Rpower. rewrite !ln_exp. ring.
Qed.
Lemma lg_0 i : p = 0 -> logpmf (Fin (INR i)) (Fin r) (Fin p) = if Nat.eqb i 0 then Fin 0 else NInf.
Proof.
  intros P0. unfold logpmf. rewrite ok by lra. rewrite int_nat, lt0_INR. cbn [cif]. rewrite log_bin, xl1. cbn [vadd]. rewrite P0. destruct i as [|i].
  - simpl. rewrite (proj1 (P_fun.xlogy_zero (Fin 0) ltac:(repeat constructor) ltac:(discriminate))). cbn [vadd]. f_equal. replace (1 / 1) with 1 by field. rewrite Rminus_0_r, ln_1. ring.
  - assert (0 < INR (S i)) by (apply lt_0_INR; lia). unfold xlogy. vif. rewrite vlog_0. cbn [vmul]. rewrite scale_inf_pos by auto. reflexivity.
Qed.
Lemma pmf_nat i : pmf (Fin (INR i)) (Fin r) (Fin p) = Fin (g r p i).
Proof.
  unfold pmf. destruct (Req_dec p 0) as [E|E].
  - rewrite lg_0 by auto. rewrite E, g_0. destruct (Nat.eqb i 0); cbn [vexp]; [rewrite exp_0|]; reflexivity.
  - rewrite lg_nat by lra. cbn [vexp]. rewrite exp_ln; auto. apply g_pos; lra.
Qed.
Lemma pmf_in i : DiscLib.below None i -> pmf (Fin (IZR (Z.of_nat i))) (Fin r) (Fin p) = Fin (g r p i).
Proof. intros _. rewrite <- INR_IZR_INZ. apply pmf_nat. Qed.
Lemma outside : zero_outside (fun k => pmf k (Fin r) (Fin p)) (Count 0).
Proof. intros k K. simpl in K. unfold pmf, logpmf. rewrite ok by lra. rewrite int_Z, neg_bad by lia. reflexivity. Qed.
Lemma mass_ok : support (Fin r) (Fin p) = Ok (Count 0) /\ mass_function (fun k => pmf k (Fin r) (Fin p)) (Count 0) /\ zero_outside (fun k => pmf k (Fin r) (Fin p)) (Count 0).
Proof.
  split; [reflexivity|split; [|apply outside]]. apply (disc_mass None _ (g r p)); [apply pmf_in|intros; apply g_nonneg; lra|apply mass1; lra].
Qed.
Lemma log_ok : log_law (fun k => pmf k (Fin r) (Fin p)) (fun k => logpmf k (Fin r) (Fin p)) (fun _ => True).
Proof.
  intros k _. destruct (Z_lt_dec k 0) as [K|K].
  - right. left. split; [apply outside; simpl; lia|]. unfold logpmf. rewrite ok by lra. rewrite int_Z, neg_bad by auto. reflexivity.
  - replace k with (Z.of_nat (Z.to_nat k)) by lia. set (i := Z.to_nat k). unfold log_of. rewrite <- !INR_IZR_INZ. rewrite pmf_nat. destruct (Req_dec p 0) as [E|E].
    + rewrite lg_0 by auto. rewrite E, g_0. destruct (Nat.eqb i 0); [left; exists 1; rewrite ln_1; repeat split; lra|right; left; split; reflexivity].
    + left. exists (g r p i). split; [apply g_pos; lra|]. split; auto. apply lg_nat. lra.
Qed.
Lemma cdf_ok (k : Z) : cumulative (fun k => pmf k (Fin r) (Fin p)) (fun k => cdf k (Fin r) (Fin p)) (fun k => sf k (Fin r) (Fin p)) (Count 0) k.
Proof.
  unfold cumulative. change (Count 0) with (sup0 None). rewrite (disc_upto None _ (g r p) pmf_in). unfold cdf, sf. rewrite !ok by lra. rewrite !int_Z.
  destruct (Z_lt_dec k 0) as [K|K].
  - rewrite neg_bad by auto. replace (Z.to_nat (k + 1)) with O by lia. simpl. split; auto. f_equal. ring.
  - replace k with (Z.of_nat (Z.to_nat k)) by lia. set (i := Z.to_nat k).
    rewrite <- INR_IZR_INZ, lt0_INR. cbn [cif vadd vbetainc_upper vbetainc_lower]. pose proof (pos_INR i).
    rewrite !Rltb_true by lra. replace (Z.to_nat (Z.of_nat i + 1)) with (S i) by lia. destruct (Req_dec p 0) as [E|E].
    + rewrite Reqb_true by auto. rewrite E, nsum_first, nsum_0; [rewrite g_0; simpl; split; f_equal; ring|]. intros j _. rewrite g_0. reflexivity.
    + rewrite !Reqb_false, !Rltb_true by lra. rewrite psum by lra. rewrite upper_beta_eq by lra. unfold Ireg. pose proof (Beta_pos (INR i + 1) r ltac:(lra) ltac:(lra)). split; f_equal; field; lra.
Qed.
Lemma moments_ok : dmean_is (fun k => pmf k (Fin r) (Fin p)) (Count 0) (mean (Fin r) (Fin p)) /\ dvar_is (fun k => pmf k (Fin r) (Fin p)) (Count 0) (var (Fin r) (Fin p)).
Proof.
  unfold mean, var. rewrite !ok by lra. cbn [vmul vsub vadd vneg]. rewrite vpown_Fin by lia. rewrite !vdiv_Fin; try lra; [|apply pow_nonzero; lra].
  destruct (sb_moments None (fun k => pmf k (Fin r) (Fin p)) (g r p) (g (r + 1) p) (p * r / (1 - p)) (p * (r + 1) / (1 - p))) as [A B].
  - apply pmf_in.
  - intros i _. apply g_sb; lra.
  - apply mass1; lra.
  - apply mass1; lra.
  - apply mean1; lra.
  - simpl option_map in *. split; [eapply eq_ind; [exact A|f_equal; field; lra]|]. eapply eq_ind; [exact B|]. f_equal. field. lra.
Qed.
Lemma mode_small : r = 1 \/ 0 < p -> smallest_mode (fun k => pmf k (Fin r) (Fin p)) (Count 0) (mode (Fin r) (Fin p)).
Proof.
  intros X. unfold mode. rewrite ok by lra. change (cle (Fin r) (Fin 1)) with (CB (Rleb r 1)).
  set (T := (r - 1) * p / (1 - p)). assert (TE : T * (1 - p) = (r - 1) * p) by (unfold T; field; lra).
  assert (PM : forall k, in_support (Count 0) k -> pmf (Fin (IZR k)) (Fin r) (Fin p) = Fin (g r p (Z.to_nat k))).
  { intros k K. simpl in K. replace k with (Z.of_nat (Z.to_nat k)) at 1 by lia. apply pmf_in. exact I. }
  assert (RT : forall k, in_support (Count 0) k -> in_support (Count 0) (k - 1) -> (IZR k < T -> g r p (Z.to_nat (k - 1)) < g r p (Z.to_nat k)) /\ (T <= IZR k -> g r p (Z.to_nat k) <= g r p (Z.to_nat (k - 1)))).
  { intros k I J. simpl in I, J. set (i := Z.to_nat (k - 1)). assert (Ei : Z.to_nat k = S i) by lia. rewrite Ei. assert (Ek : IZR k = INR i + 1) by (unfold i; rewrite INR_IZR_INZ, Z2Nat.id, minus_IZR by lia; ring). rewrite Ek.
    pose proof (g_S r p i ltac:(lra)) as Q. pose proof (pos_INR i). pose proof (g_nonneg r p i ltac:(lra) P).
    assert (D : (r + INR i) * p - (INR i + 1) = (T - (INR i + 1)) * (1 - p)) by lra. split; intros L.
    - assert (0 < p). { destruct P as [[Hp|Hp] _]; auto. exfalso. rewrite <- Hp in TE. lra. }
      pose proof (g_pos r p i ltac:(lra) ltac:(lra)). apply (Rmult_lt_reg_l (INR i + 1)); [lra|]. rewrite Q. apply Rmult_lt_compat_r; auto. assert (0 < (T - (INR i + 1)) * (1 - p)) by (apply Rmult_lt_0_compat; lra). lra.
    - apply (Rmult_le_reg_l (INR i + 1)); [lra|]. rewrite Q. apply Rmult_le_compat_r; auto. assert (0 <= (INR i + 1 - T) * (1 - p)) by (apply Rmult_le_pos; lra). lra. }
  destruct (Rleb_spec r 1) as [[L ->]|[L ->]]; cbn [cif].
  - assert (T = 0) by (unfold T; replace r with 1 by lra; field; lra). apply (threshold_smallest _ _ (fun k => g r p (Z.to_nat k)) T 0); auto; simpl; try lia. intros _. lra.
  - cbn [vsub vadd vneg vmul]. rewrite vdiv_Fin by lra. replace ((r + - (1)) * p / (1 + - p)) with T by (unfold T; field; lra). destruct (vceil_spec T) as [z [-> Z]]. rewrite vint_IZR. cbn [vsub vadd vneg].
    replace (IZR z + - (1)) with (IZR (z - 1)) by (rewrite minus_IZR; ring). assert (0 < T) by (unfold T; apply Rdiv_lt_0_compat; [apply Rmult_lt_0_compat|]; lra). assert (0 < z)%Z by (apply lt_IZR; lra).
    apply (threshold_smallest _ _ (fun k => g r p (Z.to_nat k)) T); auto; [simpl; lia|rewrite minus_IZR; lra|rewrite minus_IZR; lra].
Qed.
Lemma vx_nat {A} `{CanRaise A} xs (k : A) : validate_x (vNs xs) k = k.
Proof.
  unfold validate_x. assert (cany (fun xi => cor (clt xi (Fin 0)) (cne xi (vint xi))) (vNs xs) = CB false) as ->; [|reflexivity].
  induction xs as [|x xs IH]; auto. unfold vNs in *. cbn [map cany]. unfold vN at 1 2 3. rewrite lt0_INR, vint_INR. unfold cne, cmp, eqb. rewrite Reqb_true by auto. exact IH.
Qed.
Lemma nll_eval xs cs : 0 < p -> good_counts xs cs -> nll (vNs xs) (Fin r) (Fin p) (vcounts cs) = Fin (- wsum (fun x => ln (g r p x)) xs (counts_for xs cs)).
Proof.
  intros P0 G. unfold nll. rewrite ok, vx_nat by lra. rewrite (counts_pass _ xs) by (auto; unfold vNs; apply map_length).
  rewrite zip_counts_pass, (zip_sum _ (fun x => ln (g r p x))) by (intros; apply lg_nat; auto). reflexivity.
Qed.
End P.
(** The mode is in the support exactly when r <= 1 or p > 0. *)
Lemma mode_nonneg r p : 0 < r -> 0 < p < 1 -> exists j : Z, (0 <= j)%Z /\ mode (Fin r) (Fin p) = Fin (IZR j).
Proof.
  intros H P. unfold mode. rewrite ok by lra. change (cle (Fin r) (Fin 1)) with (CB (Rleb r 1)). destruct (Rleb_spec r 1) as [[L ->]|[L ->]]; cbn [cif].
  - exists 0%Z. split; [lia|reflexivity].
  - cbn [vsub vadd vneg vmul]. rewrite vdiv_Fin by lra. destruct (vceil_spec ((r + - (1)) * p / (1 + - p))) as [z [-> Z]]. rewrite vint_IZR. cbn [vadd vneg vsub].
    assert (0 < (r + - (1)) * p / (1 + - p)) by (apply Rdiv_lt_0_compat; [apply Rmult_lt_0_compat|]; lra). assert (0 < z)%Z by (apply lt_IZR; lra). exists (z - 1)%Z. split; [lia|]. rewrite minus_IZR. reflexivity.
Qed.
Lemma mode_neg r : 1 < r -> mode (Fin r) (Fin 0) = Fin (-1) /\ mode (Fin r) (Fin 1) = Exc ZeroDivisionError.
Proof.
  intros H. unfold mode. rewrite !ok by lra. change (cle (Fin r) (Fin 1)) with (CB (Rleb r 1)). rewrite Rleb_false by lra. cbn [cif vsub vadd vneg vmul]. split.
  - rewrite vdiv_Fin by lra. destruct (vceil_spec ((r + - (1)) * 0 / (1 + - 0))) as [z [-> Z]]. replace ((r + - (1)) * 0 / (1 + - 0)) with 0 in Z by field. rewrite vint_IZR. cbn [vadd vneg vsub].
    assert (z < 1)%Z by (apply lt_IZR; lra). assert (-1 < z)%Z by (apply lt_IZR; lra). assert (z = 0)%Z as -> by lia. f_equal. ring.
  - unfold vdiv. rewrite Reqb_true by ring. reflexivity.
Qed.
(** r < 1: the probability functions raise. *)
Lemma small_r (r p : R) (k : nat) : 0 < r < 1 -> 0 <= p <= 1 -> pmf (Fin (INR k)) (Fin r) (Fin p) = Exc ValueError /\ logpmf (Fin (INR k)) (Fin r) (Fin p) = Exc ValueError /\
  (0 < p < 1 -> exists q, cdf (Fin (INR k)) (Fin r) (Fin p) = Fin q /\ 0 < q < 1).
Proof.
  intros R P. assert (L : logpmf (Fin (INR k)) (Fin r) (Fin p) = Exc ValueError).
  { unfold logpmf. rewrite ok by lra. rewrite int_nat, lt0_INR. cbn [cif vadd vsub vneg]. rewrite (proj2 (lb_err _ _)); [reflexivity|]. right. right. lra. }
  split; [unfold pmf; rewrite L; reflexivity|]. split; auto. intros P1. unfold cdf. rewrite ok by lra. rewrite int_nat, lt0_INR. pose proof (pos_INR k). cbn [cif vadd vbetainc_upper].
  rewrite !Rltb_true, !Reqb_false by lra. pose proof (lb_range (INR k + 1) r p ltac:(lra) ltac:(lra) P1). pose proof (Beta_pos (INR k + 1) r ltac:(lra) ltac:(lra)). eexists. split; [reflexivity|]. rewrite upper_beta_eq by lra.
  split; [apply Rdiv_lt_0_compat; lra|apply Rlt_div_l; lra].
Qed.
(** p = 1 is accepted: pmf is identically zero, mean and var raise. *)
Lemma at_one (r : R) (k : nat) : 1 <= r -> pmf (Fin (INR k)) (Fin r) (Fin 1) = Fin 0 /\ mean (Fin r) (Fin 1) = Exc ZeroDivisionError /\ var (Fin r) (Fin 1) = Exc ZeroDivisionError.
Proof.
  intros H. split; [|split; [unfold mean|unfold var]; rewrite ok by lra; cbn [vmul vsub vadd vneg]].
  - unfold pmf, logpmf. rewrite ok by lra. rewrite int_nat, lt0_INR. cbn [cif]. rewrite log_bin by auto. unfold xlog1py. cbn [vneg]. unfold vlog1p. cbn [vadd]. replace (1 + - (1)) with 0 by ring. rewrite vlog_0. vif.
    cbn [vmul]. rewrite scale_inf_pos by lra. rewrite P_fun.xlogy_fin' by lra. reflexivity.
  - unfold vdiv. rewrite Reqb_true by ring. reflexivity.
  - rewrite vpown_Fin by lia. unfold vdiv. rewrite Reqb_true by ring. reflexivity.
Qed.
Lemma nll_laws (r p : R) (xs cs : list nat) : 1 <= r -> 0 < p < 1 ->
  nll (vNs xs) (Fin r) (Fin p) None = vneg (loglik (fun t => logpmf t (Fin r) (Fin p)) (map INR xs)) /\
  (length cs = length xs -> nll (vNs xs) (Fin r) (Fin p) (Some (vNs cs)) = nll (vNs (expand xs cs)) (Fin r) (Fin p) None) /\
  (forall bad, bad_counts xs bad -> nll (vNs xs) (Fin r) (Fin p) (Some (map Fin bad)) = Exc ValueError).
Proof.
  intros R P. assert (P' : 0 <= p < 1) by lra. split; [|split].
  - change (@None (list val)) with (vcounts None). rewrite (nll_eval r p R P' xs None) by (try lra; unfold good_counts; simpl; apply repeat_length). simpl counts_for. rewrite wsum_expand, expand_ones.
    unfold loglik. rewrite map_map, (vfsum_map _ (fun x => ln (g r p x))); [reflexivity|]. intros x _. apply lg_nat; lra.
  - intros E. change (@None (list val)) with (vcounts None). change (Some (vNs cs)) with (vcounts (Some cs)). rewrite (nll_eval r p R P' xs (Some cs)) by (auto; lra).
    rewrite (nll_eval r p R P' _ None); [|lra|unfold good_counts; simpl; apply repeat_length].
    rewrite (counts_of_expand (fun x => ln (g r p x)) xs (Some cs)). reflexivity.
  - intros bad B. unfold nll. rewrite ok, vx_nat by lra.
    apply counts_bad. destruct B as [B|B]; [left; unfold vNs; rewrite map_length; auto|right; auto].
Qed.
(** Estimation. *)
Definition lr (r : R) (x : nat) : R := nsum (fun j => ln (r + INR j)) x.
Definition hr (r : R) (x : nat) : R := nsum (fun j => / (r + INR j)) x.
Lemma ln_rising r x : 0 < r -> ln (rising r x) = lr r x.
Proof.
  intros H. unfold lr. induction x as [|x IH]; [simpl; apply ln_1|]. rewrite rising_last, ln_mult, IH; [reflexivity|apply rising_pos; auto|pose proof (pos_INR x); lra].
Qed.
Lemma ln_g r p x : 0 < r -> 0 < p < 1 -> ln (g r p x) = lr r x - ln (INR (fact x)) + INR x * ln p + r * ln (1 - p).
Proof.
  intros H P. unfold g. pose proof (rising_pos r x H). pose proof (INR_fact_lt_0 x). assert (0 < rising r x / INR (fact x)) by (apply Rdiv_lt_0_compat; auto).
  rewrite !ln_mult; auto; [|apply pow_lt; lra|apply Rmult_lt_0_compat; auto; apply pow_lt; lra|apply exp_pos].
  unfold Rdiv. rewrite ln_mult, ln_Rinv, ln_rising; auto; [|apply Rinv_0_lt_compat; auto]. rewrite <- (Rpower_INR x) by lra. unfold Rpower. rewrite !ln_exp. ring.
Qed.
Lemma digamma_hr r x : 0 < r -> digamma (INR x + r) - digamma r = hr r x.
Proof.
  intros H. unfold hr. induction x as [|x IH]; [simpl; rewrite Rplus_0_l; ring|]. cbn [nsum]. rewrite <- IH. rewrite S_INR. pose proof (pos_INR x). replace (INR x + 1 + r) with (INR x + r + 1) by ring. rewrite digamma_succ by lra. rewrite (Rplus_comm r (INR x)). ring.
Qed.
Lemma ln_tangent a b : 0 < a -> 0 < b -> ln b <= ln a + (b - a) / a.
Proof.
  intros A B. pose proof (exp_ineq1_le (ln b - ln a)) as E. unfold Rminus in E. rewrite exp_plus, exp_Ropp, !exp_ln in E by auto. fold (b / a) in E. replace ((b - a) / a) with (b / a - 1) by (field; lra). lra.
Qed.
Lemma lr_tangent a b x : 0 < a -> 0 < b -> lr b x <= lr a x + (b - a) * hr a x.
Proof.
  intros A B. unfold lr, hr. induction x as [|x IH]; cbn [nsum]; [lra|]. pose proof (pos_INR x). pose proof (ln_tangent (a + INR x) (b + INR x) ltac:(lra) ltac:(lra)) as T.
  replace (b + INR x - (a + INR x)) with (b - a) in T by ring. unfold Rdiv in T. lra.
Qed.
Lemma hr_mono a b x : 0 < a <= b -> hr b x <= hr a x.
Proof.
  intros H. unfold hr. induction x as [|x IH]; cbn [nsum]; [lra|]. pose proof (pos_INR x). assert (/ (b + INR x) <= / (a + INR x)) by (apply Rinv_le_contravar; lra). lra.
Qed.
Section Est.
Variables (xs : list nat) (cs : option (list nat)).
Hypothesis G : good_counts xs cs.
Let c := counts_for xs cs.
Hypothesis W : 0 < wtot xs c.
Let m := wsum INR xs c / wtot xs c.
Lemma nll_val r p : 1 <= r -> 0 < p < 1 -> nll (vNs xs) (Fin r) (Fin p) (vcounts cs) =
  Fin (wsum (fun x => ln (INR (fact x))) xs c - wsum (lr r) xs c - wtot xs c * (m * ln p + r * ln (1 - p))).
Proof.
  intros R P. rewrite nll_eval by (auto; lra). f_equal. fold c.
  rewrite (wsum_ext (fun x => ln (g r p x)) (fun x => (lr r x + -1 * ln (INR (fact x))) + (ln p * INR x + r * ln (1 - p)))).
  - rewrite !wsum_plus, !wsum_scal, wsum_const. unfold m. field. lra.
  - intros x _. rewrite ln_g by lra. ring.
Qed.
Lemma m_mean : M_basic.mean (vNs xs) (vcounts cs) = Fin m.
Proof. unfold m, c. apply mean_counts; auto. Qed.
Lemma min_p r : 1 <= r -> 0 < m -> 0 < m / (r + m) < 1 /\ minimises (fun p => 0 < p < 1) (fun p => nll (vNs xs) (Fin r) (Fin p) (vcounts cs)) (m / (r + m)).
Proof.
  intros R M. assert (A : 0 < m / (r + m) < 1) by (split; [apply Rdiv_lt_0_compat; lra|apply Rlt_div_l; lra]). split; auto. split; auto.
  eexists. split; [apply nll_val; auto|]. intros p P. eexists. split; [apply nll_val; auto|]. set (q := m / (r + m)) in *.
  enough (m * ln p + r * ln (1 - p) <= m * ln q + r * ln (1 - q)) by (assert (wtot xs c * (m * ln p + r * ln (1 - p)) <= wtot xs c * (m * ln q + r * ln (1 - q))) by (apply Rmult_le_compat_l; lra); lra).
  pose proof (ln_tangent q p ltac:(lra) ltac:(lra)) as T1. pose proof (ln_tangent (1 - q) (1 - p) ltac:(lra) ltac:(lra)) as T2.
  apply (Rmult_le_compat_l m) in T1; [|lra]. apply (Rmult_le_compat_l r) in T2; [|lra].
  assert (m * ((p - q) / q) + r * ((1 - p - (1 - q)) / (1 - q)) = 0); [|lra]. unfold q. field. split; [|split]; try lra.
Qed.
(** The likelihood equation for r. *)
Definition eqn (p r : R) : R := wsum (hr r) xs c / wtot xs c + ln (1 - p).
Lemma tangent_r p a b : 1 <= a -> 1 <= b -> 0 < p < 1 -> exists fa fb, nll (vNs xs) (Fin a) (Fin p) (vcounts cs) = Fin fa /\ nll (vNs xs) (Fin b) (Fin p) (vcounts cs) = Fin fb /\ fa <= fb + wtot xs c * ((b - a) * eqn p a).
Proof.
  intros A B P. eexists. eexists. split; [apply nll_val; auto|]. split; [apply nll_val; auto|].
  pose proof (P_binomial.wsum_mono (lr b) (fun x => lr a x + (b - a) * hr a x) xs c) as Q. lapply Q; [|intros x _; apply lr_tangent; lra]. clear Q. intros Q. rewrite wsum_plus, wsum_scal in Q.
  unfold eqn. replace (wtot xs c * ((b - a) * (wsum (hr a) xs c / wtot xs c + ln (1 - p)))) with ((b - a) * wsum (hr a) xs c + wtot xs c * (b - a) * ln (1 - p)) by (field; lra). lra.
Qed.
Lemma eqn_mono p a b : 0 < a <= b -> eqn p b <= eqn p a.
Proof.
  intros H. unfold eqn. apply Rplus_le_compat_r. apply Rmult_le_compat_r; [left; apply Rinv_0_lt_compat; auto|]. apply P_binomial.wsum_mono. intros x _. apply hr_mono. auto.
Qed.
Lemma eqn_model p r : 0 < r -> 0 <= p < 1 -> vadd (vsub (M_basic.mean (map (fun xi => vdigamma (vadd xi (Fin r))) (vNs xs)) (vcounts cs)) (vdigamma (Fin r))) (vlog1p (vneg (Fin p))) = Fin (eqn p r).
Proof.
  intros R P. unfold vNs. rewrite map_map. rewrite (map_ext _ (fun x => Fin (digamma (INR x + r)))).
  - rewrite P_binomial.mean_f by auto. unfold vdigamma. rewrite Rltb_true by lra. cbn [vneg]. unfold vlog1p. cbn [vadd]. rewrite vlog_Fin by lra. cbn [vsub vadd vneg]. f_equal. fold c. unfold eqn. replace (1 + - p) with (1 - p) by ring.
    rewrite (wsum_ext (hr r) (fun x => digamma (INR x + r) + (- digamma r))) by (intros x _; rewrite <- digamma_hr by auto; ring). rewrite wsum_plus, wsum_const. field. lra.
  - intros x. unfold vN. cbn [vadd]. unfold vdigamma. rewrite Rltb_true; auto. pose proof (pos_INR x). lra.
Qed.
Lemma min_r p r : 1 <= r -> 0 < p < 1 -> eqn p r = 0 -> minimises (fun r => 1 <= r) (fun r => nll (vNs xs) (Fin r) (Fin p) (vcounts cs)) r.
Proof.
  intros R P E. split; auto. destruct (tangent_r p r r R R P) as [fa [_ [A _]]]. exists fa. split; auto. intros b B. destruct (tangent_r p r b R B P) as [fa' [fb [A' [B' Q]]]].
  rewrite A in A'. injection A' as <-. exists fb. split; auto. rewrite E in Q. lra.
Qed.
Lemma lower_side p r (a b : R) : 1 <= a -> a <= b -> b <= r -> 0 < p < 1 -> eqn p r = 0 -> exists fa fb, nll (vNs xs) (Fin a) (Fin p) (vcounts cs) = Fin fa /\ nll (vNs xs) (Fin b) (Fin p) (vcounts cs) = Fin fb /\ fb <= fa.
Proof.
  intros A AB BR P E. destruct (tangent_r p b a ltac:(lra) A P) as [fb [fa [B' [A' Q]]]]. exists fa, fb. split; auto. split; auto. pose proof (eqn_mono p b r ltac:(lra)) as M. rewrite E in M.
  assert (wtot xs c * ((a - b) * eqn p b) <= 0); [|lra]. assert (0 <= wtot xs c * ((b - a) * eqn p b)) by (apply Rmult_le_pos; [lra|apply Rmult_le_pos; lra]). lra.
Qed.
Lemma upper_side p r (a b : R) : 1 <= r -> r <= a -> a <= b -> 0 < p < 1 -> eqn p r = 0 -> exists fa fb, nll (vNs xs) (Fin a) (Fin p) (vcounts cs) = Fin fa /\ nll (vNs xs) (Fin b) (Fin p) (vcounts cs) = Fin fb /\ fa <= fb.
Proof.
  intros R RA AB P E. destruct (tangent_r p a b ltac:(lra) ltac:(lra) P) as [fa [fb [A' [B' Q]]]]. exists fa, fb. split; auto. split; auto. pose proof (eqn_mono p r a ltac:(lra)) as M. rewrite E in M.
  assert (wtot xs c * ((b - a) * eqn p a) <= 0); [|lra]. assert (0 <= wtot xs c * ((b - a) * - eqn p a)) by (apply Rmult_le_pos; [lra|apply Rmult_le_pos; lra]). lra.
Qed.
(** Among the integers the best is the floor or the ceiling of the real optimum. *)
Lemma int_opt p r (z0 z1 : Z) : 1 <= IZR z0 -> r - 1 < IZR z0 <= r -> r <= IZR z1 < r + 1 -> 0 < p < 1 -> eqn p r = 0 ->
  exists f0 f1, nll (vNs xs) (Fin (IZR z0)) (Fin p) (vcounts cs) = Fin f0 /\ nll (vNs xs) (Fin (IZR z1)) (Fin p) (vcounts cs) = Fin f1 /\
  forall k : nat, (1 <= k)%nat -> exists f, nll (vNs xs) (Fin (INR k)) (Fin p) (vcounts cs) = Fin f /\ Rmin f0 f1 <= f.
Proof.
  intros Z1 F0 F1 P E. destruct (lower_side p r (IZR z0) (IZR z0) Z1 ltac:(lra) ltac:(lra) P E) as [f0 [_ [A _]]]. destruct (upper_side p r (IZR z1) (IZR z1) ltac:(lra) ltac:(lra) ltac:(lra) P E) as [f1 [_ [B _]]].
  exists f0, f1. split; auto. split; auto. intros k K. assert (1 <= INR k) by (change 1 with (INR 1); apply le_INR; auto). destruct (Rle_lt_dec (INR k) (IZR z0)) as [L|L].
  - destruct (lower_side p r (INR k) (IZR z0) ltac:(auto) L ltac:(lra) P E) as [fk [fz [A1 [A2 Q]]]]. rewrite A in A2. injection A2 as <-. exists fk. split; auto. pose proof (Rmin_l f0 f1). lra.
  - assert (IZR z1 <= INR k). { rewrite INR_IZR_INZ in *. apply lt_IZR in L. apply IZR_le. assert (z1 < z0 + 2)%Z by (apply lt_IZR; rewrite plus_IZR; lra). lia. }
    destruct (upper_side p r (IZR z1) (INR k) ltac:(lra) ltac:(lra) ltac:(auto) P E) as [fz [fk [A1 [A2 Q]]]]. rewrite B in A1. injection A1 as <-. exists fk. split; auto. pose proof (Rmin_r f0 f1). lra.
Qed.
End Est.
Lemma est_facts xs cs : good_counts xs cs -> 0 < sum (map INR (expand xs (counts_for xs cs))) -> 0 < wtot xs (counts_for xs cs) /\ 0 < wsum INR xs (counts_for xs cs) / wtot xs (counts_for xs cs).
Proof.
  intros G S. rewrite <- wsum_expand in S. assert (W : 0 < wtot xs (counts_for xs cs)).
  { rewrite wtot_len. apply lt_0_INR. rewrite wsum_expand in S. destruct (expand xs (counts_for xs cs)); [unfold sum in S; simpl in S; lra|simpl; lia]. }
  split; auto. apply Rdiv_lt_0_compat; auto.
Qed.
Lemma ne_wtot xs cs : expand xs (counts_for xs cs) <> [] -> 0 < wtot xs (counts_for xs cs).
Proof. intros H. rewrite wtot_len. apply lt_0_INR. destruct (expand xs (counts_for xs cs)); [congruence|simpl; lia]. Qed.
(** r given. *)
Lemma mle_r_opt (xs : list nat) (cs : option (list nat)) (r : R) (allow : bool) : 1 <= r -> (allow = true \/ exists k : nat, r = INR k) -> good_counts xs cs ->
  0 < sum (map INR (expand xs (counts_for xs cs))) ->
  exists p, mle_r (vNs xs) (vcounts cs) (Fin r) allow = Ok (Fin r, Fin p) /\ minimises (fun q => 0 < q < 1) (fun q => nll (vNs xs) (Fin r) (Fin q) (vcounts cs)) p.
Proof.
  intros R A G S. destruct (est_facts xs cs G S) as [W M]. eexists. split; [|apply (proj2 (min_p xs cs G W r R M))].
  unfold mle_r. rewrite vx_nat. rewrite (counts_pass _ xs) by (auto; unfold vNs; apply map_length).
  assert (V : forall k : res (val * val), validate (Fin r) (Fin (1 / 2)) allow k = k).
  { intros k. destruct A as [->|[n ->]]; [apply ok; lra|]. unfold validate. rewrite vint_INR. unfold cle, cne, cmp, leb, eqb. rewrite Rleb_false, !Rleb_true, Reqb_true by lra. destruct allow; reflexivity. }
  rewrite V. replace (match cs with Some _ => _ | None => _ end) with (vcounts cs) by (destruct cs; reflexivity). rewrite m_mean by auto. cbn [bindv vadd]. rewrite vdiv_Fin by lra. reflexivity.
Qed.
(** p given. *)
Lemma root_pos xs cs p rr : good_counts xs cs -> 0 < wtot xs (counts_for xs cs) -> 0 <= p < 1 ->
  vadd (vsub (M_basic.mean (map (fun xi => vdigamma (vadd xi (Fin rr))) (vNs xs)) (vcounts cs)) (vdigamma (Fin rr))) (vlog1p (vneg (Fin p))) = Fin 0 -> 0 < rr /\ eqn xs cs p rr = 0.
Proof.
  intros G W P E. destruct (Rlt_le_dec 0 rr) as [L|L].
  - rewrite eqn_model in E by auto. injection E as E. auto.
  - exfalso. unfold vdigamma at 2 in E. rewrite Rltb_false in E by lra. destruct (M_basic.mean _ _); discriminate.
Qed.
Lemma floor_ceil rr : exists z0 z1, vfloor (Fin rr) = Fin (IZR z0) /\ vceil (Fin rr) = Fin (IZR z1) /\ rr - 1 < IZR z0 <= rr /\ rr <= IZR z1 < rr + 1.
Proof. destruct (vfloor_spec rr) as [z0 [A A']]. destruct (vceil_spec rr) as [z1 [B B']]. exists z0, z1. repeat split; auto; lra. Qed.
Lemma mle_p_opt (findroot : (val -> val) -> val -> val) (xs : list nat) (cs : option (list nat)) (p : R) (r0 rhat phat : val) :
  0 < p < 1 -> good_counts xs cs -> expand xs (counts_for xs cs) <> [] ->
  (forall f x0, (exists e, findroot f x0 = Exc e) \/ (exists r, findroot f x0 = Fin r /\ f (Fin r) = Fin 0)) ->
  mle_p findroot (vNs xs) (vcounts cs) (Fin p) r0 true = Ok (rhat, phat) ->
  phat = Fin p /\ exists r, rhat = Fin r /\ 0 < r /\ (1 <= r -> minimises (fun r => 1 <= r) (fun r => nll (vNs xs) (Fin r) (Fin p) (vcounts cs)) r).
Proof.
  intros P G NE FR R. pose proof (ne_wtot xs cs NE) as W. unfold mle_p in R. rewrite vx_nat, (counts_pass _ xs) in R by (auto; unfold vNs; apply map_length).
  rewrite ok in R by lra. replace (match cs with Some _ => _ | None => _ end) with (vcounts cs) in R by (destruct cs; reflexivity). rewrite m_mean in R by auto. cbn [bindv] in R.
  match type of R with context [findroot ?f ?x] => destruct (FR f x) as [[e FE]|[r [FE ZE]]] end; rewrite FE in R; cbn [bindv cif] in R; [discriminate|]. injection R as <- <-.
  apply root_pos in ZE; auto; [|lra]. destruct ZE as [L E]. split; auto. exists r. split; auto. split; auto. intros R1. apply min_r; auto.
Qed.
Lemma mle_p_int (findroot : (val -> val) -> val -> val) (xs : list nat) (cs : option (list nat)) (p : R) (r0 rhat phat : val) :
  0 < p < 1 -> good_counts xs cs -> expand xs (counts_for xs cs) <> [] ->
  (forall f x0, (exists e, findroot f x0 = Exc e) \/ (exists r, findroot f x0 = Fin r /\ f (Fin r) = Fin 0)) ->
  mle_p findroot (vNs xs) (vcounts cs) (Fin p) r0 false = Ok (rhat, phat) ->
  phat = Fin p /\ exists m : nat, rhat = Fin (INR m) /\ minimises (fun k => (1 <= k)%nat) (fun k => nll (vNs xs) (Fin (INR k)) (Fin p) (vcounts cs)) m.
Proof.
  intros P G NE FR R. pose proof (ne_wtot xs cs NE) as W. unfold mle_p in R. rewrite vx_nat, (counts_pass _ xs) in R by (auto; unfold vNs; apply map_length).
  rewrite ok in R by lra. replace (match cs with Some _ => _ | None => _ end) with (vcounts cs) in R by (destruct cs; reflexivity). rewrite m_mean in R by auto. cbn [bindv] in R.
  match type of R with context [findroot ?f ?x] => destruct (FR f x) as [[e FE]|[r [FE ZE]]] end; rewrite FE in R; cbn [bindv] in R; [discriminate|].
  apply root_pos in ZE; auto; [|lra]. destruct ZE as [L E].
  assert (NR : vint (Fin r) = Fin (IZR (Int_part r))) by (unfold vint; rewrite Rltb_false by lra; reflexivity). rewrite NR in R. unfold ceq at 1, cmp, eqb in R.
  assert (KEY : forall z0 z1 (z : Z), 1 <= IZR z0 -> r - 1 < IZR z0 <= r -> r <= IZR z1 < r + 1 -> (exists f0 f1, nll (vNs xs) (Fin (IZR z0)) (Fin p) (vcounts cs) = Fin f0 /\ nll (vNs xs) (Fin (IZR z1)) (Fin p) (vcounts cs) = Fin f1 /\ (f0 <= f1 /\ z = z0 \/ f1 <= f0 /\ z = z1)) ->
    exists m : nat, Fin (IZR z) = Fin (INR m) /\ minimises (fun k => (1 <= k)%nat) (fun k => nll (vNs xs) (Fin (INR k)) (Fin p) (vcounts cs)) m).
  { intros z0 z1 z Z1 Z0 Zc [f0 [f1 [F0 [F1 CH]]]]. destruct (int_opt xs cs G W p r z0 z1 Z1 Z0 Zc P E) as [f0' [f1' [A [B OPT]]]]. rewrite F0 in A. rewrite F1 in B. injection A as <-. injection B as <-.
    assert (ZZ : (1 <= z)%Z) by (apply le_IZR; destruct CH as [[_ ->]|[_ ->]]; lra). assert (EZ : IZR z = INR (Z.to_nat z)) by (rewrite INR_IZR_INZ, Z2Nat.id by lia; reflexivity).
    exists (Z.to_nat z). split; [f_equal; auto|]. split; [lia|]. rewrite <- EZ. exists (Rmin f0 f1). split; [destruct CH as [[Q ->]|[Q ->]]; [rewrite Rmin_left|rewrite Rmin_right]; auto|]. exact OPT. }
  destruct (Reqb_spec r (IZR (Int_part r))) as [[V Vb]|[V Vb]]; rewrite Vb in R; cbn [cif] in R.
  - injection R as <- <-. split; auto. assert (Z1 : 1 <= IZR (Int_part r)). { rewrite V in L. apply lt_IZR in L. apply IZR_le. lia. }
    replace (Fin r) with (Fin (IZR (Int_part r))) by (f_equal; auto). apply (KEY (Int_part r) (Int_part r)); try lra. destruct (lower_side xs cs G W p r (IZR (Int_part r)) (IZR (Int_part r)) ltac:(lra) ltac:(lra) ltac:(lra) P E) as [f [_ [F _]]].
    exists f, f. split; auto. split; auto. left. split; auto. lra.
  - destruct (floor_ceil r) as [z0 [z1 [A [B [Z0 Z1]]]]]. rewrite A, B in R. destruct (Rle_lt_dec 1 (IZR z0)) as [L1|L1].
    + destruct (int_opt xs cs G W p r z0 z1 L1 Z0 Z1 P E) as [f0 [f1 [F0 [F1 _]]]]. rewrite F0, F1 in R. unfold cle, cmp, leb in R.
      destruct (Rleb_spec f0 f1) as [[U Ub]|[U Ub]]; rewrite Ub in R; cbn [cif] in R; injection R as <- <-; (split; [auto|]); apply (KEY z0 z1); auto; exists f0, f1; (split; [auto|split; [auto|]]); [left; split; auto|right; split; auto; lra].
    + exfalso. assert (z0 <= 0)%Z by (apply lt_IZR in L1; lia). assert (IZR z0 <= 0) by (apply IZR_le in H; auto).
      assert (N : nll (vNs xs) (Fin (IZR z0)) (Fin p) (vcounts cs) = Exc ValueError) by (unfold nll, validate, cle, cmp, leb; rewrite Rleb_true by lra; reflexivity).
      rewrite N in R. discriminate.
Qed.
(** Neither given: the result is optimal in each coordinate. *)
Lemma mle_free_coord (findroot : (val -> val) -> val -> val) (xs : list nat) (cs : option (list nat)) (r0 rhat phat : val) :
  good_counts xs cs -> 0 < sum (map INR (expand xs (counts_for xs cs))) ->
  (forall f x0, (exists e, findroot f x0 = Exc e) \/ (exists r, findroot f x0 = Fin r /\ f (Fin r) = Fin 0)) ->
  mle_free findroot (vNs xs) (vcounts cs) r0 true = Ok (rhat, phat) ->
  exists r p, rhat = Fin r /\ phat = Fin p /\ (1 <= r ->
    minimises (fun q => 0 < q < 1) (fun q => nll (vNs xs) (Fin r) (Fin q) (vcounts cs)) p /\ minimises (fun s => 1 <= s) (fun s => nll (vNs xs) (Fin s) (Fin p) (vcounts cs)) r).
Proof.
  intros G S FR R. destruct (est_facts xs cs G S) as [W M]. unfold mle_free in R. rewrite vx_nat, (counts_pass _ xs) in R by (auto; unfold vNs; apply map_length).
  replace (match cs with Some _ => _ | None => _ end) with (vcounts cs) in R by (destruct cs; reflexivity). rewrite m_mean in R by auto. cbn [bindv] in R. set (m := wsum INR xs (counts_for xs cs) / wtot xs (counts_for xs cs)) in *.
  match type of R with context [findroot ?f ?x] => destruct (FR f x) as [[e FE]|[r [FE ZE]]] end; rewrite FE in R; cbn [bindv] in R; [discriminate|].
  destruct (Rlt_le_dec 0 r) as [L|L].
  - cbn [vadd] in R. rewrite vdiv_Fin in R by lra. cbn [bindv cif] in R. injection R as <- <-. exists r, (m / (r + m)). split; auto. split; auto. intros R1.
    destruct (min_p xs cs G W r R1 M) as [A B]. split; auto. apply min_r; auto. cbn [vadd] in ZE. rewrite vdiv_Fin in ZE by lra. rewrite eqn_model in ZE by (auto; fold m in A; lra). injection ZE as ZE. exact ZE.
  - exfalso. unfold vdigamma at 2 in ZE. rewrite (Rltb_false 0 r) in ZE by lra. destruct (M_basic.mean _ _); discriminate.
Qed.
(** A solver that accepts its starting point if it is a root. *)
Definition check_root (f : val -> val) (x0 : val) : val := match f x0, x0 with Fin v, Fin r => if Reqb v 0 then Fin r else Exc ValueError | _, _ => Exc ValueError end.
Lemma check_root_ok f x0 : (exists e, check_root f x0 = Exc e) \/ (exists r, check_root f x0 = Fin r /\ f (Fin r) = Fin 0).
Proof.
  unfold check_root. destruct (f x0) as [v| | | |] eqn:E; eauto. destruct x0 as [r| | | |]; eauto. destruct (Reqb_spec v 0) as [[V ->]|[V ->]]; eauto. right. exists r. split; auto. rewrite E, V. reflexivity.
Qed.
Lemma check_p b : let p := 1 - exp (- (1 / 2)) in 0 < p < 1 /\ mle_p check_root (vNs [1%nat]) (vcounts None) (Fin p) (Fin 2) b = Ok (Fin 2, Fin p).
Proof.
  intros p. assert (P : 0 < p < 1). { unfold p. pose proof (exp_pos (- (1 / 2))). assert (exp (- (1 / 2)) < exp 0) by (apply exp_increasing; lra). rewrite exp_0 in H0. lra. } split; auto.
  assert (W : 0 < wtot [1%nat] (counts_for [1%nat] None)) by (rewrite wtot_len; simpl; lra).
  unfold mle_p. rewrite vx_nat, (counts_pass _ [1%nat] None) by reflexivity. rewrite ok by lra. change (M_basic.mean (vNs [1%nat]) None) with (M_basic.mean (vNs [1%nat]) (vcounts None)). rewrite m_mean by (auto; reflexivity). cbn [bindv].
  unfold check_root at 1. change (@None (list val)) with (vcounts None). rewrite (eqn_model [1%nat] None eq_refl W p 2) by lra. rewrite Reqb_true.
  - cbn [bindv]. assert (ceq (Fin 2) (vint (Fin 2)) = CB true) as ->. { change 2 with (IZR 2). rewrite vint_IZR. unfold ceq, cmp, eqb. rewrite Reqb_true; auto. } destruct b; reflexivity.
  - unfold eqn. assert (wsum (hr 2) [1%nat] (counts_for [1%nat] None) = 1 / 2) as -> by (rewrite wsum_expand; unfold sum, hr; simpl; field).
    assert (wtot [1%nat] (counts_for [1%nat] None) = 1) as -> by (rewrite wtot_len; simpl; ring). unfold p. replace (1 - (1 - exp (- (1 / 2)))) with (exp (- (1 / 2))) by ring. rewrite ln_exp. field.
Qed.
Definition F15 (r : R) : R := - ((/ r + (/ r + / (r + 1) + / (r + 2) + / (r + 3) + / (r + 4))) / 2 + ln (1 - 3 / (r + 3))).
Lemma F15_root : exists r, 1 <= r /\ F15 r = 0.
Proof.
  destruct (Ranalysis5.IVT_interv F15 1 10) as [z [Z E]].
  - intros a A. apply continuity_pt_filterlim. apply (ex_derive_continuous F15). unfold F15. auto_derive. repeat split; try lra.
    assert (3 / (a + 3) < 1) by (apply Rlt_div_l; lra). lra.
  - lra.
  - unfold F15. replace (1 - 3 / (1 + 3)) with (/ 4) by field. rewrite ln_Rinv by lra. assert (ln 4 < 8 / 5); [|lra].
    rewrite <- (ln_exp (8 / 5)). apply ln_increasing; [lra|]. replace (8 / 5) with (1 / 5 + 1 / 5 + 1 / 5 + 1 / 5 + 1 / 5 + 1 / 5 + 1 / 5 + 1 / 5) by field. rewrite !exp_plus.
    assert (6 / 5 <= exp (1 / 5)) by (pose proof (exp_ineq1_le (1 / 5)); lra). set (e := exp (1 / 5)) in *.
    assert (36 / 25 <= e * e) by nra. assert ((36 / 25) * (36 / 25) <= (e * e) * (e * e)) by nra. assert ((36 / 25) * (36 / 25) * ((36 / 25) * (36 / 25)) <= (e * e) * (e * e) * ((e * e) * (e * e))) by nra. lra.
  - unfold F15. replace (1 - 3 / (10 + 3)) with (/ (13 / 10)) by field. rewrite ln_Rinv by lra. assert (2613 / 10000 < ln (13 / 10)); [|lra].
    rewrite <- (ln_exp (2613 / 10000)). apply ln_increasing; [apply exp_pos|]. set (t := 2613 / 640000). assert (T : 1 - t <= exp (- t)) by (pose proof (exp_ineq1_le (- t)); lra).
    assert (E1 : forall a b x, 0 < a -> 0 < b -> b <= a * a -> a <= exp (- x) -> b <= exp (- (2 * x))).
    { intros a b x A B L Q. replace (- (2 * x)) with (- x + - x) by ring. rewrite exp_plus. nra. }
    assert (Q : 7694 / 10000 <= exp (- (2613 / 10000))).
    { replace (2613 / 10000) with (2 * (2 * (2 * (2 * (2 * (2 * t)))))) by (unfold t; field).
      apply (E1 (8772 / 10000)); try lra. apply (E1 (93662 / 100000)); try lra. apply (E1 (967795 / 1000000)); try lra. apply (E1 (983766 / 1000000)); try lra. apply (E1 (991850 / 1000000)); try lra. apply (E1 (995917 / 1000000)); try lra.
      apply Rle_trans with (2 := T). unfold t. lra. }
    rewrite exp_Ropp in Q. pose proof (exp_pos (2613 / 10000)) as X. set (e := exp (2613 / 10000)) in *. apply (Rmult_le_compat_r e) in Q; [|lra]. rewrite Rinv_l in Q by lra. lra.
  - exists z. split; [lra|auto].
Qed.
Lemma free_case : exists r p, 1 <= r /\ mle_free check_root (vNs [1; 5]%nat) (vcounts None) (Fin r) true = Ok (Fin r, Fin p).
Proof.
  destruct F15_root as [r [R E]]. exists r, (3 / (r + 3)). split; auto. set (xs := [1; 5]%nat).
  assert (WT : wtot xs (counts_for xs None) = 2) by (rewrite wtot_len; simpl; ring). assert (W : 0 < wtot xs (counts_for xs None)) by lra.
  assert (M : wsum INR xs (counts_for xs None) / wtot xs (counts_for xs None) = 3) by (rewrite WT, wsum_expand; unfold sum; simpl; field).
  assert (A : 0 <= 3 / (r + 3) < 1) by (split; [apply Rle_div_r; lra|apply Rlt_div_l; lra]).
  unfold mle_free. rewrite vx_nat, (counts_pass _ xs None) by reflexivity. change (@None (list val)) with (vcounts None). rewrite m_mean by (auto; reflexivity). rewrite M. cbn [bindv].
  unfold check_root at 1. cbn [vadd]. rewrite vdiv_Fin by lra. rewrite (eqn_model xs None eq_refl W) by lra. rewrite Reqb_true.
  - cbn [bindv vadd]. rewrite vdiv_Fin by lra. reflexivity.
  - unfold eqn. rewrite WT, wsum_expand. unfold sum, hr, F15 in *. simpl. replace (r + (1 + 1 + 1 + 1)) with (r + 4) by ring. replace (r + (1 + 1 + 1)) with (r + 3) by ring. replace (r + (1 + 1)) with (r + 2) by ring. rewrite !Rplus_0_r, !Rplus_0_l. unfold Rdiv in *. lra.
Qed.
Lemma bad (r p : R) : r <= 0 \/ p < 0 \/ 1 < p -> forall {A} `{CanRaise A} (c : A), validate (Fin r) (Fin p) true c = raise ValueError.
Proof. intros H A X c. unfold validate, cle, cmp, leb. repeat match goal with |- context [Rleb ?a ?b] => destruct (Rleb_spec a b) as [[? ->]|[? ->]]; try reflexivity end. lra. Qed.
Lemma bad_params (r p : R) (k : val) : r <= 0 \/ p < 0 \/ 1 < p ->
  pmf k (Fin r) (Fin p) = Exc ValueError /\ logpmf k (Fin r) (Fin p) = Exc ValueError /\ cdf k (Fin r) (Fin p) = Exc ValueError /\ sf k (Fin r) (Fin p) = Exc ValueError /\
  mean (Fin r) (Fin p) = Exc ValueError /\ mode (Fin r) (Fin p) = Exc ValueError /\ var (Fin r) (Fin p) = Exc ValueError.
Proof. intros H. unfold pmf, logpmf, cdf, sf, mean, mode, var. repeat split; rewrite !(bad r p H); reflexivity. Qed.
Lemma support_any (r p : val) : support r p = Ok (Count 0).
Proof. reflexivity. Qed.
