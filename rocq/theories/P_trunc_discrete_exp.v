(** Proofs about M_trunc_discrete_exp. *)
From Coq Require Import Reals Lra Lia List ZArith Arith Bool.
From Coquelicot Require Import Coquelicot.
From Verif Require Import Values VTac Spec SpecStat SpecEst SpecDisc LLib XLib PLib RLib LimLib DistLib M_common M_sfun M_disc DiscLib IncLib CountLib M_trunc_discrete_exp.
Import ListNotations.
Local Open Scope R_scope.
Set Bullet Behavior "Strict Subproofs".

Lemma vi_ok {A} `{CanRaise A} (k : Z) (c : A) : validate_int (Fin (IZR k)) c = c.
Proof. unfold validate_int. rewrite vint_IZR. unfold cne, cmp, eqb. rewrite Reqb_true by auto. reflexivity. Qed.
Lemma geo q n : (1 - q) * nsum (fun i => q ^ i) n = 1 - q ^ n.
Proof. induction n as [|n IH]; simpl in *; [ring|]. rewrite Rmult_plus_distr_l, IH. ring. Qed.
Lemma geo1 q n : (1 - q) ^ 2 * nsum (fun i => INR i * q ^ i) n = q - q ^ n * (INR n - (INR n - 1) * q).
Proof. induction n as [|n IH]; [simpl; ring|]. rewrite S_INR. cbn [nsum]. rewrite Rmult_plus_distr_l, IH, ?S_INR. simpl pow. ring. Qed.
Lemma geo2 q n : (1 - q) ^ 3 * nsum (fun i => INR i ^ 2 * q ^ i) n = q * (1 + q) - q ^ n * (INR n ^ 2 - (2 * INR n ^ 2 - 2 * INR n - 1) * q + (INR n - 1) ^ 2 * q ^ 2).
Proof. induction n as [|n IH]; [simpl; ring|]. rewrite S_INR. cbn [nsum]. rewrite Rmult_plus_distr_l, IH, ?S_INR. simpl pow. ring. Qed.
Lemma tri n : nsum (fun i => INR i) n = INR n * (INR n - 1) / 2.
Proof. induction n as [|n IH]; [simpl; field|]. rewrite S_INR. cbn [nsum]. rewrite IH. field. Qed.
Lemma sqs n : nsum (fun i => INR i ^ 2) n = INR n * (INR n - 1) * (2 * INR n - 1) / 6.
Proof. induction n as [|n IH]; [simpl; field|]. rewrite S_INR. cbn [nsum]. rewrite IH. field. Qed.
Section P.
Variables (lam : R) (n : nat).
Hypothesis L : 0 <= lam.
Hypothesis N : (0 < n)%nat.
Let q := exp (- lam).
Definition W m := nsum (fun i => exp (- lam) ^ i) m.
Definition g i := q ^ i / W n.
Lemma q_pos : 0 < q. Proof. apply exp_pos. Qed.
Lemma q_lt1 : lam <> 0 -> q < 1. Proof. intros H. unfold q. rewrite <- exp_0. apply exp_increasing. lra. Qed.
Lemma q_pow m : q ^ m = exp (- lam * INR m).
Proof. unfold q. rewrite <- Rpower_pow by apply exp_pos. unfold Rpower. rewrite ln_exp. f_equal. ring. Qed.
Lemma W_pos m : (0 < m)%nat -> 0 < W m.
Proof.
  intros M. unfold W. destruct m as [|m]; [lia|]. rewrite nsum_first. simpl. assert (0 <= nsum (fun i => exp (- lam) * exp (- lam) ^ i) m); [|lra].
  apply nsum_nonneg. intros. left. apply Rmult_lt_0_compat; [apply exp_pos|apply pow_lt, exp_pos].
Qed.
Lemma W_eq m : lam <> 0 -> W m = (1 - q ^ m) / (1 - q). Proof. intros H. pose proof (q_lt1 H). pose proof (geo q m). unfold W. fold q. rewrite <- H1. field. lra. Qed.
Lemma W_0 m : lam = 0 -> W m = INR m.
Proof. intros Z. unfold W. rewrite (nsum_ext _ (fun _ => 1)); [rewrite nsum_const; ring|]. intros. rewrite Z, Ropp_0, exp_0. apply pow1. Qed.
Lemma np : 0 < INR n. Proof. apply lt_0_INR; auto. Qed.
Lemma vp {A} `{CanRaise A} (c : A) : validate_params (Fin lam) (Fin (INR n)) c = c.
Proof.
  unfold validate_params. rewrite vint_INR. unfold cne, clt, cmp, eqb, ltb. rewrite Reqb_true by auto. pose proof np. rewrite !Rltb_false by lra. reflexivity.
Qed.
Lemma lam_eqb : ceq (Fin lam) (Fin 0) = CB (Reqb lam 0). Proof. reflexivity. Qed.
Lemma k_in (i : nat) : (i < n)%nat -> clt (Fin (IZR (Z.of_nat i))) (Fin 0) = CB false /\ cge (Fin (IZR (Z.of_nat i))) (Fin (INR n)) = CB false.
Proof.
  intros I. rewrite <- INR_IZR_INZ. apply lt_INR in I. pose proof (pos_INR i). unfold clt, cge, cmp, ltb, leb. rewrite Rltb_false, Rleb_false by lra. auto.
Qed.
Lemma k_neg (k : Z) : (k < 0)%Z -> clt (Fin (IZR k)) (Fin 0) = CB true.
Proof. intros H. apply IZR_lt in H. unfold clt, cmp, ltb. rewrite Rltb_true by lra. auto. Qed.
Lemma k_big (k : Z) : (Z.of_nat n <= k)%Z -> clt (Fin (IZR k)) (Fin 0) = CB false /\ cge (Fin (IZR k)) (Fin (INR n)) = CB true.
Proof. intros H. apply IZR_le in H. rewrite <- INR_IZR_INZ in H. pose proof np. unfold clt, cge, cmp, ltb, leb. rewrite Rltb_false, Rleb_true by lra. auto. Qed.
Lemma g_pos i : 0 < g i. Proof. apply Rdiv_pos; [apply pow_lt, q_pos|apply W_pos; auto]. Qed.
Lemma qn1 m : lam <> 0 -> (0 < m)%nat -> 0 < q ^ m < 1.
Proof. intros H M. pose proof q_pos. pose proof (q_lt1 H). split; [apply pow_lt; auto|]. destruct m as [|m]; [lia|]. simpl. assert (0 < q ^ m <= 1); [|nra]. split; [apply pow_lt; auto|]. rewrite <- (pow1 m). apply pow_incr. lra. Qed.
Lemma log_nat i : (i < n)%nat -> logpmf (Fin (IZR (Z.of_nat i))) (Fin lam) (Fin (INR n)) = Fin (ln (g i)).
Proof.
  intros I. unfold logpmf. rewrite vi_ok, vp. destruct (k_in i I) as [-> ->]. cbn [cif]. rewrite lam_eqb. pose proof np. pose proof q_pos as Q. pose proof (W_pos n N).
  unfold g. rewrite ln_div by (auto; apply pow_lt; auto). destruct (Reqb_spec lam 0) as [[Z ->]|[Z ->]]; cbn [cif].
  - rewrite vlog_Fin by auto. cbn [vneg]. f_equal. rewrite W_0 by auto. replace q with 1 by (unfold q; rewrite Z, Ropp_0, exp_0; auto). rewrite pow1, ln_1. ring.
  - pose proof (q_lt1 Z). pose proof (qn1 n Z N) as QN. cbn [vneg vexp vmul]. fold q. rewrite <- q_pow. unfold vlog1p. cbn [vadd]. rewrite !vlog_Fin by lra. cbn [vsub vadd vneg]. f_equal.
    rewrite W_eq by auto. rewrite ln_div by lra. rewrite (q_pow i), ln_exp, INR_IZR_INZ. unfold Rminus. ring.
Qed.
Lemma pmf_in i : below (Some n) i -> pmf (Fin (IZR (Z.of_nat i))) (Fin lam) (Fin (INR n)) = Fin (g i).
Proof.
  intros I. simpl in I. unfold pmf. rewrite vi_ok, vp, log_nat by auto. destruct (k_in i I) as [-> ->]. cbn [cif]. rewrite lam_eqb. pose proof np.
  destruct (Reqb_spec lam 0) as [[Z ->]|[Z ->]]; cbn [cif].
  - rewrite vdiv_Fin by lra. f_equal. unfold g. rewrite W_0 by auto. replace q with 1 by (unfold q; rewrite Z, Ropp_0, exp_0; auto). rewrite pow1. auto.
  - cbn [vexp]. rewrite exp_ln by apply g_pos. auto.
Qed.
Lemma support_ok : support (Fin lam) (Fin (INR n)) = Ok (Range 0 (Z.of_nat n)).
Proof. unfold support. rewrite vp. unfold vrange. change 0 with (IZR 0). rewrite is_intb_IZR, is_intb_INR, Int_part_IZR, Int_part_INR. auto. Qed.
Lemma tot_g m : nsum g m = W m / W n.
Proof. unfold g, W. fold q. rewrite (nsum_ext _ (fun i => / nsum (fun i => q ^ i) n * q ^ i)) by (intros; apply Rmult_comm). rewrite nsum_scal. apply Rmult_comm. Qed.
Lemma mass_ok : support (Fin lam) (Fin (INR n)) = Ok (Range 0 (Z.of_nat n)) /\ mass_function (fun k => pmf k (Fin lam) (Fin (INR n))) (Range 0 (Z.of_nat n)) /\
  zero_outside (fun k => pmf k (Fin lam) (Fin (INR n))) (Range 0 (Z.of_nat n)).
Proof.
  split; [apply support_ok|]. pose proof (W_pos n N). split.
  - apply (disc_mass (Some n) _ g); [apply pmf_in|intros; left; apply g_pos|]. simpl. rewrite tot_g. field. lra.
  - intros k K. simpl in K. unfold pmf. rewrite vi_ok, vp. destruct (Z_lt_dec k 0) as [H0|H0]; [rewrite k_neg by auto; auto|]. destruct (k_big k ltac:(lia)) as [-> ->]. auto.
Qed.
Lemma log_ok : log_law (fun k => pmf k (Fin lam) (Fin (INR n))) (fun k => logpmf k (Fin lam) (Fin (INR n))) (fun _ => True).
Proof.
  intros k _. destruct (Z_lt_dec k 0) as [K|K]; [|destruct (Z_lt_dec k (Z.of_nat n)) as [K'|K']].
  - right; left. unfold pmf, logpmf. rewrite !vi_ok, !vp, k_neg by auto. auto.
  - left. replace k with (Z.of_nat (Z.to_nat k)) by lia. exists (g (Z.to_nat k)). split; [apply g_pos|]. split; [apply pmf_in; simpl; lia|apply log_nat; lia].
  - right; left. unfold pmf, logpmf. rewrite !vi_ok, !vp. destruct (k_big k ltac:(lia)) as [-> ->]. auto.
Qed.
Lemma cdf_ok (k : Z) : cumulative (fun k => pmf k (Fin lam) (Fin (INR n))) (fun k => cdf k (Fin lam) (Fin (INR n))) (fun k => sf k (Fin lam) (Fin (INR n))) (Range 0 (Z.of_nat n)) k.
Proof.
  pose proof (W_pos n N) as WP. unfold cumulative. change (Range 0 (Z.of_nat n)) with (sup0 (Some n)). rewrite (disc_upto (Some n) _ g pmf_in), tot_g. unfold cdf, sf. rewrite !vi_ok, !vp.
  destruct (Z_lt_dec k 0) as [K|K]; [|destruct (Z_lt_dec k (Z.of_nat n)) as [K'|K']].
  - rewrite k_neg by auto. replace (Nat.min (Z.to_nat (k + 1)) n) with O by lia. unfold W at 1 3. simpl. split; f_equal; unfold Rdiv; ring.
  - assert (E : k = Z.of_nat (Z.to_nat k)) by lia. rewrite E. set (i := Z.to_nat k) in *. assert (I : (i < n)%nat) by lia. destruct (k_in i I) as [-> ->]. cbn [cif].
    replace (Nat.min (Z.to_nat (Z.of_nat i + 1)) n) with (Datatypes.S i) by lia. rewrite <- INR_IZR_INZ. rewrite lam_eqb. pose proof np.
    destruct (Reqb_spec lam 0) as [[Z ->]|[Z ->]]; cbn [cif].
    + cbn [vadd vsub vneg]. rewrite !vdiv_Fin by lra. rewrite !W_0, S_INR by auto. split; auto. f_equal. field. lra.
    + pose proof (q_lt1 Z). pose proof (qn1 n Z N) as QN. pose proof (qn1 (Datatypes.S i) Z ltac:(lia)) as QI.
      assert (EI : exp (- lam * (INR i + 1)) = q ^ Datatypes.S i) by (rewrite q_pow, S_INR; auto). assert (EN : exp (- lam * INR n) = q ^ n) by (rewrite q_pow; auto).
      assert (EP : exp (lam * INR n) = / q ^ n) by (rewrite <- EN, <- exp_Ropp; f_equal; ring).
      assert (EK : exp (lam * (INR n + - INR i + - (1))) = q ^ Datatypes.S i / q ^ n) by (rewrite <- EI, <- EN; unfold Rdiv; rewrite <- exp_Ropp, <- exp_plus; f_equal; ring).
      cbn [vneg vadd vmul vsub vexpm1]. rewrite EI, EN, EP, EK. rewrite !W_eq by auto.
      assert (P1 : 0 < / q ^ n - 1). { assert (/ 1 < / q ^ n) by (apply Rinv_lt_contravar; lra). lra. }
      rewrite !vdiv_Fin by lra. split; f_equal; field; lra.
  - destruct (k_big k ltac:(lia)) as [-> ->]. replace (Nat.min (Z.to_nat (k + 1)) n) with n by lia. cbn [cif]. split; f_equal; field; lra.
Qed.
Lemma mode_ok : smallest_mode (fun k => pmf k (Fin lam) (Fin (INR n))) (Range 0 (Z.of_nat n)) (mode (Fin lam) (Fin (INR n))).
Proof.
  exists 0%Z, (g 0). split; [reflexivity|]. split; [simpl; lia|]. split; [apply (pmf_in 0); simpl; auto|]. intros k K. simpl in K.
  exists (g (Z.to_nat k)). replace k with (Z.of_nat (Z.to_nat k)) at 1 by lia. split; [apply pmf_in; simpl; lia|]. split; [|lia].
  unfold g. apply Rmult_le_compat_r; [left; apply Rinv_0_lt_compat, W_pos; auto|]. simpl. rewrite <- (pow1 (Z.to_nat k)). apply pow_incr. split; [left; apply q_pos|].
  unfold q. rewrite <- exp_0. apply exp_le_compat. lra.
Qed.
Definition M (j : nat) := nsum (fun i => INR i ^ j * q ^ i) n / W n.
Lemma momj j : nsum (fun i => INR i ^ j * g i) n = M j.
Proof. unfold M, g. rewrite (nsum_ext _ (fun i => / W n * (INR i ^ j * q ^ i))) by (intros; unfold Rdiv; ring). rewrite nsum_scal. apply Rmult_comm. Qed.
Lemma M0 : M 0 = 1.
Proof. unfold M. rewrite (nsum_ext _ (fun i => q ^ i)) by (intros; simpl; ring). fold (W n). pose proof (W_pos n N). change (nsum (fun i => q ^ i) n) with (W n). field. lra. Qed.
Lemma M1_eq : M 1 = if Reqb lam 0 then (INR n - 1) / 2 else q / (1 - q) - INR n * q ^ n / (1 - q ^ n).
Proof.
  pose proof np. unfold M. destruct (Reqb_spec lam 0) as [[Z ->]|[Z ->]].
  - rewrite (nsum_ext _ (fun i => INR i)); [rewrite tri, W_0 by auto; field; lra|]. intros. replace q with 1 by (unfold q; rewrite Z, Ropp_0, exp_0; auto). rewrite pow1. ring.
  - pose proof (q_lt1 Z). pose proof (qn1 n Z N) as QN. rewrite W_eq by auto. rewrite (nsum_ext _ (fun i => INR i * q ^ i)) by (intros; ring).
    pose proof (geo1 q n) as G. replace (nsum (fun i => INR i * q ^ i) n) with ((q - q ^ n * (INR n - (INR n - 1) * q)) / (1 - q) ^ 2) by (rewrite <- G; field; lra). field. lra.
Qed.
Lemma M2_eq : dvar M = if Reqb lam 0 then (INR n ^ 2 - 1) / 12 else q / (1 - q) ^ 2 - INR n ^ 2 * q ^ n / (1 - q ^ n) ^ 2.
Proof.
  pose proof np. unfold dvar. rewrite M1_eq. unfold M. destruct (Reqb_spec lam 0) as [[Z ->]|[Z ->]].
  - rewrite (nsum_ext _ (fun i => INR i ^ 2)); [rewrite sqs, W_0 by auto; field; lra|]. intros. replace q with 1 by (unfold q; rewrite Z, Ropp_0, exp_0; auto). rewrite pow1. ring.
  - pose proof (q_lt1 Z). pose proof (qn1 n Z N) as QN. rewrite W_eq by auto.
    pose proof (geo2 q n) as G. set (v := q ^ n * (INR n ^ 2 - (2 * INR n ^ 2 - 2 * INR n - 1) * q + (INR n - 1) ^ 2 * q ^ 2)) in G.
    replace (nsum (fun i => INR i ^ 2 * q ^ i) n) with ((q * (1 + q) - v) / (1 - q) ^ 3) by (rewrite <- G; field; lra). unfold v. field. lra.
Qed.
Lemma mean_eval : mean (Fin lam) (Fin (INR n)) = Fin (M 1).
Proof.
  rewrite M1_eq. unfold mean. rewrite vp, lam_eqb. destruct (Reqb_spec lam 0) as [[Z ->]|[Z ->]]; cbn [cif].
  - cbn [vsub vneg vadd]. rewrite vdiv_Fin by lra. auto.
  - pose proof (q_lt1 Z). pose proof (qn1 n Z N) as QN. cbv zeta. cbn [vmul vneg vexp vexpm1]. replace (- (INR n * lam)) with (- lam * INR n) by ring. rewrite <- q_pow. fold q.
    rewrite !vdiv_Fin by lra. cbn [vadd]. f_equal. field. lra.
Qed.
Lemma mean_ok : dmean_is (fun k => pmf k (Fin lam) (Fin (INR n))) (Range 0 (Z.of_nat n)) (mean (Fin lam) (Fin (INR n))).
Proof. rewrite mean_eval. apply (disc_mean (Some n) _ g pmf_in). simpl. rewrite <- momj. apply nsum_ext. intros. ring. Qed.
Lemma var_ok : dvar_is (fun k => pmf k (Fin lam) (Fin (INR n))) (Range 0 (Z.of_nat n)) (var (Fin lam) (Fin (INR n))).
Proof.
  replace (var (Fin lam) (Fin (INR n))) with (Fin (dvar M)).
  - apply (disc_var (Some n) _ g pmf_in); [|apply M0]. intros j _. simpl. apply momj.
  - rewrite M2_eq. unfold var. rewrite vp, lam_eqb. destruct (Reqb_spec lam 0) as [[Z ->]|[Z ->]]; cbn [cif]; rewrite !vpown_Fin.
    + cbn [vsub vneg vadd]. rewrite vdiv_Fin by lra. auto.
    + pose proof (q_lt1 Z). pose proof (qn1 n Z N) as QN. cbv zeta. cbn [vmul vneg vexp vexpm1]. replace (- (INR n * lam)) with (- lam * INR n) by ring. rewrite <- q_pow. fold q. rewrite !vpown_Fin.
      cbn [vmul]. rewrite !vdiv_Fin by (apply pow_nonzero; lra). cbn [vsub vneg vadd]. f_equal. field. lra.
Qed.
Lemma entropy_ok : dentropy_is (fun k => pmf k (Fin lam) (Fin (INR n))) (Range 0 (Z.of_nat n)) (entropy (Fin lam) (Fin (INR n))).
Proof.
  pose proof (W_pos n N) as WP. exists (ln (W n) + lam * M 1). split.
  - unfold entropy. rewrite vp, mean_eval. change 0 with (IZR (Z.of_nat 0)). rewrite log_nat by auto. cbn [vneg vmul vadd]. f_equal. unfold g. simpl. unfold Rdiv. rewrite Rmult_1_l, ln_Rinv by auto. ring.
  - change (Range 0 (Z.of_nat n)) with (sup0 (Some n)). apply sums_tot. simpl. rewrite (nsum_ext _ (fun i => ln (W n) * (INR i ^ 0 * g i) + lam * (INR i ^ 1 * g i))).
    + rewrite nsum_plus, !nsum_scal, !momj, M0. ring.
    + intros i I. rewrite (at_int_in (Some n) _ g pmf_in) by auto. unfold g at 2. rewrite ln_div by (auto; apply pow_lt, q_pos). rewrite q_pow, ln_exp. simpl. ring.
Qed.
End P.
(** Parameters. *)
Lemma bad (lam m : R) : lam < 0 \/ m < 0 \/ (forall z, m <> IZR z) -> forall {A} `{CanRaise A} (c : A), validate_params (Fin lam) (Fin m) c = raise ValueError.
Proof.
  intros B A H c. unfold validate_params, cne, clt, cmp, eqb, ltb. unfold vint.
  assert (X : forall z : Z, (RIF CB (negb (Reqb m (IZR z))) THEN raise ValueError ELSE (RIF CB (Rltb m 0) THEN raise ValueError ELSE RIF CB (Rltb lam 0) THEN raise ValueError ELSE c)) = raise ValueError).
  { intros z. destruct (Reqb_spec m (IZR z)) as [[E ->]|[E ->]]; cbn [negb cif]; auto. destruct (Rltb_spec m 0) as [[E1 ->]|[E1 ->]]; cbn [cif]; auto. destruct (Rltb_spec lam 0) as [[E2 ->]|[E2 ->]]; cbn [cif]; auto. destruct B as [B|[B|B]]; [lra|lra|destruct (B z E)]. }
  destruct (Rltb m 0); apply X.
Qed.
Lemma bad_params (lam m : R) (k : Z) : lam < 0 \/ m < 0 \/ (forall z, m <> IZR z) ->
  pmf (Fin (IZR k)) (Fin lam) (Fin m) = Exc ValueError /\ logpmf (Fin (IZR k)) (Fin lam) (Fin m) = Exc ValueError /\ cdf (Fin (IZR k)) (Fin lam) (Fin m) = Exc ValueError /\ sf (Fin (IZR k)) (Fin lam) (Fin m) = Exc ValueError /\
  support (Fin lam) (Fin m) = Err ValueError /\ mean (Fin lam) (Fin m) = Exc ValueError /\ var (Fin lam) (Fin m) = Exc ValueError /\ entropy (Fin lam) (Fin m) = Exc ValueError.
Proof. intros H. unfold pmf, logpmf, cdf, sf, support, mean, var, entropy. rewrite !vi_ok. repeat split; rewrite !(bad lam m H); reflexivity. Qed.
Lemma bad_k (x : R) (lam n : val) : (forall z, x <> IZR z) ->
  pmf (Fin x) lam n = Exc ValueError /\ logpmf (Fin x) lam n = Exc ValueError /\ cdf (Fin x) lam n = Exc ValueError /\ sf (Fin x) lam n = Exc ValueError.
Proof.
  intros H. assert (V : forall c : val, validate_int (Fin x) c = Exc ValueError).
  { intros c. unfold validate_int, vint, cne, cmp, eqb. destruct (Rltb x 0); rewrite Reqb_false by apply H; reflexivity. }
  unfold pmf, logpmf, cdf, sf. rewrite !V. auto.
Qed.
Lemma zero_n : support (Fin 1) (Fin 0) = Ok (Range 0 0) /\ (forall k : Z, pmf (Fin (IZR k)) (Fin 1) (Fin 0) = Fin 0) /\ mean (Fin 0) (Fin 0) = Fin (- / 2) /\ mode (Fin (-1)) (Fin (-1)) = Fin 0.
Proof.
  assert (V : forall (l : R) A (H : CanRaise A) (c : A), 0 <= l -> validate_params (Fin l) (Fin 0) c = c).
  { intros l A H c L. unfold validate_params. change (Fin 0) with (Fin (IZR 0)). rewrite vint_IZR. unfold cne, clt, cmp, eqb, ltb. rewrite Reqb_true by auto. rewrite !Rltb_false by lra. reflexivity. }
  split; [|split; [|split]].
  - unfold support. rewrite V by lra. unfold vrange. change (Fin 0) with (Fin (IZR 0)). change 0 with (IZR 0). rewrite is_intb_IZR, Int_part_IZR. auto.
  - intros k. unfold pmf. rewrite vi_ok, V by lra. unfold clt, cge, cmp, ltb, leb. destruct (Rltb_spec (IZR k) 0) as [[K ->]|[K ->]]; cbn [cif]; auto. rewrite Rleb_true by lra. auto.
  - unfold mean. rewrite V by lra. veval. f_equal. field.
  - reflexivity.
Qed.
Lemma half_not_int : forall z, 1 / 2 <> IZR z.
Proof. intros z E. assert (IZR 0 < IZR z < IZR 1) as [A B] by (simpl; lra). apply lt_IZR in A, B. lia. Qed.
