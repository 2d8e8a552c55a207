(** Proofs about M_loglogistic. *)
From Coq Require Import Reals Lra Lia List.
From Coquelicot Require Import Coquelicot.
From Verif Require Import Values VTac Spec SpecStat RLib DistLib DistLS DistSc IntLib MomLib DiscLib LSMom SFun GammaLib ReflLib PLib M_common M_loglogistic.
From Verif Require M_burr12 P_burr12.
Import ListNotations.
Local Open Scope R_scope.
Set Bullet Behavior "Strict Subproofs".

Section Std.
Variables b : R.
Hypothesis Hb : 0 < b.
Definition F (z : R) := 1 / (1 + Rpower z (- b)).
Definition f (z : R) := b * Rpower z (b - 1) / (1 + Rpower z b) ^ 2.
Definition Q (p : R) := Rpower (p / (1 - p)) (1 / b).
Lemma W_pos z : 0 < (1 + Rpower z b) ^ 2. Proof. pose proof (Rpower_pos z b). nra. Qed.
Lemma f_pos z : 0 < f z.
Proof. unfold f. apply Rdiv_pos; [|apply W_pos]. apply Rmult_lt_0_compat; [auto|apply Rpower_pos]. Qed.
Lemma q_pos p : 0 < p < 1 -> 0 < p / (1 - p).
Proof. intros H. apply Rdiv_pos; lra. Qed.
Lemma ST : std 0 p_infty F f Q.
Proof.
  constructor.
  - constructor; simpl; auto.
    + intros z _. unfold F. pose proof (Rpower_pos z (- b)). split.
      * left. apply Rdiv_pos; lra.
      * left. apply div_lt_1; lra.
    + intros z [H _]. simpl in H. unfold F, f.
      evar_last.
      * apply (is_derive_comp (fun w => 1 / w) (fun z => 1 + Rpower z (-b))).
        -- pose proof (Rpower_pos z (- b)). auto_derive; [lra|reflexivity].
        -- apply (is_derive_plus (fun _ => 1) (fun z => Rpower z (- b))); [apply is_derive_const|].
           apply is_derive_Rpower. auto.
      * unfold plus, scal, zero; simpl; unfold mult; simpl.
        pose proof (Rpower_pos z b). rewrite !Rpower_minus_1, !Rpower_Ropp by auto. field. lra.
    + intros z _. apply f_pos.
  - intros z [H _]. simpl in H. apply ex_derive_cont. unfold f, Rpower. auto_derive.
    pose proof (exp_pos (b * ln z)). repeat split; auto. nra.
  - intros p H. pose proof (q_pos p H) as Hq. unfold Q. split; [split; simpl; auto; apply Rpower_pos|].
    unfold F. rewrite Rpower_Ropp, Rpower_inv by lra. field. lra.
Qed.
End Std.

Ltac start := unfold pdf, logpdf, cdf, sf, invcdf, invsf, support, validate, validate_positive, validate_p.

Section P.
Variables b s : R.
Hypothesis Hb : 0 < b.
Hypothesis Hs : 0 < s.
Lemma z_pos x : 0 < x -> 0 < x / s. Proof. intros. apply Rdiv_pos; lra. Qed.
Lemma z_pos' x : 0 < x / s -> 0 < x.
Proof. intros. assert (0 < x / s * s) by nra. unfold Rdiv in H0. rewrite Rmult_assoc, Rinv_l in H0 by lra. lra. Qed.
Lemma lo_eq : Finite 0 = sc s 0. Proof. simpl. f_equal. ring. Qed.
Lemma pdf_fin (x : R) : 0 < x -> pdf x b s = Fin (f b (x / s) / s) /\ logpdf x b s = Fin (ln (f b (x / s) / s)).
Proof.
  intros H. pose proof (z_pos x H) as Z. pose proof (Rpower_pos (x / s) b). pose proof (W_pos b (x / s)).
  split.
  - start. veval. unfold f. f_equal. field. lra.
  - start. veval. f_equal. rewrite (ln_div (f b (x / s)) s) by (auto; apply f_pos; auto).
    unfold f. pose proof (Rpower_pos (x / s) (b - 1)).
    rewrite (ln_div (b * _) _) by (auto; apply Rmult_lt_0_compat; auto).
    replace ((1 + Rpower (x / s) b) ^ 2) with ((1 + Rpower (x / s) b) * (1 + Rpower (x / s) b)) by ring.
    rewrite !ln_mult, !ln_Rpower, ln_div by (try lra; auto). ring.
Qed.
Lemma cdf_fin (x : R) : 0 < x -> cdf x b s = Fin (F b (x / s)) /\ sf x b s = Fin (1 - F b (x / s)).
Proof.
  intros H. pose proof (z_pos x H) as Z. pose proof (Rpower_pos (x / s) (- b)). start. veval. unfold F. split; auto. f_equal. field. lra.
Qed.
Lemma CERT : cert (fun x => pdf x b s) (fun x => logpdf x b s) (fun x => cdf x b s) (fun x => sf x b s)
  (fun p => invcdf p b s) (fun p => invsf p b s) 0 p_infty (fun x => F b (x / s))
  (fun x => f b (x / s) / s) (fun p => s * Q b p).
Proof.
  apply (sc_cert 0 p_infty (F b) (f b) (Q b) (ST b Hb) s Hs); auto using lo_eq.
  - constructor.
    + intros x [H _]. simpl in H. apply cdf_fin; auto.
    + intros x H. simpl in H. start. veval. auto.
    + intros x [].
    + start. veval. auto.
    + start. veval. split; f_equal; try lra; field.
  - intros x [H _]. simpl in H. apply pdf_fin. apply z_pos'; auto.
  - intros x [H|[]]. simpl in H. start. veval. auto.
  - intros p H. pose proof (q_pos p H). pose proof (q_pos (1 - p) ltac:(lra)) as H1.
    replace (1 - (1 - p)) with p in H1 by ring.
    unfold Q. start. veval. replace (1 - (1 - p)) with p by ring. auto.
Qed.
Lemma log_all (x : R) : log_of (fun x => pdf x b s) (fun x => logpdf x b s) x.
Proof.
  revert x. apply (cert_log_ends CERT); intros x E; [|discriminate]. injection E as E; subst x.
  right; left. start. veval. auto.
Qed.
Lemma ends : rejects_bad_p (fun p => invcdf p b s) /\ rejects_bad_p (fun p => invsf p b s) /\
  at_ends (fun p => invcdf p b s) (Fin 0) PInf /\ at_ends (fun p => invsf p b s) PInf (Fin 0).
Proof.
  assert (IK : 0 < 1 / b) by (apply Rdiv_pos; lra).
  split; [|split; [|split]].
  - split; [intros p [H|H]|split]; start; veval; reflexivity.
  - split; [intros p [H|H]|split]; start; veval; reflexivity.
  - unfold at_ends. start. veval. replace (0 / (1 - 0)) with 0 by field. veval. split; auto. f_equal. ring.
  - unfold at_ends. start. veval. replace ((1 - 1) / 1) with 0 by field. veval. split; auto. f_equal. ring.
Qed.
(** The log-logistic law is the Burr XII law with second shape 1. *)
Lemma as_burr (x : R) : cdf x b s = M_burr12.cdf x b 1 s /\ sf x b s = M_burr12.sf x b 1 s /\
  pdf x b s = M_burr12.pdf x b 1 s /\ logpdf x b s = M_burr12.logpdf x b 1 s.
Proof.
  unfold M_burr12.cdf, M_burr12.sf, M_burr12.pdf, M_burr12.logpdf, M_burr12.validate. start.
  destruct (Rle_lt_dec x 0) as [H|H]; [veval; auto|]. pose proof (z_pos x H) as Z.
  pose proof (Rpower_pos (x / s) b). pose proof (Rpower_pos (x / s) (- b)). pose proof (W_pos b (x / s)).
  pose proof (Rpower_pos (1 + Rpower (x / s) b) (1 + 1)).
  veval. rewrite !Rpower_Ropp. rewrite Rpower_1 by lra. replace (1 + 1) with (INR 2) by (simpl; lra). rewrite Rpower_pow by lra.
  split; [|split; [|split]]; f_equal; try (field; lra).
  rewrite ln_div, ln_1 by lra. simpl. ring.
Qed.
Lemma as_burr_inv p : 0 < p < 1 -> invcdf p b s = M_burr12.invcdf p b 1 s /\ invsf p b s = M_burr12.invsf p b 1 s.
Proof.
  intros H. pose proof (q_pos p H). pose proof (q_pos (1 - p) ltac:(lra)) as H1.
  replace (1 - (1 - p)) with p in H1 by ring.
  assert (E1 : Rpower (1 - p) (-1 / 1) - 1 = p / (1 - p)).
  { replace (-1 / 1) with (- (1)) by field. rewrite Rpower_Ropp, Rpower_1 by lra. field. lra. }
  assert (E2 : Rpower p (-1 / 1) - 1 = (1 - p) / p).
  { replace (-1 / 1) with (- (1)) by field. rewrite Rpower_Ropp, Rpower_1 by lra. field. lra. }
  unfold M_burr12.invcdf, M_burr12.invsf, M_burr12.validate. start. veval. rewrite E1, E2. veval. auto.
Qed.
(** ** moments *)
Definition Mn (n : nat) : R := match n with O => 1 | _ => PI * (INR n / b) / sin (PI * (INR n / b)) end.
Lemma f_burr z : 0 < z -> f b z = P_burr12.f b 1 z.
Proof.
  intros Z. unfold f, P_burr12.f, P_burr12.W. pose proof (Rpower_pos z b). replace (1 + 1) with (INR 2) by (simpl; ring).
  rewrite Rpower_pow by lra. f_equal. ring.
Qed.
Lemma t_in n : INR (S n) < b -> 0 < INR (S n) / b < 1.
Proof. intros H. pose proof (lt_0_INR (S n) ltac:(auto with arith)). split; [apply Rdiv_pos; lra|apply Rlt_div_l; lra]. Qed.
Lemma mom_int n : INR n < b -> integrates_to (fun z => z ^ n * f b z) 0 p_infty (Mn n).
Proof.
  intros H. pose proof (P_burr12.mom_int b 1 Hb n ltac:(lra)) as J.
  replace (Mn n) with (P_burr12.Mn b 1 n).
  - revert J. apply integrates_ext; [simpl; auto|]. intros z [Z _]. simpl in Z. rewrite f_burr; auto.
  - unfold P_burr12.Mn, Mn. destruct n as [|n].
    + simpl INR. replace (1 - 0 / b) with 1 by (field; lra). replace (1 + 0 / b) with 1 by (field; lra).
      unfold Beta. replace (1 + 1) with (1 + 1) by ring. rewrite Gamma_succ, Gamma_1 by lra. field.
    + rewrite Beta_refl by (apply t_in; auto). ring.
Qed.
Lemma mom_le N : INR N < b -> forall n, (n <= N)%nat -> integrates_to (fun z => z ^ n * f b z) 0 p_infty (Mn n).
Proof. intros H n L. apply mom_int; auto. apply le_INR in L. lra. Qed.
Lemma elo : Finite 0 = ls 0 s 0. Proof. simpl. f_equal. ring. Qed.
Lemma pdf_in0 x : inside 0 p_infty x -> pdf (Fin x) b s = Fin (f b ((x - 0) / s) / s).
Proof. intros [H _]. simpl in H. rewrite Rminus_0_r. apply (pdf_fin x H). Qed.
Notation LSM lem N H := (lem 0 p_infty (F b) (f b) (Q b) (ST b Hb) 0 s (fun x => pdf x b s) (Finite 0) p_infty Hs elo eq_refl pdf_in0 Mn N%nat (mom_le N H)).
Lemma vsp t : 0 < t < 1 -> vsincpi (Fin t) = Fin (sin (PI * t) / (PI * t)) /\ vsinc (Fin (PI * t)) = Fin (sin (PI * t) / (PI * t)) /\ 0 < sin (PI * t) / (PI * t).
Proof.
  intros T. pose proof PI_RGT_0. pose proof (sin_pi_pos t T). assert (0 < PI * t) by (apply Rmult_lt_0_compat; lra).
  unfold vsincpi, vsinc. rewrite !Reqb_false by lra. repeat split. apply Rdiv_pos; auto.
Qed.
Lemma inv_sinc t : 0 < t < 1 -> 1 / (sin (PI * t) / (PI * t)) = PI * t / sin (PI * t).
Proof. intros T. pose proof PI_RGT_0. pose proof (sin_pi_pos t T). field. repeat split; lra. Qed.
Lemma mean_ok : 1 < b -> mean_is (fun x => pdf x b s) 0 p_infty (mean vsincpi b s).
Proof.
  intros H. apply (LSM lsm_mean 1 H); auto. assert (T := t_in 0 H). simpl INR in T. destruct (vsp _ T) as (E & _ & P).
  unfold mean, validate, validate_positive. veval. rewrite E. veval. f_equal. unfold Mn. simpl INR. rewrite <- inv_sinc by auto. field.
  pose proof PI_RGT_0. pose proof (sin_pi_pos _ T). repeat split; lra.
Qed.
Lemma var_ok : 2 < b -> var_is (fun x => pdf x b s) 0 p_infty (mean vsincpi b s) (var vsincpi b s).
Proof.
  intros H. assert (H2 : INR 2 < b) by (simpl; lra). apply (LSM lsm_var 2 H2); auto.
  - assert (T : 0 < 1 / b < 1) by (split; [apply Rdiv_pos; lra|apply Rlt_div_l; lra]). destruct (vsp _ T) as (E & _ & P).
    unfold mean, validate, validate_positive. veval. rewrite E. veval. f_equal. unfold Mn. simpl INR. rewrite <- inv_sinc by auto. field.
    pose proof PI_RGT_0. pose proof (sin_pi_pos _ T). repeat split; lra.
  - assert (T : 0 < 1 / b < 1) by (split; [apply Rdiv_pos; lra|apply Rlt_div_l; lra]). destruct (vsp _ T) as (E & _ & P).
    assert (T2 : 0 < 2 / b < 1) by (split; [apply Rdiv_pos; lra|apply Rlt_div_l; lra]). destruct (vsp _ T2) as (E2 & _ & P2).
    unfold var, validate, validate_positive. veval. rewrite E, E2. pose proof (pow_lt _ 2 P). veval. f_equal. unfold mvar, Mn. simpl INR. replace (1 + 1) with 2 by ring.
    rewrite <- !inv_sinc by auto. set (u := sin (PI * (1 / b)) / (PI * (1 / b))) in *. set (w := sin (PI * (2 / b)) / (PI * (2 / b))) in *. field. lra.
Qed.
Lemma lsM_0 n : lsM 0 s Mn n = s ^ n * Mn n.
Proof.
  unfold lsM. replace (n + 1)%nat with (S n) by lia. cbn [nsum]. rewrite nsum_0.
  - rewrite PeanoNat.Nat.sub_diag. unfold Binomial.C. rewrite PeanoNat.Nat.sub_diag. simpl. field. apply INR_fact_neq_0.
  - intros i I. rewrite (pow_i (n - i)) by lia. ring.
Qed.
Lemma moment_ok n : INR n < b -> moment_is (fun x => pdf x b s) 0 p_infty n (noncentral_moment vsinc n b s).
Proof.
  intros H. apply (LSM lsm_moment n H); auto. rewrite lsM_0. unfold noncentral_moment, validate, validate_positive. destruct n as [|n].
  - simpl INR. veval. replace (PI * 0 / b) with 0 by (field; lra). unfold vsinc. rewrite Reqb_true by reflexivity. unfold Mn. veval. f_equal. field.
  - assert (T := t_in n H). destruct (vsp _ T) as (_ & E & P). set (q := INR (S n)) in *. veval.
    replace (PI * q / b) with (PI * (q / b)) by (field; lra). rewrite E. veval. f_equal. unfold Mn. fold q. rewrite <- inv_sinc by auto. set (u := sin (PI * (q / b)) / (PI * (q / b))) in *. unfold Rdiv. ring.
Qed.
Lemma moment_nan sp sc n : (b <= 1 -> mean sp b s = NaN) /\ (b <= 2 -> var sp b s = NaN) /\ (b <= INR n -> noncentral_moment sc n b s = NaN).
Proof. unfold mean, var, noncentral_moment, validate, validate_positive. repeat split; intros H; veval; reflexivity. Qed.
End P.
Lemma scale_ok (b : R) : 0 < b ->
  scale_law (fun x s => pdf x b s) (fun x s => cdf x b s) (fun x s => sf x b s)
    (fun p s => invcdf p b s) (fun p s => invsf p b s) 0 p_infty.
Proof.
  intros Hb. apply (scale_from_cert _ (fun x s => logpdf x b s) _ _ _ _ 0 p_infty (F b) (f b) (Q b)).
  intros s S. rewrite <- lo_eq. apply CERT; auto.
Qed.
Lemma bad_params sincpi sinc b s : isnum b -> isnum s -> nonpositive b \/ nonpositive s ->
  support b s = Err ValueError /\
  always_ValueError [ fun x => pdf x b s; fun x => logpdf x b s; fun x => cdf x b s; fun x => sf x b s;
    fun p => invcdf p b s; fun p => invsf p b s; fun _ => mean sincpi b s; fun _ => var sincpi b s ] /\
  forall n, noncentral_moment sinc n b s = Exc ValueError.
Proof.
  intros N1 N2 H.
  assert (G : forall A (CR : CanRaise A) (k : A), validate b s k = raise ValueError).
  { intros A CR k. unfold validate. destruct H as [H|H].
    - apply vp_bad; auto.
    - apply vp_pass; auto. apply vp_bad; auto. }
  unfold support, pdf, logpdf, cdf, sf, invcdf, invsf, mean, var, noncentral_moment.
  split; [apply G|]. split; [all_ve; intros x Hx; apply G|]. intros; apply G.
Qed.
