(** Proofs about M_cosine. *)
From Coq Require Import Reals Lra List.
From Coquelicot Require Import Coquelicot.
From Verif Require Import Values VTac Spec RLib LimLib DistLib DistLS IntLib MomLib PLib M_common SFun P_sfun SpecInv.
From Verif Require Import M_cosine.
Import ListNotations.
Local Open Scope R_scope.
Set Bullet Behavior "Strict Subproofs".

Definition f (x : R) := (cos x + 1) / (2 * PI).
Definition F (x : R) := 1 / 2 + (x + sin x) / (2 * PI).
Definition Q (p : R) := inverse_fn (Finite (- PI)) (Finite PI) F (p * 1).
Lemma pi3 : 3 < PI. Proof. pose proof PI2_3_2. lra. Qed.
Lemma sin_mpi : sin (- PI) = 0. Proof. rewrite sin_neg, sin_PI. ring. Qed.
Lemma cos_mpi : cos (- PI) = - 1. Proof. rewrite cos_neg. apply cos_PI. Qed.
Lemma f_pos x : - PI < x < PI -> 0 < f x.
Proof.
  intros H. pose proof pi3. unfold f. apply Rdiv_pos; [|lra]. replace x with (2 * (x / 2)) by field. rewrite cos_2a_cos.
  pose proof (cos_gt_0 (x / 2) ltac:(lra) ltac:(lra)). nra.
Qed.
Lemma f_cont x : continuous f x. Proof. pose proof pi3. unfold f. apply ex_derive_cont. auto_derive. auto. Qed.
Lemma der x : is_derive F x (f x). Proof. pose proof pi3. unfold F, f. auto_derive; auto. field. lra. Qed.
Lemma F_lo : F (- PI) = 0. Proof. unfold F. rewrite sin_mpi. pose proof pi3. field. lra. Qed.
Lemma F_hi : F PI = 1. Proof. unfold F. rewrite sin_PI. pose proof pi3. field. lra. Qed.
Lemma LT : Rbar_lt (Finite (- PI)) (Finite PI). Proof. pose proof pi3. simpl. lra. Qed.
Lemma IF_ok : integral_fn (Finite (- PI)) (Finite PI) f F 1.
Proof.
  constructor.
  - apply LT.
  - intros x _. apply f_cont.
  - intros x [H1 H2]. apply f_pos. auto.
  - intros x _. apply der.
  - rewrite <- F_lo. apply flim_right. apply ex_derive_cont. eexists. apply der.
  - rewrite <- F_hi. apply flim_left. apply ex_derive_cont. eexists. apply der.
Qed.
Lemma ST : std (Finite (- PI)) (Finite PI) F f Q.
Proof.
  pose proof (std_of_if _ _ _ _ _ IF_ok) as S0.
  replace F with (fun x => F x / 1) by (apply FunctionalExtensionality.functional_extensionality; intros; field).
  replace f with (fun x => f x / 1) by (apply FunctionalExtensionality.functional_extensionality; intros; field). exact S0.
Qed.
Lemma F_neg x : F (- x) = 1 - F x. Proof. unfold F. rewrite sin_neg. pose proof pi3. field. lra. Qed.
Lemma cdf_in (x : R) : - PI < x < PI -> cdf x = Fin (F x).
Proof. intros H. pose proof pi3. unfold cdf. change vpi with (Fin PI). veval. reflexivity. Qed.
Lemma cdf_lo (x : R) : x <= - PI -> cdf x = Fin 0.
Proof. intros H. pose proof pi3. unfold cdf. change vpi with (Fin PI). veval. reflexivity. Qed.
Lemma cdf_hi (x : R) : PI <= x -> cdf x = Fin 1.
Proof. intros H. pose proof pi3. unfold cdf. change vpi with (Fin PI). veval. reflexivity. Qed.
Lemma pdf_in (x : R) : - PI < x < PI -> pdf x = Fin (f x) /\ logpdf x = Fin (ln (f x)).
Proof.
  intros H. pose proof pi3. pose proof (f_pos x H) as P. assert (0 < cos x + 1). { unfold f in P. replace (cos x + 1) with ((cos x + 1) / (2 * PI) * (2 * PI)) by (field; lra). apply Rmult_lt_0_compat; lra. }
  unfold pdf, logpdf, vlog1p. change vpi with (Fin PI). cbn [vcos]. split; [veval; reflexivity|].
  assert (0 < 1 + cos x) by lra. veval. f_equal. unfold f. rewrite ln_div by lra. f_equal. f_equal. ring.
Qed.
Lemma pdf_out (x : R) : x <= - PI \/ PI <= x -> pdf x = Fin 0 /\ logpdf x = NInf.
Proof. intros H. pose proof pi3. unfold pdf, logpdf. change vpi with (Fin PI). destruct H; split; veval; reflexivity. Qed.
Lemma CERT : cert pdf logpdf cdf sf
  (fun p => match p with Fin p => Fin (Q p) | v => v end) (fun p => match p with Fin p => Fin (Q (1 - p)) | v => v end) (Finite (- PI)) (Finite PI) F f Q.
Proof.
  destruct ST as [S1 S2 S3]. pose proof pi3. constructor; auto.
  - unfold sf. constructor.
    + intros x [H1 H2]. simpl in *. cbn [vneg]. rewrite !cdf_in by lra. rewrite F_neg. auto.
    + intros x H1. simpl in *. cbn [vneg]. rewrite (cdf_lo x), (cdf_hi (- x)) by lra. auto.
    + intros x H1. simpl in *. cbn [vneg]. rewrite (cdf_lo (- x)), (cdf_hi x) by lra. auto.
    + cbn [vneg]. unfold cdf. change vpi with (Fin PI). split; vif; reflexivity.
    + cbn [vneg]. unfold cdf. change vpi with (Fin PI). split; vif; reflexivity.
  - intros x [H1 H2]. apply pdf_in. auto.
  - intros x [H1|H1]; simpl in H1; apply pdf_out; lra.
Qed.
Lemma log_all (x : R) : log_of pdf logpdf (Fin x).
Proof.
  destruct (Rle_lt_dec x (- PI)) as [H|H]; [|destruct (Rlt_le_dec x PI) as [H1|H1]].
  - right; left. apply pdf_out. auto.
  - left. exists (f x). split; [apply f_pos; auto|]. apply pdf_in. auto.
  - right; left. apply pdf_out. auto.
Qed.
Lemma f_le x : f x <= f 0.
Proof. unfold f. pose proof pi3. pose proof (COS_bound x). rewrite cos_0. apply Rmult_le_compat_r; [left; apply Rinv_0_lt_compat; lra|lra]. Qed.
Lemma mode_ok : is_mode pdf mode.
Proof.
  pose proof pi3. exists 0, (f 0). split; auto. split; [apply pdf_in; lra|]. intros x.
  destruct (Rle_lt_dec x (- PI)) as [H1|H1]; [|destruct (Rlt_le_dec x PI) as [H2|H2]].
  - exists 0. split; [apply pdf_out; auto|]. left. apply f_pos; lra.
  - exists (f x). split; [apply pdf_in; auto|apply f_le].
  - exists 0. split; [apply pdf_out; auto|]. left. apply f_pos; lra.
Qed.
Lemma reflect (x : R) : cdf (Fin (- x)) = sf x /\ pdf (Fin (- x)) = pdf x.
Proof.
  pose proof pi3. split; auto. 
  destruct (Rle_lt_dec x (- PI)) as [H1|H1]; [|destruct (Rlt_le_dec x PI) as [H2|H2]].
  - rewrite (proj1 (pdf_out x ltac:(auto))), (proj1 (pdf_out (- x) ltac:(lra))). auto.
  - rewrite (proj1 (pdf_in x ltac:(lra))), (proj1 (pdf_in (- x) ltac:(lra))). unfold f. rewrite cos_neg. auto.
  - rewrite (proj1 (pdf_out x ltac:(auto))), (proj1 (pdf_out (- x) ltac:(lra))). auto.
Qed.
(** C43 *)
Definition M (n : nat) : R := match n with 0%nat => 1 | 2%nat => PI ^ 2 / 3 - 2 | 4%nat => PI ^ 4 / 5 - 4 * PI ^ 2 + 24 | _ => 0 end.
Definition G (n : nat) (x : R) : R := match n with
  | 0%nat => (x + sin x) / (2 * PI)
  | 1%nat => (x ^ 2 / 2 + x * sin x + cos x) / (2 * PI)
  | 2%nat => (x ^ 3 / 3 + x ^ 2 * sin x + 2 * x * cos x - 2 * sin x) / (2 * PI)
  | 3%nat => (x ^ 4 / 4 + x ^ 3 * sin x + 3 * x ^ 2 * cos x - 6 * x * sin x - 6 * cos x) / (2 * PI)
  | _ => (x ^ 5 / 5 + x ^ 4 * sin x + 4 * x ^ 3 * cos x - 12 * x ^ 2 * sin x - 24 * x * cos x + 24 * sin x) / (2 * PI) end.
Lemma G_der n x : (n <= 4)%nat -> is_derive (G n) x (x ^ n * f x).
Proof.
  intros N. pose proof pi3. unfold f. do 5 (destruct n as [|n]; [unfold G; auto_derive; auto; field; lra|]). do 4 apply le_S_n in N. inversion N.
Qed.
Lemma moms n : (n <= 4)%nat -> integrates_to (fun x => x ^ n * f x) (Finite (- PI)) (Finite PI) (M n).
Proof.
  intros N. pose proof pi3. replace (M n) with (G n PI - G n (- PI)).
  - apply (mk_integral _ (G n)).
    + apply LT.
    + intros x _. apply G_der; auto.
    + intros x _. apply (continuous_mult (fun x => x ^ n) f); [apply ex_derive_cont; auto_derive; auto|apply f_cont].
    + apply flim_right. apply ex_derive_cont. eexists. apply G_der; auto.
    + apply flim_left. apply ex_derive_cont. eexists. apply G_der; auto.
  - do 5 (destruct n as [|n]; [unfold G, M; rewrite ?sin_mpi, ?cos_mpi, ?sin_PI, ?cos_PI; field; lra|]). do 4 apply le_S_n in N. inversion N.
Qed.
Lemma pdf_in' x : inside (Finite (- PI)) (Finite PI) x -> pdf (Fin x) = Fin (f x). Proof. intros [H1 H2]. apply pdf_in. auto. Qed.
Lemma v_pos : 0 < mvar M. Proof. unfold mvar, M. pose proof pi3. nra. Qed.
Lemma mean_ok : mean_is pdf (Finite (- PI)) (Finite PI) mean.
Proof. apply (raw_mean_is _ _ _ _ M 4 LT pdf_in' moms); auto with arith. Qed.
Lemma var_ok : var_is pdf (Finite (- PI)) (Finite PI) mean var.
Proof.
  apply (raw_var_is _ _ _ _ M 4 LT pdf_in' moms); auto with arith. unfold var. change vpi with (Fin PI). rewrite vpown_Fin. veval. unfold mvar, M. f_equal. ring.
Qed.
Lemma skewness_ok : skewness_is pdf (Finite (- PI)) (Finite PI) skewness.
Proof.
  pose proof v_pos as V. apply (raw_skewness_is _ _ _ _ M 4 LT pdf_in' moms); auto with arith. unfold skewness, mcen3. simpl M. f_equal. pose proof (sqrt_lt_R0 _ V). field. lra.
Qed.
Lemma kurtosis_ok : kurtosis_is pdf (Finite (- PI)) (Finite PI) kurtosis.
Proof.
  pose proof v_pos as V. pose proof pi3. apply (raw_kurtosis_is _ _ _ _ M 4 LT pdf_in' moms); auto with arith. unfold kurtosis. cbv zeta. change vpi with (Fin PI). rewrite !vpown_Fin. cbn [vsub vadd vneg]. rewrite !vpown_Fin.
  assert (0 < PI ^ 2 + - 6) by nra. assert (0 < (PI ^ 2 + - 6) ^ 2) by (apply pow_lt; auto). veval. f_equal. unfold mcen4, mvar, M. field. repeat split; try lra; nra.
Qed.
(** C35-C37 *)
Lemma inv_unique (p : R) : 0 < p < 1 -> exists q, - PI < q < PI /\ cdf (Fin q) = Fin p /\ forall x, cdf (Fin x) = Fin p -> x = q.
Proof.
  intros H. exists (Q p). destruct (st_quant _ _ _ _ _ ST p H) as [[I1 I2] E]. simpl in I1, I2. split; auto. split; [rewrite cdf_in, E; auto|].
  intros x X. destruct (Rle_lt_dec x (- PI)) as [H1|H1]; [|destruct (Rlt_le_dec x PI) as [H2|H2]].
  - rewrite cdf_lo in X by auto. injection X as X. lra.
  - rewrite cdf_in in X by auto. injection X as X. rewrite <- E in X. apply (F_inj _ _ _ _ (st_smooth _ _ _ _ _ ST)) in X; auto; split; simpl; auto.
  - rewrite cdf_hi in X by auto. injection X as X. lra.
Qed.
Lemma invcdf_ok p : 0 < p < 1 -> exists q, - PI < q < PI /\ cdf (Fin q) = Fin p /\ (forall x, cdf (Fin x) = Fin p -> x = q) /\
  forall findroot, checked_solver1 findroot -> forall x, invcdf findroot (Fin p) = Fin x -> x = q.
Proof.
  intros H. destruct (inv_unique p H) as [q [H1 [H2 H3]]]. exists q. split; [auto|split; [auto|split; [auto|]]]. intros fr CS x. unfold invcdf, validate_p. cbv zeta.
  change (ceq (Fin p) (Fin 0)) with (CB (Reqb p 0)). change (ceq (Fin p) (Fin 1)) with (CB (Reqb p 1)). rewrite !Reqb_false by lra. 
  change (clt (Fin p) (Fin 0)) with (CB (Rltb p 0)). change (cgt (Fin p) (Fin 1)) with (CB (Rltb 1 p)). rewrite !Rltb_false by lra. cbn [cif cor orb negb].
  intros E. apply CS in E. apply H3. destruct (Rle_lt_dec x (- PI)) as [G1|G1]; [|destruct (Rlt_le_dec x PI) as [G2|G2]].
  - rewrite cdf_lo in E by auto. cbn [vsub vadd vneg] in E. injection E as E. lra.
  - rewrite cdf_in in * by auto. cbn [vsub vadd vneg] in E. injection E as E. f_equal. lra.
  - rewrite cdf_hi in E by auto. cbn [vsub vadd vneg] in E. injection E as E. lra.
Qed.
Lemma invsf_ok p : 0 < p < 1 -> exists q, - PI < q < PI /\ sf (Fin q) = Fin p /\ (forall x, sf (Fin x) = Fin p -> x = q) /\
  forall findroot, checked_solver1 findroot -> forall x, invsf findroot (Fin p) = Fin x -> x = q.
Proof.
  intros H. destruct (invcdf_ok p H) as [q [H1 [H2 [H3 H4]]]]. exists (- q). unfold sf, invsf. cbn [vneg]. rewrite Ropp_involutive. split; [lra|split; [auto|split]].
  - intros x X. apply H3 in X. lra.
  - intros fr CS x X. destruct (invcdf fr (Fin p)) as [r| | | |] eqn:E; try discriminate. apply H4 in E; auto. subst r. cbn [vneg] in X. injection X as X. auto.
Qed.
Lemma ends fr : rejects_bad_p (invcdf fr) /\ rejects_bad_p (invsf fr) /\ at_ends (invcdf fr) (Fin (- PI)) (Fin PI) /\ at_ends (invsf fr) (Fin PI) (Fin (- PI)).
Proof.
  assert (A : rejects_bad_p (invcdf fr)) by (unfold invcdf; split; [intros p H|split]; [apply vpp_bad; auto|apply vpp_pinf|apply vpp_ninf]).
  assert (B : at_ends (invcdf fr) (Fin (- PI)) (Fin PI)) by (split; unfold invcdf, validate_p; change vpi with (Fin PI); vif; reflexivity).
  split; [auto|split; [|split; [auto|]]].
  - unfold invsf. destruct A as [A1 [A2 A3]]. split; [intros p H; rewrite A1 by auto; auto|rewrite A2, A3; auto].
  - unfold invsf. destruct B as [B1 B2]. split; rewrite ?B1, ?B2; cbn [vneg]; rewrite ?Ropp_involutive; auto.
Qed.
