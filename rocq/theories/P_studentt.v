(** Proofs about M_studentt. *)
From Coq Require Import Reals Lra Lia List ZArith.
From Coquelicot Require Import Coquelicot.
From Verif Require Import Values VTac Spec SpecNoMom RLib LimLib LLib XLib DistLib DistLS IntLib SubLib MomLib NoInt SymInt SymLib PLib M_common SpecRoot SpecInv
  SFun SFun3 GammaLib GammaLib2 GammaLib3 GammaLib4 GamLib IncLib BetaLib BpLib M_sfun P_sfun M_hyp M_bracket InvLib StLib.
From Verif Require M_f P_f M_cauchy P_cauchy P_betaprime.
From Verif Require Import M_studentt.
Import ListNotations.
Local Open Scope R_scope.
Set Bullet Behavior "Strict Subproofs".

Lemma validate_bad {A} `{CanRaise A} a (c : A) : isnum a -> nonpositive a -> validate_df a c = raise ValueError.
Proof. intros NA B. unfold validate_df. apply P_betaprime.cle1 in B. rewrite B. reflexivity. Qed.
Lemma val_pass {A} `{CanRaise A} (a : R) (c : A) : 0 < a -> validate_df (Fin a) c = c.
Proof. intros. unfold validate_df. vif. reflexivity. Qed.
Lemma while_t {T} k (c : T -> cond) g s : c s = CB true -> while (S k) c g s = while k c g (g s). Proof. intros E. simpl. rewrite E. auto. Qed.
Lemma while_f {T} k (c : T -> cond) g s : c s = CB false -> while (S k) c g s = Ok s. Proof. intros E. simpl. rewrite E. auto. Qed.
Section P.
Variable n : R.
Hypothesis HN : 0 < n.
Notation F := (tF n). Notation f := (tf n). Notation Q := (tQ n).
Lemma h_pos : 0 < th n. Proof. unfold th. lra. Qed.
Lemma eh : vdiv (vadd (Fin n) (Fin 1)) (Fin 2) = Fin (th n). Proof. cbn [vadd]. rewrite vdiv_Fin by lra. reflexivity. Qed.
Lemma logpdf_fin (x : R) : logpdf x n = Fin (ln (f x)).
Proof.
  pose proof (tw_ge n HN x) as W. pose proof PI_RGT_0. pose proof h_pos. assert (0 < n * PI) by (apply Rmult_lt_0_compat; auto).
  unfold logpdf. rewrite val_pass by auto. rewrite eh, (vdiv_Fin n 2), !vlgam by lra. change vpi with (Fin PI). rewrite (vpown_Fin x 2). rewrite (vdiv_Fin _ n) by lra.
  assert (0 <= x ^ 2 / n) by (unfold tw in W; lra). veval. f_equal. unfold tf. rewrite ln_exp. unfold tlc, tw. ring.
Qed.
Lemma pdf_fin (x : R) : pdf x n = Fin (f x).
Proof. unfold pdf. rewrite val_pass, logpdf_fin by auto. simpl. rewrite exp_ln by (apply tf_pos). reflexivity. Qed.
Lemma part_fin (x : R) : vdiv (vdiv (vmul (vmul (Fin x) (vgamma (Fin (th n)))) (vhyp2f1 (vdiv (Fin 1) (Fin 2)) (Fin (th n)) (vmul (Fin 3) (vdiv (Fin 1) (Fin 2))) (vdiv (vneg (vpown (Fin x) 2)) (Fin n)))) (vsqrt (vmul vpi (Fin n)))) (vgamma (vdiv (Fin n) (Fin 2))) = Fin (prim f 0 x).
Proof.
  pose proof PI_RGT_0. pose proof h_pos as HP. pose proof (n2_pos n HN) as N2. assert (NP : 0 < PI * n) by (apply Rmult_lt_0_compat; auto). pose proof (sqrt_lt_R0 _ NP) as SP. pose proof (Gamma_pos _ N2) as GP.
  pose proof (tw_ge n HN x) as W. rewrite (vdiv_Fin n 2), (vdiv_Fin 1 2) by lra. rewrite (vgam (th n)), (vgam (n / 2)) by auto. change vpi with (Fin PI).
  rewrite (vpown_Fin x 2). cbn [vneg vmul]. rewrite (vdiv_Fin (- x ^ 2) n) by lra.
  unfold vhyp2f1. rewrite (Rltb_true _ 1), (Rltb_true 0 (1/2)), (Rltb_true (1/2)) by (try (unfold tw in W; replace (- x ^ 2 / n) with (- (x ^ 2 / n)) by (field; lra)); lra).
  cbn [vsqrt vmul]. rewrite Rltb_false by lra. rewrite !vdiv_Fin by lra. f_equal. rewrite prim_tk, texp by auto. rewrite <- (hyp_eq n HN x). replace (3 * (1/2)) with (3/2) by field. field. split; lra.
Qed.
Lemma cdf_fin (x : R) : cdf x n = Fin (F x) /\ sf x n = Fin (1 - F x).
Proof.
  unfold cdf, sf. rewrite !val_pass by auto. rewrite !eh. rewrite part_fin. rewrite !(vdiv_Fin 1 2) by lra. cbn [vadd vsub vneg]. unfold tF, sF. vif. split; f_equal; field.
Qed.
Lemma CERT : cert (fun x => pdf x n) (fun x => logpdf x n) (fun x => cdf x n) (fun x => sf x n)
  (fun p => match p with Fin p => Fin (Q p) | v => v end) (fun p => match p with Fin p => Fin (Q (1 - p)) | v => v end) m_infty p_infty F f Q.
Proof.
  destruct (tST n HN) as [S1 S2 S3]. constructor; auto.
  - constructor.
    + intros x _. apply cdf_fin.
    + intros x [].
    + intros x [].
    + unfold cdf, sf. rewrite !val_pass by auto. auto.
    + unfold cdf, sf. rewrite !val_pass by auto. auto.
  - intros x _. rewrite pdf_fin, logpdf_fin. auto.
  - intros x [[]|[]].
Qed.
Lemma log_all (x : R) : log_of (fun x => pdf x n) (fun x => logpdf x n) x.
Proof. apply (cert_log_in CERT). apply in_line. Qed.
Lemma mode_ok : is_mode (fun x => pdf x n) (mode n).
Proof.
  exists 0, (f 0). unfold mode. rewrite val_pass by auto. split; auto. split; [apply pdf_fin|]. intros x. eexists. split; [apply pdf_fin|].
  unfold tf. apply exp_le_compat. apply Rplus_le_compat_l, Ropp_le_contravar, Rmult_le_compat_l; [left; apply h_pos|].
  apply ln_le; [|unfold tw at 1; replace (0 ^ 2 / n) with 0 by (field; lra); pose proof (tw_ge n HN x); lra]. pose proof (tw_ge n HN 0). lra.
Qed.
(** C45 *)
Lemma reflect (x : R) : cdf (Fin (- x)) n = sf x n /\ pdf (Fin (- x)) n = pdf x n.
Proof. rewrite (proj1 (cdf_fin (- x))), (proj2 (cdf_fin x)), tF_neg, !pdf_fin, tf_even by auto. auto. Qed.
Lemma square (x : R) : 0 < x -> M_f.cdf (Fin (x ^ 2)) 1 n = Fin (toR (cdf x n) - toR (cdf (Fin (- x)) n)).
Proof.
  intros X. rewrite (proj1 (cdf_fin x)), (proj1 (cdf_fin (- x))), tF_neg, tF_pos by auto. cbn [toR]. rewrite (proj1 (P_f.lowz 1 n ltac:(lra) HN (x ^ 2) ltac:(apply pow_lt; auto))). f_equal.
  unfold tG, tp. replace (x ^ 2 / (n / 1)) with (x ^ 2 / n) by (field; lra). field.
Qed.
(** C43 *)
Lemma mean_ok : 1 < n -> mean_is (fun x => pdf x n) m_infty p_infty (mean n).
Proof.
  intros N1. exists 0. unfold mean. rewrite val_pass by auto. split; auto. apply (integrates_ext m_infty p_infty lt_line (fun t => t * f t)); [intros x _; rewrite pdf_fin; auto|].
  assert (H1 : 1 < th n) by (unfold th; lra). set (k := n / (2 * (th n - 1))). assert (KP : 0 < k) by (unfold k; apply Rdiv_pos; lra).
  apply (odd_integral (fun t => t * f t) (fun x => - k * (f x * tw n x)) (fun t => t * f t) 0).
  - intros x. apply (continuous_mult (fun t => t) f); [apply continuous_id|apply tf_cont; auto].
  - intros x. rewrite tf_even. ring.
  - intros x X. apply Rmult_le_pos; auto. left. apply tf_pos.
  - intros x X. split; [|lra]. pose proof (tw_ge n HN x). evar_last.
    + apply (is_derive_scal (fun x => f x * tw n x)). apply (is_derive_mult f (tw n)); [apply tf_der; auto|apply tw_der; auto|intros; apply Rmult_comm].
    + unfold plus, mult; simpl; unfold mult; simpl. unfold k. field. repeat split; lra.
  - intros x X. pose proof (tw_ge n HN x). pose proof (tf_pos n x). assert (0 < f x * tw n x) by (apply Rmult_lt_0_compat; lra). assert (0 < k * (f x * tw n x)) by (apply Rmult_lt_0_compat; auto). lra.
Qed.
Lemma no_mean_ok : n <= 1 -> mean n = Fin 0 /\ no_mean (fun x => pdf x n) m_infty p_infty.
Proof.
  intros N1. split; [unfold mean; rewrite val_pass; auto|]. intros v.
  assert (C0 : forall x, continuous (fun t => t * toR (pdf (Fin t) n)) x).
  { intros x. apply (continuous_ext (fun t => t * f t)); [intros; rewrite pdf_fin; auto|]. apply (continuous_mult (fun t => t) f); [apply continuous_id|apply tf_cont; auto]. }
  set (k := exp (tlc n - th n * ln (1 + / n))). assert (KP : 0 < k) by apply exp_pos. assert (0 < / n) by (apply Rinv_0_lt_compat; auto).
  refine (no_integral m_infty p_infty _ 1 (fun t => k * ln t) (fun t => k * / t) _ _ _ _ v); auto.
  - apply in_line.
  - intros x _ X. split; [auto_derive; [lra|field; lra]|]. rewrite pdf_fin. cbn [toR]. unfold tf, k.
    assert (T : ln (tw n x) <= ln (1 + / n) + 2 * ln x).
    { replace (2 * ln x) with (ln (x * x)) by (rewrite ln_mult by lra; ring). rewrite <- ln_mult by nra. pose proof (tw_ge n HN x). apply ln_le; [lra|]. unfold tw. replace ((1 + / n) * (x * x)) with (x * x + x ^ 2 / n) by (field; lra). nra. }
    assert (LX : 0 <= ln x) by (rewrite <- ln_1; apply ln_le; lra).
    replace (/ x) with (exp (- ln x)) by (rewrite exp_Ropp, exp_ln by lra; auto). rewrite <- (exp_ln x) at 2 by lra. rewrite <- !exp_plus. apply exp_le_compat.
    assert (th n * ln (tw n x) <= th n * (ln (1 + / n) + 2 * ln x)) by (apply Rmult_le_compat_l; [left; apply h_pos|auto]).
    assert ((th n - 1) * ln x <= 0) by (unfold th; nra). nra.
  - intros M. exists (exp (M / k)). intros x X. assert (L : M / k < ln x) by (rewrite <- (ln_exp (M / k)); apply ln_increasing; auto; apply exp_pos).
    apply (Rmult_lt_compat_l k) in L; auto. replace (k * (M / k)) with M in L by (field; lra). auto.
Qed.
Lemma log_int : integrates_to (fun x => ln (tw n x) * (2 * f x)) 0 p_infty (digamma (th n) - digamma (n / 2)).
Proof.
  assert (HP : 0 < 1/2) by lra. pose proof (n2_pos n HN) as N2. replace (th n) with (1/2 + n/2) by (unfold th; field).
  assert (J : integrates_to (fun z => - ln (1 - phi z) * pf (1/2) (n/2) z) 0 p_infty (digamma (1/2 + n/2) - digamma (n/2))).
  { apply (p_int (1/2) (n/2) HP N2 (fun t => - ln (1 - t))) || apply (p_int (1/2) (n/2) (fun t => - ln (1 - t))); auto.
    - intros t T. apply ex_derive_cont. auto_derive. lra.
    - replace (digamma (1/2 + n/2) - digamma (n/2)) with ((-1) * (digamma (n/2) - digamma (1/2 + n/2))) by ring.
      apply (integrates_ext 0 1 lt01' (fun t => (-1) * (ln (1 - t) * bf (1/2) (n/2) t))); [intros; ring|]. apply integrates_scal. apply b_ln1; auto. }
  assert (CC : forall y, inside 0 p_infty y -> continuous (fun z => - ln (1 - phi z) * pf (1/2) (n/2) z) y).
  { intros y [Y _]. simpl in Y. apply (continuous_mult (fun z => - ln (1 - phi z)) (pf (1/2) (n/2))); [|apply pf_cont; auto]. apply ex_derive_cont. unfold phi. auto_derive. split; [lra|]. split; auto.
    pose proof (phi_in y Y). unfold phi in H. simpl. unfold Rdiv in H. lra. }
  pose proof (sub_integral (TSB n HN) (tdp_pos n HN) (fun z => - ln (1 - phi z) * pf (1/2) (n/2) z) _ CC J) as S. revert S. apply integrates_ext; [exact Logic.I|]. intros x [X _]. simpl in X.
  assert (P : 0 < tp n x) by (unfold tp; apply Rdiv_pos; auto; apply pow_lt; auto). rewrite Rmult_assoc, tf_pf by auto. rewrite phi_1, ln_Rinv by lra. unfold tw. fold (tp n x). ring.
Qed.
Lemma ent_int : integrates_to (fun t => - (f t * ln (f t))) m_infty p_infty (th n * (digamma (th n) - digamma (n / 2)) - tlc n).
Proof.
  set (D := digamma (th n) - digamma (n / 2)).
  replace (th n * D - tlc n) with (2 * (/ 2 * (- tlc n * 1) + / 2 * (th n * D))) by field.
  apply (even_integral (fun t => - (f t * ln (f t)))).
  - intros x. apply ex_derive_cont. pose proof (tf_der n HN x) as TD. pose proof (tf_pos n x). set (g := f) in *. clearbody g. auto_derive. repeat split; auto; eexists; eauto.
  - intros x. rewrite tf_even. reflexivity.
  - apply (integrates_ext 0 p_infty Logic.I (fun x => / 2 * (- tlc n * (2 * f x)) + / 2 * (th n * (ln (tw n x) * (2 * f x))))).
    + intros x _. assert (L : ln (f x) = tlc n - th n * ln (tw n x)) by apply ln_exp. rewrite L. field.
    + apply (integrates_plus 0 p_infty (fun x => / 2 * (- tlc n * (2 * f x)))).
      * apply integrates_scal, integrates_scal. destruct (tG_std n HN) as [SM CT QU].
        replace 1 with (1 - 0) by ring. apply (mk_integral _ (tG n)); auto; [exact Logic.I|apply (sm_der _ _ _ _ SM)|apply (lim_lo _ _ _ _ _ SM QU)|apply (lim_hi _ _ _ _ _ SM QU)].
      * apply integrates_scal, integrates_scal. apply log_int.
Qed.
Lemma ent_ok : entropy_is (fun x => pdf x n) m_infty p_infty (entropy n).
Proof.
  eexists. split; [|apply (integrates_ext m_infty p_infty lt_line (fun t => - (f t * ln (f t)))); [intros x _; rewrite pdf_fin; reflexivity|exact ent_int]].
  pose proof h_pos. pose proof (n2_pos n HN). assert (0 < 1/2) by lra. pose proof (Beta_pos (n/2) (1/2) ltac:(lra) ltac:(lra)) as BP. pose proof (sqrt_lt_R0 n HN) as SP. pose proof PI_RGT_0.
  unfold entropy. rewrite val_pass by auto. rewrite eh, (vdiv_Fin n 2), !vdig, vbet by lra. cbn [vsqrt]. rewrite Rltb_false by lra. cbn [vmul vsub vneg vadd]. rewrite vlog_Fin by (apply Rmult_lt_0_compat; auto). cbn [vadd].
  f_equal. rewrite ln_mult, ln_sqrt, ln_Beta by auto. unfold loggamma at 2. replace (1/2) with (/ 2) at 1 by field. rewrite Gamma_half, ln_sqrt by auto. unfold tlc. rewrite ln_mult by auto.
  replace (n / 2 + 1/2) with (th n) by (unfold th; field). field.
Qed.
(** C35, C36, C61 *)
Lemma core p : 0 < p < 1 -> exists x0 x1 N, (forall fuel, (N < fuel)%nat -> find_bracket fuel (fun x => cdf x n) (Fin p) NInf PInf None = Ok (Fin x0, Fin x1)) /\ x0 <= Q p <= x1 /\ F (Q p) = p /\
  (forall fr, checked_solver fr -> forall x, fr (fun t => vsub (cdf t n) (Fin p)) (Fin x0, Fin x1) = Fin x -> x = Q p) /\
  (forall fr, bracket_solver fr -> x0 < x1 -> fr (fun t => vsub (cdf t n) (Fin p)) (Fin x0, Fin x1) = Fin (Q p)).
Proof.
  intros P. destruct (tST n HN) as [S1 S2 S3].
  assert (GB : forall x, 0 <= F x <= 1) by (intros x; apply (sm_01 _ _ _ _ S1); apply in_line).
  assert (GM : forall x y, x <= y -> F x <= F y) by (intros x y [L| ->]; [left; apply tF_incr; auto|lra]).
  assert (GI : forall p x, 0 < p < 1 -> F x = p -> x = Q p) by (intros q x HQ E; apply (tF_inj n HN); rewrite E; symmetry; apply S3; auto).
  destruct (bracket_in (fun x => cdf x n) F true m_infty p_infty Q ltac:(intros; apply cdf_fin) GM S3 GI None NInf PInf 0 1) with (p := p) as (x0 & x1 & N & E & IN); auto.
  - unfold cdf. rewrite val_pass by auto. auto.
  - unfold cdf. rewrite val_pass by auto. auto.
  - exists x0, x1, N. split; auto. split; auto. split; [apply S3; auto|].
    destruct (solve_in (fun x => cdf x n) F true m_infty p_infty Q ltac:(intros; apply cdf_fin) GB GM S3 GI p x0 x1 P IN) as [A B]. split; [exact A|]. intros fr BS L. apply B; auto.
Qed.
Lemma Q_ge p : 1/2 < p < 1 -> 0 < Q p.
Proof.
  intros P. destruct (tST n HN) as [S1 S2 S3]. destruct (S3 p ltac:(lra)) as [_ E]. destruct (Rlt_le_dec 0 (Q p)) as [L|L]; auto.
  exfalso. destruct L as [L|L]; [pose proof (tF_incr n HN _ _ L)|rewrite L in E]; pose proof (tF_0 n); lra.
Qed.
Lemma inv_eq fr fuel (p : R) : 0 < p < 1 -> invcdf fr fuel p n = let p0 := if Rltb (1/2) p then 1 - p else p in
  match find_bracket fuel (fun x => cdf x n) (Fin p0) NInf PInf None with
  | Err e => Exc e
  | Ok x01 => cif (ceq (fst x01) (snd x01)) (fst x01) (let x := fr (fun x => vsub (cdf x n) (Fin p0)) x01 in if Rltb (1/2) p then vneg x else x)
  end.
Proof.
  intros P. unfold invcdf, validate_p. rewrite val_pass by auto. vif. change (cgt (Fin p) (Fin (1 / 2))) with (CB (Rltb (1/2) p)). destruct (Rltb (1/2) p); reflexivity.
Qed.
Definition cdf_root (p q : R) : Prop := cdf q n = Fin p /\ forall x, cdf (Fin x) n = Fin p -> x = q.
Lemma root_Q p : 0 < p < 1 -> cdf_root p (Q p).
Proof.
  intros P. destruct (tST n HN) as [S1 S2 S3]. destruct (S3 p P) as [_ E]. split; [rewrite (proj1 (cdf_fin _)), E; auto|]. intros x X. rewrite (proj1 (cdf_fin _)) in X. injection X as X. apply (tF_inj n HN). lra.
Qed.
Lemma Q_compl p : 0 < p < 1 -> Q (1 - p) = - Q p.
Proof. intros P. destruct (tST n HN) as [S1 S2 S3]. destruct (S3 p P) as [_ E]. destruct (S3 (1 - p) ltac:(lra)) as [_ E']. apply (tF_inj n HN). rewrite tF_neg, E, E' by auto. reflexivity. Qed.
Lemma invcdf_lo p : 0 < p <= 1/2 -> exists q N, cdf (Fin q) n = Fin p /\ (forall x, cdf (Fin x) n = Fin p -> x = q) /\
  (forall findroot, checked_solver findroot -> forall fuel x, (N < fuel)%nat -> invcdf findroot fuel p n = Fin x -> x = q) /\
  (forall findroot, bracket_solver findroot -> forall fuel, (N < fuel)%nat -> invcdf findroot fuel p n = Fin q).
Proof.
  intros P. destruct (core p ltac:(lra)) as (x0 & x1 & N & E & IN & QE & S1 & S2). destruct (root_Q p ltac:(lra)) as [R1 R2]. exists (Q p), N. split; auto. split; auto.
  split; [intros fr CS fuel x FL|intros fr BS fuel FL]; rewrite inv_eq by lra; rewrite Rltb_false by lra; cbv zeta; rewrite E by auto; cbn [fst snd]; change (ceq (Fin x0) (Fin x1)) with (CB (Reqb x0 x1)); destruct (Reqb_spec x0 x1) as [[L ->]|[L ->]]; cbn [cif].
  - intros X. injection X as <-. lra.
  - apply S1; auto.
  - f_equal. lra.
  - apply S2; auto. lra.
Qed.
Lemma invcdf_hi p : 1/2 < p < 1 -> exists q N, 0 < q /\ cdf (Fin q) n = Fin p /\ (forall x, cdf (Fin x) n = Fin p -> x = q) /\
  (forall findroot, checked_solver findroot -> forall fuel x, (N < fuel)%nat -> invcdf findroot fuel p n = Fin x -> x = q \/ x = - q) /\
  (forall findroot, bracket_solver findroot -> forall fuel, (N < fuel)%nat ->
     (forall x, find_bracket fuel (fun x => cdf x n) (Fin (1 - p)) NInf PInf None <> Ok (x, x)) -> invcdf findroot fuel p n = Fin q).
Proof.
  intros P. destruct (core (1 - p) ltac:(lra)) as (x0 & x1 & N & E & IN & QE & S1 & S2). rewrite (Q_compl p) in * by lra. destruct (root_Q p ltac:(lra)) as [R1 R2]. exists (Q p), N. split; [apply Q_ge; auto|]. split; auto. split; auto.
  split; [intros fr CS fuel x FL|intros fr BS fuel FL NE]; rewrite inv_eq by lra; rewrite !Rltb_true by lra; cbv zeta; rewrite E by auto; cbn [fst snd]; change (ceq (Fin x0) (Fin x1)) with (CB (Reqb x0 x1)); destruct (Reqb_spec x0 x1) as [[L ->]|[L ->]]; cbn [cif].
  - intros X. injection X as <-. right. lra.
  - specialize (S1 fr CS). destruct (fr _ _) as [y| | | |e] eqn:FE; try discriminate. simpl. intros X. injection X as <-. left. rewrite (S1 y) by auto. ring.
  - exfalso. apply (NE (Fin x0)). rewrite E, <- L by auto. auto.
  - rewrite (S2 fr BS) by lra. simpl. f_equal. ring.
Qed.
Lemma invcdf_sign : let p := toR (cdf (Fin (3/2)) n) in 1/2 < p < 1 /\ cdf (Fin (3/2)) n = Fin p /\
  forall findroot fuel, (2 < fuel)%nat -> invcdf findroot fuel p n = Fin (- (3/2)).
Proof.
  cbv zeta. rewrite (proj1 (cdf_fin _)). cbn [toR]. set (p := F (3/2)).
  assert (P : 1/2 < p < 1) by (split; [apply tF_half; auto; lra|]; apply (F_open01 _ _ _ _ (st_smooth _ _ _ _ _ (tST n HN))); apply in_line).
  split; auto. split; auto. intros fr fuel FL. rewrite inv_eq by lra. rewrite !Rltb_true by lra. cbv zeta.
  assert (PM : 1 - p = F (- (3/2))) by (rewrite tF_neg; auto). rewrite PM.
  pose proof (tF_incr n HN (-2) (- (3/2)) ltac:(lra)) as L1. pose proof (tF_incr n HN (- (3/2)) (-1) ltac:(lra)) as L2. pose proof (tF_incr n HN (-1) 0 ltac:(lra)) as L3. rewrite tF_0 in L3.
  assert (R2 : 0 < F (-2)) by (apply (F_open01 _ _ _ _ (st_smooth _ _ _ _ _ (tST n HN))); apply in_line).
  assert (B : find_bracket fuel (fun x => cdf x n) (Fin (F (- (3/2)))) NInf PInf None = Ok (Fin (- (3/2)), Fin (- (3/2)))).
  { destruct fuel as [|[|[|fuel]]]; try lia.
    assert (CA : cdf NInf n = Fin 0) by (unfold cdf; rewrite val_pass by auto; auto). assert (CB' : cdf PInf n = Fin 1) by (unfold cdf; rewrite val_pass by auto; auto).
    unfold find_bracket. rewrite CA, CB'. cbn [bindv]. vif.
    assert (SG : vsign (vsub (Fin 1) (Fin 0)) = Fin 1) by (cbn [vsub vneg vadd vsign]; rewrite ?Rltb_true, ?Rltb_false by lra; auto). rewrite SG.
    assert (SM : forall y, F (- (3/2)) < F y -> vsign (vsub (Fin (F (- (3/2)))) (cdf (Fin y) n)) = Fin (-1)).
    { intros y Y. rewrite (proj1 (cdf_fin y)). cbn [vsub vneg vadd vsign]. rewrite ?Rltb_true, ?Rltb_false by lra; auto. rewrite ?Rltb_true, ?Rltb_false by lra; auto. }
    assert (SP : forall y, F y < F (- (3/2)) -> vsign (vsub (Fin (F (- (3/2)))) (cdf (Fin y) n)) = Fin 1).
    { intros y Y. rewrite (proj1 (cdf_fin y)). cbn [vsub vneg vadd vsign]. rewrite ?Rltb_true, ?Rltb_false by lra; auto. }
    assert (E : expand_bracket (S (S (S fuel))) (fun x => cdf x n) (Fin (F (- (3/2)))) (Fin 1) NInf PInf = Ok (Fin (-2), Fin (-1))).
    { unfold expand_bracket. change (cand (ceq NInf NInf) (ceq PInf PInf)) with (CB true). cbn [cif].
      change (vneg (Fin 1)) with (Fin (-1)).
      rewrite while_t by (cbn [fst snd]; rewrite SM by auto; unfold cne, cmp, eqb; rewrite Reqb_false by lra; reflexivity). cbn [fst snd]. assert (T : vmul (Fin 2) (Fin (-1)) = Fin (-2)) by (cbn [vmul]; f_equal; ring). rewrite T.
      rewrite while_f by (cbn [fst snd]; rewrite SP by auto; unfold cne, cmp, eqb; rewrite Reqb_true by lra; reflexivity). cbn [bind fst snd].
      rewrite while_f by (rewrite SM by auto; unfold ceq, cmp, eqb; rewrite Reqb_false by lra; reflexivity). reflexivity. }
    rewrite E. cbn [bind fst snd refine].
    assert (T : vdiv (vadd (Fin (-2)) (Fin (-1))) (Fin 2) = Fin (- (3/2))) by (cbn [vadd]; rewrite vdiv_Fin by lra; f_equal; field). rewrite !T. rewrite !(proj1 (cdf_fin _)). cbn [bindv]. vif. reflexivity. }
  rewrite B. cbn [fst snd]. vif. reflexivity.
Qed.
Lemma invsf_eq fr fuel (p : R) : 0 < p < 1 -> invsf fr fuel p n = vneg (invcdf fr fuel p n).
Proof. intros P. unfold invsf, validate_p. rewrite val_pass by auto. vif. reflexivity. Qed.
Lemma sf_cdf x p : sf (Fin x) n = Fin p <-> cdf (Fin (- x)) n = Fin p.
Proof. rewrite (proj1 (reflect x)). tauto. Qed.
Lemma invsf_lo p : 0 < p <= 1/2 -> exists q N, sf (Fin q) n = Fin p /\ (forall x, sf (Fin x) n = Fin p -> x = q) /\
  (forall findroot, checked_solver findroot -> forall fuel x, (N < fuel)%nat -> invsf findroot fuel p n = Fin x -> x = q) /\
  (forall findroot, bracket_solver findroot -> forall fuel, (N < fuel)%nat -> invsf findroot fuel p n = Fin q).
Proof.
  intros P. destruct (invcdf_lo p P) as (q & N & R1 & R2 & R3 & R4). exists (- q), N. split; [apply sf_cdf; rewrite Ropp_involutive; auto|]. split; [intros x X; apply sf_cdf in X; apply R2 in X; lra|].
  split; [intros fr CS fuel x FL X|intros fr BS fuel FL]; rewrite invsf_eq in * by lra.
  - destruct (invcdf fr fuel p n) as [y| | | |e] eqn:FE; try discriminate. injection X as <-. rewrite (R3 fr CS fuel y FL FE). auto.
  - rewrite R4 by auto. reflexivity.
Qed.
Lemma invsf_hi p : 1/2 < p < 1 -> exists q N, q < 0 /\ sf (Fin q) n = Fin p /\ (forall x, sf (Fin x) n = Fin p -> x = q) /\
  (forall findroot, checked_solver findroot -> forall fuel x, (N < fuel)%nat -> invsf findroot fuel p n = Fin x -> x = q \/ x = - q) /\
  (forall findroot, bracket_solver findroot -> forall fuel, (N < fuel)%nat ->
     (forall x, find_bracket fuel (fun x => cdf x n) (Fin (1 - p)) NInf PInf None <> Ok (x, x)) -> invsf findroot fuel p n = Fin q).
Proof.
  intros P. destruct (invcdf_hi p P) as (q & N & QP & R1 & R2 & R3 & R4). exists (- q), N. split; [lra|]. split; [apply sf_cdf; rewrite Ropp_involutive; auto|]. split; [intros x X; apply sf_cdf in X; apply R2 in X; lra|].
  split; [intros fr CS fuel x FL X|intros fr BS fuel FL NE]; rewrite invsf_eq in * by lra.
  - destruct (invcdf fr fuel p n) as [y| | | |e] eqn:FE; try discriminate. injection X as <-. destruct (R3 fr CS fuel y FL FE) as [->| ->]; auto.
  - rewrite R4 by auto. reflexivity.
Qed.
Lemma invsf_sign : let p := toR (sf (Fin (- (3/2))) n) in 1/2 < p < 1 /\ sf (Fin (- (3/2))) n = Fin p /\
  forall findroot fuel, (2 < fuel)%nat -> invsf findroot fuel p n = Fin (3/2).
Proof.
  pose proof invcdf_sign as S. cbv zeta in *. assert (E : sf (Fin (- (3/2))) n = cdf (Fin (3/2)) n) by (rewrite <- (proj1 (reflect (- (3/2)))), Ropp_involutive; auto). rewrite E.
  destruct S as (P & C & S). split; auto. split; auto. intros fr fuel FL. rewrite invsf_eq by lra. rewrite S by auto. simpl. rewrite Ropp_involutive. reflexivity.
Qed.
(** C37 *)
Lemma ends fr fuel : rejects_bad_p (fun p => invcdf fr fuel p n) /\ rejects_bad_p (fun p => invsf fr fuel p n) /\
  at_ends (fun p => invcdf fr fuel p n) NInf PInf /\ at_ends (fun p => invsf fr fuel p n) PInf NInf.
Proof.
  assert (A : at_ends (fun p => invcdf fr fuel p n) NInf PInf) by (split; unfold invcdf; rewrite val_pass by auto; unfold validate_p; vif; reflexivity).
  unfold at_ends, invsf in *. destruct A as [A0 A1]. split; [|split; [|split; [auto|]]].
  - unfold invcdf. split; [intros p H|split]; rewrite val_pass by auto; [apply vpp_bad; auto|apply vpp_pinf|apply vpp_ninf].
  - split; [intros p H|split]; rewrite val_pass by auto; [apply vpp_bad; auto|apply vpp_pinf|apply vpp_ninf].
  - rewrite A0, A1. split; rewrite val_pass by auto; unfold validate_p; vif; reflexivity.
Qed.
End P.
Lemma bad_params fr fuel a : isnum a -> nonpositive a ->
  support a = Err ValueError /\
  always_ValueError [ fun x => pdf x a; fun x => logpdf x a; fun x => cdf x a; fun x => sf x a;
    fun p => invcdf fr fuel p a; fun p => invsf fr fuel p a; fun _ => mean a; fun _ => mode a; fun _ => entropy a ].
Proof.
  intros H1 H2. unfold support, pdf, logpdf, cdf, sf, invcdf, invsf, mean, mode, entropy.
  split; [|all_ve; intros x Hx]; rewrite ?validate_bad by auto; reflexivity.
Qed.
(** One degree of freedom: the Cauchy distribution. *)
Lemma tf_1 x : tf 1 x = P_cauchy.f x.
Proof.
  pose proof PI_RGT_0. pose proof (P_cauchy.den_pos x). unfold tf, tlc, tw, P_cauchy.f, th, loggamma. replace ((1 + 1) / 2) with 1 by field. replace (1 / 2) with (/ 2) by field. rewrite Gamma_1, Gamma_half, ln_1, ln_sqrt, Rmult_1_l by auto.
  replace (x ^ 2 / 1) with (x ^ 2) by field. replace (0 - ln PI / 2 - ln PI / 2 - 1 * ln (1 + x ^ 2)) with (- ln (PI * (1 + x ^ 2))) by (rewrite ln_mult by auto; field).
  rewrite exp_Ropp, exp_ln by (apply Rmult_lt_0_compat; auto). unfold Rdiv. ring.
Qed.
Lemma cauchy (x : R) : pdf (Fin x) 1 = M_cauchy.pdf (Fin x) 0 1 /\ cdf (Fin x) 1 = M_cauchy.cdf (Fin x) 0 1 /\ sf (Fin x) 1 = M_cauchy.sf (Fin x) 0 1.
Proof.
  assert (O : 0 < 1) by lra. assert (Z : (x - 0) / 1 = x) by field.
  assert (EF : tF 1 x = P_cauchy.F x).
  { destruct (MVT_gen (fun x => tF 1 x - P_cauchy.F x) 0 x (fun _ => 0)) as [c [_ E]].
    - intros y _. evar_last; [apply (is_derive_minus (tF 1) P_cauchy.F); [apply (sm_der _ _ _ _ (st_smooth _ _ _ _ _ (tST 1 O))); apply in_line|apply (sm_der _ _ _ _ (st_smooth _ _ _ _ _ P_cauchy.ST)); apply in_line]|]. rewrite tf_1. unfold minus, plus, opp; simpl. ring.
    - intros y _. apply continuity_pt_filterlim. apply (ex_derive_continuous (V := R_NormedModule) (fun x => tF 1 x - P_cauchy.F x)). eexists. apply (is_derive_minus (tF 1) P_cauchy.F); [apply (sm_der _ _ _ _ (st_smooth _ _ _ _ _ (tST 1 O))); apply in_line|apply (sm_der _ _ _ _ (st_smooth _ _ _ _ _ P_cauchy.ST)); apply in_line].
    - cbv beta in E. rewrite tF_0 in E. assert (P_cauchy.F 0 = 1/2) by (unfold P_cauchy.F; rewrite atan_0; field; apply PI_neq0). lra. }
  destruct (cdf_fin 1 O x) as [-> ->]. rewrite (pdf_fin 1 O x), tf_1, EF.
  pose proof (P_cauchy.CERT 0 1 O) as CE. destruct (ce_pdf _ _ _ _ _ _ _ _ _ _ _ CE x (in_line x)) as [-> _]. destruct (co_in _ _ _ _ _ (ce_core _ _ _ _ _ _ _ _ _ _ _ CE) x (in_line x)) as [-> ->].
  rewrite Z. split; [f_equal; field|auto].
Qed.
