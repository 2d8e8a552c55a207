(** Proofs about M_f. *)
From Coq Require Import Reals Lra Lia List ZArith.
From Coquelicot Require Import Coquelicot.
From Verif Require Import Values VTac Spec SpecNoMom RLib LimLib LLib XLib DistLib DistLS IntLib SubLib MomLib LSMom LSMom2 PLib DiscLib M_common SpecStat SpecEst SpecGrid SpecBis SpecInv SpecLS
  SFun GammaLib GammaLib2 GammaLib3 GammaLib4 GamLib IncLib BetaLib BpLib M_sfun P_sfun M_fun P_logb M_bisect P_bisect PatchLib InvLib.
From Verif Require M_beta P_beta M_betaprime P_betaprime M_chi2.
From Verif Require Import M_f.
Import ListNotations.
Local Open Scope R_scope.
Set Bullet Behavior "Strict Subproofs".

Lemma validate_bad {A} `{CanRaise A} a b (c : A) : isnum a -> isnum b -> nonpositive a \/ nonpositive b -> validate_params a b c = raise ValueError.
Proof.
  intros NA NB B. unfold validate_params. destruct (P_betaprime.cle0 a NA) as [ta EA], (P_betaprime.cle0 b NB) as [tb EB].
  destruct B as [B|B]; apply P_betaprime.cle1 in B; rewrite ?EA, ?EB; (rewrite B in EA || rewrite B in EB); destruct ta, tb; try discriminate; reflexivity.
Qed.
Ltac start := unfold pdf, logpdf, cdf, sf, support, mode, mean, var, entropy, validate_params, validate_p, xlogy, xlog1py.
Lemma val_pass {A} `{CanRaise A} (a b : R) (c : A) : 0 < a -> 0 < b -> validate_params (Fin a) (Fin b) c = c.
Proof. intros. unfold validate_params. vif. reflexivity. Qed.
Lemma If_mono a b x y : 0 < a -> 0 < b -> 0 <= x <= y -> y <= 1 -> Ifull a b x <= Ifull a b y.
Proof.
  intros A B X Y. rewrite <- (proj1 (P_beta.cdf_Ifull a b A B x ltac:(lra))), <- (proj1 (P_beta.cdf_Ifull a b A B y ltac:(lra))). apply (cdf_mono (P_beta.CERT a b A B)). lra.
Qed.
Lemma If_Q a b p : 0 < a -> 0 < b -> 0 < p < 1 -> 0 < bQ a b p < 1 /\ Ifull a b (bQ a b p) = p /\ forall x, 0 <= x <= 1 -> Ifull a b x = p -> x = bQ a b p.
Proof.
  intros A B P. destruct (P_beta.cq a b A B p P) as [[Q0 Q1] E]. simpl in Q0, Q1. split; [lra|]. split; [rewrite <- E at 2; symmetry; apply P_beta.cdf_Ifull; auto; lra|].
  intros x X EX. apply (cdf_inj (P_beta.CERT a b A B)); auto. rewrite (proj1 (P_beta.cdf_Ifull a b A B x X)). auto.
Qed.
Lemma binv prec a b p : 0 < a -> 0 < b -> 0 < p < 1 -> exists g N, 0 <= g <= 1 /\ next_to prec (bQ a b p) g /\
  forall fuel, (N < fuel)%nat -> betaincinv fuel prec (fun _ _ => NaN) (Fin a) (Fin b) (Fin p) Bisect false = Fin g.
Proof.
  intros A B P. destruct (betaincinv_lower prec (fun _ _ => NaN) a b p A B P) as (g & N & HR & G & _ & D). destruct (If_Q a b p A B P) as (Q0 & QE & QU).
  exists g, N. split; auto. split; auto. destruct D as [D|(l & h & vl & vh & NB & LH & EL & EH & V)].
  - left. apply QU; auto. rewrite low_eval in D by auto. injection D; auto.
  - right. exists l, h. split; auto. split; auto.
    assert (IN : forall x v, vbetainc_lower (Fin a) (Fin b) (Fin x) = Fin v -> 0 <= x <= 1 /\ v = Ifull a b x).
    { intros x v E. unfold vbetainc_lower in E. rewrite !(Rltb_true 0) in E by auto. unfold Ifull. destruct (Reqb_spec x 0) as [[-> R]|[X0 R]]; rewrite R in E; [injection E as <-; rewrite R; split; [lra|auto]|].
      destruct (Reqb_spec x 1) as [[-> R1]|[X1 R1]]; rewrite R1 in E; [injection E as <-; rewrite R, R1; split; [lra|auto]|].
      destruct (Rltb_spec 0 x) as [[Y R2]|[Y R2]]; rewrite R2 in E; [|discriminate]. destruct (Rltb_spec x 1) as [[Y' R3]|[Y' R3]]; rewrite R3 in E; [|discriminate]. injection E as <-. rewrite R, R1. split; [lra|auto]. }
    destruct (IN l vl EL) as [IL ->]. destruct (IN h vh EH) as [IH ->]. rewrite <- QE in V. split.
    + destruct (Rlt_le_dec l (bQ a b p)) as [|L]; auto. pose proof (If_mono a b (bQ a b p) l A B ltac:(lra) ltac:(lra)). lra.
    + destruct (Rlt_le_dec (bQ a b p) h) as [|L]; auto. pose proof (If_mono a b h (bQ a b p) A B ltac:(lra) ltac:(lra)). lra.
Qed.
Section P.
Variables n d : R.
Hypothesis HN : 0 < n.
Hypothesis HD : 0 < d.
Let a := n / 2. Let b := d / 2. Let s := d / n.
Lemma HA : 0 < a. Proof. unfold a. lra. Qed.
Lemma HB : 0 < b. Proof. unfold b. lra. Qed.
Lemma HS : 0 < s. Proof. unfold s. apply Rdiv_pos; auto. Qed.
Hint Resolve HA HB HS : core.
Notation F := (pF a b). Notation f := (pf a b). Notation Q := (pQ a b). Notation B := (Beta a b).
Lemma m0 x : x - 0 = x. Proof. ring. Qed.
Lemma z_pos x : 0 < x -> 0 < x / s. Proof. intros. apply Rdiv_pos; auto. Qed.
Lemma z_eq x : x / s = n / d * x. Proof. unfold s. field. lra. Qed.
Lemma phi_eq x : 0 < x -> n * x / (n * x + d) = phi (x / s).
Proof. intros X. assert (0 < n * x) by (apply Rmult_lt_0_compat; auto). rewrite z_eq. unfold phi. field. repeat split; lra. Qed.
Lemma pdf_fin (x : R) : 0 < x -> pdf x n d = Fin (f ((x - 0) / s) / s) /\ logpdf x n d = Fin (ln (f ((x - 0) / s) / s)).
Proof.
  intros H. rewrite m0. pose proof (z_pos x H) as Z. pose proof (bB a b HA HB) as BP. rewrite ln_div by (auto; apply pf_pos; auto). rewrite ln_pf, pf_exp by auto.
  assert (0 < n / d) by (apply Rdiv_pos; auto). assert (0 < n / d * x) by (apply Rmult_lt_0_compat; auto).
  assert (LS : ln s = ln d - ln n) by (unfold s; apply ln_div; auto). assert (LZ : ln (x / s) = ln x - ln s) by (apply ln_div; auto). pose proof (z_eq x) as ZE.
  start. vif. rewrite !(vdiv_Fin n 2), !(vdiv_Fin d 2), !(vdiv_Fin n d) by lra. fold a b. rewrite (vbet a b HA HB), (P_beta.lgb a b HA HB). split.
  - veval. rewrite <- ZE. f_equal. unfold Rpower.
    replace (ln (n / d)) with (- ln s) by (rewrite LS, ln_div by auto; ring). set (w := ln (1 + x / s)).
    transitivity (exp (a * - ln s) * exp ((a - 1) * ln x) * exp (- (a + b) * w) * exp (- ln B)); [rewrite (exp_Ropp (ln B)), exp_ln by auto; reflexivity|].
    transitivity (exp ((a - 1) * ln (x / s) - (a + b) * w - ln B) * exp (- ln s)); [|rewrite (exp_Ropp (ln s)), exp_ln by auto; reflexivity].
    rewrite <- !exp_plus. f_equal. rewrite LZ. ring.
  - assert (E : n / d * x = x / s) by auto. destruct (Req_dec a 1) as [E1|E1]; [|assert (a - 1 <> 0) by lra]; varith; rewrite ?E; veval; f_equal; rewrite ?LZ, ?LS, ?E1; ring.
Qed.
Lemma lowz x : 0 < x -> cdf x n d = Fin (F (x / s)) /\ sf x n d = Fin (1 - F (x / s)).
Proof.
  intros X. assert (0 < n * x) by (apply Rmult_lt_0_compat; auto). pose proof (phi_in _ (z_pos x X)) as T. start. vif. rewrite !(vdiv_Fin n 2), !(vdiv_Fin d 2) by lra. fold a b.
  assert (E : (vdiv (vmul (Fin n) (Fin x)) (vadd (vmul (Fin n) (Fin x)) (Fin d))) = Fin (phi (x / s))) by (simpl vmul; simpl vadd; rewrite vdiv_Fin by lra; rewrite phi_eq by auto; reflexivity).
  rewrite E, low_eval, up_eval by (auto; lra). rewrite (P_betaprime.If_F a b (x / s)) by (apply z_pos; auto). auto.
Qed.
Lemma K : cert (fun x => pdf x n d) (fun x => logpdf x n d) (patch (fun x => cdf x n d) (Fin 1)) (patch (fun x => sf x n d) (Fin 0))
  (fun p => ideal_cdf Q p 0 s) (fun p => ideal_sf Q p 0 s) 0 p_infty (fun x => F ((x - 0) / s)) (fun x => f ((x - 0) / s) / s) (fun p => 0 + s * Q p).
Proof.
  apply (ls_cert 0 p_infty F f Q (pST a b HA HB) 0 s HS); auto.
  - simpl. f_equal. ring.
  - constructor.
    + intros x [H _]. simpl in H. cbn [patch]. rewrite m0. apply lowz; auto.
    + intros x H. simpl in H. cbn [patch]. start. veval. auto.
    + intros x [].
    + cbn [patch]. start. veval. auto.
    + cbn [patch]. auto.
  - intros x [H _]. simpl in H. apply pdf_fin. apply (P_betaprime.z_pos' s HS); auto.
  - intros x [H|[]]. simpl in H. start. veval. auto.
Qed.
Lemma compl x : ext x -> x <> PInf -> exists c, 0 <= c <= 1 /\ cdf x n d = Fin c /\ sf x n d = Fin (1 - c).
Proof. apply (patch_compl K). Qed.
Lemma at_inf : cdf PInf n d = NaN /\ sf PInf n d = NaN.
Proof.
  assert (E : vmul (Fin n) PInf = PInf) by (cbn [vmul]; unfold scale_inf; rewrite Reqb_false, Rltb_true by lra; auto).
  start. vif. rewrite !(vdiv_Fin n 2), !(vdiv_Fin d 2) by lra. rewrite !E. auto.
Qed.
Lemma mono : (forall x y, ext_le x y -> y <> PInf -> exists u v, cdf x n d = Fin u /\ cdf y n d = Fin v /\ u <= v) /\
  (forall x, ext_le x (Fin 0) -> cdf x n d = Fin 0) /\ filterlim (fun t => toR (cdf (Fin t) n d)) (Rbar_locally p_infty) (locally 1) /\ support n d = Ok (Fin 0, PInf).
Proof. split; [apply (patch_mono K)|]. split; [apply (patch_low K)|]. split; [apply (patch_lim K)|]. start. veval. auto. Qed.
Lemma density : density_of (fun x => cdf x n d) (fun x => pdf x n d) 0 p_infty.
Proof. exact (cert_density K). Qed.
Lemma mass : total_mass_one (fun x => pdf x n d) 0 p_infty.
Proof. exact (cert_total_mass K). Qed.
Lemma log_all (x : R) : log_of (fun x => pdf x n d) (fun x => logpdf x n d) x.
Proof. revert x. apply (cert_log_ends K); intros x E; [|discriminate]. injection E as E; subst x. right; left. start. veval. auto. Qed.
(** C39 *)
Lemma mode_ok : 2 < n -> is_mode (fun x => pdf x n d) (mode n d).
Proof.
  intros N. assert (A1 : 1 < a) by (unfold a; lra). set (m := (n - 2) / n * (d / (d + 2))). assert (MP : 0 < m) by (apply Rmult_lt_0_compat; apply Rdiv_pos; lra).
  assert (ME : m / s = (a - 1) / (b + 1)) by (unfold m, s, a, b; field; lra).
  assert (FP : 0 < f ((a - 1) / (b + 1)) / s) by (apply Rdiv_pos; auto; apply pf_pos; auto; apply Rdiv_pos; pose proof HB; lra).
  exists m, (f ((a - 1) / (b + 1)) / s). split; [start; veval; reflexivity|]. split; [rewrite (proj1 (pdf_fin m MP)), m0, ME; auto|].
  intros x. destruct (Rle_lt_dec x 0) as [L|L].
  - exists 0. split; [start; veval; auto|lra].
  - eexists. split; [apply (proj1 (pdf_fin x L))|]. rewrite m0. apply Rmult_le_compat_r; [left; apply Rinv_0_lt_compat; auto|]. apply P_betaprime.pf_max; auto. apply z_pos; auto.
Qed.
Lemma mode_bad : n <= 2 -> mode n d = Fin 0 /\ pdf 0 n d = Fin 0 /\ exists v, pdf 1 n d = Fin v /\ 0 < v.
Proof.
  intros N. split; [start; veval; auto|]. split; [start; veval; auto|]. eexists. split; [apply (proj1 (pdf_fin 1 ltac:(lra)))|]. apply Rdiv_pos; auto. apply pf_pos; auto. rewrite m0. apply z_pos. lra.
Qed.
(** C35, C36 *)
Lemma cdf_lt1 x : exists c, cdf (Fin x) n d = Fin c /\ (0 < x -> c = F (x / s) /\ sf (Fin x) n d = Fin (1 - F (x / s))) /\ (x <= 0 -> c = 0 /\ sf (Fin x) n d = Fin 1).
Proof.
  destruct (Rle_lt_dec x 0) as [L|L].
  - exists 0. split; [start; veval; auto|]. split; [lra|]. split; auto. start; veval; auto.
  - destruct (lowz x L) as [E1 E2]. eexists. split; [exact E1|]. split; [auto|lra].
Qed.
Lemma F_inj' x y : 0 < x -> 0 < y -> F (x / s) = F (y / s) -> x = y.
Proof.
  intros X Y E. assert (H : x / s = y / s). { apply (F_inj _ _ _ _ (st_smooth _ _ _ _ _ (pST a b HA HB))); auto; split; simpl; auto; apply z_pos; auto. }
  pose proof HS. apply (f_equal (fun v => v * s)) in H. unfold Rdiv in H. rewrite !Rmult_assoc, Rinv_l in H by lra. lra.
Qed.
Lemma invcdf_ok prec p : 0 < p < 1 -> exists q g N, 0 < q /\ cdf (Fin q) n d = Fin p /\ (forall x, cdf (Fin x) n d = Fin p -> x = q) /\
  0 <= g <= 1 /\ next_to prec (n * q / (n * q + d)) g /\ forall fuel, (N < fuel)%nat ->
  (g < 1 -> invcdf fuel prec (Fin p) n d = Fin (d / n * (g / (1 - g)))) /\ (g = 1 -> invcdf fuel prec (Fin p) n d = Exc ZeroDivisionError).
Proof.
  intros P. destruct (binv prec a b p HA HB P) as (g & N & G & NT & HR). destruct (If_Q a b p HA HB P) as (Q0 & QE & QU). set (t := bQ a b p) in *.
  pose proof (psi_pos t Q0) as PP. assert (QP : 0 < s * psi t) by (apply Rmult_lt_0_compat; auto). pose proof HS as SP. assert (ZE : s * psi t / s = psi t) by (field; lra).
  assert (CE : F (s * psi t / s) = p) by (rewrite ZE; rewrite <- (P_betaprime.If_F a b (psi t)) by auto; rewrite phi_psi by auto; auto).
  exists (s * psi t), g, N. split; auto. split; [rewrite (proj1 (lowz _ QP)), CE; auto|]. split.
  { intros x X. destruct (cdf_lt1 x) as (c & E & HP & HM). rewrite X in E. injection E as <-. destruct (Rle_lt_dec x 0) as [L|L]; [destruct (HM L); lra|]. apply F_inj'; auto. rewrite CE. symmetry. apply HP; auto. }
  split; auto. split; [rewrite phi_eq, ZE, phi_psi by auto; auto|]. intros fuel FL. specialize (HR fuel FL). unfold invcdf, validate_p. rewrite val_pass by auto. vif. rewrite !(vdiv_Fin n 2), !(vdiv_Fin d 2) by lra. fold a b. rewrite HR.
  rewrite (vdiv_Fin d n) by lra. cbn [vmul vsub vneg vadd]. split; intros GE.
  - rewrite vdiv_Fin by lra. f_equal. unfold Rdiv. change (1 - g) with (1 + - g). ring.
  - cbn [vdiv]. rewrite Reqb_true by lra. reflexivity.
Qed.
Lemma invsf_ok prec p : 0 < p < 1 -> exists q g N, 0 < q /\ sf (Fin q) n d = Fin p /\ (forall x, sf (Fin x) n d = Fin p -> x = q) /\
  0 <= g <= 1 /\ next_to prec (d / (n * q + d)) g /\ forall fuel, (N < fuel)%nat ->
  (0 < g -> invsf fuel prec (Fin p) n d = Fin (d / n * ((1 - g) / g))) /\ (g = 0 -> invsf fuel prec (Fin p) n d = Exc ZeroDivisionError).
Proof.
  intros P. destruct (binv prec b a p HB HA P) as (g & N & G & NT & HR). destruct (If_Q b a p HB HA P) as (Q0 & QE & QU). set (t := bQ b a p) in *.
  assert (T1 : 0 < 1 - t < 1) by lra. pose proof (psi_pos (1 - t) T1) as PP. assert (QP : 0 < s * psi (1 - t)) by (apply Rmult_lt_0_compat; auto). pose proof HS as SP. assert (ZE : s * psi (1 - t) / s = psi (1 - t)) by (field; lra).
  assert (CE : 1 - F (s * psi (1 - t) / s) = p). { rewrite ZE. rewrite <- (P_betaprime.If_F a b (psi (1 - t))) by auto. rewrite phi_psi by auto. rewrite <- P_betaprime.Irefl by (auto; lra). replace (1 - (1 - t)) with t by ring. auto. }
  exists (s * psi (1 - t)), g, N. split; auto. split; [rewrite (proj2 (lowz _ QP)), CE; auto|]. split.
  { intros x X. destruct (cdf_lt1 x) as (c & E & HP & HM). destruct (Rle_lt_dec x 0) as [L|L]; [destruct (HM L) as [_ E2]; rewrite X in E2; injection E2; lra|]. apply F_inj'; auto. destruct (HP L) as [_ E2]. rewrite X in E2. injection E2; lra. }
  split; auto. split; [replace (d / (n * (s * psi (1 - t)) + d)) with t; auto|].
  { assert (H : 1 - n * (s * psi (1 - t)) / (n * (s * psi (1 - t)) + d) = t) by (rewrite phi_eq, ZE, phi_psi by auto; ring). assert (Y : 0 < n * (s * psi (1 - t))) by (apply Rmult_lt_0_compat; auto). revert H Y. generalize (n * (s * psi (1 - t))). intros y H Y. rewrite <- H. field. lra. }
  intros fuel FL. specialize (HR fuel FL). unfold invsf, validate_p. rewrite val_pass by auto. vif. rewrite !(vdiv_Fin n 2), !(vdiv_Fin d 2) by lra. fold a b. rewrite HR.
  rewrite (vdiv_Fin d n) by lra. cbn [vmul vsub vneg vadd]. split; intros GE.
  - rewrite vdiv_Fin by lra. f_equal. unfold Rdiv. change (1 - g) with (1 + - g). ring.
  - cbn [vdiv]. rewrite Reqb_true by lra. reflexivity.
Qed.
(** C37 *)
Lemma ends fuel prec : rejects_bad_p (fun p => invcdf fuel prec p n d) /\ rejects_bad_p (fun p => invsf fuel prec p n d) /\ invcdf fuel prec 0 n d = Fin 0 /\ invsf fuel prec 1 n d = Fin 0.
Proof.
  unfold invcdf, invsf. split; [|split; [|split]].
  - split; [intros p H|split]; rewrite val_pass by auto; [apply vpp_bad; auto|apply vpp_pinf|apply vpp_ninf].
  - split; [intros p H|split]; rewrite val_pass by auto; [apply vpp_bad; auto|apply vpp_pinf|apply vpp_ninf].
  - rewrite val_pass by auto; unfold validate_p; vif. destruct (betaincinv_edges fuel prec (fun _ _ => NaN) (vdiv (Fin n) (Fin 2)) (vdiv (Fin d) (Fin 2)) 0 Bisect) as (_ & E & _). rewrite E. veval. f_equal. field. lra.
  - rewrite val_pass by auto; unfold validate_p; vif. destruct (betaincinv_edges fuel prec (fun _ _ => NaN) (vdiv (Fin d) (Fin 2)) (vdiv (Fin n) (Fin 2)) 0 Bisect) as (_ & _ & _ & E & _). rewrite E. veval. f_equal. field. lra.
Qed.
Lemma ends_bad fuel prec : invcdf fuel prec 1 n d = Exc ZeroDivisionError /\ invsf fuel prec 0 n d = Exc ZeroDivisionError.
Proof.
  unfold invcdf, invsf. rewrite !val_pass by auto. unfold validate_p. vif.
  destruct (betaincinv_edges fuel prec (fun _ _ => NaN) (vdiv (Fin n) (Fin 2)) (vdiv (Fin d) (Fin 2)) 0 Bisect) as (_ & _ & _ & E & _). destruct (betaincinv_edges fuel prec (fun _ _ => NaN) (vdiv (Fin d) (Fin 2)) (vdiv (Fin n) (Fin 2)) 0 Bisect) as (_ & E2 & _).
  rewrite E, E2. rewrite (vdiv_Fin d n) by lra. cbn [vmul vsub vneg vadd vdiv]. rewrite !Reqb_true by lra. auto.
Qed.
(** C43 *)
Lemma elo : Finite 0 = ls 0 s 0. Proof. simpl. f_equal. ring. Qed.
Lemma pdf_in x : inside 0 p_infty x -> pdf (Fin x) n d = Fin (f ((x - 0) / s) / s).
Proof. intros [H _]. simpl in H. apply pdf_fin; auto. Qed.
Lemma mom_int N k : INR N < b -> (k <= N)%nat -> integrates_to (fun z => z ^ k * f z) 0 p_infty (pM a b k).
Proof. intros L H. apply p_momentn; auto. apply le_INR in H. lra. Qed.
Notation LSM lem N HN := (lem 0 p_infty F f Q (pST a b HA HB) 0 s (fun x => pdf x n d) (Finite 0) p_infty HS elo eq_refl pdf_in (pM a b) N%nat (fun k => mom_int N k HN)).
Lemma i1 : 2 < d -> INR 1 < b. Proof. unfold b; simpl; lra. Qed.
Lemma i2 : 4 < d -> INR 2 < b. Proof. unfold b; simpl; lra. Qed.
Lemma mean_ok : 2 < d -> mean_is (fun x => pdf x n d) 0 p_infty (mean n d).
Proof. intros D. assert (1 < b) by (unfold b; lra). apply (LSM lsm_mean 1 (i1 D)); auto. start. veval. f_equal. rewrite pM1 by auto. unfold s, a, b. field. lra. Qed.
Lemma var_ok : 4 < d -> var_is (fun x => pdf x n d) 0 p_infty (mean n d) (var n d).
Proof.
  intros D. assert (2 < b) by (unfold b; lra). apply (LSM lsm_var 2 (i2 D)); auto; start; [veval; f_equal; rewrite pM1 by (auto; lra); unfold s, a, b; field; lra|].
  assert (0 < (d - 2) ^ 2) by (apply pow_lt; lra). assert (0 < n * (d - 2) ^ 2) by (apply Rmult_lt_0_compat; auto). assert (0 < n * (d - 2) ^ 2 * (d - 4)) by (apply Rmult_lt_0_compat; lra).
  veval. f_equal. unfold mvar. rewrite pM1, pM2 by (auto; lra). unfold s, a, b. field. lra.
Qed.
Lemma unscale (g : R -> R) v : integrates_to (fun t => g t * toR (pdf (Fin t) n d)) 0 p_infty v -> integrates_to (fun t => g t * toR (M_betaprime.pdf (Fin t) (Fin a) (Fin b) (Fin s))) 0 p_infty v.
Proof.
  apply (integrates_ext 0 p_infty lt0i). intros x [X _]. simpl in X. rewrite (proj1 (pdf_fin x X)), (proj1 (P_betaprime.pdf_fin a b s HA HB HS x X)). auto.
Qed.
Lemma no_mean_ok : d <= 2 -> mean n d = PInf /\ no_mean (fun x => pdf x n d) 0 p_infty.
Proof. intros D. split; [start; veval; auto|]. intros v H. apply (unscale (fun t => t)) in H. revert H. apply (P_betaprime.no_mean_ok a b s HA HB HS). unfold b; lra. Qed.
Lemma no_var_ok : d <= 4 -> var n d = PInf /\ no_var (fun x => pdf x n d) 0 p_infty.
Proof. intros D. split; [start; veval; auto|]. intros m v H. apply (unscale (fun t => (t - m) ^ 2)) in H. revert H. apply (P_betaprime.no_var_ok a b s HA HB HS). unfold b; lra. Qed.
Lemma entropy_ok : entropy_is (fun x => pdf x n d) 0 p_infty (entropy n d).
Proof.
  apply (ls_entropy_is 0 p_infty F f Q (pST a b HA HB) 0 s (fun x => pdf x n d) 0 p_infty HS elo eq_refl pdf_in _ _ (p_entropy a b HA HB)).
  start. vif. rewrite !(vdiv_Fin n 2), !(vdiv_Fin d 2), (vdiv_Fin d n) by lra. fold a b s. pose proof HA. pose proof HB. rewrite (P_beta.lgb a b HA HB). change (vadd (Fin a) (Fin b)) with (Fin (a + b)). rewrite !vdig by (auto; lra). pose proof HS. rewrite vlog_Fin by auto. cbn [vadd vsub vneg vmul]. f_equal. ring.
Qed.
(** C45 *)
Lemma family (x : R) : (0 < x -> pdf (Fin x) n d = M_betaprime.pdf (Fin x) (Fin (n / 2)) (Fin (d / 2)) (Fin (d / n))) /\
  cdf (Fin x) n d = M_betaprime.cdf (Fin x) (Fin (n / 2)) (Fin (d / 2)) (Fin (d / n)) /\ sf (Fin x) n d = M_betaprime.sf (Fin x) (Fin (n / 2)) (Fin (d / 2)) (Fin (d / n)).
Proof.
  fold a b s.
  destruct (Rlt_le_dec 0 x) as [X|X].
  - destruct (lowz x X) as [-> ->]. rewrite (proj1 (pdf_fin x X)), (proj1 (P_betaprime.pdf_fin a b s HA HB HS x X)). destruct (P_betaprime.lowz a b s HA HB HS x ltac:(lra)) as [-> ->]. rewrite P_betaprime.If_F by (apply z_pos; auto). auto.
  - split; [lra|]. destruct (co_below _ _ _ _ _ (ce_core _ _ _ _ _ _ _ _ _ _ _ (P_betaprime.CERT a b s HA HB HS)) x ltac:(simpl; lra)) as [-> ->]. start; veval; auto.
Qed.
Lemma recip (x : R) : 0 < x -> cdf (Fin (/ x)) d n = sf (Fin x) n d.
Proof.
  intros X. destruct (family x) as (_ & _ & ->). assert (0 < d / n) by (apply Rdiv_pos; auto). assert (0 < n / 2) by lra. assert (0 < d / 2) by lra. assert (0 < / x) by (apply Rinv_0_lt_compat; auto). rewrite <- P_betaprime.recip by auto.
  fold a b. assert (E : / (d / n) = n / d) by (field; lra). rewrite E. rewrite (proj1 (P_betaprime.lowz b a (n / d) HB HA ltac:(apply Rdiv_pos; auto) (/ x) ltac:(lra))).
  assert (0 < d * / x) by (apply Rmult_lt_0_compat; auto). start. vif. rewrite !(vdiv_Fin n 2), !(vdiv_Fin d 2) by lra. fold a b.
  assert (PE : (vdiv (vmul (Fin d) (Fin (/ x))) (vadd (vmul (Fin d) (Fin (/ x))) (Fin n))) = Fin (phi (/ x / (n / d)))).
  { simpl vmul; simpl vadd; rewrite vdiv_Fin by lra. f_equal. unfold phi. field. repeat split; try lra. pose proof (Rmult_lt_0_compat n x HN X). lra. }
  rewrite PE. assert (Z : 0 < / x / (n / d)) by (repeat apply Rdiv_pos; auto). pose proof (phi_in _ Z). rewrite low_eval by (auto; lra). reflexivity.
Qed.
End P.
(** C38 *)
Lemma bad_params fuel prec a b : isnum a -> isnum b -> nonpositive a \/ nonpositive b ->
  support a b = Err ValueError /\
  always_ValueError [ fun x => pdf x a b; fun x => logpdf x a b; fun x => cdf x a b; fun x => sf x a b;
    fun p => invcdf fuel prec p a b; fun p => invsf fuel prec p a b; fun _ => mean a b; fun _ => mode a b; fun _ => var a b; fun _ => entropy a b ].
Proof.
  intros H1 H2 H3. unfold support, pdf, logpdf, cdf, sf, invcdf, invsf, mean, mode, var, entropy.
  split; [|all_ve; intros x Hx]; rewrite ?validate_bad by auto; reflexivity.
Qed.
