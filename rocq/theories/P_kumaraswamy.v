(** Proofs about M_kumaraswamy. *)
From Coq Require Import Reals Lra List.
From Coquelicot Require Import Coquelicot.
From Verif Require Import Values VTac Spec SpecStat SpecEst RLib LimLib DistLib DistLS IntLib SubLib MomLib PLib LLib XLib P_est SFun GammaLib GammaLib3 IncLib BetaLib GamLib EulerLib SpecEuler VarPos M_sfun M_common M_fun M_kumaraswamy.
Import ListNotations.
Local Open Scope R_scope.
Set Bullet Behavior "Strict Subproofs".

(** t^p (1-t)^q is largest at t = p / (p + q). *)
Lemma beta_opt p q t : 0 < p -> 0 < q -> 0 < t < 1 ->
  p * ln t + q * ln (1 - t) <= p * ln (p / (p + q)) + q * ln (q / (p + q)).
Proof.
  intros P Q T.
  assert (E1 : ln t = ln (p / (p + q)) + ln (t * (p + q) / p)).
  { rewrite <- ln_mult; [f_equal; field; lra|apply Rdiv_pos; lra|apply Rdiv_pos; nra]. }
  assert (E2 : ln (1 - t) = ln (q / (p + q)) + ln ((1 - t) * (p + q) / q)).
  { rewrite <- ln_mult; [f_equal; field; lra|apply Rdiv_pos; lra|apply Rdiv_pos; nra]. }
  pose proof (ln_ineq (t * (p + q) / p) ltac:(apply Rdiv_pos; nra)) as I1.
  pose proof (ln_ineq ((1 - t) * (p + q) / q) ltac:(apply Rdiv_pos; nra)) as I2.
  assert (p * ln (t * (p + q) / p) <= t * (p + q) - p).
  { replace (t * (p + q) - p) with (p * (t * (p + q) / p - 1)) by (field; lra). apply Rmult_le_compat_l; lra. }
  assert (q * ln ((1 - t) * (p + q) / q) <= (1 - t) * (p + q) - q).
  { replace ((1 - t) * (p + q) - q) with (q * ((1 - t) * (p + q) / q - 1)) by (field; lra). apply Rmult_le_compat_l; lra. }
  rewrite E1, E2. lra.
Qed.
Lemma Rpower_le_1 x k : 0 < x <= 1 -> 0 <= k -> Rpower x k <= 1.
Proof.
  intros [H [H'| ->]] [K|<-]; try (rewrite Rpower_1_l; lra); try (rewrite Rpower_O by lra; lra).
  left. apply Rpower_lt_1; lra.
Qed.

Section P.
Variables a b : R.
Hypothesis Ha : 0 < a.
Hypothesis Hb : 0 < b.
Definition W (x : R) := 1 - Rpower x a.
Definition F (x : R) := 1 - Rpower (W x) b.
Definition f (x : R) := a * b * Rpower x (a - 1) * Rpower (W x) (b - 1).
Definition Q (p : R) := Rpower (1 - Rpower (1 - p) (1 / b)) (1 / a).
Lemma W01 x : 0 < x < 1 -> 0 < W x < 1.
Proof. intros H. unfold W. pose proof (Rpower_pos x a). pose proof (Rpower_lt_1 x a H Ha). lra. Qed.
Lemma f_pos x : 0 < f x.
Proof. unfold f. repeat apply Rmult_lt_0_compat; auto; apply Rpower_pos. Qed.
Lemma q01 p : 0 < p < 1 -> 0 < 1 - Rpower p (1 / b) < 1.
Proof.
  intros H. assert (0 < 1 / b) by (apply Rdiv_pos; lra).
  pose proof (Rpower_pos p (1 / b)). pose proof (Rpower_lt_1 p (1 / b) ltac:(lra) H0). lra.
Qed.
Lemma SM : smooth 0 1 F f.
Proof.
  constructor; simpl; [lra| | |].
  - intros x [H1 H2]. simpl in *. pose proof (W01 x ltac:(lra)) as H. unfold F. pose proof (Rpower_pos (W x) b).
    pose proof (Rpower_lt_1 (W x) b H Hb). lra.
  - intros x [H1 H2]. simpl in *. pose proof (W01 x ltac:(lra)) as H. unfold F, f. evar_last.
    + apply (is_derive_minus (fun _ => 1) (fun x => Rpower (W x) b)); [apply is_derive_const|].
      apply (is_derive_comp (fun w => Rpower w b) W); [apply is_derive_Rpower; lra|].
      apply (is_derive_minus (fun _ => 1) (fun x => Rpower x a)); [apply is_derive_const|]. apply is_derive_Rpower; lra.
    + unfold minus, plus, opp, zero, scal; simpl; unfold mult; simpl. ring.
  - intros. apply f_pos.
Qed.
Lemma f_cont x : inside 0 1 x -> continuous f x.
Proof.
  intros [H1 H2]. simpl in *. pose proof (W01 x ltac:(lra)) as H. unfold W, Rpower in H. apply ex_derive_cont. unfold f, W, Rpower. auto_derive.
  repeat split; auto; lra.
Qed.
Lemma Q_inv : quantile 0 1 F Q.
Proof.
  intros p H. pose proof (q01 (1 - p) ltac:(lra)) as Z. assert (0 < 1 / a) by (apply Rdiv_pos; lra).
  unfold Q. split; [split; simpl; [apply Rpower_pos|apply Rpower_lt_1; auto]|].
  unfold F, W. rewrite Rpower_inv by lra. replace (1 - (1 - Rpower (1 - p) (1 / b))) with (Rpower (1 - p) (1 / b)) by ring.
  rewrite Rpower_inv by lra. ring.
Qed.
Ltac start := unfold pdf, logpdf, cdf, sf, invcdf, invsf, support, median, mode, validate, validate_p.
Lemma pdf_fin (x : R) : 0 < x < 1 -> pdf x a b = Fin (f x) /\ logpdf x a b = Fin (ln (f x)).
Proof.
  intros H. pose proof (W01 x H) as Z. unfold W in Z. split.
  - assert (0 < - (Rpower x a - 1)) by lra. start. veval. unfold f, W. do 3 f_equal. ring.
  - start. veval. f_equal. unfold f, W. pose proof (Rpower_pos x (a - 1)). pose proof (Rpower_pos (1 - Rpower x a) (b - 1)).
    assert (0 < a * b) by nra. assert (0 < a * b * Rpower x (a - 1)) by nra.
    rewrite !ln_mult, !ln_Rpower by auto. reflexivity.
Qed.
Lemma cdf_fin (x : R) : 0 < x < 1 -> cdf x a b = Fin (F x) /\ sf x a b = Fin (1 - F x).
Proof.
  intros H. pose proof (W01 x H) as Z. unfold W in Z. assert (0 < - (Rpower x a - 1)) by lra.
  start. veval. unfold F, W. replace (- (Rpower x a - 1)) with (1 - Rpower x a) by ring. split; f_equal; ring.
Qed.
Lemma at0 : cdf 0 a b = Fin 0 /\ sf 0 a b = Fin 1.
Proof.
  start. veval. replace (- (0 - 1)) with 1 by ring. veval. rewrite Rpower_1_l. split; f_equal; ring.
Qed.
Lemma at1 : cdf 1 a b = Fin 1 /\ sf 1 a b = Fin 0.
Proof.
  start. veval. rewrite Rpower_1_l. replace (- (1 - 1)) with 0 by ring. veval. split; f_equal; ring.
Qed.
Lemma CERT : cert (fun x => pdf x a b) (fun x => logpdf x a b) (fun x => cdf x a b) (fun x => sf x a b)
  (fun p => invcdf p a b) (fun p => invsf p a b) 0 1 F f Q.
Proof.
  constructor; [|apply SM|apply f_cont|apply Q_inv| | |].
  - constructor.
    + intros x [H1 H2]. simpl in *. apply cdf_fin; lra.
    + intros x [H| ->]; [|apply at0]. simpl in H. start. veval. auto.
    + intros x [H|<-]; [|apply at1]. simpl in H. start. veval. auto.
    + start. veval. auto.
    + start. veval. auto.
  - intros x [H1 H2]. simpl in *. apply pdf_fin; lra.
  - intros x [H|H]; simpl in H; start; veval; auto.
  - intros p H. pose proof (q01 p H) as Z1. pose proof (q01 (1 - p) ltac:(lra)) as Z2.
    assert (1 / a <> 0) by (apply Rgt_not_eq, Rdiv_pos; lra). assert (1 / b <> 0) by (apply Rgt_not_eq, Rdiv_pos; lra).
    start. unfold inv_powm1, xlog1py. veval. unfold Q, Rpower in *. replace (1 + - p) with (1 - p) by ring. veval.
    replace (1 - (1 - p)) with p by ring. split; do 4 f_equal; ring.
Qed.
Lemma log_in (x : R) : (x = 0 -> a <> 1) -> (x = 1 -> b <> 1) -> log_of (fun x => pdf x a b) (fun x => logpdf x a b) x.
Proof.
  intros H0 H1. assert (D : (x = 0 \/ x = 1) \/ (Finite 0 <> Finite x /\ Finite 1 <> Finite x)).
  { destruct (Req_dec x 0); auto. destruct (Req_dec x 1); auto. right. split; congruence. }
  destruct D as [[->| ->]|[N0 N1]]; [| |apply (cert_log CERT); auto].
  - specialize (H0 eq_refl). destruct (Rtotal_order a 1) as [A|[A|A]]; [|lra|].
    + right; right. start. veval. auto.
    + right; left. start. veval. replace (- (0 - 1)) with 1 by ring. veval. rewrite ?ln_1. replace (1 + - 0) with 1 by ring. split; auto. f_equal; ring.
  - specialize (H1 eq_refl). destruct (Rtotal_order b 1) as [A|[A|A]]; [|lra|].
    + right; right. start. veval. rewrite Rpower_1_l. replace (1 + - (1)) with 0 by ring. veval. auto.
    + right; left. start. veval. rewrite !Rpower_1_l. replace (- (1 - 1)) with 0 by ring. veval. split; auto. f_equal; ring.
Qed.
Lemma ends : rejects_bad_p (fun p => invcdf p a b) /\ rejects_bad_p (fun p => invsf p a b) /\
  at_ends (fun p => invcdf p a b) (Fin 0) (Fin 1) /\ at_ends (fun p => invsf p a b) (Fin 1) (Fin 0).
Proof.
  split; [|split; [|split]].
  - split; [intros p [H|H]|split]; start; veval; reflexivity.
  - split; [intros p [H|H]|split]; start; veval; reflexivity.
  - unfold at_ends. start. veval. auto.
  - unfold at_ends. start. veval. auto.
Qed.
Lemma median_ok : median_is (fun x => cdf x a b) (median a b).
Proof.
  exists (Q (1/2)). split.
  - destruct (ce_inv _ _ _ _ _ _ _ _ _ _ _ CERT (1/2) ltac:(lra)) as [_ E].
    replace (1 - 1/2) with (1/2) in E by field. rewrite <- E. start. veval. auto.
  - destruct (Q_inv (1/2) ltac:(lra)) as [[H1 H2] E]. simpl in *. rewrite (proj1 (cdf_fin _ (conj H1 H2))), E. auto.
Qed.
Lemma out x : x < 0 \/ 1 < x -> pdf x a b = Fin 0.
Proof. intros [H|H]; start; veval; auto. Qed.
Lemma cases x : (x < 0 \/ 1 < x) \/ x = 0 \/ x = 1 \/ 0 < x < 1.
Proof. destruct (Rtotal_order x 0) as [H|[H|H]]; auto. destruct (Rtotal_order x 1) as [H'|[H'|H']]; auto. Qed.
(** The density is never an exception or nan. *)
Lemma pdf_ext (x : R) : ext (pdf x a b).
Proof.
  destruct (cases x) as [H|[->|[->|H]]].
  - rewrite out by auto. constructor.
  - start. destruct (Rtotal_order a 1) as [A|[A|A]].
    + veval. constructor.
    + rewrite A. veval. replace (- (0 - 1)) with 1 by ring. replace (1 - 1) with 0 by ring. veval. constructor.
    + veval. replace (- (0 - 1)) with 1 by ring. veval. constructor.
  - start. destruct (Rtotal_order b 1) as [A|[A|A]].
    + veval. constructor.
    + rewrite A. veval. rewrite !Rpower_1_l. replace (1 - 1) with 0 by ring. replace (- 0) with 0 by ring. veval. constructor.
    + veval. rewrite !Rpower_1_l. replace (- (1 - 1)) with 0 by ring. veval. constructor.
  - rewrite (proj1 (pdf_fin x H)). constructor.
Qed.
Lemma mode_ok : is_mode_ext (fun x => pdf x a b) (mode a b).
Proof.
  destruct (Rtotal_order a 1) as [A|[A|A]].
  - exists 0. split; [start; veval; auto|]. intros x. replace (pdf 0 a b) with PInf by (start; veval; auto). constructor. apply pdf_ext.
  - destruct (Rlt_le_dec b 1) as [B|B].
    + exists 1. split; [start; veval; auto|]. intros x. replace (pdf 1 a b) with PInf by (start; veval; auto). constructor. apply pdf_ext.
    + exists 0. split; [start; veval; auto|]. intros x.
      assert (E : forall x, 0 <= x < 1 -> pdf x a b = Fin (b * Rpower (1 - x) (b - 1))).
      { intros y [[H|<-] Y].
        - rewrite (proj1 (pdf_fin y (conj H Y))). unfold f, W. rewrite A, Rpower_1 by lra. replace (1 - 1) with 0 by ring. rewrite Rpower_O by auto. f_equal. ring.
        - rewrite A. start. veval. replace (1 - 1) with 0 by ring. veval. replace (- (0 - 1)) with 1 by ring. veval. rewrite !Rminus_0_r, Rpower_1_l. f_equal. ring. }
      rewrite (E 0) by lra. rewrite Rminus_0_r, Rpower_1_l.
      destruct (cases x) as [H|[->|[->|H]]].
      * rewrite out by auto. constructor. lra.
      * rewrite (E 0) by lra. rewrite Rminus_0_r, Rpower_1_l. constructor. lra.
      * rewrite A. start. destruct B as [B|<-].
        -- veval. rewrite !Rpower_1_l. replace (- (1 - 1)) with 0 by ring. veval. constructor. lra.
        -- veval. rewrite !Rpower_1_l. replace (1 - 1) with 0 by ring. replace (- 0) with 0 by ring. veval. constructor. lra.
      * rewrite (E x) by lra. constructor. pose proof (Rpower_le_1 (1 - x) (b - 1) ltac:(lra) ltac:(lra)). pose proof (Rpower_pos (1 - x) (b - 1)). nra.
  - assert (Z0 : pdf 0 a b = Fin 0). { start. veval. replace (- (0 - 1)) with 1 by ring. veval. f_equal. ring. }
    destruct (Rtotal_order b 1) as [B|[B|B]].
    + exists 1. split; [start; veval; auto|]. intros x. replace (pdf 1 a b) with PInf by (start; veval; auto). constructor. apply pdf_ext.
    + exists 1. split; [start; veval; auto|]. intros x.
      assert (E1 : pdf 1 a b = Fin a).
      { rewrite B. start. veval. rewrite !Rpower_1_l. replace (1 - 1) with 0 by ring. replace (- 0) with 0 by ring. veval. f_equal. ring. }
      rewrite E1. destruct (cases x) as [H|[->|[->|H]]].
      * rewrite out by auto. constructor. lra.
      * rewrite Z0. constructor. lra.
      * rewrite E1. constructor. lra.
      * rewrite (proj1 (pdf_fin x H)). constructor. unfold f. rewrite B. replace (1 - 1) with 0 by ring. rewrite Rpower_O by (apply W01; auto).
        pose proof (Rpower_le_1 x (a - 1) ltac:(lra) ltac:(lra)). pose proof (Rpower_pos x (a - 1)). nra.
    + assert (AB : a < a * b) by nra. set (t := (a - 1) / (a * b - 1)).
      assert (T : 0 < t < 1). { split; [apply Rdiv_pos; lra|apply div_lt_1; nra]. }
      set (m := Rpower t (1 / a)). assert (IA : 0 < 1 / a) by (apply Rdiv_pos; lra).
      assert (M : 0 < m < 1) by (split; [apply Rpower_pos|apply Rpower_lt_1; auto]).
      assert (T1 : 0 < (a - 1) / (a * b - 1)) by apply T. exists m. split; [start; veval; auto|].
      intros x. rewrite (proj1 (pdf_fin m M)). pose proof (f_pos m).
      destruct (cases x) as [H0|[->|[->|H0]]].
      * rewrite out by auto. constructor. lra.
      * rewrite Z0. constructor. lra.
      * replace (pdf 1 a b) with (Fin 0); [constructor; lra|]. start. veval. rewrite !Rpower_1_l. replace (- (1 - 1)) with 0 by ring. veval. f_equal. ring.
      * rewrite (proj1 (pdf_fin x H0)). constructor.
        rewrite <- (exp_ln (f x)), <- (exp_ln (f m)) by apply f_pos. apply exp_le_compat.
        assert (LF : forall y, 0 < y < 1 -> ln (f y) = ln (a * b) + ((a - 1) / a * ln (Rpower y a) + (b - 1) * ln (1 - Rpower y a))).
        { intros y Y. pose proof (W01 y Y) as WY. unfold W in WY. pose proof (Rpower_pos y (a - 1)).
          assert (0 < a * b) by nra. assert (0 < a * b * Rpower y (a - 1)) by nra.
          unfold f, W. rewrite (ln_mult (a * b * _)) by (auto; apply Rpower_pos). rewrite (ln_mult (a * b)) by auto.
          rewrite !ln_Rpower. field. lra. }
        rewrite !LF by auto. replace (Rpower m a) with t by (unfold m; rewrite Rpower_inv; lra).
        assert (P1 : 0 < (a - 1) / a) by (apply Rdiv_pos; lra).
        pose proof (beta_opt ((a - 1) / a) (b - 1) (Rpower x a) P1 ltac:(lra)) as O.
        replace ((a - 1) / a / ((a - 1) / a + (b - 1))) with t in O by (unfold t; field; repeat split; nra).
        replace ((b - 1) / ((a - 1) / a + (b - 1))) with (1 - t) in O by (unfold t; field; repeat split; nra).
        pose proof (Rpower_pos x a). pose proof (Rpower_lt_1 x a H0 Ha). lra.
Qed.
Lemma nll_ok xs : (forall x, In x xs -> 0 < x < 1) -> nll (map Fin xs) a b = vneg (loglik (fun x => logpdf x a b) xs).
Proof.
  intros H. unfold nll, validate. rewrite vxb_pass by (intros x I; pose proof (H x I); simpl; auto). vif.
  unfold loglik. rewrite map_map. reflexivity.
Qed.
Lemma nll_low xs : (exists x, In x xs /\ x <= 0) -> nll (map Fin xs) a b = Exc ValueError.
Proof. intros H. unfold nll. rewrite vxb_low; auto. Qed.
Lemma nll_high xs : (forall x, In x xs -> 0 < x) -> (exists x, In x xs /\ 1 <= x) -> nll (map Fin xs) a b = Exc ValueError.
Proof. intros P H. unfold nll. rewrite vxb_high; auto. Qed.
Lemma nll_bad xs : (exists x, In x xs /\ (x <= 0 \/ 1 <= x)) -> nll (map Fin xs) a b = Exc ValueError.
Proof.
  intros [x [I H]].
  destruct (Classical_Prop.classic (exists x, In x xs /\ x <= 0)) as [E|E]; [apply nll_low; auto|].
  assert (P : forall x, In x xs -> 0 < x). { intros y J. destruct (Rlt_le_dec 0 y); auto. exfalso. eauto. }
  apply nll_high; auto. exists x. split; auto. destruct H; auto. pose proof (P x I). lra.
Qed.
(** ** moments *)
Lemma KSB : subst 0 1 0 1 (fun x => Rpower x a) (fun x => a * Rpower x (a - 1)) (fun y => Rpower y (1 / a)).
Proof.
  assert (I : forall x k, 0 < k -> inside 0 1 x -> inside 0 1 (Rpower x k)) by (intros x k K [A B]; simpl in *; split; simpl; [apply Rpower_pos|apply Rpower_lt_1; lra]).
  assert (0 < 1 / a) by (apply Rdiv_pos; lra). constructor.
  - simpl; lra.
  - intros x X. apply I; auto.
  - intros x [X _]. simpl in X. apply is_derive_Rpower; lra.
  - intros x [X _]. simpl in X. apply ex_derive_cont. unfold Rpower. auto_derive. lra.
  - intros y Y. split; [apply I; auto|]. destruct Y as [Y _]. simpl in Y. rewrite Rpower_inv by lra. reflexivity.
Qed.
Definition Mn (n : nat) : R := b * Beta (1 + INR n / a) b.
Lemma mom_int n : integrates_to (fun z => z ^ n * f z) 0 1 (Mn n).
Proof.
  pose proof (pos_INR n). assert (P : 0 < 1 + INR n / a) by (assert (0 <= INR n / a) by (apply Rdiv_le_0_compat; lra); lra).
  pose proof (Bi (1 + INR n / a) b P Hb) as I.
  assert (C : forall y, inside 0 1 y -> continuous (fun u => b * beta_kernel (1 + INR n / a) b u) y).
  { intros y Y. apply (continuous_scal_r b (beta_kernel (1 + INR n / a) b)). apply (if_cont _ _ _ _ _ I); auto. }
  assert (INC : forall x, inside 0 1 x -> 0 < a * Rpower x (a - 1)) by (intros x _; apply Rmult_lt_0_compat; [auto|apply Rpower_pos]).
  pose proof (sub_integral KSB INC (fun u => b * beta_kernel (1 + INR n / a) b u) (Mn n) C (integrates_scal _ _ _ _ _ (if_integral I))) as J.
  revert J. apply integrates_ext; [simpl; lra|]. intros x [X _]. simpl in X. unfold beta_kernel, f, W.
  replace (Rpower (Rpower x a) (1 + INR n / a - 1)) with (x ^ n); [ring|].
  rewrite Rpower_mult, <- Rpower_pow by auto. f_equal. field. lra.
Qed.
Lemma Mn0 : Mn 0 = 1.
Proof. unfold Mn. simpl INR. replace (1 + 0 / a) with 1 by (field; lra). rewrite Beta_sym, Beta_1 by auto. field. lra. Qed.
Lemma lt01' : Rbar_lt 0 1. Proof. simpl; lra. Qed.
Lemma pdf_in' x : inside 0 1 x -> pdf x a b = Fin (f x). Proof. intros [H1 H2]. simpl in *. apply pdf_fin; lra. Qed.
Notation RAW lem N := (lem 0 1 (fun x => pdf x a b) f Mn N%nat lt01' pdf_in' (fun n _ => mom_int n)).
Lemma vB n : 0 <= n -> vbeta (Fin (1 + n / a)) (Fin b) = Fin (Beta (1 + n / a) b).
Proof. intros N. assert (0 <= n / a) by (apply Rdiv_le_0_compat; lra). unfold vbeta. rewrite !Rltb_true by lra. reflexivity. Qed.
Lemma mean_val : mean vbeta a b = Fin (Mn 1).
Proof. unfold mean, validate. veval. rewrite vB by lra. reflexivity. Qed.
Lemma mean_ok : mean_is (fun x => pdf x a b) 0 1 (mean vbeta a b).
Proof. apply (RAW raw_mean_is 1); auto. apply mean_val. Qed.
Lemma var_val : var vbeta a b = Fin (mvar Mn).
Proof. unfold var. rewrite mean_val. unfold validate. veval. rewrite vB by lra. cbn [vpown vmul vneg vadd vsub]. f_equal. Qed.
Lemma var_ok : var_is (fun x => pdf x a b) 0 1 (mean vbeta a b) (var vbeta a b).
Proof. apply (RAW raw_var_is 2); auto; [apply Mn0|apply mean_val|apply var_val]. Qed.
Lemma mvar_p : 0 < mvar Mn.
Proof.
  apply (sq_pos_int 0 1 f (Mn 1) (mvar Mn) lt01'); [intros x X; split; [apply f_cont; auto|apply f_pos]|].
  pose proof (RAW raw_central2 2 Mn0 (le_n 2)) as C. revert C. apply (integrates_ext 0 1 lt01').
  intros x X. rewrite pdf_in' by auto. reflexivity.
Qed.
Lemma moment_ok n : moment_is (fun x => pdf x a b) 0 1 n (noncentral_moment vbeta n a b).
Proof.
  apply (RAW raw_moment_is n); auto. unfold noncentral_moment, validate. destruct n as [|n]; cbn [Nat.eqb].
  - veval. f_equal. symmetry. apply Mn0.
  - pose proof (pos_INR (S n)) as P. unfold Mn. set (q := INR (S n)) in *. veval. rewrite vB by lra. reflexivity.
Qed.
Lemma skew_ok : skewness_is (fun x => pdf x a b) 0 1 (skewness vbeta a b).
Proof.
  pose proof mvar_p as V. assert (SV : 0 < sqrt (mvar Mn)) by (apply sqrt_lt_R0; auto).
  apply (RAW raw_skewness_is 3); auto; [apply Mn0|]. unfold skewness. rewrite mean_val, var_val.
  destruct (moment_ok 3) as [r [E I]]. assert (R3 : r = Mn 3).
  { apply (integrates_unique 0 1 lt01' (fun t => t ^ 3 * toR (pdf (Fin t) a b))); auto. eapply (integrates_ext 0 1 lt01'); [|apply mom_int]. intros x X. rewrite pdf_in' by auto. reflexivity. }
  rewrite E, R3. unfold validate. assert (RP : Rpower (mvar Mn) (3 / 2) = mvar Mn * sqrt (mvar Mn)).
  { rewrite <- Rpower_sqrt by auto. rewrite <- (Rpower_1 (mvar Mn)) at 2 by auto. rewrite <- Rpower_plus. f_equal. field. }
  pose proof (Rpower_pos (mvar Mn) (3 / 2)). veval. f_equal. rewrite RP. f_equal. unfold mcen3, mvar. ring.
Qed.
(** With U = X^a, which is Beta(1, b): log f = log (a b) + (a-1)/a log U + (b-1) log (1-U). *)
Lemma ent_int : integrates_to (fun z => - (f z * ln (f z))) 0 1
  (- (ln a + ln b) * 1 + (- ((a - 1) / a) * (digamma 1 - digamma (1 + b)) + - (b - 1) * (digamma b - digamma (1 + b)))).
Proof.
  pose proof (integrates_plus _ _ _ _ _ _ (integrates_scal _ _ (- (ln a + ln b)) _ _ (b_mass 1 b Rlt_0_1 Hb)) (integrates_plus _ _ _ _ _ _ (integrates_scal _ _ (- ((a - 1) / a)) _ _ (b_ln 1 b Rlt_0_1 Hb)) (integrates_scal _ _ (- (b - 1)) _ _ (b_ln1 1 b Rlt_0_1 Hb)))) as I.
  assert (INC : forall x, inside 0 1 x -> 0 < a * Rpower x (a - 1)) by (intros x _; apply Rmult_lt_0_compat; [auto|apply Rpower_pos]).
  assert (C : forall y, inside 0 1 y -> continuous (fun z => - (ln a + ln b) * bf 1 b z + (- ((a - 1) / a) * (ln z * bf 1 b z) + - (b - 1) * (ln (1 - z) * bf 1 b z))) y).
  { intros y [Y1 Y2]. simpl in *. apply ex_derive_cont. unfold bf, beta_kernel, Rpower. auto_derive. repeat split; lra. }
  pose proof (sub_integral KSB INC _ _ C I) as J. revert J. apply integrates_ext; [simpl; lra|].
  intros x [X1 X2]. simpl in *. assert (X3 : 0 < Rpower x a < 1) by (split; [apply Rpower_pos|apply Rpower_lt_1; lra]).
  assert (E : f x = a * Rpower x (a - 1) * bf 1 b (Rpower x a)).
  { unfold bf, beta_kernel. rewrite Beta_sym, Beta_1 by auto. replace (1 - 1) with 0 by ring. rewrite Rpower_O by lra. unfold f, W. field. lra. }
  assert (L : ln (f x) = ln a + ln b + (a - 1) * ln x + (b - 1) * ln (1 - Rpower x a)).
  { unfold f, W. rewrite !ln_mult by (repeat apply Rmult_lt_0_compat; auto; apply Rpower_pos). rewrite !ln_Rpower. ring. }
  rewrite L, E, ln_Rpower. field. lra.
Qed.
Lemma entropy_ok g : euler_constant g -> entropy_is (fun x => pdf x a b) 0 1 (entropy vdigamma (Fin g) a b).
Proof.
  intros G. apply euler_eq in G. exists ((1 - 1 / b) + (1 - 1 / a) * (digamma (b + 1) + g) - ln a - ln b). split.
  - unfold entropy, validate. veval. rewrite (vdig (b + 1)) by lra. veval. reflexivity.
  - apply (integrates_ext 0 1 lt01' (fun z => - (f z * ln (f z)))); [intros x X; rewrite (pdf_in' x X); reflexivity|].
    replace (_ - ln a - ln b) with (- (ln a + ln b) * 1 + (- ((a - 1) / a) * (digamma 1 - digamma (1 + b)) + - (b - 1) * (digamma b - digamma (1 + b)))); [apply ent_int|].
    rewrite G. rewrite (Rplus_comm 1 b), digamma_succ by lra. field. lra.
Qed.
End P.
(** Where a shape is 1 the density is positive at the end of the support but logpdf is nan. *)
Lemma log_end0 b : 0 < b -> pdf 0 1 b = Fin b /\ logpdf 0 1 b = NaN.
Proof.
  intros B. unfold pdf, logpdf, validate. split.
  - veval. replace (1 - 1) with 0 by ring. veval. replace (- (0 - 1)) with 1 by ring. veval. rewrite Rpower_1_l. f_equal. ring.
  - veval. replace (1 - 1) with 0 by ring. veval. reflexivity.
Qed.
Lemma log_end1 a : 0 < a -> pdf 1 a 1 = Fin a /\ logpdf 1 a 1 = NaN.
Proof.
  intros B. unfold pdf, logpdf, validate. split.
  - veval. rewrite !Rpower_1_l. replace (- (1 - 1)) with 0 by ring. replace (1 - 1) with 0 by ring. veval. f_equal. ring.
  - veval. rewrite !Rpower_1_l. replace (1 - 1) with 0 by ring. replace (1 + - (1)) with 0 by ring. veval. reflexivity.
Qed.
Lemma bad_params beta digamma euler a b : isnum a -> isnum b -> nonpositive a \/ nonpositive b ->
  always_ValueError [ fun x => pdf x a b; fun x => logpdf x a b; fun x => cdf x a b; fun x => sf x a b;
    fun p => invcdf p a b; fun p => invsf p a b; fun _ => median a b; fun _ => mode a b; fun _ => mean beta a b; fun _ => var beta a b;
    fun _ => skewness beta a b; fun _ => entropy digamma euler a b ] /\
  (forall n, noncentral_moment beta n a b = Exc ValueError) /\ forall xs, (forall x, In x xs -> 0 < x < 1) -> nll (map Fin xs) a b = Exc ValueError.
Proof.
  intros N1 N2 H.
  assert (G : forall A (CR : CanRaise A) (k : A), validate a b k = raise ValueError).
  { intros A CR k. unfold validate.
    replace (cor (cle a (Fin 0)) (cle b (Fin 0))) with (CB true); [reflexivity|].
    assert (D : forall v, isnum v -> cle v (Fin 0) = CB true \/ cle v (Fin 0) = CB false).
    { intros v V. inversion V as [w E| ]; [inversion E as [r| | ]|]; try (left; ccond); try (right; ccond).
      destruct (Rle_lt_dec r 0); [left|right]; ccond. }
    destruct H as [H|H].
    - replace (cle a (Fin 0)) with (CB true) by (inversion H; subst; symmetry; ccond). reflexivity.
    - replace (cle b (Fin 0)) with (CB true) by (inversion H; subst; symmetry; ccond). destruct (D a N1) as [-> | ->]; reflexivity. }
  unfold pdf, logpdf, cdf, sf, invcdf, invsf, median, mode, mean, var, skewness, entropy, noncentral_moment, nll.
  split; [all_ve; intros x Hx; apply G|]. split; [intros; apply G|].
  intros. rewrite vxb_pass by (intros x I; pose proof (H0 x I); simpl; auto). apply G.
Qed.
Lemma mle_b_opt xs (a : R) : xs <> [] -> 0 < a -> (forall x, In x xs -> 0 < x < 1) ->
  exists b, mle_b (map Fin xs) a = Ok (Fin a, Fin b) /\
  minimises (fun b => 0 < b) (fun b => nll (map Fin xs) a (Fin b)) b.
Proof.
  intros N A X. pose proof (length_pos xs N) as LN. set (n := INR (length xs)) in *.
  assert (WX : forall x, In x xs -> 0 < 1 - Rpower x a < 1).
  { intros x I. pose proof (W01 a A x (X x I)) as H. exact H. }
  set (T := rsum (map (fun x => - ln (1 - Rpower x a)) xs)).
  assert (TP : 0 < T). { apply rsum_pos; auto. intros x I. pose proof (ln_neg _ (WX x I)). lra. }
  assert (TN : rsum (map (fun x => ln (1 - Rpower x a)) xs) = - T).
  { unfold T. rewrite <- (Rmult_1_l (rsum (map (fun x => - _) xs))). rewrite <- (Ropp_involutive (rsum _)). f_equal.
    transitivity (-1 * rsum (map (fun x => ln (1 - Rpower x a)) xs)); [ring|]. rewrite Rmult_1_l, <- rsum_scal. f_equal. apply map_ext. intros; ring. }
  exists (n / T). split.
  - unfold mle_b, validate. rewrite vxb_pass by (intros x I; pose proof (X x I); simpl; auto). vif.
    rewrite map_map. rewrite (vfsum_map _ (fun x => ln (1 - Rpower x a)) xs).
    + rewrite TN. unfold vlen. rewrite map_length. fold n. varith. cbn [bindv]. replace (- n / - T) with (n / T) by (field; lra). reflexivity.
    + intros x I. pose proof (X x I). pose proof (WX x I). veval. f_equal.
  - split; [apply Rdiv_pos; auto|].
    set (K := rsum (map (fun x => ln a + (a - 1) * ln x - ln (1 - Rpower x a)) xs)).
    assert (NL : forall b : R, 0 < b -> nll (map Fin xs) a b = Fin ((n * ln (/ b) + T / (/ b)) - K)).
    { intros d D. rewrite nll_ok by auto.
      rewrite (loglik_fin _ (fun x => (ln a + (a - 1) * ln x - ln (1 - Rpower x a)) + (ln d - d * (- ln (1 - Rpower x a))))).
      - change (vneg (Fin ?x)) with (Fin (- x)). f_equal.
        rewrite (rsum_plus (fun x => ln a + (a - 1) * ln x - ln (1 - Rpower x a)) (fun x => ln d - d * (- ln (1 - Rpower x a)))).
        fold K. rewrite rsum_minus, rsum_const, rsum_scal. fold T. fold n. rewrite ln_Rinv by auto. field. lra.
      - intros x I. pose proof (X x I) as XP. pose proof (WX x I). unfold logpdf, validate. veval. f_equal. ring. }
    eexists. split; [apply NL; apply Rdiv_pos; auto|]. intros d D. eexists. split; [apply NL; auto|].
    apply Rplus_le_compat_r. pose proof (scale_opt n T (/ d) LN TP (Rinv_0_lt_compat _ D)) as O.
    replace (/ (n / T)) with (T / n) by (field; lra). replace (T / (T / n)) with n by (field; lra). exact O.
Qed.
