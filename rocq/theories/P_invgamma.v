(** Proofs about M_invgamma. *)
From Coq Require Import Reals Lra Lia List ZArith.
From Coquelicot Require Import Coquelicot.
From Verif Require Import Values VTac Spec RLib LimLib DistLib DistLS IntLib SubLib MomLib LSMom PLib DiscLib M_common SpecStat SpecEst SpecNewton SpecLS
  SFun GammaLib GammaLib2 GammaLib3 M_sfun P_sfun M_newton P_newton.
From Verif Require Import M_invgamma.
Import ListNotations.
Local Open Scope R_scope.
Set Bullet Behavior "Strict Subproofs".

Definition phi (z : R) := / z.
Definition dphi (z : R) := - / z ^ 2.
Lemma SB : subst 0 p_infty 0 p_infty phi dphi phi.
Proof.
  constructor.
  - exact I.
  - intros x [H _]. simpl in H. split; simpl; auto. unfold phi. apply Rinv_0_lt_compat. lra.
  - intros x [H _]. simpl in H. unfold phi, dphi. auto_derive; [lra|]. field. lra.
  - intros x [H _]. simpl in H. apply ex_derive_cont. unfold dphi. auto_derive. nra.
  - intros y [H _]. simpl in H. split.
    + split; simpl; auto. unfold phi. apply Rinv_0_lt_compat; auto.
    + unfold phi. apply Rinv_inv.
Qed.
Lemma DEC x : inside 0 p_infty x -> dphi x < 0.
Proof. intros [H _]. simpl in H. unfold dphi. assert (0 < x ^ 2) by (apply pow_lt; auto). assert (0 < / x ^ 2) by (apply Rinv_0_lt_compat; auto). lra. Qed.
Lemma validate_bad {A} `{CanRaise A} a l s (c : A) : isnum a -> isnum s -> nonpositive a \/ nonpositive s -> validate_params a l s c = raise ValueError.
Proof.
  intros NA NS B. change (validate_params a l s c) with (validate_positive a (validate_positive s c)).
  destruct B as [B|B]; [apply vp_bad; auto|]. apply vp_pass; auto. apply vp_bad; auto.
Qed.

Ltac start := unfold pdf, logpdf, cdf, sf, support, mode, mean, var, skewness, kurtosis, entropy, validate_params, validate_p.
Section P.
Variables a l s : R.
Hypothesis HA : 0 < a.
Hypothesis HS : 0 < s.
Definition F (z : R) := 1 - lower_gamma a (phi z) / Gamma a.
Definition f (z : R) := gamma_kernel a (phi z) / Gamma a * - dphi z.
Definition Q (p : R) := phi (inverse_fn 0 p_infty (lower_gamma a) ((1 - p) * Gamma a)).
Lemma ST : std 0 p_infty F f Q.
Proof. apply (sub_std_dec SB DEC _ _ _ (std_of_if _ _ _ _ _ (Gamma_if a HA))). Qed.
Lemma f_ln z : 0 < z -> f z = exp (- loggamma a - (a + 1) * ln z - / z).
Proof.
  intros H. unfold f, gamma_kernel, phi, dphi, loggamma, Rpower. pose proof (Gamma_pos a HA) as G.
  rewrite ln_Rinv by auto. rewrite !exp_minus, (exp_Ropp (ln _)), (exp_ln (Gamma a)) by auto.
  replace ((a - 1) * - ln z) with (- ((a + 1) * ln z) + (ln z + ln z)) by ring. rewrite !exp_plus, exp_ln by auto.
  rewrite !exp_Ropp. pose proof (exp_pos ((a + 1) * ln z)). pose proof (exp_pos (/ z)). field. lra.
Qed.
Lemma f_up x y : 0 < x -> x <= y -> y <= / (a + 1) -> f x <= f y.
Proof.
  intros X L Y. rewrite !f_ln by lra. apply exp_le_compat.
  assert (K : ln (y / x) <= y / x - 1) by (apply ln_ineq, Rdiv_pos; lra). rewrite ln_div in K by lra.
  assert (E : y * (a + 1) <= 1).
  { apply (Rmult_le_compat_r (a + 1)) in Y; [|lra]. rewrite Rinv_l in Y by lra. auto. }
  assert ((a + 1) * (y / x - 1) <= / x - / y); [|nra].
  replace (/ x - / y) with ((y - x) * / x * / y) by (field; lra). replace ((a + 1) * (y / x - 1)) with ((y - x) * / x * / y * (y * (a + 1))) by (field; lra).
  assert (0 <= (y - x) * / x * / y); [|nra]. apply Rmult_le_pos; [apply Rmult_le_pos; [lra|]|]; left; apply Rinv_0_lt_compat; lra.
Qed.
Lemma f_down x y : / (a + 1) <= x -> x <= y -> f y <= f x.
Proof.
  intros X L. assert (0 < / (a + 1)) by (apply Rinv_0_lt_compat; lra). rewrite !f_ln by lra. apply exp_le_compat.
  assert (K : ln (x / y) <= x / y - 1) by (apply ln_ineq, Rdiv_pos; lra). rewrite ln_div in K by lra.
  assert (E : 1 <= x * (a + 1)).
  { apply (Rmult_le_compat_r (a + 1)) in X; [|lra]. rewrite Rinv_l in X by lra. auto. }
  assert (/ x - / y <= (a + 1) * (1 - x / y)); [|nra].
  replace (/ x - / y) with ((y - x) * / x * / y) by (field; lra). replace ((a + 1) * (1 - x / y)) with ((y - x) * / x * / y * (x * (a + 1))) by (field; lra).
  assert (0 <= (y - x) * / x * / y); [|nra]. apply Rmult_le_pos; [apply Rmult_le_pos; [lra|]|]; left; apply Rinv_0_lt_compat; lra.
Qed.
Lemma z_pos x : l < x -> 0 < (x - l) / s. Proof. intros. apply Rdiv_pos; lra. Qed.
Lemma z_pos' x : 0 < (x - l) / s -> l < x.
Proof. intros H. assert (0 < (x - l) / s * s) by nra. unfold Rdiv in H0. rewrite Rmult_assoc, Rinv_l in H0 by lra. lra. Qed.
Lemma vlg : vloggamma (Fin a) = Fin (loggamma a).
Proof. unfold vloggamma. rewrite Rltb_true by auto. reflexivity. Qed.
Lemma pdf_fin (x : R) : l < x -> pdf x a l s = Fin (f ((x - l) / s) / s) /\ logpdf x a l s = Fin (ln (f ((x - l) / s) / s)).
Proof.
  intros H. pose proof (z_pos x H) as Z. rewrite f_ln by auto.
  assert (E : exp (- loggamma a - (a + 1) * ln ((x - l) / s) - / ((x - l) / s)) / s =
    exp (- ln s - loggamma a - (a + 1) * ln ((x - l) / s) - 1 / ((x - l) / s))).
  { generalize ((x - l) / s). intros w. replace (1 / w) with (/ w) by (unfold Rdiv; ring). unfold Rdiv. rewrite <- (exp_ln (/ s)) by pos. rewrite <- exp_plus. f_equal. rewrite (ln_Rinv s) by lra. ring. }
  rewrite E, ln_exp. start. veval. rewrite vlg. veval. auto.
Qed.
Lemma CERT : cert (fun x => pdf x a l s) (fun x => logpdf x a l s) (fun x => cdf x a l s) (fun x => sf x a l s)
  (fun p => ideal_cdf Q p l s) (fun p => ideal_sf Q p l s) l p_infty (fun x => F ((x - l) / s)) (fun x => f ((x - l) / s) / s) (fun p => l + s * Q p).
Proof.
  pose proof (Gamma_pos a HA) as G. apply (ls_cert 0 p_infty F f Q ST l s HS); auto.
  - simpl. f_equal. ring.
  - constructor.
    + intros x [H _]. simpl in H. pose proof (z_pos x H). assert (0 < 1 / ((x - l) / s)) by pos. start. veval. unfold vgammainc_upper, vgammainc_lower.
      rewrite (Rltb_true 0 a), (Reqb_false _ 0), (Rltb_true 0 (1 / ((x - l) / s))) by lra. rewrite upper_gamma_eq by auto.
      unfold F, phi. replace (1 / ((x - l) / s)) with (/ ((x - l) / s)) by (generalize ((x - l) / s); intros w; unfold Rdiv; ring). split; f_equal; field; lra.
    + intros x H. simpl in H. start. veval. auto.
    + intros x [].
    + start. veval. auto.
    + start. veval. unfold vgammainc_upper, vgammainc_lower. rewrite (Rltb_true 0 a), (Reqb_true 0 0) by lra. auto.
  - intros x [H _]. simpl in H. apply pdf_fin. apply z_pos'; auto.
  - intros x [H|[]]. simpl in H. start. veval. auto.
Qed.
Lemma log_all (x : R) : log_of (fun x => pdf x a l s) (fun x => logpdf x a l s) x.
Proof.
  revert x. apply (cert_log_ends CERT); intros x E; [|discriminate]. injection E as E; subst x.
  right; left. start. veval. auto.
Qed.
Lemma mode_fin : mode a l s = Fin (l + s * / (a + 1)).
Proof. start. veval. auto. Qed.
Lemma mode_in : 0 < / (a + 1). Proof. apply Rinv_0_lt_compat. lra. Qed.
Lemma mode_ok : is_mode (fun x => pdf x a l s) (mode a l s).
Proof.
  pose proof mode_in as MI. rewrite mode_fin. eexists _, _. split; [reflexivity|].
  split; [apply pdf_fin; nra|]. replace ((l + s * / (a + 1) - l) / s) with (/ (a + 1)) by (field; lra).
  intros x. destruct (Rle_lt_dec x l) as [H|H].
  - exists 0. split; [start; veval; auto|]. left. apply Rdiv_pos; auto. rewrite f_ln by auto. apply exp_pos.
  - eexists. split; [apply pdf_fin; auto|]. apply Rmult_le_compat_r; [left; apply Rinv_0_lt_compat; auto|].
    pose proof (z_pos x H). destruct (Rle_dec ((x - l) / s) (/ (a + 1))); [apply f_up|apply f_down]; lra.
Qed.
(** C26 *)
Lemma zmono x y : x <= y -> (x - l) / s <= (y - l) / s.
Proof. intros H. unfold Rdiv. apply Rmult_le_compat_r; [left; apply Rinv_0_lt_compat; auto|lra]. Qed.
Lemma zm : (l + s * / (a + 1) - l) / s = / (a + 1). Proof. field. lra. Qed.
Lemma newton_ok (p : R) (prec : Z) : 0 < p < 1 -> exists m, mode a l s = Fin m /\
  newton_monotone (fun x => cdf x a l s) (fun x => pdf x a l s) l m p prec (fun fuel => invcdf prec fuel p a l s) /\
  newton_monotone (fun x => cdf x a l s) (fun x => pdf x a l s) l m (1 - p) prec (fun fuel => invsf prec fuel p a l s).
Proof.
  intros Hp. exists (l + s * / (a + 1)). split; [apply mode_fin|].
  pose proof mode_in as MI. assert (IS : 0 < / s) by (apply Rinv_0_lt_compat; auto).
  assert (LM : l < l + s * / (a + 1)) by nra.
  assert (UP : forall x y : R, l < x -> x <= y -> y <= l + s * / (a + 1) -> f ((x - l) / s) / s <= f ((y - l) / s) / s).
  { intros x y X L Y. apply Rmult_le_compat_r; [lra|]. apply f_up; [apply z_pos; auto|apply zmono; auto|rewrite <- zm; apply zmono; auto]. }
  assert (DOWN : forall x y : R, l + s * / (a + 1) <= x -> x <= y -> f ((y - l) / s) / s <= f ((x - l) / s) / s).
  { intros x y X L. apply Rmult_le_compat_r; [lra|]. apply f_down; [rewrite <- zm; apply zmono; auto|apply zmono; auto]. }
  split.
  - apply (newton_cert CERT _ LM UP DOWN p prec (fun x0 => vadd x0 (vdiv (vsub (Fin p) (cdf x0 a l s)) (pdf x0 a l s)))); auto.
    + intros x d Hx -> _ -> Hd. veval. reflexivity.
    + intros fuel. unfold invcdf. rewrite mode_fin. unfold validate_params, validate_p. veval. reflexivity.
  - apply (newton_cert CERT _ LM UP DOWN (1 - p) prec (fun x0 => vsub x0 (vdiv (vsub (Fin p) (sf x0 a l s)) (pdf x0 a l s)))); [lra|..].
    + intros x d Hx _ -> -> Hd. veval. f_equal. field. lra.
    + intros fuel. unfold invsf. rewrite mode_fin. unfold validate_params, validate_p. veval. reflexivity.
Qed.
Lemma ends prec fuel : rejects_bad_p (fun p => invcdf prec fuel p a l s) /\ rejects_bad_p (fun p => invsf prec fuel p a l s) /\
  at_ends (fun p => invcdf prec fuel p a l s) (Fin l) PInf /\ at_ends (fun p => invsf prec fuel p a l s) PInf (Fin l).
Proof.
  unfold invcdf, invsf, validate_params, validate_p. split; [|split; [|split]].
  - split; [intros p [H'|H']|split]; veval; reflexivity.
  - split; [intros p [H'|H']|split]; veval; reflexivity.
  - unfold at_ends. veval. auto.
  - unfold at_ends. veval. auto.
Qed.
(** Moments: E Z^n = Gamma(a - n) / Gamma(a). *)
Definition Mn (n : nat) := Gamma (a - INR n) / Gamma a.
Lemma mom_int n : INR n < a -> integrates_to (fun z => z ^ n * f z) 0 p_infty (Mn n).
Proof.
  intros H. pose proof (Gamma_pos a HA) as G.
  apply (integrates_ext 0 p_infty I (fun z => (/ Gamma a * gamma_kernel (a - INR n) (phi z)) * - dphi z)).
  - intros z [Z _]. simpl in Z. unfold f. replace (gamma_kernel a (phi z)) with (Rpower (phi z) (INR n) * gamma_kernel (a - INR n) (phi z)).
    + assert (P : Rpower (phi z) (INR n) = / z ^ n).
      { unfold phi. rewrite Rpower_pow by pos. symmetry. apply Rinv_pow_depr. lra. }
      rewrite P. assert (0 < z ^ n) by (apply pow_lt; auto). field. lra.
    + rewrite <- gk_shift. f_equal. ring.
  - unfold Mn, Rdiv. rewrite Rmult_comm. apply (sub_integral_dec SB DEC (fun y => / Gamma a * gamma_kernel (a - INR n) y)).
    + intros y [Y _]. simpl in Y. apply (continuous_mult (fun _ => / Gamma a)); [apply continuous_const|apply gk_cont; auto].
    + apply integrates_scal. apply Gamma_int. lra.
Qed.
Lemma gdown x : 0 < x -> Gamma x = Gamma (x + 1) / x.
Proof. intros H. rewrite Gamma_succ by auto. field. lra. Qed.
Lemma Mn0 : Mn 0 = 1.
Proof. unfold Mn. simpl. rewrite Rminus_0_r. pose proof (Gamma_pos a HA). field. lra. Qed.
Lemma MnS n : INR n + 1 < a -> Mn (S n) = Mn n / (a - INR n - 1).
Proof.
  intros H. unfold Mn. rewrite S_INR. pose proof (Gamma_pos a HA). rewrite (gdown (a - (INR n + 1))) by lra.
  replace (a - (INR n + 1) + 1) with (a - INR n) by ring. field. lra.
Qed.
Lemma Mn1 : 1 < a -> Mn 1 = / (a - 1).
Proof. intros H. rewrite MnS, Mn0 by (simpl; lra). simpl. field. lra. Qed.
Lemma Mn2 : 2 < a -> Mn 2 = / ((a - 1) * (a - 2)).
Proof. intros H. rewrite MnS, Mn1 by (simpl; lra). simpl. field. lra. Qed.
Lemma Mn3 : 3 < a -> Mn 3 = / ((a - 1) * (a - 2) * (a - 3)).
Proof. intros H. rewrite MnS, Mn2 by (simpl; lra). simpl. field. lra. Qed.
Lemma Mn4 : 4 < a -> Mn 4 = / ((a - 1) * (a - 2) * (a - 3) * (a - 4)).
Proof. intros H. rewrite MnS, Mn3 by (simpl; lra). simpl. field. lra. Qed.
Lemma mvar_eq : 2 < a -> mvar Mn = / ((a - 1) ^ 2 * (a - 2)).
Proof. intros H. unfold mvar. rewrite Mn1, Mn2 by lra. field. lra. Qed.
Lemma elo : Finite l = ls l s 0. Proof. simpl. f_equal. ring. Qed.
Lemma pdf_in x : inside l p_infty x -> pdf (Fin x) a l s = Fin (f ((x - l) / s) / s).
Proof. intros [H _]. simpl in H. apply pdf_fin; auto. Qed.
Lemma mom_le N : INR N < a -> forall n, (n <= N)%nat -> integrates_to (fun z => z ^ n * f z) 0 p_infty (Mn n).
Proof. intros H n L. apply mom_int. apply le_INR in L. lra. Qed.
Notation LSM lem N H := (lem 0 p_infty F f Q ST l s (fun x => pdf x a l s) (Finite l) p_infty HS elo eq_refl pdf_in Mn N%nat (mom_le N H)).
Lemma mean_ok : 1 < a -> mean_is (fun x => pdf x a l s) l p_infty (mean a l s).
Proof.
  intros H. assert (H' : INR 1 < a) by (simpl; lra). apply (LSM lsm_mean 1 H'); auto. start. veval. f_equal. rewrite Mn1 by auto. auto.
Qed.
Lemma var_ok : 2 < a -> var_is (fun x => pdf x a l s) l p_infty (mean a l s) (var a l s).
Proof.
  intros H. assert (H' : INR 2 < a) by (simpl; lra). assert (0 < (a - 1) ^ 2) by (apply pow_lt; lra).
  apply (LSM lsm_var 2 H'); auto; start; veval; f_equal.
  - rewrite Mn1 by lra. auto.
  - rewrite mvar_eq by auto. field. lra.
Qed.
Lemma skew_ok : 3 < a -> skewness_is (fun x => pdf x a l s) l p_infty (skewness a l s).
Proof.
  intros H. assert (H' : INR 3 < a) by (simpl; lra). assert (0 < (a - 1) ^ 2) by (apply pow_lt; lra).
  assert (SQ : 0 < sqrt (a - 2)) by (apply sqrt_lt_R0; lra).
  apply (LSM lsm_skewness 3 H'); auto; rewrite mvar_eq by lra; [apply Rinv_0_lt_compat; nra|].
  start. veval. f_equal. unfold mcen3. rewrite Mn1, Mn2, Mn3 by lra.
  rewrite sqrt_inv, sqrt_mult, sqrt_pow2 by lra.
  assert (E : a - 2 = sqrt (a - 2) * sqrt (a - 2)) by (rewrite sqrt_sqrt; lra). set (w := sqrt (a - 2)) in *. clearbody w.
  replace a with (w * w + 2) in * by lra. field. nra.
Qed.
Lemma kurt_ok : 4 < a -> kurtosis_is (fun x => pdf x a l s) l p_infty (kurtosis a l s).
Proof.
  intros H. assert (H' : INR 4 < a) by (simpl; lra). assert (0 < (a - 1) ^ 2) by (apply pow_lt; lra).
  apply (LSM lsm_kurtosis 4 H'); auto; rewrite mvar_eq by lra; [apply Rinv_0_lt_compat; nra|].
  start. veval. f_equal. unfold mcen4. rewrite Mn1, Mn2, Mn3, Mn4 by lra. field. lra.
Qed.
Lemma moment_ok n : INR n < a -> moment_is (fun x => pdf x a l s) l p_infty n (noncentral_moment n a l s).
Proof.
  intros H. apply (LSM lsm_moment n H); auto. unfold noncentral_moment, validate_params. veval.
  destruct n as [|n]; [simpl; f_equal; unfold lsM; simpl; rewrite Mn0; unfold Binomial.C; simpl; field|]. simpl Nat.eqb. cbv iota.
  unfold lsM. apply vfsum_seq. intros i Hi. unfold standard_noncentral_moment. destruct i as [|i].
  - simpl Nat.eqb. cbv iota. rewrite Mn0. veval. reflexivity.
  - simpl Nat.eqb. cbv iota. assert (INR (S i) < a) by (apply Rle_lt_trans with (INR (S n)); auto; apply le_INR; lia).
    change (cle (Fin a) (Fin (INR (S i)))) with (CB (Rleb a (INR (S i)))). rewrite Rleb_false by lra. cbn [cif].
    change (vsub (Fin a) (Fin (INR (S i)))) with (Fin (a - INR (S i))). unfold vgamma. rewrite !Rltb_true by lra.
    pose proof (Gamma_pos a HA). rewrite vdiv_Fin by lra. veval. reflexivity.
Qed.
Lemma moments_nan : (a <= 1 -> mean a l s = NaN) /\ (a <= 2 -> var a l s = NaN) /\ (a <= 3 -> skewness a l s = NaN) /\ (a <= 4 -> kurtosis a l s = NaN).
Proof. repeat split; intros H; start; veval; auto. Qed.
Lemma entropy_ok : entropy_is (fun x => pdf x a l s) l p_infty (entropy a l s).
Proof.
  pose proof (Gamma_pos a HA) as G.
  apply (ls_entropy_is 0 p_infty F f Q ST l s (fun x => pdf x a l s) l p_infty HS elo eq_refl pdf_in _ (loggamma a * 1 + (- (a + 1) * digamma a + a))).
  - apply (integrates_ext 0 p_infty I (fun z => (loggamma a * (gamma_kernel a (phi z) / Gamma a) +
      ((- (a + 1)) * (/ Gamma a * lgk 1 a (phi z)) + / Gamma a * gamma_kernel (a + 1) (phi z))) * - dphi z)).
    + intros z [Z _]. simpl in Z. assert (Pz : 0 < phi z) by (unfold phi; pos).
      replace (gamma_kernel (a + 1) (phi z)) with (phi z * gamma_kernel a (phi z)) by (rewrite gk_shift, Rpower_1 by auto; auto).
      replace (ln (f z)) with (- loggamma a - (a + 1) * ln z - / z) by (rewrite f_ln, ln_exp by auto; auto).
      replace (ln z) with (- ln (phi z)) by (unfold phi; rewrite ln_Rinv by auto; ring).
      unfold f, lgk. change (/ z) with (phi z). simpl pow. field. lra.
    + apply (sub_integral_dec SB DEC (fun y => loggamma a * (gamma_kernel a y / Gamma a) + ((- (a + 1)) * (/ Gamma a * lgk 1 a y) + / Gamma a * gamma_kernel (a + 1) y))).
      * intros y [Y _]. simpl in Y. unfold lgk, gamma_kernel, Rpower. apply ex_derive_cont. auto_derive. repeat split; auto; lra.
      * apply integrates_plus; [|apply integrates_plus].
        -- apply integrates_scal. apply (std_mass 0 p_infty I _ _ _ (std_of_if _ _ _ _ _ (Gamma_if a HA))).
        -- apply integrates_scal. rewrite digamma_eq by auto. unfold Rdiv. rewrite Rmult_comm. apply integrates_scal. apply Lg_int; auto.
        -- assert (GE : a = / Gamma a * Gamma (a + 1)) by (rewrite Gamma_succ by auto; field; lra).
           pose proof (integrates_scal 0 p_infty (/ Gamma a) _ _ (Gamma_int (a + 1) ltac:(lra))) as GI. rewrite <- GE in GI. exact GI.
  - start. rewrite vlg. unfold vdigamma. rewrite (Rltb_true 0 a) by auto. veval. f_equal. ring.
Qed.
End P.
Lemma loc_scale (a : R) : 0 < a ->
  loc_scale_law3 (fun x => pdf x a) (fun x => cdf x a) (fun x => sf x a) 0 p_infty.
Proof.
  intros A. apply (loc_scale3_from_cert (fun x => pdf x a) (fun x => logpdf x a) (fun x => cdf x a) (fun x => sf x a) 0 p_infty (F a) (f a) (Q a)).
  intros l s HS. simpl. replace (l + s * 0) with l by ring. apply CERT; auto.
Qed.
Lemma bad_params prec fuel a l s : isnum a -> isnum s -> nonpositive a \/ nonpositive s ->
  support a l s = Err ValueError /\
  always_ValueError [ fun x => pdf x a l s; fun x => logpdf x a l s; fun x => cdf x a l s; fun x => sf x a l s;
    fun p => invcdf prec fuel p a l s; fun p => invsf prec fuel p a l s; fun _ => mean a l s; fun _ => mode a l s; fun _ => var a l s;
    fun _ => skewness a l s; fun _ => kurtosis a l s; fun _ => entropy a l s; fun _ => noncentral_moment 2 a l s ].
Proof.
  intros H1 H2 H3. unfold support, pdf, logpdf, cdf, sf, invcdf, invsf, mean, mode, var, skewness, kurtosis, entropy, noncentral_moment.
  split; [|all_ve; intros x Hx]; rewrite ?validate_bad by auto; reflexivity.
Qed.
