(** Proofs about M_gamma. *)
From Coq Require Import Reals Lra Lia List ZArith.
From Coquelicot Require Import Coquelicot.
From Verif Require Import Values VTac Spec RLib LimLib LLib DistLib DistLS IntLib SubLib MomLib LSMom LSMom2 PLib DiscLib M_common SpecStat SpecEst SpecLS SpecRoot SpecBracket SpecInv
  SFun GammaLib GammaLib2 GammaLib3 GammaLib4 GamLib M_sfun P_sfun M_bracket M_numinv InvLib P_est M_digammainv P_digammainv.
From Verif Require Import M_gamma.
Import ListNotations.
Local Open Scope R_scope.
Set Bullet Behavior "Strict Subproofs".

Lemma validate_bad {A} `{CanRaise A} k s (c : A) : isnum k -> isnum s -> nonpositive k \/ nonpositive s -> validate_k_scale k s c = raise ValueError.
Proof.
  intros NA NS B. change (validate_k_scale k s c) with (validate_positive k (validate_positive s c)).
  destruct B as [B|B]; [apply vp_bad; auto|]. apply vp_pass; auto. apply vp_bad; auto.
Qed.

Ltac start := unfold pdf, logpdf, cdf, sf, support, mode, mean, var, skewness, kurtosis, entropy, validate_k_scale, validate_p.
Section P.
Variables k s : R.
Hypothesis HK : 0 < k.
Hypothesis HS : 0 < s.
Notation F := (gF k). Notation f := (gf k). Notation Q := (gQ k).
Lemma m0 x : x - 0 = x. Proof. ring. Qed.
Lemma z_pos x : 0 < x -> 0 < x / s. Proof. intros. apply Rdiv_pos; lra. Qed.
Lemma z_pos' x : 0 < (x - 0) / s -> 0 < x.
Proof. intros H. assert (0 < (x - 0) / s * s) by nra. unfold Rdiv in H0. rewrite Rmult_assoc, Rinv_l in H0 by lra. lra. Qed.
Lemma pdf_fin (x : R) : 0 < x -> pdf x k s = Fin (f ((x - 0) / s) / s) /\ logpdf x k s = Fin (ln (f ((x - 0) / s) / s)).
Proof.
  intros H. rewrite m0. pose proof (z_pos x H) as Z. pose proof (Gamma_pos k HK) as G. rewrite (gf_ln k HK) by auto.
  assert (E : exp ((k - 1) * ln (x / s) - x / s - loggamma k) / s = exp (- loggamma k - k * ln s + (k - 1) * ln x - x / s)).
  { replace (exp ((k - 1) * ln (x / s) - x / s - loggamma k) / s) with (exp ((k - 1) * ln (x / s) - x / s - loggamma k) * exp (ln (/ s))) by (rewrite exp_ln by pos; auto). rewrite <- exp_plus. f_equal. rewrite ln_div, (ln_Rinv s) by lra. ring. }
  rewrite E, ln_exp. assert (RP : 0 < Rpower s k) by apply exp_pos. start. rewrite (vgam k HK), (vlgam k HK). veval. split; [|reflexivity]. f_equal.
  replace (exp (- loggamma k - k * ln s + (k - 1) * ln x - x / s)) with (exp (- loggamma k) * exp (- (k * ln s)) * exp ((k - 1) * ln x) * exp (- (x / s))) by (rewrite <- !exp_plus; f_equal; ring).
  rewrite !exp_Ropp. unfold loggamma. rewrite exp_ln by auto. unfold Rpower. replace (- x / s) with (- (x / s)) by (field; lra). rewrite exp_Ropp.
  field. repeat split; apply Rgt_not_eq; try apply exp_pos; auto.
Qed.
Lemma CERT : cert (fun x => pdf x k s) (fun x => logpdf x k s) (fun x => cdf x k s) (fun x => sf x k s)
  (fun p => ideal_cdf Q p 0 s) (fun p => ideal_sf Q p 0 s) 0 p_infty (fun x => F ((x - 0) / s)) (fun x => f ((x - 0) / s) / s) (fun p => 0 + s * Q p).
Proof.
  apply (ls_cert 0 p_infty F f Q (gST k HK) 0 s HS); auto.
  - simpl. f_equal. ring.
  - constructor.
    + intros x [H _]. simpl in H. pose proof (z_pos x H). start. veval. rewrite (vgl k), (vgu k), m0 by auto. auto.
    + intros x H. simpl in H. destruct H as [H| ->]; start; veval; auto. replace (0 / s) with 0 by (field; lra). rewrite (vgl0 k), (vgu0 k) by auto. auto.
    + intros x [].
    + start. veval. auto.
    + start. veval. rewrite (vgli k), (vgui k) by auto. auto.
  - intros x [H _]. simpl in H. apply pdf_fin. apply z_pos'; auto.
  - intros x [H|[]]. simpl in H. start. veval. auto.
Qed.
Lemma log_in x : 0 < x -> log_of (fun x => pdf x k s) (fun x => logpdf x k s) x.
Proof. intros H. left. destruct (pdf_fin x H) as [A B]. eexists. split; [|split; [exact A|exact B]]. apply Rdiv_pos; auto. apply gf_pos; auto. Qed.
Lemma log_out x : x < 0 -> log_of (fun x => pdf x k s) (fun x => logpdf x k s) x.
Proof. intros H. right; left. start. veval. auto. Qed.
(** C65 *)
Lemma log_one0 : 1 < k -> pdf 0 k s = Fin 0.
Proof.
  intros H. pose proof (Gamma_pos k HK). assert (RP : 0 < Rpower s k) by apply exp_pos. start. rewrite (vgam k HK). veval.
  f_equal. ring.
Qed.
Lemma log_end : 1 < k -> log_of (fun x => pdf x k s) (fun x => logpdf x k s) 0.
Proof.
  intros H. right; left. split; [apply log_one0; auto|]. pose proof (Gamma_pos k HK). start. rewrite (vlgam k HK). veval.
  auto.
Qed.
Lemma log_one : k = 1 -> pdf 0 k s = Fin (/ s) /\ logpdf 0 k s = NaN.
Proof.
  intros ->. start. rewrite (vgam 1), (vlgam 1) by lra. rewrite Gamma_1. veval. split.
  - rewrite Rpower_1 by auto. varith. f_equal. replace (- 0 / s) with 0 by (field; lra). rewrite exp_0. field. lra.
  - auto.
Qed.
Lemma pdf_le x y : 0 < x -> 0 < y -> f (x / s) <= f (y / s) -> toR (pdf x k s) <= toR (pdf y k s).
Proof. intros X Y H. rewrite (proj1 (pdf_fin x X)), (proj1 (pdf_fin y Y)), !m0. simpl. apply Rmult_le_compat_r; [left; pos|auto]. Qed.
Lemma mode_ok : 1 <= k -> is_mode (fun x => pdf x k s) (mode k s).
Proof.
  intros H. destruct (Req_dec k 1) as [E|E].
  - destruct (log_one E) as [A _]. exists 0, (/ s). split; [start; veval; reflexivity|]. split; auto.
    intros x. destruct (Rtotal_order x 0) as [L|[->|L]].
    + exists 0. split; [start; veval; reflexivity|]. left. pos.
    + exists (/ s). split; auto. lra.
    + eexists. split; [apply pdf_fin; auto|]. rewrite m0, (gf_ln k HK) by (apply z_pos; auto). rewrite <- (Rmult_1_l (/ s)). apply Rmult_le_compat_r; [left; pos|].
      apply Rle_trans with (exp 0); [|rewrite exp_0; lra]. apply exp_le_compat. subst k. unfold loggamma. rewrite Gamma_1, ln_1. pose proof (z_pos x L). lra.
  - assert (K1 : 1 < k) by lra. assert (0 < s * (k - 1)) as MP by nra. exists (s * (k - 1)). eexists. split; [start; veval; reflexivity|]. split; [apply pdf_fin; auto|].
    rewrite m0. replace (s * (k - 1) / s) with (k - 1) by (field; lra). intros x. destruct (Rtotal_order x 0) as [L|[->|L]].
    + exists 0. split; [start; veval; reflexivity|]. left. apply Rdiv_pos; auto. apply gf_pos; auto.
    + exists 0. split; [apply log_one0; lra|left; apply Rdiv_pos; auto; apply gf_pos; auto].
    + eexists. split; [apply pdf_fin; auto|]. rewrite m0. apply Rmult_le_compat_r; [left; pos|]. apply gf_le; auto; [apply z_pos; auto|lra|]. nra.
Qed.
Lemma mode_small : k <= 1 -> mode k s = Fin 0 /\ forall x y : R, 0 < x -> x <= y -> toR (pdf y k s) <= toR (pdf x k s).
Proof.
  intros H. split; [start; veval; reflexivity|]. intros x y X L. apply pdf_le; try lra. apply gf_down; auto; [apply z_pos; auto|pose proof (z_pos x X); lra|]. unfold Rdiv. apply Rmult_le_compat_r; [left; pos|auto].
Qed.
(** C35, C36 *)
Lemma within0 x : inside 0 p_infty x -> within (Fin 0) PInf x.
Proof. intros [H _]. simpl in H. split; simpl; [lra|auto]. Qed.
Lemma invcdf_ok : solves (fun x => cdf x k s) (fun fr fuel p => invcdf fr fuel p k s) 0 p_infty.
Proof.
  apply (solves_ext _ _ (fun fr fuel p => bracket_solve fr fuel (Some 16%nat) (fun x => cdf x k s) p (Fin 0) PInf)).
  - intros fr fuel p P. unfold invcdf, validate_k_scale, validate_p. veval. reflexivity.
  - apply (cert_bracket_cdf CERT); [apply (co_below _ _ _ _ _ (ce_core _ _ _ _ _ _ _ _ _ _ _ CERT) 0); simpl; lra|apply (co_pinf _ _ _ _ _ (ce_core _ _ _ _ _ _ _ _ _ _ _ CERT))|apply within0].
Qed.
Lemma invsf_ok : solves (fun x => sf x k s) (fun fr fuel p => invsf fr fuel p k s) 0 p_infty.
Proof.
  apply (solves_ext _ _ (fun fr fuel p => bracket_solve fr fuel (Some 16%nat) (fun x => sf x k s) p (Fin 0) PInf)).
  - intros fr fuel p P. unfold invsf, validate_k_scale, validate_p. veval. reflexivity.
  - apply (cert_bracket_sf CERT); [apply (co_below _ _ _ _ _ (ce_core _ _ _ _ _ _ _ _ _ _ _ CERT) 0); simpl; lra|apply (co_pinf _ _ _ _ _ (ce_core _ _ _ _ _ _ _ _ _ _ _ CERT))|apply within0].
Qed.
Lemma ends fr fuel : rejects_bad_p (fun p => invcdf fr fuel p k s) /\ rejects_bad_p (fun p => invsf fr fuel p k s) /\
  at_ends (fun p => invcdf fr fuel p k s) (Fin 0) PInf /\ at_ends (fun p => invsf fr fuel p k s) PInf (Fin 0).
Proof.
  unfold invcdf, invsf, validate_k_scale, validate_p. split; [|split; [|split]].
  - split; [intros p [H'|H']|split]; veval; reflexivity.
  - split; [intros p [H'|H']|split]; veval; reflexivity.
  - unfold at_ends. veval. auto.
  - unfold at_ends. veval. auto.
Qed.
(** C43 *)
Lemma elo : Finite 0 = ls 0 s 0. Proof. simpl. f_equal. ring. Qed.
Lemma pdf_in x : inside 0 p_infty x -> pdf (Fin x) k s = Fin (f ((x - 0) / s) / s).
Proof. intros [H _]. simpl in H. apply pdf_fin; auto. Qed.
Definition Mn (n : nat) := gM k (INR n).
Lemma mom_int n : integrates_to (fun z => z ^ n * f z) 0 p_infty (Mn n).
Proof. apply g_momentn; auto. Qed.
Notation LSM lem N := (lem 0 p_infty F f Q (gST k HK) 0 s (fun x => pdf x k s) (Finite 0) p_infty HS elo eq_refl pdf_in Mn N%nat (fun n _ => mom_int n)).
Lemma Mn1 : Mn 1 = k. Proof. unfold Mn. simpl INR. apply gM1; auto. Qed.
Lemma Mn2 : Mn 2 = k * (k + 1). Proof. unfold Mn. simpl INR. replace (1 + 1) with 2 by ring. apply gM2; auto. Qed.
Lemma Mn3 : Mn 3 = k * (k + 1) * (k + 2). Proof. unfold Mn. simpl INR. replace (1 + 1 + 1) with 3 by ring. apply gM3; auto. Qed.
Lemma Mn4 : Mn 4 = k * (k + 1) * (k + 2) * (k + 3). Proof. unfold Mn. simpl INR. replace (1 + 1 + 1 + 1) with 4 by ring. apply gM4; auto. Qed.
Lemma mvar_eq : mvar Mn = k. Proof. unfold mvar. rewrite Mn1, Mn2. ring. Qed.
Lemma mean_ok : mean_is (fun x => pdf x k s) 0 p_infty (mean k s).
Proof. apply (LSM lsm_mean 1); auto. start. veval. f_equal. rewrite Mn1. ring. Qed.
Lemma var_ok : var_is (fun x => pdf x k s) 0 p_infty (mean k s) (var k s).
Proof. apply (LSM lsm_var 2); auto; start; veval; f_equal; rewrite ?Mn1, ?mvar_eq; ring. Qed.
Lemma skew_ok : skewness_is (fun x => pdf x k s) 0 p_infty (skewness k s).
Proof.
  assert (SQ : 0 < sqrt k) by (apply sqrt_lt_R0; lra).
  apply (LSM lsm_skewness 3); auto; rewrite mvar_eq; auto. start. veval. f_equal. unfold mcen3. rewrite Mn1, Mn2, Mn3. field. lra.
Qed.
Lemma kurt_ok : kurtosis_is (fun x => pdf x k s) 0 p_infty (kurtosis k s).
Proof. apply (LSM lsm_kurtosis 4); auto; rewrite mvar_eq; auto. start. veval. f_equal. unfold mcen4. rewrite Mn1, Mn2, Mn3, Mn4. field. lra. Qed.
Lemma moment_ok n : moment_is (fun x => pdf x k s) 0 p_infty n (noncentral_moment n k s).
Proof.
  apply (scale_moment 0 p_infty F f Q (gST k HK) s (fun x => pdf x k s) 0 p_infty HS elo eq_refl pdf_in n (Mn n) _ (mom_int n)).
  unfold noncentral_moment, validate_k_scale. veval. destruct n as [|n].
  - simpl. f_equal. unfold Mn. simpl. rewrite gM_0 by auto. ring.
  - cbn [Nat.eqb]. assert (0 < k + INR (S n)) by (pose proof (pos_INR (S n)); lra). pose proof (Gamma_pos k HK).
    rewrite (vgam k HK), (vgam (k + INR (S n))) by auto. rewrite vdiv_Fin by lra. reflexivity.
Qed.
Lemma entropy_ok : entropy_is (fun x => pdf x k s) 0 p_infty (entropy k s).
Proof.
  apply (ls_entropy_is 0 p_infty F f Q (gST k HK) 0 s (fun x => pdf x k s) 0 p_infty HS elo eq_refl pdf_in _ _ (g_entropy k HK)).
  start. rewrite (vlgam k HK), (vdig k HK). veval. f_equal. ring.
Qed.
End P.

(** C46 *)
Lemma improper_gamma k (x y : R) : 0 < k -> 0 < x < y -> improper (gamma_kernel k) x y = lower_gamma k y - lower_gamma k x.
Proof.
  intros K [X Y]. pose proof (Gamma_if k K) as GI. apply improper_eq; [exact Y|].
  assert (IN : forall z, inside x y z -> inside 0 p_infty z) by (intros z [Z _]; simpl in Z; split; simpl; auto; lra).
  apply (mk_integral (gamma_kernel k) (lower_gamma k)).
  - exact Y.
  - intros z Z. apply (if_der _ _ _ _ _ GI). auto.
  - intros z Z. apply (if_cont _ _ _ _ _ GI). auto.
  - simpl. apply flim_right. apply ex_derive_cont. exists (gamma_kernel k x). apply (if_der _ _ _ _ _ GI). split; simpl; auto.
  - simpl. apply flim_left. apply ex_derive_cont. exists (gamma_kernel k y). apply (if_der _ _ _ _ _ GI). split; simpl; auto. lra.
Qed.
Lemma interval_ok (k s x y : R) : 0 < k -> 0 < s -> 0 <= x <= y -> exists c d, cdf x k s = Fin c /\ cdf y k s = Fin d /\ interval_prob x y k s = Fin (d - c).
Proof.
  intros K S [X Y]. unfold cdf, interval_prob, validate_k_scale. veval.
  assert (IS : 0 < / s) by (apply Rinv_0_lt_compat; auto). unfold vgammainc2.
  destruct (Req_dec x y) as [<-|N].
  - rewrite Reqb_true by auto. destruct X as [X|<-].
    + assert (0 < x / s) by pos. rewrite (vgl k) by auto. eexists _, _. split; [reflexivity|]. split; [reflexivity|]. f_equal. ring.
    + replace (0 / s) with 0 by (field; lra). rewrite (vgl0 k) by auto. eexists _, _. split; [reflexivity|]. split; [reflexivity|]. f_equal. ring.
  - assert (L : x / s < y / s) by (unfold Rdiv; apply Rmult_lt_compat_r; lra). assert (0 <= x / s) by (unfold Rdiv; nra).
    rewrite Reqb_false, Rleb_true by lra. rewrite (vgl k K (y / s)) by lra. destruct X as [X|<-].
    + assert (0 < x / s) by pos. rewrite (vgl k) by auto. eexists _, _. split; [reflexivity|]. split; [reflexivity|]. f_equal. rewrite improper_gamma by lra. unfold gF. pose proof (Gamma_pos k K). field. lra.
    + replace (0 / s) with 0 in * by (field; lra). rewrite (vgl0 k) by auto. eexists _, _. split; [reflexivity|]. split; [reflexivity|]. f_equal. unfold gF. change (improper (gamma_kernel k) 0 (y / s)) with (lower_gamma k (y / s)). ring.
Qed.
Lemma interval_inf (k s x : R) : 0 < k -> 0 < s -> 0 <= x -> exists c, cdf x k s = Fin c /\ interval_prob x PInf k s = Fin (1 - c).
Proof.
  intros K S X. pose proof (Gamma_pos k K). unfold cdf, interval_prob, validate_k_scale. veval.
  assert (IS : 0 < / s) by (apply Rinv_0_lt_compat; auto). unfold vgammainc2. assert (0 <= x / s) by (unfold Rdiv; nra). rewrite Rleb_true by auto.
  destruct X as [X|<-].
  - assert (0 < x / s) by pos. rewrite (vgl k) by auto. eexists. split; [reflexivity|]. f_equal. change (improper (gamma_kernel k) (x / s) p_infty) with (upper_gamma k (x / s)). rewrite upper_gamma_eq by auto. unfold gF. field. lra.
  - replace (0 / s) with 0 in * by (field; lra). rewrite (vgl0 k) by auto. eexists. split; [reflexivity|]. f_equal. change (improper (gamma_kernel k) 0 p_infty) with (Gamma k). field. lra.
Qed.
Lemma interval_neg : cdf (Fin (-1)) (Fin 1) (Fin 1) = Fin 0 /\ exists r, interval_prob (Fin (-1)) (Fin 1) (Fin 1) (Fin 1) = Fin r /\ 2 < r.
Proof.
  split.
  - unfold cdf, validate_k_scale. veval. reflexivity.
  - unfold interval_prob, validate_k_scale. veval. unfold vgammainc2. rewrite Reqb_false, Rleb_false, Reqb_true by lra. eexists. split; [reflexivity|].
    replace (- (-1 / 1)) with 1 by field. replace (- (1 / 1)) with (-1) by field. 
    assert (E : 1 + 1 + 1 / 2 < exp 1).
    { pose proof (exp_ge_taylor 1 3) as T. simpl in T. specialize (T ltac:(lra)). unfold sum_f_R0 in T. simpl in T. lra. }
    assert (exp 1 * exp (-1) = 1) by (rewrite <- exp_plus; replace (1 + -1) with 0 by ring; apply exp_0). pose proof (exp_pos (-1)). nra.
Qed.
(** C49 *)
Definition rlogpdf (k s x : R) := - loggamma k - k * ln s + (k - 1) * ln x - x / s.
Lemma logpdf_fin k s x : 0 < k -> 0 < s -> 0 < x -> logpdf (Fin x) (Fin k) (Fin s) = Fin (rlogpdf k s x).
Proof. intros K S X. unfold logpdf, validate_k_scale. rewrite (vlgam k K). veval. reflexivity. Qed.
Definition rnll (xs : list R) (k s : R) := - ((k - 1) * rsum (map ln xs) - rsum xs / s - INR (length xs) * k * ln s - INR (length xs) * loggamma k).
Lemma xb_pass {A} `{CanRaise A} xs (c : A) : (forall x, In x xs -> 0 < x) -> validate_x_bounds (map Fin xs) (Some (Fin 0)) (Some PInf) false true c = c.
Proof.
  intros H0. unfold validate_x_bounds.
  assert (E : cany (fun t => clt t (Fin 0)) (map Fin xs) = CB false).
  { induction xs as [|x xs IH]; [reflexivity|]. simpl. rewrite (Rltb_false x 0) by (specialize (H0 x (or_introl eq_refl)); lra). apply IH. intros y Y. apply H0. right; auto. }
  assert (E' : cany (fun t => cge t PInf) (map Fin xs) = CB false) by (induction xs as [|x xs IH]; [reflexivity|]; simpl; apply IH; [intros y Y; apply H0; right; auto|simpl in E; destruct (Rltb x 0); [discriminate|exact E]]).
  rewrite E, E'. reflexivity.
Qed.
Lemma vlogs xs : (forall x, In x xs -> 0 < x) -> vfsum (map vlog (map Fin xs)) = Fin (rsum (map ln xs)).
Proof. intros H. rewrite map_map. apply vfsum_map. intros x I. apply vlog_Fin; auto. Qed.
Lemma nll_fin xs k s : 0 < k -> 0 < s -> (forall x, In x xs -> 0 < x) -> nll (map Fin xs) (Fin k) (Fin s) = Fin (rnll xs k s).
Proof.
  intros K S H. unfold nll, validate_k_scale. rewrite (vlgam k K). rewrite xb_pass by auto. rewrite vlogs by auto. rewrite vfsum_Fin. unfold vlen. rewrite map_length. veval. reflexivity.
Qed.
Lemma nll_ok k s xs : 0 < k -> 0 < s -> (forall x, In x xs -> 0 < x) -> nll (map Fin xs) (Fin k) (Fin s) = vneg (loglik (fun x => logpdf x (Fin k) (Fin s)) xs).
Proof.
  intros K S H. rewrite nll_fin by auto. rewrite (loglik_fin _ (rlogpdf k s)) by (intros; apply logpdf_fin; auto). simpl. f_equal. unfold rnll. f_equal.
  change sum with rsum. unfold rlogpdf. rewrite rsum_minus, rsum_plus, rsum_scal, rsum_div, rsum_const, map_id_R. ring.
Qed.
Lemma nll_bad k s xs : 0 < k -> 0 < s -> (exists x, In x xs /\ x < 0) -> nll (map Fin xs) (Fin k) (Fin s) = Exc ValueError.
Proof.
  intros K S [x [I L]]. unfold nll, validate_k_scale. veval. unfold validate_x_bounds.
  assert (E : cany (fun t => clt t (Fin 0)) (map Fin xs) = CB true).
  { induction xs as [|y xs IH]; [destruct I|]. simpl. destruct (Rltb_spec y 0) as [[L' ->]|[L' ->]]; auto. destruct I as [->|I]; [lra|auto]. }
  rewrite E. reflexivity.
Qed.
(** C50 *)
Lemma toR_near (g : R -> val) (h : R -> R) x l : 0 < x -> (forall t, 0 < t -> g t = Fin (h t)) -> is_derive h x l -> is_derive (fun t => toR (g t)) x l.
Proof.
  intros X E. apply is_derive_ext_loc. exists (mkposreal x X). intros y Hy. unfold ball in Hy; simpl in Hy; unfold AbsRing_ball, abs, minus, plus, opp in Hy; simpl in Hy.
  apply Rabs_def2 in Hy. rewrite E by lra. reflexivity.
Qed.
Section Grad.
Variables (k s : R) (xs : list R).
Hypothesis HK : 0 < k.
Hypothesis HS : 0 < s.
Hypothesis HX : forall x, In x xs -> 0 < x.
Notation N := (INR (length xs)).
Lemma gk_fin a b : 0 < a -> 0 < b -> nll_grad_k (map Fin xs) (Fin a) (Fin b) = Fin (- (rsum (map ln xs) - N * ln b - N * digamma a)).
Proof. intros K S. unfold nll_grad_k, validate_k_scale. rewrite (vdig a K), vlogs by auto. unfold vlen. rewrite map_length. veval. reflexivity. Qed.
Lemma gs_fin a b : 0 < a -> 0 < b -> nll_grad_scale (map Fin xs) (Fin a) (Fin b) = Fin (- (rsum xs / b ^ 2 - N * a / b)).
Proof. intros K S. assert (0 < b ^ 2) by (apply pow_lt; auto). unfold nll_grad_scale, validate_k_scale. rewrite vfsum_Fin. unfold vlen. rewrite map_length. veval. reflexivity. Qed.
Lemma grad_ok : exists g1 g2, nll_grad_k (map Fin xs) (Fin k) (Fin s) = Fin g1 /\ nll_grad_scale (map Fin xs) (Fin k) (Fin s) = Fin g2 /\
  is_derive (fun t => toR (nll (map Fin xs) (Fin t) (Fin s))) k g1 /\ is_derive (fun t => toR (nll (map Fin xs) (Fin k) (Fin t))) s g2.
Proof.
  eexists _, _. split; [apply gk_fin; auto|]. split; [apply gs_fin; auto|]. split.
  - apply (toR_near _ (fun t => rnll xs t s)); auto; [intros; apply nll_fin; auto|]. unfold rnll.
    set (a := rsum (map ln xs)). set (b := rsum xs). set (n := N).
    apply (is_derive_ext (fun t => (- ((t - 1) * a - b / s - n * t * ln s)) + n * loggamma t)); [intros t; simpl; ring|].
    evar_last; [apply (is_derive_plus (fun t => - ((t - 1) * a - b / s - n * t * ln s)) (fun t => n * loggamma t)); [auto_derive; [exact I|reflexivity]|apply (is_derive_scal loggamma); apply loggamma_digamma; auto]|].
    unfold plus, scal; simpl. unfold mult; simpl. ring.
  - apply (toR_near _ (fun t => rnll xs k t)); auto; [intros; apply nll_fin; auto|]. unfold rnll. auto_derive; [repeat split; lra|]. field. lra.
Qed.
Lemma hess_ok : exists h11 h12 h22, nll_hess (map Fin xs) (Fin k) (Fin s) = Ok ((Fin h11, Fin h12), (Fin h12, Fin h22)) /\
  is_derive (fun t => toR (nll_grad_k (map Fin xs) (Fin t) (Fin s))) k h11 /\ is_derive (fun t => toR (nll_grad_k (map Fin xs) (Fin k) (Fin t))) s h12 /\
  is_derive (fun t => toR (nll_grad_scale (map Fin xs) (Fin t) (Fin s))) k h12 /\ is_derive (fun t => toR (nll_grad_scale (map Fin xs) (Fin k) (Fin t))) s h22.
Proof.
  assert (0 < s ^ 2) by (apply pow_lt; auto). assert (0 < s ^ 3) by (apply pow_lt; auto).
  exists (- (- N * trigamma k)), (- (- N / s)), (- (-2 * rsum xs / s ^ 3 + N * k / s ^ 2)). split; [|split; [|split; [|split]]].
  - unfold nll_hess, validate_k_scale, dk2, dkdscale, dscale2. rewrite (vtrig k HK), vfsum_Fin. unfold vlen. rewrite map_length. veval. reflexivity.
  - apply (toR_near _ (fun t => - (rsum (map ln xs) - N * ln s - N * digamma t))); auto; [intros; apply gk_fin; auto|].
    apply (is_derive_ext (fun t => N * digamma t + - (rsum (map ln xs) - N * ln s))); [intros t; simpl; ring|].
    evar_last; [apply (is_derive_plus (fun t => N * digamma t) (fun t => - (rsum (map ln xs) - N * ln s))); [apply (is_derive_scal digamma); apply digamma_trigamma; auto|apply is_derive_const]|].
    unfold plus, zero; simpl. ring.
  - apply (toR_near _ (fun t => - (rsum (map ln xs) - N * ln t - N * digamma k))); auto; [intros; apply gk_fin; auto|]. auto_derive; [auto|]. field. lra.
  - apply (toR_near _ (fun t => - (rsum xs / s ^ 2 - N * t / s))); auto; [intros; apply gs_fin; auto|]. auto_derive; [auto|]. field. lra.
  - apply (toR_near _ (fun t => - (rsum xs / t ^ 2 - N * k / t))); auto; [intros; apply gs_fin; auto|]. auto_derive; [repeat split; auto; nra|]. field. lra.
Qed.
Definition hdet := (- N * trigamma k) * (-2 * rsum xs / s ^ 3 + N * k / s ^ 2) - (- N / s) ^ 2.
Lemma hess_fin : nll_hess (map Fin xs) (Fin k) (Fin s) = Ok ((Fin (- (- N * trigamma k)), Fin (- (- N / s))), (Fin (- (- N / s)), Fin (- (-2 * rsum xs / s ^ 3 + N * k / s ^ 2)))).
Proof.
  assert (0 < s ^ 2) by (apply pow_lt; auto). assert (0 < s ^ 3) by (apply pow_lt; auto).
  unfold nll_hess, validate_k_scale, dk2, dkdscale, dscale2. rewrite (vtrig k HK), vfsum_Fin. unfold vlen. rewrite map_length. veval. reflexivity.
Qed.
Definition is_inverse (h11 h12 h22 : R) := exists i11 i12 i22,
  nll_invhess (map Fin xs) (Fin k) (Fin s) = Ok ((Fin i11, Fin i12), (Fin i12, Fin i22)) /\
  i11 * h11 + i12 * h12 = 1 /\ i11 * h12 + i12 * h22 = 0 /\ i12 * h11 + i22 * h12 = 0 /\ i12 * h12 + i22 * h22 = 1.
Lemma invhess_reg : hdet <> 0 -> is_inverse (- (- N * trigamma k)) (- (- N / s)) (- (-2 * rsum xs / s ^ 3 + N * k / s ^ 2)).
Proof.
  intros D. assert (0 < s ^ 2) by (apply pow_lt; auto). assert (0 < s ^ 3) by (apply pow_lt; auto).
  exists (- (-2 * rsum xs / s ^ 3 + N * k / s ^ 2) / hdet), ((- N / s) / hdet), (- (- N * trigamma k) / hdet). split.
  - unfold nll_invhess, validate_k_scale, dk2, dkdscale, dscale2. rewrite (vtrig k HK), vfsum_Fin. unfold vlen. rewrite map_length. unfold hdet in *. veval. reflexivity.
  - revert D. unfold hdet. set (A := - N * trigamma k). set (C := -2 * rsum xs / s ^ 3 + N * k / s ^ 2). set (B := - N / s). intros D.
    repeat split; field; auto.
Qed.
Lemma invhess_singular : hdet = 0 -> nll_invhess (map Fin xs) (Fin k) (Fin s) = Err ZeroDivisionError.
Proof.
  intros D. assert (0 < s ^ 2) by (apply pow_lt; auto). assert (0 < s ^ 3) by (apply pow_lt; auto).
  unfold nll_invhess, validate_k_scale, dk2, dkdscale, dscale2. rewrite (vtrig k HK), vfsum_Fin. unfold vlen. rewrite map_length. veval. fold hdet. rewrite D. cbn [bindv].
  unfold vdiv. rewrite Reqb_true by auto. reflexivity.
Qed.
(** At the scale that maximises the likelihood for the given k the Hessian is invertible. *)
Lemma hdet_mle : xs <> [] -> k * s = average xs -> 0 < hdet.
Proof.
  intros NE E. pose proof (length_pos xs NE) as NP. pose proof (trigamma_gt k HK) as T.
  assert (ES : rsum xs = N * (k * s)) by (rewrite E; unfold average; change (sum xs) with (rsum xs); field; lra).
  unfold hdet. rewrite ES. replace (- N * trigamma k * (-2 * (N * (k * s)) / s ^ 3 + N * k / s ^ 2) - (- N / s) ^ 2) with ((N / s) ^ 2 * (k * trigamma k - 1)) by (field; lra).
  apply Rmult_lt_0_compat; [apply pow_lt; apply Rdiv_pos; auto|]. assert (k * / k = 1) by (field; lra). nra.
Qed.
Lemma invhess_ok : exists h11 h12 h22, nll_hess (map Fin xs) (Fin k) (Fin s) = Ok ((Fin h11, Fin h12), (Fin h12, Fin h22)) /\
  (h11 * h22 - h12 ^ 2 = 0 -> nll_invhess (map Fin xs) (Fin k) (Fin s) = Err ZeroDivisionError) /\
  (h11 * h22 - h12 ^ 2 <> 0 -> exists i11 i12 i22, nll_invhess (map Fin xs) (Fin k) (Fin s) = Ok ((Fin i11, Fin i12), (Fin i12, Fin i22)) /\
    i11 * h11 + i12 * h12 = 1 /\ i11 * h12 + i12 * h22 = 0 /\ i12 * h11 + i22 * h12 = 0 /\ i12 * h12 + i22 * h22 = 1) /\
  (xs <> [] -> k * s = average xs -> 0 < h11 * h22 - h12 ^ 2).
Proof.
  eexists _, _, _. split; [apply hess_fin|]. 
  replace (- (- N * trigamma k) * - (-2 * rsum xs / s ^ 3 + N * k / s ^ 2) - (- (- N / s)) ^ 2) with hdet by (unfold hdet; ring).
  split; [apply invhess_singular|]. split; [apply invhess_reg|apply hdet_mle].
Qed.
End Grad.
(** C48 *)
Lemma avg_pos xs : xs <> [] -> (forall x, In x xs -> 0 < x) -> 0 < average xs.
Proof. intros N H. unfold average. apply Rdiv_pos; [|apply length_pos; auto]. change (sum xs) with (rsum xs). rewrite <- (map_id_R xs). apply rsum_pos; auto. Qed.
Lemma mom_ok xs : (forall x, In x xs -> 0 < x) -> ~ constant xs -> exists k s, mom (map Fin xs) = Ok (Fin k, Fin s) /\ 0 < k /\ 0 < s /\
  reproduces (mean (Fin k) (Fin s)) (var (Fin k) (Fin s)) xs.
Proof.
  intros H C. pose proof (const_nil xs C) as N. pose proof (length_pos xs N) as LN. pose proof (dev_pos xs C) as D. pose proof (avg_pos xs N H) as A.
  set (m := average xs) in *. set (v := sumsq_dev xs / INR (length xs)) in *.
  assert (EV : M_basic.var (map Fin xs) (Fin 0) = Fin v).
  { unfold M_basic.var, vlen. rewrite map_length, vfsum_Fin. rewrite vdiv_Fin by lra. cbn [bindv]. rewrite map_map.
    change (rsum xs / INR (length xs)) with m. rewrite (vfsum_map _ (fun x => (x - m) ^ 2)) by (intros; varith; reflexivity).
    change (vsub (Fin (INR (length xs))) (Fin 0)) with (Fin (INR (length xs) - 0)). rewrite vdiv_Fin by lra. f_equal. unfold v, sumsq_dev. change sum with rsum. fold m. f_equal. ring. }
  assert (0 < m ^ 2) by (apply pow_lt; auto).
  exists (m ^ 2 / v), (v / m). split; [|split; [apply Rdiv_pos; auto|split; [apply Rdiv_pos; auto|]]].
  - unfold mom. rewrite mean_avg0 by auto. fold m. cbn [bindv]. rewrite EV. veval. reflexivity.
  - assert (0 < m ^ 2 / v) by (apply Rdiv_pos; auto). assert (0 < v / m) by (apply Rdiv_pos; auto). unfold reproduces, mean, var, validate_k_scale. veval. fold m v. split; f_equal; field; lra.
Qed.
(** C47 *)
Section Mle.
Variables (xs : list R).
Hypothesis NE : xs <> [].
Hypothesis HX : forall x, In x xs -> 0 < x.
Notation N := (INR (length xs)).
Notation m := (average xs). Notation L := (average (map ln xs)).
Lemma NP : 0 < N. Proof. apply length_pos; auto. Qed.
Lemma MP : 0 < m. Proof. apply avg_pos; auto. Qed.
Lemma rnll_eq k s : rnll xs k s = N * (- (k - 1) * L + m / s + k * ln s + loggamma k).
Proof.
  pose proof NP. unfold rnll, average. rewrite map_length. change sum with rsum. unfold Rdiv. set (i := / s). clearbody i. field. lra.
Qed.
Lemma scale_ineq k s : 0 < k -> 0 < s -> k + k * ln (m / k) <= m / s + k * ln s.
Proof.
  intros K S. pose proof MP as M. assert (U : 0 < m / s / k) by (apply Rdiv_pos; auto; apply Rdiv_pos; auto). pose proof (ln_ineq (m / s / k) U) as I.
  assert (E : ln (m / s / k) = ln (m / k) - ln s).
  { rewrite <- ln_div; auto; [f_equal; field; lra|apply Rdiv_pos; auto]. }
  rewrite E in I. apply (Rmult_le_compat_l k) in I; [|lra]. replace (k * (m / s / k - 1)) with (m / s - k) in I by (field; lra). lra.
Qed.
Lemma means_fin {A} (K : val -> val -> res A) : bindv (vdiv (vfsum (map Fin xs)) (vlen (map Fin xs))) (fun a => bindv (vdiv (vfsum (map vlog (map Fin xs))) (vlen (map Fin xs))) (fun b => K a b)) = K (Fin m) (Fin L).
Proof.
  pose proof NP. rewrite vlogs, vfsum_Fin by auto. unfold vlen. rewrite map_length. rewrite !vdiv_Fin by lra. cbn [bindv].
  unfold average. rewrite map_length. reflexivity.
Qed.
Lemma mle_scale_opt euler fr k : 0 < k -> exists s, mle euler fr (map Fin xs) (Some (Fin k)) None = Ok (Fin k, Fin s) /\
  minimises (fun s => 0 < s) (fun s => nll (map Fin xs) (Fin k) (Fin s)) s.
Proof.
  intros K. pose proof MP as M. exists (m / k). unfold mle. rewrite means_fin. rewrite vdiv_Fin by lra. split; [reflexivity|].
  assert (0 < m / k) by (apply Rdiv_pos; auto). split; auto. eexists. split; [apply nll_fin; auto|]. intros s S. eexists. split; [apply nll_fin; auto|].
  rewrite !rnll_eq. apply Rmult_le_compat_l; [left; apply NP|]. pose proof (scale_ineq k s K S). replace (m / (m / k)) with k by (field; lra). lra.
Qed.
Lemma mle_k_opt euler fr k s : checked_solver fr -> 0 < s -> mle euler fr (map Fin xs) None (Some (Fin s)) = Ok (Fin k, Fin s) ->
  minimises (fun k => 0 < k) (fun k => nll (map Fin xs) (Fin k) (Fin s)) k.
Proof.
  intros CS S. unfold mle. rewrite means_fin. rewrite vlog_Fin by auto. change (vsub (Fin L) (Fin (ln s))) with (Fin (L - ln s)).
  destruct (digammainv euler fr (Fin (L - ln s))) as [x| | | |] eqn:E; cbn [bindv]; try discriminate. intros H. injection H as ->.
  destruct (digammainv_sound _ _ _ _ CS E) as [K D]. split; auto. eexists. split; [apply nll_fin; auto|]. intros b B. eexists. split; [apply nll_fin; auto|].
  rewrite !rnll_eq. apply Rmult_le_compat_l; [left; apply NP|]. pose proof (loggamma_tangent k b K B) as T. rewrite D in T. lra.
Qed.
Lemma step_fin k : 0 < k -> 1 / k - trigamma k < 0 /\ mle_step (Fin (ln m - L)) (Fin k) = Fin (k - (ln k - digamma k - (ln m - L)) / (1 / k - trigamma k)).
Proof.
  intros K. pose proof (trigamma_gt k K) as T. unfold mle_step. rewrite (vdig k K), (vtrig k K), vlog_Fin by auto. rewrite vdiv_Fin by lra.
  assert (NZ : 1 / k - trigamma k < 0) by (unfold Rdiv; lra). split; auto.
  change (vsub (Fin (1 / k)) (Fin (trigamma k))) with (Fin (1 / k - trigamma k)).
  change (vsub (vsub (Fin (ln k)) (Fin (digamma k))) (Fin (ln m - L))) with (Fin (ln k - digamma k - (ln m - L))). rewrite vdiv_Fin by lra. reflexivity.
Qed.
Lemma step_fix k : 0 < k -> (mle_step (Fin (ln m - L)) (Fin k) = Fin k <-> ln k - digamma k = ln m - L).
Proof.
  intros K. destruct (step_fin k K) as [NZ ->]. generalize dependent (1 / k - trigamma k). intros v NZ. split.
  - intros ST. injection ST as ST.
    assert (ln k - digamma k - (ln m - L) = (ln k - digamma k - (ln m - L)) / v * v) by (field; lra).
    assert (Z : (ln k - digamma k - (ln m - L)) / v = 0) by lra. rewrite Z in H. lra.
  - intros ->. f_equal. field. lra.
Qed.
Lemma fix_opt k : 0 < k -> ln k - digamma k = ln m - L ->
  minimises (fun '(k, s) => 0 < k /\ 0 < s) (fun '(k, s) => nll (map Fin xs) (Fin k) (Fin s)) (k, m / k).
Proof.
  intros K D. pose proof MP as M. assert (SP : 0 < m / k) by (apply Rdiv_pos; auto). split; auto. eexists. split; [apply nll_fin; auto|]. intros [b t] [B TP]. eexists. split; [apply nll_fin; auto|].
  rewrite !rnll_eq. apply Rmult_le_compat_l; [left; apply NP|]. pose proof (scale_ineq b t B TP) as I1. pose proof (gdual_tangent k b K B) as I2.
  rewrite ln_div in I1 by auto. replace (m / (m / k)) with k by (field; lra). rewrite (ln_div m k) by auto.
  assert (X : digamma k = ln k - (ln m - L)) by lra. rewrite X in I2. nra.
Qed.
Lemma jensen : ~ constant xs -> L < ln m.
Proof.
  intros NC. pose proof MP as M. pose proof NP as P0.
  assert (T : forall x, 0 < x -> 0 <= x / m - 1 - (ln x - ln m)).
  { intros x X. pose proof (ln_ineq (x / m) (Rdiv_pos _ _ X M)) as I. rewrite ln_div in I by auto. lra. }
  assert (E : rsum (map (fun x => x / m - 1 - (ln x - ln m)) xs) = N * (ln m - L)).
  { rewrite !rsum_minus. rewrite !rsum_const, rsum_div, map_id_R. unfold average. rewrite map_length. change sum with rsum.
    assert (rsum xs <> 0). { intros Z. unfold average in M. change sum with rsum in M. rewrite Z in M. unfold Rdiv in M. rewrite Rmult_0_l in M. lra. }
    field. lra. }
  assert (NN : 0 <= rsum (map (fun x => x / m - 1 - (ln x - ln m)) xs)) by (apply rsum_nonneg; intros; apply T; auto).
  destruct NN as [NN|NN]; [rewrite E in NN; nra|]. exfalso. apply NC. symmetry in NN.
  assert (Z : forall x, In x xs -> x = m).
  { intros x I. pose proof (rsum_nonneg_0 _ _ (fun x I => T x (HX x I)) NN x I) as Z. cbv beta in Z.
    destruct (Req_dec x m) as [|NE']; auto. exfalso. pose proof (HX x I) as X. assert (Q : 0 < x / m) by (apply Rdiv_pos; auto).
    assert (Q1 : x / m <> 1). { intros Q1. apply NE'. replace x with (x / m * m) by (field; lra). rewrite Q1. ring. }
    pose proof (exp_ineq1 (ln (x / m))) as EI. rewrite exp_ln in EI by auto. rewrite <- ln_div in Z by auto.
    assert (ln (x / m) <> 0). { intros L0. apply Q1. rewrite <- (exp_ln (x / m)) by auto. rewrite L0. apply exp_0. }
    specialize (EI H). lra. }
  intros a b A B. rewrite (Z a A), (Z b B). reflexivity.
Qed.
Lemma mle_ret euler fr k s : mle euler fr (map Fin xs) None None = Ok (Fin k, Fin s) -> s = m / k.
Proof.
  pose proof MP as M. intros E.
  unfold mle in E. rewrite means_fin in E. rewrite vlog_Fin in E by auto. change (vsub (Fin (ln m)) (Fin L)) with (Fin (ln m - L)) in E. cbn [bindv] in E.
  revert E. generalize (mle_start (Fin (ln m - L))). intros k0. destruct k0 as [k0| | | |]; cbn [bindv];
      [| | | |discriminate];
      match goal with |- context [mle_loop ?n ?a ?b] => generalize (mle_loop n a b) end; intros k1; (destruct k1 as [k1| | | |]; cbn [bindv]; intros E;
      [| | | |discriminate]; [|destruct (vdiv _ _); discriminate ..]);
      (destruct (Req_dec k1 0) as [->|Z]; [unfold vdiv in E; rewrite Reqb_true in E by auto; discriminate|]; rewrite vdiv_Fin in E by auto; cbn [bindv] in E; injection E as -> <-; reflexivity).
Qed.
Lemma mle_both_opt : ~ constant xs -> exists k, 0 < k /\
  minimises (fun '(k, s) => 0 < k /\ 0 < s) (fun '(k, s) => nll (map Fin xs) (Fin k) (Fin s)) (k, m / k) /\
  (forall k', 0 < k' -> (mle_step (Fin (ln m - L)) (Fin k') = Fin k' <-> k' = k)) /\
  (forall euler fr k' s, mle euler fr (map Fin xs) None None = Ok (Fin k', Fin s) -> s = m / k').
Proof.
  intros NC. pose proof (jensen NC) as J. destruct (lndig_onto (ln m - L) ltac:(lra)) as [k [K E]]. exists k. split; auto. split; [apply fix_opt; auto|]. split.
  - intros k' K'. rewrite step_fix by auto. split; [|intros ->; auto]. intros E'.
    destruct (Rtotal_order k' k) as [A|[A|A]]; auto; apply lndig_decr in A; lra.
  - intros euler fr k' s R. apply (mle_ret euler fr); auto.
Qed.
End Mle.
Lemma bad_params fr fuel k s : isnum k -> isnum s -> nonpositive k \/ nonpositive s ->
  support k s = Err ValueError /\
  always_ValueError [ fun x => pdf x k s; fun x => logpdf x k s; fun x => cdf x k s; fun x => sf x k s;
    fun p => invcdf fr fuel p k s; fun p => invsf fr fuel p k s; fun x => interval_prob x x k s; fun _ => mean k s; fun _ => mode k s; fun _ => var k s;
    fun _ => skewness k s; fun _ => kurtosis k s; fun _ => entropy k s; fun _ => noncentral_moment 2 k s; fun x => nll [x] k s;
    fun x => nll_grad_k [x] k s; fun x => nll_grad_scale [x] k s ].
Proof.
  intros H1 H2 H3. unfold support, pdf, logpdf, cdf, sf, invcdf, invsf, interval_prob, mean, mode, var, skewness, kurtosis, entropy, noncentral_moment, nll, nll_grad_k, nll_grad_scale.
  split; [|all_ve; intros x Hx]; rewrite ?validate_bad by auto; reflexivity.
Qed.
(** The lifted statements. *)
Lemma c47_scale euler fr xs k : xs <> [] -> (forall x, In x xs -> 0 < x) -> 0 < k -> exists s, mle euler fr (map Fin xs) (Some (Fin k)) None = Ok (Fin k, Fin s) /\
  minimises (fun s => 0 < s) (fun s => nll (map Fin xs) (Fin k) (Fin s)) s.
Proof. intros. apply mle_scale_opt; auto. Qed.
Lemma c47_k euler fr xs k s : xs <> [] -> (forall x, In x xs -> 0 < x) -> checked_solver fr -> 0 < s ->
  mle euler fr (map Fin xs) None (Some (Fin s)) = Ok (Fin k, Fin s) ->
  minimises (fun k => 0 < k) (fun k => nll (map Fin xs) (Fin k) (Fin s)) k.
Proof. intros N H C S E. apply (mle_k_opt xs N H euler fr k s); auto. Qed.
Lemma c47_both xs : (forall x, In x xs -> 0 < x) -> ~ constant xs -> exists k, 0 < k /\
  minimises (fun '(k, s) => 0 < k /\ 0 < s) (fun '(k, s) => nll (map Fin xs) (Fin k) (Fin s)) (k, average xs / k) /\
  (forall k', 0 < k' -> (mle_step (Fin (ln (average xs) - average (map ln xs))) (Fin k') = Fin k' <-> k' = k)) /\
  (forall euler fr k' s, mle euler fr (map Fin xs) None None = Ok (Fin k', Fin s) -> s = average xs / k').
Proof. intros H NC. apply mle_both_opt; auto. apply const_nil; auto. Qed.
Lemma c50_grad xs k s : 0 < k -> 0 < s -> (forall x, In x xs -> 0 < x) ->
  exists g1 g2, nll_grad_k (map Fin xs) (Fin k) (Fin s) = Fin g1 /\ nll_grad_scale (map Fin xs) (Fin k) (Fin s) = Fin g2 /\
  is_derive (fun t => toR (nll (map Fin xs) (Fin t) (Fin s))) k g1 /\ is_derive (fun t => toR (nll (map Fin xs) (Fin k) (Fin t))) s g2.
Proof. intros. apply grad_ok; auto. Qed.
Lemma c50_hess xs k s : 0 < k -> 0 < s -> (forall x, In x xs -> 0 < x) ->
  exists h11 h12 h22, nll_hess (map Fin xs) (Fin k) (Fin s) = Ok ((Fin h11, Fin h12), (Fin h12, Fin h22)) /\
  is_derive (fun t => toR (nll_grad_k (map Fin xs) (Fin t) (Fin s))) k h11 /\ is_derive (fun t => toR (nll_grad_k (map Fin xs) (Fin k) (Fin t))) s h12 /\
  is_derive (fun t => toR (nll_grad_scale (map Fin xs) (Fin t) (Fin s))) k h12 /\ is_derive (fun t => toR (nll_grad_scale (map Fin xs) (Fin k) (Fin t))) s h22.
Proof. intros. apply hess_ok; auto. Qed.
Lemma c50_invhess xs k s : 0 < k -> 0 < s ->
  exists h11 h12 h22, nll_hess (map Fin xs) (Fin k) (Fin s) = Ok ((Fin h11, Fin h12), (Fin h12, Fin h22)) /\
  (h11 * h22 - h12 ^ 2 = 0 -> nll_invhess (map Fin xs) (Fin k) (Fin s) = Err ZeroDivisionError) /\
  (h11 * h22 - h12 ^ 2 <> 0 -> exists i11 i12 i22, nll_invhess (map Fin xs) (Fin k) (Fin s) = Ok ((Fin i11, Fin i12), (Fin i12, Fin i22)) /\
    i11 * h11 + i12 * h12 = 1 /\ i11 * h12 + i12 * h22 = 0 /\ i12 * h11 + i22 * h12 = 0 /\ i12 * h12 + i22 * h22 = 1) /\
  (xs <> [] -> k * s = average xs -> 0 < h11 * h22 - h12 ^ 2).
Proof. intros. apply invhess_ok; auto. Qed.
(** A checked solver with which mle(x, scale=...) returns. *)
Lemma mle_k_case : exists fr k, checked_solver fr /\ 0 < k /\ mle (Fin 1) fr (map Fin [1; 1]) None (Some (Fin 1)) = Ok (Fin k, Fin 1).
Proof.
  destruct (onto 0) as [k [K E]].
  exists (fun func _ => match func (Fin k) with Fin v => if Reqb v 0 then Fin k else NaN | _ => NaN end), k. split; [|split; auto].
  - intros func x0 x1 r. destruct (func (Fin k)) as [v| | | |] eqn:EQ; try discriminate. destruct (Reqb_spec v 0) as [[L ->]|[L ->]]; try discriminate. intros H. injection H as <-. rewrite EQ, L. reflexivity.
  - unfold mle. rewrite means_fin; [|discriminate|simpl; intros x [<-|[<-|[]]]; lra]. rewrite vlog_Fin by lra. rewrite ln_1.
    replace (average (map ln [1; 1])) with 0 by (unfold average; simpl; rewrite ln_1; field). change (vsub (Fin 0) (Fin 0)) with (Fin (0 - 0)). rewrite Rminus_0_r.
    unfold digammainv. change (cgt (Fin 0) (Fin (-1/8))) with (CB (Rltb (-1/8) 0)). rewrite Rltb_true by lra. cbn [cif]. change (vadd (vexp (Fin 0)) (Fin (1/2))) with (Fin (exp 0 + 1/2)). cbn [bindv].
    rewrite (vdig k K), E. change (vsub (Fin 0) (Fin 0)) with (Fin (0 - 0)). cbv iota beta. rewrite Reqb_true by ring. reflexivity.
Qed.
