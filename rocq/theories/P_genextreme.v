(** Proofs about M_genextreme. *)
From Coq Require Import Reals Lra Lia List.
From Coquelicot Require Import Coquelicot.
From Verif Require M_gumbel_max.
From Verif Require Import Values VTac Spec SpecTop SFun RLib DistLib DistLS LimLib IntLib SubLib MomLib LSMom LLib DiscLib PLib GammaLib GamLib EulerLib SpecEuler VarPos WeibLib M_common M_sfun M_fun.
From Verif Require Import M_genextreme.
Import ListNotations.
Local Open Scope R_scope.
Set Bullet Behavior "Strict Subproofs".

Section Std.
Variable xi : R.
Notation lo := (gev_lo xi 0 1).
Notation hi := (gev_hi xi 0 1).
Definition T (z : R) := if Req_EM_T xi 0 then exp (- z) else Rpower (1 + xi * z) (-1 / xi).
Definition psi (t : R) := if Req_EM_T xi 0 then - ln t else (Rpower t (- xi) - 1) / xi.
Definition F (z : R) := exp (- T z).
Definition f (z : R) := Rpower (T z) (xi + 1) * exp (- T z).
Definition Q (p : R) := psi (- ln p).
Lemma in_iff z : inside lo hi z <-> 0 < 1 + xi * z.
Proof.
  unfold inside, gev_lo, gev_hi. destruct (Rlt_dec 0 xi) as [X|X], (Rlt_dec xi 0) as [Y|Y]; simpl; try lra.
  - assert (E : xi * (0 - 1 / xi) = -1) by (field; lra). split; [intros [H _]; nra|intros H; split; auto; nra].
  - assert (E : xi * (0 - 1 / xi) = -1) by (field; lra). split; [intros [_ H]; nra|intros H; split; auto; nra].
  - assert (E : xi = 0) by lra. rewrite E. split; [lra|auto].
Qed.
Lemma T_pos z : 0 < T z.
Proof. unfold T. destruct (Req_EM_T xi 0); [apply exp_pos|apply Rpower_pos]. Qed.
Lemma T_der z : 0 < 1 + xi * z -> is_derive T z (- Rpower (T z) (xi + 1)).
Proof.
  intros Y. unfold T. destruct (Req_EM_T xi 0) as [E|E].
  - rewrite E, Rplus_0_l, Rpower_1 by apply exp_pos. auto_derive; auto. ring.
  - evar_last.
    + apply (is_derive_comp (fun w => Rpower w (-1 / xi)) (fun z => 1 + xi * z)); [apply is_derive_Rpower; auto|]. auto_derive; auto.
    + unfold scal; simpl; unfold mult; simpl. rewrite Rpower_mult. replace (-1 / xi * (xi + 1)) with (-1 / xi - 1) by (field; auto). field. auto.
Qed.
Lemma psi_T t : 0 < t -> 0 < 1 + xi * psi t /\ T (psi t) = t.
Proof.
  intros P. unfold T, psi. destruct (Req_EM_T xi 0) as [E|E].
  - rewrite E, Ropp_involutive, exp_ln by auto. split; lra.
  - assert (Y : 1 + xi * ((Rpower t (- xi) - 1) / xi) = Rpower t (- xi)) by (field; auto). rewrite Y, Rpower_mult.
    replace (- xi * (-1 / xi)) with 1 by (field; auto). rewrite Rpower_1 by auto. split; [apply Rpower_pos|auto].
Qed.
Lemma T_psi z : 0 < 1 + xi * z -> psi (T z) = z.
Proof.
  intros Y. unfold T, psi. destruct (Req_EM_T xi 0) as [E|E]; [rewrite ln_exp; ring|].
  rewrite Rpower_mult. replace (-1 / xi * - xi) with 1 by (field; auto). rewrite Rpower_1 by auto. field. auto.
Qed.
Lemma SB : subst lo hi 0 p_infty T (fun z => - Rpower (T z) (xi + 1)) psi.
Proof.
  constructor; [exact I|..].
  - intros z _. split; [apply T_pos|exact I].
  - intros z H. apply T_der, in_iff; auto.
  - intros z H. apply in_iff in H. apply ex_derive_cont. eexists. apply (is_derive_opp (fun z => Rpower (T z) (xi + 1))).
    apply (is_derive_comp (fun w => Rpower w (xi + 1)) T); [apply is_derive_Rpower, T_pos|apply T_der; auto].
  - intros t [H _]. simpl in H. rewrite in_iff. apply psi_T; auto.
Qed.
Lemma DEC z : inside lo hi z -> - Rpower (T z) (xi + 1) < 0.
Proof. intros _. pose proof (Rpower_pos (T z) (xi + 1)). lra. Qed.
Lemma LT : Rbar_lt lo hi. Proof. exact (sb_lt' SB). Qed.
Lemma f_pos z : 0 < f z. Proof. apply Rmult_lt_0_compat; [apply Rpower_pos|apply exp_pos]. Qed.
Lemma f_cont z : 0 < 1 + xi * z -> continuous f z.
Proof.
  intros Y. apply ex_derive_cont. unfold f. apply (ex_derive_mult (fun z => Rpower (T z) (xi + 1)) (fun z => exp (- T z))).
  - eexists. apply (is_derive_comp (fun w => Rpower w (xi + 1)) T); [apply is_derive_Rpower, T_pos|apply T_der; auto].
  - eexists. apply (is_derive_comp (fun w => exp (- w)) T); [auto_derive; auto; reflexivity|apply T_der; auto].
Qed.
Lemma ST : std lo hi F f Q.
Proof.
  constructor.
  - constructor.
    + apply LT.
    + intros z _. unfold F. pose proof (T_pos z). pose proof (exp_pos (- T z)). pose proof (exp_lt_1 (- T z) ltac:(lra)). lra.
    + intros z H. apply in_iff in H. unfold F. evar_last; [apply (is_derive_comp (fun w => exp (- w)) T); [auto_derive; auto; reflexivity|apply T_der; auto]|].
      unfold scal; simpl; unfold mult; simpl. unfold f. ring.
    + intros z _. apply f_pos.
  - intros z H. apply f_cont, in_iff; auto.
  - intros p P. rewrite in_iff. unfold Q, F. pose proof (ln_neg p ltac:(lra)). destruct (psi_T (- ln p) ltac:(lra)) as [H1 H2]. split; auto.
    rewrite H2, Ropp_involutive, exp_ln; lra.
Qed.
Lemma mT r : -1 < r -> integrates_to (fun z => Rpower (T z) r * f z) lo hi (Gamma (1 + r)).
Proof.
  intros P. apply (integrates_ext lo hi LT (fun z => gamma_kernel (1 + r) (T z) * - - Rpower (T z) (xi + 1))).
  - intros z _. unfold gamma_kernel, f. replace (1 + r - 1) with r by ring. ring.
  - apply (sub_integral_dec SB DEC (gamma_kernel (1 + r))); [intros y [H _]; apply gk_cont; auto|]. apply Gamma_int. lra.
Qed.
Lemma gf1 t : gf 1 t = exp (- t).
Proof. unfold gf, gamma_kernel. rewrite Gamma_1. replace (1 - 1) with 0 by ring. destruct (Rlt_le_dec 0 t) as [H|H]; [rewrite Rpower_O by auto; field|]. unfold Rpower. rewrite Rmult_0_l, exp_0. field. Qed.
Lemma lnT : integrates_to (fun z => ln (T z) * f z) lo hi (digamma 1).
Proof.
  apply (integrates_ext lo hi LT (fun z => (ln (T z) * gf 1 (T z)) * - - Rpower (T z) (xi + 1))).
  - intros z _. rewrite gf1. unfold f. ring.
  - apply (sub_integral_dec SB DEC (fun t => ln t * gf 1 t)); [|apply g_ln; lra]. intros y [H _]. simpl in H.
    apply (continuous_ext (fun t => ln t * exp (- t))); [intros; rewrite gf1; auto|]. apply ex_derive_cont. auto_derive. auto.
Qed.
Definition M (n : nat) := nsum (fun k => Binomial.C n k * (-1) ^ k * Gamma (1 - xi * INR k)) (S n) / (- xi) ^ n.
Lemma mom n : xi <> 0 -> INR n * xi < 1 -> integrates_to (fun z => z ^ n * f z) lo hi (M n).
Proof.
  intros E N. unfold M, Rdiv. rewrite Rmult_comm.
  apply (integrates_ext lo hi LT (fun z => / (- xi) ^ n * nsum (fun k => Binomial.C n k * (-1) ^ k * (Rpower (T z) (- xi * INR k) * f z)) (S n))).
  - intros z H. apply in_iff in H. cbv beta. replace (z ^ n) with (psi (T z) ^ n) by (rewrite T_psi; auto). unfold psi. destruct (Req_EM_T xi 0); [contradiction|].
    set (u := Rpower (T z) (- xi)). replace ((u - 1) / xi) with ((- u + 1) / - xi) by (field; auto).
    unfold Rdiv. rewrite Rpow_mult_distr, binom_C, pow_inv. rewrite (Rmult_comm _ (/ (- xi) ^ n)), Rmult_assoc. f_equal. rewrite (Rmult_comm _ (f z)), <- nsum_scal.
    apply nsum_ext. intros k K. rewrite pow1. replace ((- u) ^ k) with ((-1) ^ k * u ^ k) by (rewrite <- Rpow_mult_distr; f_equal; ring).
    replace (Rpower (T z) (- xi * INR k)) with (u ^ k); [ring|]. unfold u. rewrite <- Rpower_mult, Rpower_pow; auto. apply Rpower_pos.
  - apply integrates_scal. apply (integrates_nsum lo hi LT (fun k z => Binomial.C n k * (-1) ^ k * (Rpower (T z) (- xi * INR k) * f z)) (fun k => Binomial.C n k * (-1) ^ k * Gamma (1 - xi * INR k))); [|lia].
    intros k K. apply integrates_scal. replace (1 - xi * INR k) with (1 + (- xi * INR k)) by ring. apply mT.
    pose proof (pos_INR k). assert (INR k <= INR n) by (apply le_INR; lia). destruct (Rlt_le_dec 0 xi); nra.
Qed.
Lemma mom1_0 : xi = 0 -> integrates_to (fun z => z * f z) lo hi (- digamma 1).
Proof.
  intros E. replace (- digamma 1) with ((-1) * digamma 1) by ring.
  apply (integrates_ext lo hi LT (fun z => (-1) * (ln (T z) * f z))); [|apply integrates_scal, lnT].
  intros z H. unfold T at 1. destruct (Req_EM_T xi 0); [|contradiction]. rewrite ln_exp. ring.
Qed.
Lemma mom2_0 : xi = 0 -> integrates_to (fun z => z ^ 2 * f z) lo hi (PI ^ 2 / 6 + digamma 1 ^ 2).
Proof.
  intros E. assert (EL : lo = m_infty) by (unfold gev_lo; destruct (Rlt_dec 0 xi); [lra|auto]). assert (EH : hi = p_infty) by (unfold gev_hi; destruct (Rlt_dec xi 0); [lra|auto]). rewrite EL, EH.
  apply (integrates_ext m_infty p_infty I (fun z => z ^ 2 * uf z)); [|exact u_2]. intros z _. f_equal. unfold f, uf, T. destruct (Req_EM_T xi 0); [|contradiction]. rewrite E, Rplus_0_l, Rpower_1 by apply exp_pos. rewrite Ropp_plus_distr, exp_plus. auto.
Qed.
Lemma ln_f z : ln (f z) = (xi + 1) * ln (T z) - T z.
Proof. unfold f. rewrite ln_mult, ln_Rpower, ln_exp; [ring|apply Rpower_pos|apply exp_pos]. Qed.
Lemma ent : integrates_to (fun z => - (f z * ln (f z))) lo hi (1 + (xi + 1) * - digamma 1).
Proof.
  replace (1 + (xi + 1) * - digamma 1) with (Gamma (1 + 1) + (- (xi + 1)) * digamma 1) by (replace (1 + 1) with (INR 1 + 1) by (simpl; ring); rewrite Gamma_fact; simpl; ring).
  apply (integrates_ext lo hi LT (fun z => Rpower (T z) 1 * f z + (- (xi + 1)) * (ln (T z) * f z))).
  - intros z _. rewrite ln_f, Rpower_1 by apply T_pos. ring.
  - apply (integrates_plus lo hi (fun z => Rpower (T z) 1 * f z)); [apply mT; lra|apply integrates_scal, lnT].
Qed.
Lemma f_max z : -1 < xi -> f z <= Rpower (1 + xi) (xi + 1) * exp (- (1 + xi)).
Proof.
  intros X. pose proof (gf_le (xi + 2) ltac:(lra) (T z) (1 + xi) (T_pos z) ltac:(lra)) as H. replace (xi + 2 - 1 - (1 + xi)) with 0 in H by ring. rewrite Rmult_0_r in H. specialize (H ltac:(lra)).
  unfold gf, Rdiv in H. apply Rmult_le_reg_r in H; [|apply Rinv_0_lt_compat, Gamma_pos; lra]. unfold gamma_kernel in H. replace (xi + 2 - 1) with (xi + 1) in H by ring. exact H.
Qed.
Lemma M0 : xi <> 0 -> M 0 = 1.
Proof. intros E. unfold M. cbn [nsum]. simpl. rewrite Rmult_0_r, Rminus_0_r, Gamma_1. unfold Binomial.C. simpl. field. Qed.
End Std.

Lemma ceq_t a b : a = b -> ceq (Fin a) (Fin b) = CB true. Proof. intros ->. simpl. rewrite Reqb_true; auto. Qed.
Section P.
Variables xi l s : R.
Hypothesis Hs : 0 < s.
Lemma vld {A} `{CanRaise A} (k : A) : validate (Fin xi) (Fin l) (Fin s) k = k.
Proof. unfold validate, validate_positive. veval. reflexivity. Qed.
Lemma lo_eq : gev_lo xi l s = ls l s (gev_lo xi 0 1).
Proof. unfold gev_lo. destruct (Rlt_dec 0 xi); simpl; auto. f_equal. field. lra. Qed.
Lemma hi_eq : gev_hi xi l s = ls l s (gev_hi xi 0 1).
Proof. unfold gev_hi. destruct (Rlt_dec xi 0); simpl; auto. f_equal. field. lra. Qed.
Lemma in_z x : inside (gev_lo xi l s) (gev_hi xi l s) x <-> 0 < 1 + xi * ((x - l) / s).
Proof. rewrite hi_eq, lo_eq. rewrite ls_inside by auto. apply in_iff. Qed.
Lemma Tval (z : R) : 0 < 1 + xi * z -> cif (Fin xi <>? Fin 0)%V (vpow (Fin 1 + Fin z * Fin xi) (Fin (-1) / Fin xi))%V (vexp (- Fin z))%V = Fin (T xi z).
Proof.
  intros Y. unfold T. destruct (Req_EM_T xi 0) as [E|E].
  - rewrite E. veval. reflexivity.
  - assert (Y' : 0 < 1 + z * xi) by lra. veval. rewrite (Rmult_comm z xi). reflexivity.
Qed.
Lemma branch {A} (x : R) (b c : A) (w : bool) : 0 < 1 + xi * ((x - l) / s) \/ xi = 0 -> forall k : A, forall cc : CanRaise A,
  cif (Fin xi <>? Fin 0)%V (cif ((Fin xi >? Fin 0) && (Fin x <=? (Fin l - Fin s / Fin xi)))%V b
    (cif ((Fin xi <? Fin 0) && (if w then (Fin x >? (Fin l - Fin s / Fin xi)) else (Fin x >=? (Fin l - Fin s / Fin xi))))%V c k)) k = k.
Proof.
  intros Y k cc. destruct (Req_dec xi 0) as [E|E]; [rewrite E; vif; reflexivity|]. destruct Y as [Y|Y]; [|contradiction].
  assert (V : (Fin l - Fin s / Fin xi)%V = Fin (l - s / xi)) by (veval; reflexivity). rewrite V.
  assert (K : xi * ((x - l) / s) * s = xi * (x - l)) by (field; lra). assert (K2 : xi * (s / xi) = s) by (field; auto).
  assert (D : (0 < xi /\ l - s / xi < x) \/ (xi < 0 /\ x < l - s / xi)) by (destruct (Rlt_le_dec 0 xi); [left|right]; (split; [lra|]); nra).
  destruct D as [[D1 D2]|[D1 D2]]; destruct w; vif; reflexivity.
Qed.
Lemma vals (x : R) : 0 < 1 + xi * ((x - l) / s) -> let z := (x - l) / s in
  pdf x xi l s = Fin (f xi z / s) /\ logpdf x xi l s = Fin (ln (f xi z / s)) /\ logcdf x xi l s = Fin (- T xi z).
Proof.
  intros Y z. fold z in Y. pose proof (Tval z Y) as TV. pose proof (T_pos xi z) as TP. assert (ZV : ((Fin x - Fin l) / Fin s)%V = Fin z) by (veval; reflexivity).
  rewrite (ln_div (f xi z) s), ln_f by (auto; apply f_pos).
  unfold pdf, logpdf, logcdf. rewrite !vld. cbv zeta.
  rewrite (branch x (Fin 0) (Fin 0) true), (branch x NInf NInf false), (branch x NInf (Fin 0) false) by (left; auto).
  assert (ZV' : (- (Fin x - Fin l) / Fin s)%V = (- Fin z)%V) by (unfold z; veval; f_equal; field; lra). rewrite ZV', ZV, TV.
  split; [veval; unfold f; reflexivity|]. split; [|veval; reflexivity].
  assert (LV : cif (Fin xi <>? Fin 0)%V (- vlog1p (Fin z * Fin xi) / Fin xi)%V (- Fin z)%V = Fin (ln (T xi z))).
  { unfold T. destruct (Req_EM_T xi 0) as [E|E]; [rewrite ln_exp, E; veval; reflexivity|]. rewrite ln_Rpower. assert (0 < 1 + z * xi) by lra. veval. rewrite (Rmult_comm z xi). f_equal. field. auto. }
  rewrite LV. veval. f_equal; ring.
Qed.
Lemma cvals (x : R) : 0 < 1 + xi * ((x - l) / s) -> cdf x xi l s = Fin (F xi ((x - l) / s)) /\ sf x xi l s = Fin (1 - F xi ((x - l) / s)).
Proof. intros Y. destruct (vals x Y) as [_ [_ E]]. unfold cdf, sf. rewrite E. unfold F. veval. split; f_equal; ring. Qed.
Lemma low (x : R) : Rbar_le x (gev_lo xi l s) -> pdf x xi l s = Fin 0 /\ logpdf x xi l s = NInf /\ logcdf x xi l s = NInf.
Proof.
  intros H. unfold gev_lo in H. destruct (Rlt_dec 0 xi) as [X|X]; [|destruct H]. simpl in H. unfold pdf, logpdf, logcdf. rewrite !vld. cbv zeta.
  assert (V : (Fin l - Fin s / Fin xi)%V = Fin (l - s / xi)) by (veval; reflexivity). rewrite V. repeat split; vif; reflexivity.
Qed.
Lemma high (x : R) : Rbar_lt (gev_hi xi l s) x -> pdf x xi l s = Fin 0 /\ logpdf x xi l s = NInf.
Proof.
  intros H. unfold gev_hi in H. destruct (Rlt_dec xi 0) as [X|X]; [|destruct H]. simpl in H. unfold pdf, logpdf. rewrite !vld. cbv zeta.
  assert (V : (Fin l - Fin s / Fin xi)%V = Fin (l - s / xi)) by (veval; reflexivity). rewrite V. repeat split; vif; reflexivity.
Qed.
Lemma high_c (x : R) : Rbar_le (gev_hi xi l s) x -> logcdf x xi l s = Fin 0 /\ logpdf x xi l s = NInf.
Proof.
  intros H. unfold gev_hi in H. destruct (Rlt_dec xi 0) as [X|X]; [|destruct H]. simpl in H. unfold logcdf, logpdf. rewrite !vld. cbv zeta.
  assert (V : (Fin l - Fin s / Fin xi)%V = Fin (l - s / xi)) by (veval; reflexivity). rewrite V. split; vif; reflexivity.
Qed.
Lemma inf_lc : logcdf NInf xi l s = NInf /\ logcdf PInf xi l s = Fin 0.
Proof.
  unfold logcdf. rewrite !vld. cbv zeta. destruct (Rtotal_order xi 0) as [X|[X|X]].
  - assert (V : (Fin l - Fin s / Fin xi)%V = Fin (l - s / xi)) by (veval; reflexivity). rewrite V. assert (0 < -1 / xi) by (replace (-1 / xi) with (1 / - xi) by (field; lra); apply Rdiv_pos; lra).
    veval. unfold scale_inf. veval. unfold scale_inf. veval. auto.
  - rewrite X. veval. unfold scale_inf. veval. split; [auto|f_equal; ring].
  - assert (V : (Fin l - Fin s / Fin xi)%V = Fin (l - s / xi)) by (veval; reflexivity). rewrite V. assert (-1 / xi < 0) by (apply Rdiv_neg; lra).
    veval. unfold scale_inf. veval. unfold scale_inf. veval. split; [auto|f_equal; ring].
Qed.
Lemma CERT : cert (fun x => pdf x xi l s) (fun x => logpdf x xi l s) (fun x => cdf x xi l s) (fun x => sf x xi l s)
  (fun p => invcdf p xi l s) (fun p => invsf p xi l s) (gev_lo xi l s) (gev_hi xi l s) (fun x => F xi ((x - l) / s))
  (fun x => f xi ((x - l) / s) / s) (fun p => l + s * Q xi p).
Proof.
  apply (ls_cert (gev_lo xi 0 1) (gev_hi xi 0 1) (F xi) (f xi) (Q xi) (ST xi) l s Hs); auto using lo_eq, hi_eq.
  - constructor.
    + intros x H. apply in_z in H. apply cvals; auto.
    + intros x H. destruct (low x H) as [_ [_ E]]. unfold cdf, sf. rewrite E. veval. split; f_equal; ring.
    + intros x H. destruct (high_c x H) as [E _]. unfold cdf, sf. rewrite E. veval. rewrite exp_0. split; f_equal; ring.
    + destruct inf_lc as [E _]. unfold cdf, sf. rewrite E. veval. split; f_equal; ring.
    + destruct inf_lc as [_ E]. unfold cdf, sf. rewrite E. veval. rewrite exp_0. split; f_equal; ring.
  - intros x H. apply in_iff in H. destruct (vals x H) as [H1 [H2 _]]. auto.
  - intros x [H|H]; [assert (K : Rbar_le x (gev_lo xi l s)) by (apply Rbar_lt_le; auto); destruct (low x K) as [H1 [H2 _]]; auto|apply high; auto].
  - intros p H. pose proof (ln_neg p ltac:(lra)). pose proof (ln_neg (1 - p) ltac:(lra)). unfold Q, psi, invcdf, invsf, validate_p. rewrite !vld. unfold vpowm1.
    destruct (Req_EM_T xi 0) as [E|E].
    + rewrite E. veval. split; f_equal; ring.
    + veval. split; f_equal; field; auto.
Qed.
Lemma lo_val : val_of_Rbar (gev_lo xi l s) = gev_lo_v xi l s.
Proof. unfold gev_lo, gev_lo_v. destruct (Rlt_dec 0 xi); reflexivity. Qed.
Lemma hi_val : val_of_Rbar (gev_hi xi l s) = gev_hi_v xi l s.
Proof. unfold gev_hi, gev_hi_v. destruct (Rlt_dec xi 0); reflexivity. Qed.
Lemma mono_supp : nondecreasing (fun x => cdf x xi l s) /\ supported_on (fun x => cdf x xi l s) (gev_lo_v xi l s) (gev_hi_v xi l s) /\
  support xi l s = Ok (gev_lo_v xi l s, gev_hi_v xi l s).
Proof.
  split; [exact (cert_nondecreasing CERT)|]. split; [rewrite <- lo_val, <- hi_val; exact (cert_supported CERT)|].
  unfold support. rewrite vld. unfold gev_lo_v, gev_hi_v. destruct (Rlt_dec 0 xi) as [X|X], (Rlt_dec xi 0) as [Y|Y]; try lra; [| |assert (E : xi = 0) by lra; rewrite E]; veval; auto.
Qed.
Lemma at_bound : xi < 0 -> pdf (Fin (l - s / xi)) xi l s = (vpow (Fin 0) (Fin (xi + 1)) * Fin 1 / Fin s)%V.
Proof.
  intros X. assert (Z : (l - s / xi - l) / s = -1 / xi) by (field; lra). assert (IX : 0 < -1 / xi).
  { replace (-1 / xi) with (1 / - xi) by (field; lra). apply Rdiv_pos; lra. }
  assert (Y : 1 + -1 / xi * xi = 0) by (field; lra).
  assert (V : (Fin l - Fin s / Fin xi)%V = Fin (l - s / xi)) by (veval; reflexivity).
  unfold pdf. rewrite vld. cbv zeta. rewrite V. set (u := l - s / xi) in *. clearbody u. veval. rewrite Z, Y. veval. rewrite Ropp_0, exp_0. reflexivity.
Qed.
Lemma log_ok (x : R) : -1 < xi -> log_of (fun x => pdf x xi l s) (fun x => logpdf x xi l s) x.
Proof.
  intros X. revert x. apply (cert_log_ends CERT); intros x E.
  - right; left. assert (K : Rbar_le x (gev_lo xi l s)) by (rewrite E; simpl; lra). destruct (low x K) as [H1 [H2 _]]. auto.
  - right; left. assert (K : Rbar_le (gev_hi xi l s) x) by (rewrite E; simpl; lra). destruct (high_c x K) as [_ H2]. split; auto.
    unfold gev_hi in E. destruct (Rlt_dec xi 0) as [N|N]; [|discriminate]. injection E as E; subst x. rewrite at_bound by auto. veval. f_equal. field. lra.
Qed.
Lemma log_end : xi = -1 -> pdf (Fin (l + s)) xi l s = Fin (1 / s) /\ logpdf (Fin (l + s)) xi l s = NInf.
Proof.
  intros E. assert (B : l + s = l - s / xi) by (rewrite E; field). rewrite B. split.
  - rewrite at_bound by lra. rewrite E. assert (Z : -1 + 1 = 0) by ring. rewrite Z. veval. f_equal. field. lra.
  - apply (high_c (l - s / xi)). unfold gev_hi. destruct (Rlt_dec xi 0); [simpl; lra|lra].
Qed.
Lemma F_at (x : R) : exists c, 0 <= c <= 1 /\ cdf x xi l s = Fin c /\ sf x xi l s = Fin (1 - c).
Proof. apply (cert_complementary CERT x). constructor. Qed.
Lemma logcdf_ok (x : R) : log_of (fun x => cdf x xi l s) (fun x => logcdf x xi l s) x.
Proof.
  destruct (Rbar_lt_le_dec (gev_lo xi l s) x) as [A|A].
  - destruct (Rbar_lt_le_dec x (gev_hi xi l s)) as [B|B].
    + assert (H : inside (gev_lo xi l s) (gev_hi xi l s) x) by (split; auto). apply in_z in H. destruct (vals x H) as [_ [_ E]]. left. exists (exp (- T xi ((x - l) / s))).
      split; [apply exp_pos|]. split; [unfold cdf; rewrite E; veval; reflexivity|]. rewrite ln_exp. auto.
    + destruct (high_c x B) as [E _]. left. exists 1. split; [lra|]. unfold cdf. rewrite E, ln_1. veval. rewrite exp_0. auto.
  - destruct (low x A) as [_ [_ E]]. right; left. unfold cdf. rewrite E. auto.
Qed.
Lemma logsf_ok (x : R) : log_of (fun x => sf x xi l s) (fun x => logsf x xi l s) x.
Proof.
  destruct (F_at x) as [c [CB [E1 E2]]]. destruct (ce_inv _ _ _ _ _ _ _ _ _ _ _ CERT (1 / 2) ltac:(lra)) as [EI _].
  destruct (ce_quant _ _ _ _ _ _ _ _ _ _ _ CERT (1 / 2) ltac:(lra)) as [QI QF].
  unfold log_of, logsf. cbv beta in EI, QI, QF. rewrite EI, E1, E2. set (md := l + s * Q xi (1 / 2)) in *.
  destruct (Rlt_le_dec md x) as [L|L].
  - destruct (Rlt_le_dec c 1) as [C1|C1]; [left; exists (1 - c); split; [lra|]; veval; auto|]. right; left. assert (C2 : c = 1) by lra. rewrite C2. split; [f_equal; ring|]. replace (1 - 1) with 0 by ring. veval. reflexivity.
  - assert (C1 : c <= 1 / 2).
    { destruct (cert_nondecreasing CERT (Fin x) (Fin md) ltac:(constructor; auto)) as [u [v [U [V UV]]]]. cbv beta in U, V. rewrite E1 in U. injection U as <-.
      apply in_z in QI. rewrite (proj1 (cvals md QI)) in V. injection V as <-. rewrite QF in UV. auto. }
    left. exists (1 - c). split; [lra|]. split; auto. veval. reflexivity.
Qed.
Lemma ends : rejects_bad_p (fun p => invcdf p xi l s) /\ rejects_bad_p (fun p => invsf p xi l s) /\
  invcdf (Fin 0) xi l s = gev_lo_v xi l s /\ invsf (Fin 1) xi l s = gev_lo_v xi l s /\
  ((forall k : positive, xi <> IZR (Zpos k) / 2) -> invcdf (Fin 1) xi l s = gev_hi_v xi l s /\ invsf (Fin 0) xi l s = gev_hi_v xi l s).
Proof.
  split; [|split; [|split; [|split]]].
  - split; [intros p [H|H]|split]; unfold invcdf, validate_p, validate, validate_positive; veval; reflexivity.
  - split; [intros p [H|H]|split]; unfold invsf, validate_p, validate, validate_positive; veval; reflexivity.
  - unfold invcdf, validate_p, vpowm1. rewrite vld. unfold gev_lo_v. destruct (Rlt_dec 0 xi) as [X|X].
    + veval. f_equal. field. lra.
    + destruct (Req_dec xi 0) as [E|E]; [rewrite E; veval; unfold scale_inf; veval; reflexivity|]. assert (s / xi < 0) by (unfold Rdiv; pose proof (Rinv_lt_0_compat xi ltac:(lra)); nra).
      veval. unfold scale_inf. veval. reflexivity.
  - unfold invsf, validate_p, vpowm1. rewrite vld. unfold gev_lo_v. destruct (Rlt_dec 0 xi) as [X|X].
    + veval. f_equal. field. lra.
    + destruct (Req_dec xi 0) as [E|E]; [rewrite E; veval; unfold scale_inf; veval; reflexivity|]. assert (s / xi < 0) by (unfold Rdiv; pose proof (Rinv_lt_0_compat xi ltac:(lra)); nra).
      veval. unfold scale_inf. veval. reflexivity.
  - intros H. unfold invcdf, invsf, validate_p, vpowm1. rewrite !vld. unfold gev_hi_v. destruct (Rlt_dec xi 0) as [X|X].
    + split; veval; rewrite ?Rminus_0_r, ln_1, Ropp_0; veval; f_equal; field; lra.
    + destruct (Req_dec xi 0) as [E|E]; [rewrite E; split; veval; rewrite ?Rminus_0_r, ln_1, Ropp_0; veval; unfold scale_inf; veval; reflexivity|].
      assert (V : vpow (Fin 0) (Fin (- xi)) = PInf).
      { unfold vpow. unfold Rltb, Reqb. destruct (Rlt_dec 0 0); [lra|]. destruct (Req_EM_T 0 0); [|lra].
        destruct (Req_EM_T (- xi) 0); [lra|]. destruct (Rlt_dec 0 (- xi)); [lra|].
        destruct (is_intb (2 * - xi)) eqn:I; auto. exfalso. unfold is_intb in I. destruct (Reqb_spec (2 * - xi) (IZR (Int_part (2 * - xi)))) as [[I' _]|[_ I']]; [|congruence]. clear I.
        revert I'. generalize (Int_part (2 * - xi)). intros z I. assert (Z : (z < 0)%Z) by (apply lt_IZR; lra). destruct z as [|k|k]; try lia. apply (H k).
        replace (IZR (Z.pos k)) with (- IZR (Z.neg k)) by (rewrite <- opp_IZR; auto). rewrite <- I. field. }
      assert (0 < s / xi) by (apply Rdiv_pos; lra).
      split; veval; rewrite ?Rminus_0_r, ln_1, Ropp_0, V; veval; unfold scale_inf; veval; reflexivity.
Qed.
Lemma ends_hi : (exists k : positive, xi = IZR (Zpos k) / 2) -> invcdf (Fin 1) xi l s = Exc ZeroDivisionError /\ invsf (Fin 0) xi l s = Exc ZeroDivisionError.
Proof.
  intros [k K]. assert (KP : 0 < IZR (Zpos k)) by (apply IZR_lt; lia).
  assert (V : vpow (Fin 0) (Fin (- xi)) = Exc ZeroDivisionError).
  { unfold vpow. unfold Rltb, Reqb. destruct (Rlt_dec 0 0); [lra|]. destruct (Req_EM_T 0 0); [|lra].
    destruct (Req_EM_T (- xi) 0); [lra|]. destruct (Rlt_dec 0 (- xi)); [lra|].
    replace (2 * - xi) with (IZR (Z.neg k)); [rewrite is_intb_IZR; auto|]. change (Z.neg k) with (- Z.pos k)%Z. rewrite opp_IZR, K. field. }
  unfold invcdf, invsf, validate_p, vpowm1. rewrite !vld. split; veval; rewrite ?Rminus_0_r, ln_1, Ropp_0, V; veval; reflexivity.
Qed.
Lemma mode_ok : -1 <= xi -> is_mode (fun x => pdf x xi l s) (mode xi l s).
Proof.
  intros X. assert (G : exists m fm, mode xi l s = Fin m /\ 0 <= fm /\ pdf m xi l s = Fin fm /\ forall z, 0 < 1 + xi * z -> f xi z / s <= fm).
  { destruct X as [X|X].
    - exists (l + s * psi xi (1 + xi)), (f xi (psi xi (1 + xi)) / s). destruct (psi_T xi (1 + xi) ltac:(lra)) as [P1 P2]. split; [|split; [|split]].
      + unfold mode, pow1pm1, xlog1py. rewrite vld. unfold psi. destruct (Req_EM_T xi 0) as [E|E].
        * rewrite E. veval. rewrite Rplus_0_r, ln_1. f_equal. ring.
        * veval. change (exp (- xi * ln (1 + xi))) with (Rpower (1 + xi) (- xi)). f_equal. field. auto.
      + left. apply Rdiv_pos; auto. apply f_pos.
      + assert (Z : (l + s * psi xi (1 + xi) - l) / s = psi xi (1 + xi)) by (field; lra). rewrite <- Z at 2. apply vals. rewrite Z. auto.
      + intros z Hz. apply Rmult_le_compat_r; [left; apply Rinv_0_lt_compat; auto|]. unfold f at 2. rewrite P2. apply f_max; auto.
    - exists (l + s), (1 / s). split; [|split; [|split]].
      + unfold mode, pow1pm1, xlog1py. rewrite vld, <- X. veval. f_equal. field.
      + left. apply Rdiv_pos; lra.
      + apply log_end; auto.
      + intros z Hz. apply Rmult_le_compat_r; [left; apply Rinv_0_lt_compat; auto|]. unfold f. rewrite <- X. replace (-1 + 1) with 0 by ring. rewrite Rpower_O by apply T_pos. pose proof (T_pos (-1) z). pose proof (exp_lt_1 (- T (-1) z) ltac:(lra)). lra. }
  destruct G as [m [fm [E [P [EM MX]]]]]. exists m, fm. split; auto. split; auto. intros x.
  destruct (Rbar_lt_le_dec (gev_lo xi l s) x) as [A|A]; [|exists 0; split; auto; apply low; auto].
  destruct (Rbar_lt_le_dec x (gev_hi xi l s)) as [B|B].
  - assert (H : inside (gev_lo xi l s) (gev_hi xi l s) x) by (split; auto). apply in_z in H. exists (f xi ((x - l) / s) / s). split; [apply vals; auto|auto].
  - apply Rbar_le_lt_or_eq_dec in B. destruct B as [B|B]; [exists 0; split; auto; apply high; auto|].
    unfold gev_hi in B. destruct (Rlt_dec xi 0) as [N|N]; [|discriminate]. injection B as B. subst x. destruct X as [X|X].
    + exists 0. split; auto. rewrite at_bound by auto. veval. f_equal. field. lra.
    + exists (1 / s). split.
      * replace (l - s / xi) with (l + s) by (rewrite <- X; field). apply log_end; auto.
      * rewrite <- X in EM, E. assert (E2 : mode xi l s = Fin (l + s)) by (unfold mode, pow1pm1, xlog1py; rewrite vld, <- X; veval; f_equal; field).
        rewrite <- X in E2. rewrite E in E2. injection E2 as E2. rewrite E2 in EM. pose proof (proj1 (log_end ltac:(auto))) as K. rewrite <- X in K. rewrite K in EM. injection EM as EM. lra.
Qed.
Lemma mode_bad : (exists k : positive, xi = -1 - IZR (Zpos k) / 2) -> mode xi l s = Fin (l - s / xi) /\ pdf (mode xi l s) xi l s = Exc ZeroDivisionError.
Proof.
  intros [k K]. assert (KP : 0 < IZR (Zpos k)) by (apply IZR_lt; lia).
  assert (E : mode xi l s = Fin (l - s / xi)) by (unfold mode; rewrite vld; veval; reflexivity). split; auto. rewrite E, at_bound by lra.
  assert (V : vpow (Fin 0) (Fin (xi + 1)) = Exc ZeroDivisionError).
  { unfold vpow. unfold Rltb, Reqb. destruct (Rlt_dec 0 0); [lra|]. destruct (Req_EM_T 0 0); [|lra].
    destruct (Req_EM_T (xi + 1) 0); [lra|]. destruct (Rlt_dec 0 (xi + 1)); [lra|].
    replace (2 * (xi + 1)) with (IZR (Z.neg k)); [rewrite is_intb_IZR; auto|]. change (Z.neg k) with (- Z.pos k)%Z. rewrite opp_IZR, K. field. }
  rewrite V. reflexivity.
Qed.
Lemma PDF x : inside (gev_lo xi l s) (gev_hi xi l s) x -> pdf (Fin x) xi l s = Fin (f xi ((x - l) / s) / s).
Proof. intros H. apply in_z in H. apply vals; auto. Qed.
Notation LSM lem := (lem (gev_lo xi 0 1) (gev_hi xi 0 1) (F xi) (f xi) (Q xi) (ST xi) l s (fun x => pdf x xi l s) (gev_lo xi l s) (gev_hi xi l s) Hs lo_eq hi_eq PDF).
Lemma vg1 : xi < 1 -> vgamma (Fin 1 - Fin xi)%V = Fin (Gamma (1 - xi)).
Proof. intros H. change (Fin 1 - Fin xi)%V with (Fin (1 - xi)). apply GamLib.vgam. lra. Qed.
Lemma vgk k : k * xi < 1 -> vgamma (Fin 1 - Fin k * Fin xi)%V = Fin (Gamma (1 - k * xi)).
Proof. intros H. change (Fin 1 - Fin k * Fin xi)%V with (Fin (1 - k * xi)). apply GamLib.vgam. lra. Qed.
Lemma M1_eq : xi <> 0 -> M xi 1 = (Gamma (1 - xi) - 1) / xi.
Proof.
  intros E. unfold M. cbn [nsum]. unfold Binomial.C. simpl. replace (1 - xi * 0) with 1 by ring. replace (1 - xi * 1) with (1 - xi) by ring. rewrite Gamma_1. field. auto.
Qed.
Lemma mean_ok g : euler_constant g -> xi < 1 -> mean_is (fun x => pdf x xi l s) (gev_lo xi l s) (gev_hi xi l s) (mean g xi l s).
Proof.
  intros G X. apply euler_eq in G. destruct (Req_dec xi 0) as [E|E].
  - apply (LSM ls_mean_is _ (- digamma 1)); [apply mom1_0; auto|]. unfold mean. rewrite vld, G, E. veval. reflexivity.
  - apply (LSM ls_mean_is _ ((Gamma (1 - xi) - 1) / xi)).
    + apply (integrates_ext _ _ (LT xi) (fun z => z ^ 1 * f xi z)); [intros; ring|].
      rewrite <- M1_eq by auto. apply mom; auto. simpl. lra.
    + unfold mean. rewrite vld, vg1 by auto. veval. f_equal. field. auto.
Qed.
Lemma M2_eq : xi <> 0 -> M xi 2 = (Gamma (1 - 2 * xi) - 2 * Gamma (1 - xi) + 1) / xi ^ 2.
Proof.
  intros E. unfold M. cbn [nsum]. unfold Binomial.C. simpl. replace (1 - xi * 0) with 1 by ring. replace (1 - xi * 1) with (1 - xi) by ring. replace (1 - xi * (1 + 1)) with (1 - 2 * xi) by ring.
  rewrite Gamma_1. field. auto.
Qed.
Lemma M3_eq : xi <> 0 -> M xi 3 = (Gamma (1 - 3 * xi) - 3 * Gamma (1 - 2 * xi) + 3 * Gamma (1 - xi) - 1) / xi ^ 3.
Proof.
  intros E. unfold M. cbn [nsum]. unfold Binomial.C. simpl. replace (1 - xi * 0) with 1 by ring. replace (1 - xi * 1) with (1 - xi) by ring. replace (1 - xi * (1 + 1)) with (1 - 2 * xi) by ring.
  replace (1 - xi * (1 + 1 + 1)) with (1 - 3 * xi) by ring. rewrite Gamma_1. field. auto.
Qed.
Lemma M4_eq : xi <> 0 -> M xi 4 = (Gamma (1 - 4 * xi) - 4 * Gamma (1 - 3 * xi) + 6 * Gamma (1 - 2 * xi) - 4 * Gamma (1 - xi) + 1) / xi ^ 4.
Proof.
  intros E. unfold M. cbn [nsum]. unfold Binomial.C. simpl. replace (1 - xi * 0) with 1 by ring. replace (1 - xi * 1) with (1 - xi) by ring. replace (1 - xi * (1 + 1)) with (1 - 2 * xi) by ring.
  replace (1 - xi * (1 + 1 + 1)) with (1 - 3 * xi) by ring. replace (1 - xi * (1 + 1 + 1 + 1)) with (1 - 4 * xi) by ring. rewrite Gamma_1. field. auto.
Qed.
Lemma MOM N : xi <> 0 -> INR N * xi < 1 -> forall n, (n <= N)%nat -> integrates_to (fun z => z ^ n * f xi z) (gev_lo xi 0 1) (gev_hi xi 0 1) (M xi n).
Proof.
  intros E H n HN. apply mom; auto. pose proof (pos_INR n). assert (INR n <= INR N) by (apply le_INR; lia). destruct (Rlt_le_dec 0 xi); nra.
Qed.
Lemma mv_pos : xi <> 0 -> 2 * xi < 1 -> 0 < mvar (M xi).
Proof.
  intros E X. pose proof (MOM 2 E ltac:(simpl; lra)) as H. apply (mvar_pos _ _ _ _ _ (M xi) (ST xi)); apply H; lia.
Qed.
Lemma mv_eq : xi <> 0 -> mvar (M xi) = (Gamma (1 - 2 * xi) - Gamma (1 - xi) ^ 2) / xi ^ 2.
Proof. intros E. unfold mvar. rewrite M1_eq, M2_eq by auto. field. auto. Qed.
Lemma gg_pos : xi <> 0 -> 2 * xi < 1 -> 0 < Gamma (1 - 2 * xi) - Gamma (1 - xi) ^ 2.
Proof.
  intros E X. pose proof (mv_pos E X) as H. rewrite mv_eq in H by auto. pose proof (pow2_gt_0 xi E) as P.
  apply (Rmult_lt_compat_r (xi ^ 2)) in H; auto. unfold Rdiv in H. rewrite Rmult_0_l, Rmult_assoc, Rinv_l in H by lra. lra.
Qed.
Lemma mean_val : xi <> 0 -> xi < 1 -> forall g, mean g xi l s = Fin (l + s * M xi 1).
Proof. intros E X g. rewrite M1_eq by auto. unfold mean. rewrite vld, vg1 by auto. veval. f_equal. field. auto. Qed.
Lemma var_ok g : euler_constant g -> 2 * xi < 1 -> var_is (fun x => pdf x xi l s) (gev_lo xi l s) (gev_hi xi l s) (mean g xi l s) (var xi l s).
Proof.
  intros G X. destruct (Req_dec xi 0) as [E|E].
  - apply euler_eq in G. apply (LSM ls_var_is _ _ _ _ (mom1_0 xi E) (mom2_0 xi E)); unfold mean, var; rewrite vld, ?G, E; change vpi with (Fin PI); veval; f_equal; field.
  - apply (LSM lsm_var (M xi) 2%nat (MOM 2 E ltac:(simpl; lra))); [lia|apply mean_val; auto; lra|]. rewrite mv_eq by auto.
    pose proof (pow2_gt_0 xi E) as P. unfold var. rewrite vld, vg1, vgk by lra. veval. f_equal. field. auto.
Qed.
Lemma skew_ok z3 : xi <> 0 -> 3 * xi < 1 -> skewness_is (fun x => pdf x xi l s) (gev_lo xi l s) (gev_hi xi l s) (skewness z3 xi l s).
Proof.
  intros E X. apply (LSM lsm_skewness (M xi) 3%nat (MOM 3 E ltac:(simpl; lra))); [lia|apply mv_pos; auto; lra|]. rewrite mv_eq by auto. unfold mcen3. rewrite M1_eq, M2_eq, M3_eq by auto.
  pose proof (gg_pos E ltac:(lra)) as GP.
  unfold skewness. rewrite vld, vg1, !vgk by lra. cbv zeta. set (v := Gamma (1 - 2 * xi) - Gamma (1 - xi) ^ 2) in *.
  assert (SQ : sqrt (v / xi ^ 2) = sqrt v / Rabs xi) by (rewrite sqrt_div_alt by (apply pow2_gt_0; auto); f_equal; replace (xi ^ 2) with (Rsqr xi) by (unfold Rsqr; ring); apply sqrt_Rsqr_abs).
  assert (PW : Rpower v (3 / 2) = v * sqrt v) by (replace (3 / 2) with (1 + / 2) by field; rewrite Rpower_plus, Rpower_1, Rpower_sqrt by auto; auto).
  assert (SP : 0 < sqrt v) by (apply sqrt_lt_R0; auto). assert (VS : 0 < v * sqrt v) by (apply Rmult_lt_0_compat; auto). rewrite SQ.
  destruct (Rlt_le_dec xi 0) as [N|N].
  - rewrite Rabs_left by auto. veval. fold v. veval. rewrite PW. f_equal. field. repeat split; auto; lra.
  - rewrite Rabs_right by lra. veval. fold v. veval. rewrite PW. f_equal. field. repeat split; auto; lra.
Qed.
Lemma kurt_ok : xi <> 0 -> 4 * xi < 1 -> kurtosis_is (fun x => pdf x xi l s) (gev_lo xi l s) (gev_hi xi l s) (kurtosis xi l s).
Proof.
  intros E X. apply (LSM lsm_kurtosis (M xi) 4%nat (MOM 4 E ltac:(simpl; lra))); [lia|apply mv_pos; auto; lra|]. rewrite mv_eq by auto. unfold mcen4. rewrite M1_eq, M2_eq, M3_eq, M4_eq by auto.
  pose proof (gg_pos E ltac:(lra)) as GP.
  unfold kurtosis. rewrite vld, vg1, !vgk by lra. cbv zeta. set (v := Gamma (1 - 2 * xi) - Gamma (1 - xi) ^ 2) in *. assert (0 < v ^ 2) by (apply pow_lt; auto).
  assert (ND : Gamma (1 - 2 * xi) - Gamma (1 - xi) ^ 2 <> 0) by (fold v; lra).
  veval. fold v. f_equal. unfold v. field. repeat split; auto.
Qed.
Lemma ent_ok g : euler_constant g -> entropy_is (fun x => pdf x xi l s) (gev_lo xi l s) (gev_hi xi l s) (entropy g xi l s).
Proof.
  intros G. apply euler_eq in G. apply (LSM ls_entropy_is _ (1 + (xi + 1) * - digamma 1)); [apply ent|].
  unfold entropy. rewrite vld, G. veval. f_equal. ring.
Qed.
Lemma std_mom n : xi <> 0 -> INR n * xi < 1 -> standard_noncentral_moment n (Fin xi) = Fin (M xi n).
Proof.
  intros E X. unfold standard_noncentral_moment. destruct n as [|n]; [simpl Nat.eqb; rewrite M0 by auto; auto|]. change (Nat.eqb (S n) 0) with false. set (N := S n) in *. cbv iota.
  assert (NP : 0 < INR N) by (apply lt_0_INR; unfold N; lia). assert (XN : xi < 1 / INR N) by (apply (Rmult_lt_reg_l (INR N)); auto; replace (INR N * (1 / INR N)) with 1 by (field; lra); auto).
  rewrite (vfsum_seq _ (fun k => Binomial.C N k * (-1) ^ k * Gamma (1 - xi * INR k))).
  - assert (- xi <> 0) by lra. assert ((- xi) ^ N <> 0) by (apply pow_nonzero; auto). veval. unfold M. replace (N + 1)%nat with (S N) by lia. reflexivity.
  - intros k K. pose proof (pos_INR k). assert (INR k <= INR N) by (apply le_INR; lia). assert (0 < 1 - xi * INR k) by (destruct (Rlt_le_dec 0 xi); nra). change (Fin 1 - Fin xi * Fin (INR k))%V with (Fin (1 - xi * INR k)). rewrite GamLib.vgam by auto. veval. reflexivity.
Qed.
Lemma moment_ok n : xi <> 0 -> INR n * xi < 1 -> moment_is (fun x => pdf x xi l s) (gev_lo xi l s) (gev_hi xi l s) n (noncentral_moment n xi l s).
Proof.
  intros E X. apply (LSM lsm_moment (M xi) n (MOM n E X)); [lia|]. unfold noncentral_moment. rewrite vld. destruct n as [|n].
  - simpl Nat.eqb. unfold lsM. cbn [nsum Nat.add]. rewrite M0 by auto. unfold Binomial.C. simpl. f_equal. field.
  - change (Nat.eqb (S n) 0) with false. set (N := S n) in *. cbv iota.
    assert (NP : 0 < INR N) by (apply lt_0_INR; unfold N; lia). assert (XN : xi < 1 / INR N) by (apply (Rmult_lt_reg_l (INR N)); auto; replace (INR N * (1 / INR N)) with 1 by (field; lra); auto).
    veval. rewrite (vfsum_seq _ (fun k => Binomial.C N k * l ^ (N - k) * s ^ k * M xi k)); [reflexivity|].
    intros k K. pose proof (pos_INR k). assert (INR k <= INR N) by (apply le_INR; lia). rewrite std_mom by (auto; destruct (Rlt_le_dec 0 xi); nra). veval. reflexivity.
Qed.
End P.
Lemma std_bad n : n <> 0%nat -> standard_noncentral_moment n (Fin 0) = Exc ZeroDivisionError.
Proof.
  intros H. unfold standard_noncentral_moment. destruct (Nat.eqb_spec n 0) as [K|_]; [contradiction|].
  assert (NP : 0 < INR n) by (apply lt_0_INR; lia). assert (0 < 1 / INR n) by (apply Rdiv_pos; lra).
  rewrite (vfsum_seq _ (fun k => Binomial.C n k * (-1) ^ k * Gamma 1)).
  - assert (E : (- 0) ^ n = 0) by (rewrite Ropp_0; apply pow_i; lia). generalize (nsum (fun k => Binomial.C n k * (-1) ^ k * Gamma 1) (n + 1)). intros z. veval. rewrite E. unfold vdiv. rewrite Reqb_true by auto. reflexivity.
  - intros k _. change (Fin 1 - Fin 0 * Fin (INR k))%V with (Fin (1 - 0 * INR k)). replace (1 - 0 * INR k) with 1 by ring. rewrite GamLib.vgam by lra. veval. reflexivity.
Qed.
Lemma vfsum_exc (f : nat -> val) (g : nat -> R) e : f 0%nat = Fin (g 0%nat) -> (forall k, (1 <= k)%nat -> f k = Exc e) ->
  forall n, (1 <= n)%nat -> vfsum (map f (seq 0 (n + 1))) = Exc e.
Proof.
  intros F0 H n N. destruct n as [|n]; [lia|]. cbn [Nat.add seq map vfsum]. rewrite F0. replace (n + 1)%nat with (S n) by lia. cbn [seq map vfsum]. rewrite H by lia. reflexivity.
Qed.
Lemma mom_bad (l s : R) n : 0 < s -> (1 <= n)%nat -> noncentral_moment n (Fin 0) l s = Exc ZeroDivisionError.
Proof.
  intros S N. unfold noncentral_moment. rewrite vld by auto. destruct (Nat.eqb_spec n 0) as [K|_]; [lia|].
  assert (NP : 0 < INR n) by (apply lt_0_INR; lia). assert (0 < 1 / INR n) by (apply Rdiv_pos; lra).
  rewrite (vfsum_exc _ (fun k => Binomial.C n k * l ^ (n - k) * s ^ k * 1) ZeroDivisionError); auto; [veval; reflexivity|simpl standard_noncentral_moment; veval; reflexivity|].
  intros k K. rewrite std_bad by lia. veval. reflexivity.
Qed.
Lemma loc_scale (xi : R) : loc_scale_law (fun x => pdf x xi) (fun x => cdf x xi) (fun x => sf x xi)
  (fun p => invcdf p xi) (fun p => invsf p xi) (gev_lo xi 0 1) (gev_hi xi 0 1).
Proof.
  apply (loc_scale_from_cert (fun x => pdf x xi) (fun x => logpdf x xi) (fun x => cdf x xi) (fun x => sf x xi)
    (fun p => invcdf p xi) (fun p => invsf p xi) (gev_lo xi 0 1) (gev_hi xi 0 1) (F xi) (f xi) (Q xi)).
  intros l s S. rewrite <- lo_eq, <- hi_eq by auto. apply CERT; auto.
Qed.
Lemma bad_params (xi l s : val) g z3 n : nonpositive s ->
  support xi l s = Err ValueError /\ noncentral_moment n xi l s = Exc ValueError /\
  always_ValueError [ fun x => pdf x xi l s; fun x => logpdf x xi l s; fun x => logcdf x xi l s; fun x => cdf x xi l s; fun x => sf x xi l s;
    fun p => invcdf p xi l s; fun p => invsf p xi l s; fun _ => mode xi l s; fun _ => mean g xi l s; fun _ => var xi l s;
    fun _ => skewness z3 xi l s; fun _ => kurtosis xi l s; fun _ => entropy g xi l s ].
Proof.
  intros D. assert (V : forall (T : Type) (CR : CanRaise T) (k : T), validate xi l s k = raise ValueError) by (intros T CR k; exact (vp_bad s _ D)).
  unfold support, noncentral_moment, cdf, sf, pdf, logpdf, logcdf, invcdf, invsf, mode, mean, var, skewness, kurtosis, entropy.
  split; [apply V|]. split; [apply V|]. all_ve; intros x Hx; try (apply vpp_pass; auto); try apply V; rewrite V; reflexivity.
Qed.
Lemma is_gumbel (x l s : R) : 0 < s -> pdf x (Fin 0) l s = M_gumbel_max.pdf x l s /\ cdf x (Fin 0) l s = M_gumbel_max.cdf x l s /\ sf x (Fin 0) l s = M_gumbel_max.sf x l s.
Proof.
  intros S. unfold M_gumbel_max.pdf, M_gumbel_max.logpdf, M_gumbel_max.cdf, M_gumbel_max.sf, cdf, sf, pdf, logcdf, M_common.validate_loc_scale. rewrite !vld by auto.
  assert (EP : 0 < exp (- ((x - l) / s))) by apply exp_pos.
  assert (NZ : - (x - l) / s = - ((x - l) / s)) by (field; lra).
  split; [|split]; veval; rewrite ?NZ; try reflexivity. f_equal. set (z := (x - l) / s). rewrite Rplus_0_l, Rpower_1 by apply exp_pos.
  replace (- (z + exp (- z)) - ln s) with (- z + - exp (- z) + - ln s) by ring. rewrite !exp_plus, (exp_Ropp (ln s)), exp_ln by auto. reflexivity.
Qed.
