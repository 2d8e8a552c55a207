(** Proofs about M_rice. *)
From Coq Require Import Reals Lra Lia List.
From Coquelicot Require Import Coquelicot.
From Verif Require Import Values VTac Spec RLib LimLib LLib DistLib DistLS IntLib SubLib MomLib LSMom LSMom2 PLib M_common SpecStat SpecEst
  SFun SFun4 GammaLib GammaLib2 GammaLib3 GamLib GamSq GamMix KumLib M_sfun P_sfun M_marcumq P_marcumq SpecInv.
From Verif Require Import M_rice.
Import ListNotations.
Local Open Scope R_scope.
Set Bullet Behavior "Strict Subproofs".

Lemma validate_ok {A} `{CanRaise A} (nu sigma : R) (c : A) : 0 <= nu -> 0 < sigma -> validate_params nu sigma c = c.
Proof. intros N S. unfold validate_params. veval. reflexivity. Qed.
Lemma validate_bad {A} `{CanRaise A} nu sigma (c : A) : isnum nu -> isnum sigma -> negative nu \/ nonpositive sigma -> validate_params nu sigma c = raise ValueError.
Proof.
  intros N1 N2 B. unfold validate_params. destruct B as [[B1 B2]|B].
  - inversion B1; subst; vif; try reflexivity. destruct (Rlt_le_dec x 0); vif; try reflexivity. exfalso. apply B2. f_equal. lra.
  - assert (E : cle sigma (Fin 0) = CB true) by (inversion B; subst; ccond). rewrite E. cbn [cif]. destruct N1 as [v []|]; try (vif; reflexivity). destruct (Rlt_le_dec r 0); vif; reflexivity.
Qed.
Lemma rising_0 j : SFun4.rising 0 (S j) = 0.
Proof. induction j as [|j IH]; [simpl; ring|]. cbn [SFun4.rising] in *. rewrite IH. ring. Qed.
(** I0' = I1 *)
Definition d0 (k : nat) := / (INR (fact k) * Gamma (0 + 1 + INR k)).
Definition d1 (k : nat) := / (INR (fact k) * Gamma (1 + 1 + INR k)).
Lemma Gf k : Gamma (0 + 1 + INR k) = INR (fact k). Proof. replace (0 + 1 + INR k) with (INR k + 1) by ring. apply Gamma_fact. Qed.
Lemma Gf1 k : Gamma (1 + 1 + INR k) = INR (fact (S k)). Proof. replace (1 + 1 + INR k) with (INR (S k) + 1) by (rewrite S_INR; ring). apply Gamma_fact. Qed.
Lemma fact_ge1 k : 1 <= INR (fact k). Proof. apply (le_INR 1). apply lt_O_fact. Qed.
Lemma d0_entire : entire d0.
Proof.
  apply (entire_le (fun n => 1 ^ n / INR (fact n)) _ 1); [|apply entire_exp]. intros n. rewrite Rmult_1_l, pow1. unfold d0. rewrite Gf. pose proof (fact_ge1 n) as F.
  rewrite !Rabs_right; [|apply Rle_ge, Rlt_le, Rdiv_pos; lra|apply Rle_ge, Rlt_le, Rinv_0_lt_compat; nra]. unfold Rdiv. rewrite Rmult_1_l. apply Rinv_le_contravar; [lra|]. nra.
Qed.
Lemma d0_der n : PS_derive d0 n = d1 n.
Proof.
  unfold PS_derive, d0, d1. rewrite Gf, Gf1. rewrite fact_simpl, mult_INR. pose proof (fact_pos n). pose proof (lt_0_INR (S n) ltac:(lia)). field. lra.
Qed.
Lemma I0_der y : is_derive (fun y => PSeries d0 (y ^ 2 / 4)) y (y / 2 * PSeries d1 (y ^ 2 / 4)).
Proof.
  evar_last; [apply (is_derive_comp (PSeries d0) (fun y => y ^ 2 / 4)); [apply entire_der, d0_entire|auto_derive; auto]|]. rewrite (PSeries_ext _ d1 _ d0_der). unfold scal. simpl. unfold mult. simpl. field.
Qed.
Lemma vbesseli1_val (y : R) : 0 <= y -> vbesseli (Fin 1) (Fin y) = Fin (y / 2 * PSeries d1 (y ^ 2 / 4)).
Proof.
  intros Y. unfold vbesseli. rewrite (Rltb_true (-1) 1) by lra. destruct Y as [Y|<-].
  - rewrite (Rltb_true 0 y) by auto. unfold besseli. rewrite Rpower_1 by lra. f_equal. f_equal. unfold PSeries. apply Series_ext. intros k. unfold d1, Rdiv. ring.
  - rewrite (Rltb_false 0 0), (Reqb_true 0 0), (Reqb_false 1 0), (Rltb_true 0 1) by lra. f_equal. field.
Qed.
Section P.
Variables nu sigma : R.
Hypothesis HN : 0 <= nu.
Hypothesis HS : 0 < sigma.
Notation mu := ((nu / sigma) ^ 2 / 2).
Lemma HM : 0 <= mu. Proof. pose proof (pow2_ge_0 (nu / sigma)). lra. Qed.
Let h : 0 < 1 / 2. Proof. lra. Qed.
Notation F := (fun z => pmF 1 mu (1 / 2 * z ^ 2)). Notation f := (fun z => pm 1 mu (1 / 2 * z ^ 2) * (2 * (1 / 2) * z)). Notation Q := (fun p => sqrt (pmQ 1 mu p / (1 / 2))).
Lemma ST : std 0 p_infty F f Q.
Proof. exact (sub_std (qSB (1 / 2) h) (qINC (1 / 2) h) _ _ _ (pmST 1 mu Rlt_0_1 HM)). Qed.
Lemma z0 x : (x - 0) / sigma = x / sigma. Proof. field. lra. Qed.
Definition I0 (y : R) := Series (fun j => (y ^ 2 / 4) ^ j / (INR (fact j) * Gamma (0 + 1 + INR j))).
Lemma fval (x : R) : 0 < x -> f (x / sigma) / sigma = (x / sigma ^ 2) * exp (- (x ^ 2 + nu ^ 2) / (2 * sigma ^ 2)) * I0 (x * nu / sigma ^ 2).
Proof.
  intros X. cbv beta. rewrite pm_eq by lra. unfold gamma_kernel, I0. assert (XS : 0 < x / sigma) by (apply Rdiv_pos; auto). assert (X2 : 0 < 1 / 2 * (x / sigma) ^ 2) by (apply Rmult_lt_0_compat; [lra|apply pow_lt; auto]).
  replace (1 - 1) with 0 by ring. rewrite Rpower_O by auto.
  rewrite (Series_ext (fun j => (mu * (1 / 2 * (x / sigma) ^ 2)) ^ j / (INR (fact j) * Gamma (1 + INR j))) (fun j => ((x * nu / sigma ^ 2) ^ 2 / 4) ^ j / (INR (fact j) * Gamma (0 + 1 + INR j)))).
  - set (S := Series _). clearbody S. replace (exp (- (x ^ 2 + nu ^ 2) / (2 * sigma ^ 2))) with (exp (- (1 / 2 * (x / sigma) ^ 2)) * exp (- mu)); [field; lra|]. rewrite <- exp_plus. f_equal. field. lra.
  - intros j. f_equal; [f_equal; field; lra|]. f_equal. f_equal. ring.
Qed.
Lemma f_pos z : 0 < z -> 0 < f z.
Proof. intros Z. apply (sm_pos _ _ _ _ (st_smooth _ _ _ _ _ ST)). apply inside_pos; auto. Qed.
Lemma I0_pos (x : R) : 0 < x -> 0 < I0 (x * nu / sigma ^ 2).
Proof.
  intros X. assert (XS : 0 < x / sigma) by (apply Rdiv_pos; auto). pose proof (f_pos _ XS) as P. pose proof (fval x X) as E. assert (P' : 0 < f (x / sigma) / sigma) by (apply Rdiv_pos; auto). cbv beta in P'. rewrite E in P'.
  assert (0 < x / sigma ^ 2 * exp (- (x ^ 2 + nu ^ 2) / (2 * sigma ^ 2))) by (apply Rmult_lt_0_compat; [apply Rdiv_pos; auto; apply pow_lt; auto|apply exp_pos]). nra.
Qed.
Lemma vI0 (x : R) : 0 < x -> vbesseli (Fin 0) (Fin (x * nu / sigma ^ 2)) = Fin (I0 (x * nu / sigma ^ 2)).
Proof. intros X. apply vbesseli0. apply Rmult_le_pos; [apply Rmult_le_pos; lra|left; apply Rinv_0_lt_compat, pow_lt; auto]. Qed.
Lemma pdf_val (x : R) : 0 < x -> pdf x nu sigma = Fin (f (x / sigma) / sigma) /\ logpdf x nu sigma = Fin (ln (f (x / sigma) / sigma)).
Proof.
  intros X. pose proof (fval x X) as E. cbv beta in E. cbv beta. rewrite E. pose proof (I0_pos x X) as IP. assert (S2 : 0 < sigma ^ 2) by (apply pow_lt; auto).
  unfold pdf, logpdf. rewrite !validate_ok by auto. split.
  - veval. rewrite vI0 by auto. veval. reflexivity.
  - veval. rewrite vI0 by auto. set (i := I0 (x * nu / sigma ^ 2)) in *. clearbody i. veval. f_equal. assert (0 < x / sigma ^ 2) by (apply Rdiv_pos; auto). rewrite !ln_mult, ln_exp, ln_div, ln_pow by (auto using exp_pos; apply Rmult_lt_0_compat; auto using exp_pos). simpl INR. field. lra.
Qed.
Lemma cdf_val (x : R) : 0 < x -> cdf x nu sigma = Fin (F (x / sigma)) /\ sf x nu sigma = Fin (1 - F (x / sigma)).
Proof.
  intros X. unfold cdf, sf. rewrite !validate_ok by auto. assert (XS : 0 < x / sigma) by (apply Rdiv_pos; auto). assert (NS : 0 <= nu / sigma) by (apply Rmult_le_pos; [auto|left; apply Rinv_0_lt_compat; auto]).
  pose proof (mq_all 1 (nu / sigma) (x / sigma) Rlt_0_1 NS XS) as [E1 E2]. cbv beta. rewrite !vdiv_Fin by lra. replace (1 / 2 * (x / sigma) ^ 2) with ((x / sigma) ^ 2 / 2) by (field; lra). split; veval; auto.
Qed.
Lemma CERT : cert (fun x => pdf x nu sigma) (fun x => logpdf x nu sigma) (fun x => cdf x nu sigma) (fun x => sf x nu sigma)
  (fun p => ideal_cdf Q p 0 sigma) (fun p => ideal_sf Q p 0 sigma) 0 p_infty (fun x => F ((x - 0) / sigma)) (fun x => f ((x - 0) / sigma) / sigma) (fun p => 0 + sigma * Q p).
Proof.
  apply (ls_cert 0 p_infty F f Q ST 0 sigma HS); auto.
  - simpl. f_equal. ring.
  - constructor.
    + intros x [H0 _]. simpl in H0. rewrite z0. apply cdf_val; auto.
    + intros x H0. simpl in H0. unfold cdf, sf. rewrite !validate_ok by auto. destruct H0 as [H0| ->]; veval; auto.
    + intros x [].
    + unfold cdf, sf. rewrite !validate_ok by auto. veval. auto.
    + unfold cdf, sf. rewrite !validate_ok by auto. assert (NS : 0 <= nu / sigma) by (apply Rmult_le_pos; [auto|left; apply Rinv_0_lt_compat; auto]). pose proof (mq_inf_all 1 (nu / sigma) Rlt_0_1 NS) as [E1 E2]. rewrite !vdiv_Fin by lra. veval. auto.
  - intros x [H0 _]. simpl in H0. rewrite z0 in *. apply pdf_val. apply (Rmult_lt_reg_r (/ sigma)); [apply Rinv_0_lt_compat; auto|]. rewrite Rmult_0_l. auto.
  - intros x [H0|[]]. simpl in H0. unfold pdf, logpdf. rewrite !validate_ok by auto. veval. auto.
Qed.
Lemma log_zero (x : R) : x <= 0 -> log_of (fun x => pdf x nu sigma) (fun x => logpdf x nu sigma) x.
Proof. intros X. right; left. unfold pdf, logpdf. rewrite !validate_ok by auto. split; veval; auto. Qed.
Lemma elo : Finite 0 = ls 0 sigma 0. Proof. simpl. f_equal. ring. Qed.
Lemma pdf_in x : inside 0 p_infty x -> pdf (Fin x) nu sigma = Fin (f ((x - 0) / sigma) / sigma).
Proof. intros X%inside_pos. rewrite z0. apply pdf_val; auto. Qed.
Definition Mr (n : nat) := Rpower 2 (INR n / 2) * (Gamma (1 + INR n / 2) * hyp1f1 (- (INR n / 2)) 1 (- mu)).
Lemma Mr_ok n : integrates_to (fun z => z ^ n * f z) 0 p_infty (Mr n).
Proof.
  pose proof (pos_INR n) as N. pose proof (pm_moment 1 mu (INR n / 2) Rlt_0_1 HM ltac:(lra)) as I1. rewrite Gamma_1 in I1.
  pose proof (integrates_scal 0 p_infty (Rpower 2 (INR n / 2)) _ _ I1) as I2.
  apply (sub_integral (qSB (1 / 2) h) (qINC (1 / 2) h)) in I2.
  - unfold Mr. replace (Gamma (1 + INR n / 2) / 1) with (Gamma (1 + INR n / 2)) in I2 by field. revert I2. apply (integrates_ext 0 p_infty I). intros z Z%inside_pos.
    rewrite <- (Rpower_pow n z) by auto. replace (Rpower z (INR n)) with (Rpower 2 (INR n / 2) * Rpower (1 / 2 * z ^ 2) (INR n / 2)); [ring|].
    assert (0 < z ^ 2) by (apply pow_lt; auto). rewrite Rpower_mult_distr by lra. replace (2 * (1 / 2 * z ^ 2)) with (Rpower z (INR 2)) by (rewrite Rpower_pow by auto; field). rewrite Rpower_mult. f_equal. simpl. field.
  - intros y Y%inside_pos. apply (continuous_mult (fun _ => Rpower 2 (INR n / 2)) (fun y => Rpower y (INR n / 2) * pm 1 mu y)); [apply continuous_const|]. apply (continuous_mult (fun y => Rpower y (INR n / 2))); [apply ex_derive_cont; unfold Rpower; auto_derive; auto|]. apply (if_cont _ _ _ _ _ (pm_if 1 mu Rlt_0_1 HM)). apply inside_pos; auto.
Qed.
Lemma h1_pos r : 0 <= r -> 0 < hyp1f1 (- r) 1 (- mu).
Proof.
  intros R. replace (- r) with (1 - (1 + r)) by ring. rewrite <- kummer by lra. apply Rmult_lt_0_compat; [apply exp_pos|]. rewrite hyp1f1_eq.
  pose proof (PS_pos (hc (1 + r) 1) mu (hc_entire _ _ Rlt_0_1)) as K. rewrite hc_0 in K. assert (1 <= PSeries (hc (1 + r) 1) mu); [|lra]. apply K; [|lra|apply HM].
  intros n. unfold hc. apply Rmult_le_pos; [left; apply rising_pos; lra|]. left. apply Rinv_0_lt_compat, Rmult_lt_0_compat; [apply rising_pos; lra|apply fact_pos].
Qed.
Lemma moment_val n : noncentral_moment n nu sigma = Fin (sigma ^ n * Mr n).
Proof.
  unfold noncentral_moment. rewrite validate_ok by auto. destruct n as [|n]; cbn [Nat.eqb].
  - f_equal. unfold Mr. simpl INR. replace (0 / 2) with 0 by field. rewrite Rpower_O, Rplus_0_r, Gamma_1, Ropp_0 by lra.
    rewrite hyp1f1_eq, (PS_const (hc 0 1) 1); [simpl; ring| |apply hc_0]. intros j. unfold hc. pose proof (rising_0 j) as Z. rewrite Z. unfold Rdiv. ring.
  - set (N := S n). pose proof (pos_INR N) as NP. assert (G : 0 < 1 + INR N / 2) by lra. pose proof (Gamma_pos _ G) as GP. pose proof (h1_pos (INR N / 2) ltac:(lra)) as HP.
    unfold vhyp1f1. rewrite (vdiv_Fin nu sigma) by lra. change (vadd (Fin 1) (Fin (INR N / 2))) with (Fin (1 + INR N / 2)). rewrite (vlgam _ G). veval. replace (- (nu / sigma) ^ 2 / 2) with (- mu) by (field; lra). rewrite (Rltb_true 0 1) by lra. veval. cbn [vfsum]. veval. f_equal.
    unfold Mr. rewrite ?Rplus_0_r, !exp_plus, (exp_ln (hyp1f1 _ _ _)) by auto. unfold loggamma. rewrite exp_ln by auto. rewrite <- (Rpower_pow N sigma) by auto. unfold Rpower. ring.
Qed.
Lemma moment_ok n : moment_is (fun x => pdf x nu sigma) 0 p_infty n (noncentral_moment n nu sigma).
Proof. apply (scale_moment 0 p_infty F f Q ST sigma (fun x => pdf x nu sigma) 0 p_infty HS elo eq_refl pdf_in n (Mr n) _ (Mr_ok n)). apply moment_val. Qed.
Notation LSM lem N := (lem 0 p_infty F f Q ST 0 sigma (fun x => pdf x nu sigma) (Finite 0) p_infty HS elo eq_refl pdf_in Mr N%nat (fun n _ => Mr_ok n)).
Lemma mean_val : mean nu sigma = Fin (0 + sigma * Mr 1).
Proof.
  unfold mean. rewrite validate_ok by auto. change vpi with (Fin PI). pose proof PI_RGT_0 as PP. assert (P2 : 0 <= PI / 2) by lra. unfold vhyp1f1. rewrite (vdiv_Fin nu sigma) by lra. veval. replace (- (nu / sigma) ^ 2 / 2) with (- mu) by (field; lra). rewrite (Rltb_true 0 1) by lra. veval. f_equal.
  unfold Mr. simpl INR. replace (1 + 1 / 2) with (/ 2 + 1) by field. rewrite Gamma_succ, Gamma_half by lra. replace (1 / 2) with (/ 2) by field. rewrite Rpower_sqrt by lra.
  replace (sqrt (PI / 2)) with (sqrt 2 * (/ 2 * sqrt PI)); [ring|]. rewrite sqrt_div_alt by lra. assert (S : sqrt 2 * sqrt 2 = 2) by (apply sqrt_sqrt; lra). pose proof (sqrt_lt_R0 2 ltac:(lra)). set (s := sqrt 2) in *. clearbody s. replace (/ 2) with (/ (s * s)) by (rewrite S; reflexivity). field. lra.
Qed.
Lemma mean_ok : mean_is (fun x => pdf x nu sigma) 0 p_infty (mean nu sigma).
Proof. apply (LSM lsm_mean 1); auto. apply mean_val. Qed.
Lemma var_ok : var_is (fun x => pdf x nu sigma) 0 p_infty (mean nu sigma) (var nu sigma).
Proof.
  apply (LSM lsm_var 2); auto; [apply mean_val|]. unfold var. rewrite validate_ok, moment_val, mean_val by auto. veval. f_equal. unfold mvar. ring.
Qed.
(** the second moment in closed form *)
Lemma second_ok : noncentral_moment 2 nu sigma = Fin (2 * sigma ^ 2 + nu ^ 2).
Proof.
  rewrite moment_val. f_equal. unfold Mr. simpl INR. replace ((1 + 1) / 2) with 1 by field. rewrite Rpower_1 by lra. rewrite Gamma_succ, Gamma_1 by lra. replace (Ropp 1) with (-1) by ring. rewrite hyp1f1_m1 by lra. field. lra.
Qed.
Lemma I0_PS y : I0 y = PSeries d0 (y ^ 2 / 4).
Proof. unfold I0, PSeries. apply Series_ext. intros k. unfold d0, Rdiv. ring. Qed.
(** C39: the function handed to the root finder has the sign of the derivative of the density. *)
Lemma mode_sign (x : R) : 0 < x -> exists e d, mode_eq nu sigma x = Fin e /\ pdf x nu sigma = Fin d /\ 0 < d /\
  is_derive (fun x => toR (pdf (Fin x) nu sigma)) x (d * e / (x * sigma ^ 2)).
Proof.
  intros X. pose proof (I0_pos x X) as IP. assert (S2 : 0 < sigma ^ 2) by (apply pow_lt; auto). set (r := nu / sigma ^ 2). assert (RX : 0 <= r * x) by (apply Rmult_le_pos; [|lra]; apply Rmult_le_pos; [auto|left; apply Rinv_0_lt_compat; auto]).
  rewrite I0_PS in IP. replace (x * nu / sigma ^ 2) with (r * x) in IP by (unfold r; field; lra).
  set (i0 := PSeries d0 ((r * x) ^ 2 / 4)) in *. set (i1 := r * x / 2 * PSeries d1 ((r * x) ^ 2 / 4)).
  exists ((sigma + x) * (sigma - x) + x * nu * i1 / i0). eexists. split; [|split; [apply pdf_val; auto|split; [apply Rdiv_pos; [apply f_pos; apply Rdiv_pos; auto|auto]|]]].
  - unfold mode_eq. veval. fold r. rewrite vbesseli1_val by auto. rewrite vbesseli0 by auto. fold i1. assert (E : Series (fun k => ((r * x) ^ 2 / 4) ^ k / (INR (fact k) * Gamma (0 + 1 + INR k))) = i0) by (unfold i0; rewrite <- I0_PS; reflexivity). rewrite E. veval. reflexivity.
  - pose proof (fval x X) as E. cbv beta in E. cbv beta. rewrite E. rewrite I0_PS. replace (x * nu / sigma ^ 2) with (r * x) by (unfold r; field; lra). fold i0.
    apply (is_derive_ext_loc (fun x => x / sigma ^ 2 * exp (- (x ^ 2 + nu ^ 2) / (2 * sigma ^ 2)) * PSeries d0 ((r * x) ^ 2 / 4))).
    + generalize (open_gt 0 x X). apply filter_imp. intros y Y. rewrite (proj1 (pdf_val y Y)). simpl toR. pose proof (fval y Y) as E'. cbv beta in E'. etransitivity; [|symmetry; exact E']. rewrite I0_PS. replace (y * nu / sigma ^ 2) with (r * y) by (unfold r; field; lra). reflexivity.
    + evar_last.
      * apply (is_derive_mult (fun x => x / sigma ^ 2 * exp (- (x ^ 2 + nu ^ 2) / (2 * sigma ^ 2))) (fun x => PSeries d0 ((r * x) ^ 2 / 4)) x (/ sigma ^ 2 * exp (- (x ^ 2 + nu ^ 2) / (2 * sigma ^ 2)) * (1 - x ^ 2 / sigma ^ 2)) (r * i1)).
        -- auto_derive; [lra|]. unfold Rdiv. simpl. field. lra.
        -- evar_last; [apply (is_derive_comp (fun y => PSeries d0 (y ^ 2 / 4)) (fun x => r * x)); [apply I0_der|auto_derive; auto]|]. unfold i1. set (q := PSeries d1 _). clearbody q. unfold scal. simpl. unfold mult. simpl. field.
        -- intros; apply Rmult_comm.
      * fold i0. unfold plus, mult. simpl. set (w := exp _). clearbody w i0 i1. unfold r. field. lra.
Qed.
(** a value accepted by the root finder is a critical point of the density *)
Lemma mode_crit fr (x : R) : checked_solver1 fr -> mode fr nu sigma = Fin x -> 0 < x -> is_derive (fun x => toR (pdf (Fin x) nu sigma)) x 0.
Proof.
  intros CS M X. unfold mode in M. rewrite validate_ok in M by auto. apply CS in M. destruct (mode_sign x X) as (e & d & E & D & P & DER). rewrite E in M. injection M as M. rewrite M in DER. unfold Rdiv in DER. rewrite Rmult_0_r, Rmult_0_l in DER. exact DER.
Qed.
Lemma supp_ok : support nu sigma = Ok (Fin 0, PInf). Proof. unfold support. apply validate_ok; auto. Qed.
End P.
Lemma bad_params fr nu sigma : isnum nu -> isnum sigma -> negative nu \/ nonpositive sigma -> support nu sigma = Err ValueError /\
  always_ValueError [ fun x => pdf x nu sigma; fun x => logpdf x nu sigma; fun x => cdf x nu sigma; fun x => sf x nu sigma;
    fun _ => mean nu sigma; fun _ => mode fr nu sigma; fun _ => var nu sigma; fun _ => noncentral_moment 2 nu sigma ].
Proof.
  intros A B C. unfold support, pdf, logpdf, cdf, sf, mean, mode, var, noncentral_moment.
  split; [|all_ve; intros x Hx]; rewrite ?validate_bad by auto; reflexivity.
Qed.
Lemma mode_case : exists fr, checked_solver1 fr /\ mode fr 0 2 = Fin 2.
Proof.
  exists (fun g _ => match g (Fin 2) with Fin r => if Req_EM_T r 0 then Fin 2 else NaN | _ => NaN end). split.
  - intros g x0 r. destruct (g (Fin 2)) as [u| | | |] eqn:E; try discriminate. destruct (Req_EM_T u 0) as [->|]; try discriminate. intros H. injection H as <-. exact E.
  - unfold mode. rewrite validate_ok by lra. destruct (mode_sign 0 2 ltac:(lra) ltac:(lra) 2 ltac:(lra)) as (e & d & E & _). rewrite E.
    assert (Z : mode_eq 0 2 2 = Fin 0). { unfold mode_eq. veval. rewrite vbesseli1_val by lra. rewrite vbesseli0 by lra.
      pose proof (I0_pos 0 2 ltac:(lra) 2 ltac:(lra)) as IP. replace (2 * 0 / 2 ^ 2) with (0 / 2 ^ 2 * 2) in IP by field.
      match goal with |- context [Series ?f] => assert (EE : Series f = I0 (0 / 2 ^ 2 * 2)) by reflexivity; rewrite EE end. veval. f_equal. field. lra. }
    rewrite Z in E. injection E as <-. destruct (Req_EM_T 0 0); [reflexivity|lra].
Qed.
