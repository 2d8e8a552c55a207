(** Facts about the special functions on values (M_sfun). *)
From Coq Require Import Reals Lra Lia List Bool ZArith.
From Coquelicot Require Import Coquelicot.
From Verif Require Import Values VTac Spec RLib DistLib DistLS LimLib IntLib MomLib SFun GammaLib GammaLib2 GammaLib3 M_sfun.
Local Open Scope R_scope.
Set Bullet Behavior "Strict Subproofs".

(** A primitive of a positive function, normalised, is the standard member of a family. *)
Lemma std_of_if lo hi (g F : R -> R) v : integral_fn lo hi g F v ->
  std lo hi (fun x => F x / v) (fun x => g x / v) (fun p => inverse_fn lo hi F (p * v)).
Proof.
  intros I. pose proof (if_vpos I) as V. constructor.
  - constructor.
    + apply (if_lt _ _ _ _ _ I).
    + intros x Hx. pose proof (if_range I x Hx). split; [left; pos|].
      left. apply div_lt_1; lra.
    + intros x Hx. apply (is_derive_ext (fun x => / v * F x)); [intros t; unfold Rdiv; apply Rmult_comm|].
      replace (g x / v) with (/ v * g x) by (unfold Rdiv; ring).
      apply (is_derive_scal F). apply (if_der _ _ _ _ _ I); auto.
    + intros x Hx. pose proof (if_pos _ _ _ _ _ I x Hx). pos.
  - intros x Hx. apply (continuous_mult g (fun _ => / v)); [apply (if_cont _ _ _ _ _ I); auto|apply continuous_const].
  - intros p Hp. destruct (inverse_fn_ok lo hi g F v (p * v) I) as [A B]; [nra|]. split; auto. rewrite B. field. lra.
Qed.
Lemma inverse_fn_eq lo hi (F : R -> R) x : (forall x y, inside lo hi x -> inside lo hi y -> x < y -> F x < F y) -> inside lo hi x ->
  inverse_fn lo hi F (F x) = x.
Proof.
  intros M Hx. unfold inverse_fn. rewrite (is_lub_Rbar_unique _ (Finite x)); auto. split.
  - intros y [Hy L]. simpl. destruct (Rle_lt_dec y x) as [A|A]; auto. pose proof (M x y Hx Hy A). lra.
  - intros b B. apply B. split; auto. lra.
Qed.
Lemma in_all x : inside m_infty p_infty x.
Proof. split; simpl; auto. Qed.
Lemma erf_incr x y : x < y -> erf x < erf y.
Proof.
  intros H. apply (deriv_pos_incr m_infty p_infty erf (fun x => 2 / sqrt PI * exp (- x ^ 2))); auto using in_all.
  - intros; apply erf_der.
  - intros. pose proof sqrtPI_pos. pos.
Qed.
Lemma erf_ncdf x : erf x = 2 * ncdf (sqrt 2 * x) - 1.
Proof. unfold ncdf. pose proof sqrt2_pos. replace (sqrt 2 * x / sqrt 2) with x by (field; lra). field. Qed.
Lemma erf_bound x : -1 < erf x < 1.
Proof. pose proof (if_range ncdf_if (sqrt 2 * x) (in_all _)). rewrite erf_ncdf. lra. Qed.
Definition erfinv (y : R) := inverse_fn m_infty p_infty erf y.
Lemma erf_erfinv y : -1 < y < 1 -> erf (erfinv y) = y.
Proof.
  intros H. destruct (if_onto ncdf_if ((1 + y) / 2)) as [x [_ E]]; [lra|].
  assert (K : erf (x / sqrt 2) = y).
  { rewrite erf_ncdf. pose proof sqrt2_pos. replace (sqrt 2 * (x / sqrt 2)) with x by (field; lra). rewrite E. field. }
  unfold erfinv. rewrite <- K at 1. rewrite (inverse_fn_eq m_infty p_infty erf); auto using in_all. intros; apply erf_incr; auto.
Qed.
Lemma erfinv_erf x : erfinv (erf x) = x.
Proof. unfold erfinv. apply inverse_fn_eq; auto using in_all. intros; apply erf_incr; auto. Qed.
Lemma erfinv_odd y : -1 < y < 1 -> erfinv (- y) = - erfinv y.
Proof. intros H. rewrite <- (erf_erfinv y H) at 1. rewrite <- erf_odd. apply erfinv_erf. Qed.
Lemma erfinv_incr x y : -1 < x -> y < 1 -> x < y -> erfinv x < erfinv y.
Proof.
  intros A B H. destruct (Rlt_le_dec (erfinv x) (erfinv y)) as [L|L]; auto. exfalso.
  assert (erf (erfinv y) <= erf (erfinv x)) by (destruct L as [L|L]; [left; apply erf_incr; auto|rewrite L; lra]).
  rewrite !erf_erfinv in * by lra. lra.
Qed.
Lemma erfinv_0 : erfinv 0 = 0.
Proof. rewrite <- erf_0 at 1. apply erfinv_erf. Qed.
Lemma verfinv_Fin y : -1 < y < 1 -> verfinv (Fin y) = Fin (erfinv y).
Proof.
  intros H. unfold verfinv, Rltb, Reqb. destruct (Rlt_dec y (-1)); [lra|]. destruct (Rlt_dec 1 y); [lra|].
  destruct (Req_EM_T y 1); [lra|]. destruct (Req_EM_T y (-1)); [lra|]. auto.
Qed.
Lemma verfinv_1 y : y = 1 -> verfinv (Fin y) = PInf.
Proof.
  intros ->. unfold verfinv, Rltb, Reqb. destruct (Rlt_dec 1 (-1)); [lra|]. destruct (Rlt_dec 1 1); [lra|].
  destruct (Req_EM_T 1 1); [auto|lra].
Qed.
Lemma verfinv_m1 y : y = -1 -> verfinv (Fin y) = NInf.
Proof.
  intros ->. unfold verfinv, Rltb, Reqb. destruct (Rlt_dec (-1) (-1)); [lra|]. destruct (Rlt_dec 1 (-1)); [lra|].
  destruct (Req_EM_T (-1) 1); [lra|]. destruct (Req_EM_T (-1) (-1)); [auto|lra].
Qed.
(** ncdf and npdf. *)
Lemma vncdf_Fin x l s : 0 < s -> vncdf (Fin x) (Fin l) (Fin s) = Fin (ncdf ((x - l) / s)).
Proof.
  intros S. unfold vncdf. pose proof sqrt2_pos. assert (0 < s * sqrt 2) by pos. veval.
  set (z := (x - l) / (s * sqrt 2)). unfold ncdf. replace ((x - l) / s / sqrt 2) with z by (unfold z; field; lra).
  destruct (Rlt_le_dec z 0); vif; unfold verfc, verf, vneg; veval; unfold erfc; try rewrite erf_odd; f_equal; field.
Qed.
Lemma vncdf_PInf l s : 0 < s -> vncdf PInf (Fin l) (Fin s) = Fin 1.
Proof.
  intros S. unfold vncdf. pose proof sqrt2_pos. assert (0 < s * sqrt 2) by pos. veval. unfold verf. veval. f_equal. field.
Qed.
Lemma vncdf_NInf l s : 0 < s -> vncdf NInf (Fin l) (Fin s) = Fin 0.
Proof.
  intros S. unfold vncdf. pose proof sqrt2_pos. assert (0 < s * sqrt 2) by pos. veval. unfold verfc. veval. f_equal. field.
Qed.
Lemma sqrt2PI_pos : 0 < sqrt (2 * PI).
Proof. apply sqrt_lt_R0. pose proof PI_RGT_0. lra. Qed.
Lemma vnpdf_Fin x l s : 0 < s -> vnpdf (Fin x) (Fin l) (Fin s) = Fin (nkernel ((x - l) / s) / s).
Proof.
  intros S. unfold vnpdf, vpi. pose proof PI_RGT_0. pose proof sqrt2PI_pos. assert (0 < s ^ 2) by (apply pow_lt; auto).
  assert (0 < 2 * s ^ 2) by lra. assert (0 < s * sqrt (2 * PI)) by pos.
  veval. f_equal. unfold nkernel.
  replace (- ((x - l) / s) ^ 2 / 2) with (- (x - l) ^ 2 / (2 * s ^ 2)) by (field; lra). field. lra.
Qed.
Lemma nkernel_pos z : 0 < nkernel z.
Proof. apply (if_pos _ _ _ _ _ ncdf_if). apply in_all. Qed.
Lemma ln_sqrt x : 0 < x -> ln (sqrt x) = ln x / 2.
Proof. intros H. rewrite <- (sqrt_sqrt x) at 2 by lra. pose proof (sqrt_lt_R0 x H). rewrite ln_mult by auto. field. Qed.
Lemma nkernel_ln z : ln (nkernel z) = - ln (2 * PI) / 2 - z ^ 2 / 2.
Proof.
  unfold nkernel. pose proof PI_RGT_0. pose proof sqrt2PI_pos. rewrite (ln_div (exp (- z ^ 2 / 2)) (sqrt (2 * PI))) by (try apply exp_pos; auto).
  rewrite ln_exp, ln_sqrt by lra. field.
Qed.
Lemma nkernel_max z : nkernel z <= nkernel 0.
Proof.
  unfold nkernel. pose proof sqrt2PI_pos. apply Rmult_le_compat_r; [left; pos|]. apply exp_le_compat. pose proof (pow2_ge_0 z). simpl in *. lra.
Qed.
Lemma nkernel_der z : is_derive nkernel z (- z * nkernel z).
Proof. unfold nkernel. pose proof sqrt2PI_pos. auto_derive; auto. change (Rinv) with Rinv. unfold Rdiv. simpl. field. lra. Qed.
Lemma nkernel_even z : nkernel (- z) = nkernel z.
Proof. unfold nkernel. f_equal. f_equal. f_equal. ring. Qed.
(** Moments of the standard normal law. *)
Lemma nkernel_lim n : filterlim (fun z => z ^ n * nkernel z) (Rbar_locally p_infty) (locally 0).
Proof.
  pose proof sqrt2PI_pos.
  apply (flim_squeeze0 _ _ (fun z => exp (/ 2) / sqrt (2 * PI) * (z ^ n * exp (- z)))).
  - exists 0. intros z Hz. pose proof (nkernel_pos z) as P. assert (Z : 0 < z ^ n) by (apply pow_lt; auto).
    rewrite Rabs_pos_eq by (left; pos). unfold nkernel.
    replace (exp (/ 2) / sqrt (2 * PI) * (z ^ n * exp (- z))) with (z ^ n * (exp (/ 2) * exp (- z) / sqrt (2 * PI))) by (field; lra).
    apply Rmult_le_compat_l; [lra|]. apply Rmult_le_compat_r; [left; pos|]. rewrite <- exp_plus. apply exp_le_compat.
    pose proof (pow2_ge_0 (z - 1)). nra.
  - eapply flim_val; [apply flim_scal; [|apply (lim_pow_exp n)]|ring]. typeclasses eauto.
Qed.
Lemma nkernel_lim_m n : filterlim (fun z => z ^ n * nkernel z) (Rbar_locally m_infty) (locally 0).
Proof.
  apply lim_opp_minf. apply (flim_squeeze0 _ _ (fun z => z ^ n * nkernel z)); [|apply nkernel_lim].
  exists 0. intros z Hz. rewrite nkernel_even, Rabs_mult, <- RPow_abs, Rabs_Ropp, (Rabs_pos_eq z), (Rabs_pos_eq (nkernel z)) by (try (left; apply nkernel_pos); lra). lra.
Qed.
Lemma zn_cont n z : continuous (fun z => z ^ n * nkernel z) z.
Proof.
  apply (continuous_mult (fun z => z ^ n) nkernel); [apply ex_derive_cont; auto_derive; auto|].
  apply (if_cont _ _ _ _ _ ncdf_if). apply in_all.
Qed.
Lemma ncdf_mass : integrates_to nkernel m_infty p_infty 1.
Proof. apply (if_integral ncdf_if). Qed.
Lemma norm_m1 : integrates_to (fun z => z * nkernel z) m_infty p_infty 0.
Proof.
  replace 0 with (-1 * (0 - 0)) by ring.
  apply (integrates_ext m_infty p_infty I (fun z => -1 * (- z * nkernel z))); [intros; ring|]. apply integrates_scal.
  apply (mk_integral _ nkernel); [exact I|..].
  - intros z _. apply nkernel_der.
  - intros z _. apply ex_derive_cont. unfold nkernel. pose proof sqrt2PI_pos. auto_derive. lra.
  - apply (flim_eq _ (fun z => z ^ 0 * nkernel z)); [exists 0; intros; simpl; ring|apply nkernel_lim_m].
  - apply (flim_eq _ (fun z => z ^ 0 * nkernel z)); [exists 0; intros; simpl; ring|apply nkernel_lim].
Qed.
(** E Z^(n+2) = (n+1) E Z^n. *)
Lemma norm_rec n m : integrates_to (fun z => z ^ n * nkernel z) m_infty p_infty m ->
  integrates_to (fun z => z ^ (S (S n)) * nkernel z) m_infty p_infty (INR (S n) * m).
Proof.
  intros H. assert (Z : integrates_to (fun z => INR (S n) * (z ^ n * nkernel z) - z ^ (S (S n)) * nkernel z) m_infty p_infty (0 - 0)).
  { apply (mk_integral _ (fun z => z ^ S n * nkernel z)); [exact I|..].
    - intros z _. evar_last.
      + apply (is_derive_mult (fun z => z ^ S n) nkernel z (INR (S n) * z ^ n) (- z * nkernel z)).
        * evar_last; [apply (is_derive_pow (fun z => z) (S n) z 1); apply (is_derive_id z)|]. cbn [Init.Nat.pred]. ring.
        * apply nkernel_der.
        * intros; apply Rmult_comm.
      + unfold plus, mult; cbn -[INR pow]. simpl pow. ring.
    - intros z _. apply (continuous_minus (fun z => INR (S n) * (z ^ n * nkernel z)) (fun z => z ^ (S (S n)) * nkernel z)); [|apply zn_cont].
      apply (continuous_scal_r (INR (S n)) (fun z => z ^ n * nkernel z)). apply zn_cont.
    - apply nkernel_lim_m.
    - apply nkernel_lim. }
  replace (INR (S n) * m) with (INR (S n) * m + -1 * (0 - 0)) by ring.
  refine (integrates_ext m_infty p_infty I _ _ _ _ (integrates_plus m_infty p_infty _ _ _ _ (integrates_scal m_infty p_infty (INR (S n)) _ _ H) (integrates_scal m_infty p_infty (-1) _ _ Z))).
  intros z _. cbn -[pow INR]. ring.
Qed.
Lemma norm_m0 : integrates_to (fun z => z ^ 0 * nkernel z) m_infty p_infty 1.
Proof. refine (integrates_ext m_infty p_infty I _ _ _ _ ncdf_mass). intros; simpl; ring. Qed.
Lemma norm_m2 : integrates_to (fun z => z ^ 2 * nkernel z) m_infty p_infty 1.
Proof. replace 1 with (INR 1 * 1) by (simpl; ring). apply norm_rec. apply norm_m0. Qed.
Lemma norm_entropy : integrates_to (fun z => - (nkernel z * ln (nkernel z))) m_infty p_infty (ln (2 * PI) / 2 + / 2).
Proof.
  replace (ln (2 * PI) / 2 + / 2) with (ln (2 * PI) / 2 * 1 + / 2 * 1) by ring.
  refine (integrates_ext m_infty p_infty I _ _ _ _ (integrates_plus m_infty p_infty _ _ _ _ (integrates_scal m_infty p_infty (ln (2 * PI) / 2) _ _ ncdf_mass) (integrates_scal m_infty p_infty (/ 2) _ _ norm_m2))).
  intros z _. rewrite nkernel_ln. simpl. field.
Qed.
(** The half-normal law: erf on the positive half line. *)
Definition hkernel (y : R) := 2 / sqrt PI * exp (- y ^ 2).
Lemma erf_std : std 0 p_infty erf hkernel erfinv.
Proof.
  constructor.
  - constructor; [exact I|..].
    + intros x [H _]. simpl in H. pose proof (erf_bound x). pose proof (erf_incr 0 x H). rewrite erf_0 in *. lra.
    + intros x _. apply erf_der.
    + intros x _. unfold hkernel. pose proof sqrtPI_pos. pose proof (exp_pos (- x ^ 2)). pos.
  - intros x _. apply ex_derive_cont. unfold hkernel. auto_derive. pose proof sqrtPI_pos. lra.
  - intros p H. split; [|apply erf_erfinv; lra]. split; simpl; auto. rewrite <- erfinv_0. apply erfinv_incr; lra.
Qed.
