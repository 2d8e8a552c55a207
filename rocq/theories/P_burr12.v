(** Proofs about M_burr12. *)
From Coq Require Import Reals Lra List.
From Coquelicot Require Import Coquelicot.
From Verif Require Import Values VTac Spec SpecStat SpecEst RLib DistLib DistLS DistSc IntLib SubLib MomLib LSMom GammaLib IncLib SFun M_sfun PLib LLib XLib P_est M_common M_burr12.
Import ListNotations.
Local Open Scope R_scope.
Set Bullet Behavior "Strict Subproofs".

Section Std.
Variables c d : R.
Hypothesis Hc : 0 < c.
Hypothesis Hd : 0 < d.
Definition W (z : R) := 1 + Rpower z c.
Definition F (z : R) := 1 - Rpower (W z) (- d).
Definition f (z : R) := c * d * Rpower z (c - 1) / Rpower (W z) (d + 1).
Definition Q (p : R) := Rpower (Rpower (1 - p) (-1 / d) - 1) (1 / c).
Lemma W_pos z : 1 < W z. Proof. unfold W. pose proof (Rpower_pos z c). lra. Qed.
Lemma f_pos z : 0 < f z.
Proof.
  unfold f. apply Rdiv_pos; [|apply Rpower_pos]. apply Rmult_lt_0_compat; [nra|apply Rpower_pos].
Qed.
Lemma q_pos p : 0 < p < 1 -> 0 < Rpower (1 - p) (-1 / d) - 1.
Proof.
  intros H. pose proof (Rpower_gt_1_neg (1 - p) (-1 / d) ltac:(lra) ltac:(apply Rdiv_neg; lra)). lra.
Qed.
Lemma ST : std 0 p_infty F f Q.
Proof.
  constructor.
  - constructor; simpl; auto.
    + intros z _. unfold F. pose proof (Rpower_pos (W z) (-d)).
      pose proof (Rpower_lt_1_neg (W z) (-d) (W_pos z) ltac:(lra)). lra.
    + intros z [H _]. simpl in H. unfold F, f. pose proof (W_pos z).
      evar_last.
      * apply (is_derive_minus (fun _ => 1) (fun z => Rpower (W z) (-d))); [apply is_derive_const|].
        apply (is_derive_comp (fun w => Rpower w (-d)) W).
        -- apply is_derive_Rpower. lra.
        -- unfold W. apply (is_derive_plus (fun _ => 1) (fun z => Rpower z c)); [apply is_derive_const|].
           apply is_derive_Rpower. auto.
      * unfold minus, plus, opp, scal, zero; simpl; unfold mult; simpl.
        replace (- d - 1) with (- (d + 1)) by ring. rewrite (Rpower_Ropp (W z)). unfold Rdiv. ring.
    + intros z _. apply f_pos.
  - intros z [H _]. simpl in H. apply ex_derive_cont. unfold f, W, Rpower. auto_derive.
    pose proof (exp_pos (c * ln z)). pose proof (exp_pos ((d + 1) * ln (1 + exp (c * ln z)))). repeat split; auto; lra.
  - intros p H. pose proof (q_pos p H). unfold Q. split; [split; simpl; auto; apply Rpower_pos|].
    unfold F, W. rewrite Rpower_inv by lra.
    replace (1 + (Rpower (1 - p) (-1 / d) - 1)) with (Rpower (1 - p) (-1 / d)) by ring.
    rewrite Rpower_mult. replace (-1 / d * - d) with 1 by (field; lra). rewrite Rpower_1 by lra. ring.
Qed.
(** With u = z^c, c log f = (c-1) log u - c (d+1) log (1+u) + const. *)
Lemma f_max z : 1 < c -> 0 < z -> f z <= f (Rpower ((c - 1) / (d * c + 1)) (1 / c)).
Proof.
  intros C Z. set (m := (c - 1) / (d * c + 1)). assert (M : 0 < m) by (apply Rdiv_pos; nra).
  assert (E : forall y, 0 < y -> f y = c * d * exp ((c - 1) / c * ln (Rpower y c) - (d + 1) * ln (1 + Rpower y c))).
  { intros y Y. unfold f, W. rewrite exp_minus. unfold Rdiv at 1. rewrite Rmult_assoc. f_equal.
    unfold Rdiv at 1. f_equal. rewrite ln_Rpower. unfold Rpower. f_equal. field. lra. }
  rewrite !E by (auto; apply Rpower_pos). rewrite Rpower_inv by lra.
  apply Rmult_le_compat_l; [nra|]. apply exp_le_compat. set (u := Rpower z c). assert (U : 0 < u) by apply Rpower_pos.
  pose proof (ln_ineq (u * (1 + m) / (m * (1 + u)))) as L1.
  (* g u = a ln u - b ln (1+u), a = (c-1)/c, b = d+1, m = a/(b-a) *)
  set (a := (c - 1) / c). set (b := d + 1).
  assert (A : 0 < a) by (apply Rdiv_pos; lra).
  assert (AB : a < b) by (unfold a, b; apply (Rmult_lt_reg_r c); [lra|]; unfold Rdiv; rewrite Rmult_assoc, Rinv_l by lra; nra).
  assert (EM : m = a / (b - a)) by (unfold m, a, b; field; nra).
  (* weighted AM-GM: a ln(u/m) + (b-a) ln 1 <= b ln ((a u/m + (b-a))/b) = b ln ((1+u)/(1+m)) *)
  assert (T : forall w, 0 < w -> a * ln w <= b * ln ((a * w + (b - a)) / b)).
  { intros w Wp. set (g := (a * w + (b - a)) / b). assert (G : 0 < g) by (apply Rdiv_pos; nra).
    assert (L2 : ln (w / g) <= w / g - 1) by (apply ln_ineq; apply Rdiv_pos; auto).
    assert (L3 : ln (1 / g) <= 1 / g - 1) by (apply ln_ineq; apply Rdiv_pos; lra).
    rewrite ln_div in L2, L3 by lra. rewrite ln_1 in L3.
    assert (X : a * (w / g - 1) + (b - a) * (1 / g - 1) = 0).
    { replace (a * (w / g - 1) + (b - a) * (1 / g - 1)) with ((a * w + (b - a)) / g - b) by (field; lra).
      unfold g. field. split; [lra|]. nra. }
    nra. }
  assert (EE : (a * (u / m) + (b - a)) / b = (1 + u) / (1 + m)).
  { assert (1 + m = b / (b - a)) as -> by (rewrite EM; field; lra). rewrite EM. field. lra. }
  pose proof (T (u / m) ltac:(apply Rdiv_pos; auto)) as T'. rewrite EE in T'.
  rewrite !ln_div in T' by lra. lra.
Qed.
End Std.

Ltac start := unfold pdf, logpdf, cdf, sf, invcdf, invsf, support, mode, median, logcdf, logsf, validate, validate_positive, validate_p.

Section Mom.
Variables c d : R.
Hypothesis Hc : 0 < c.
Hypothesis Hd : 0 < d.
(** The substitution u = z^c / (1 + z^c). *)
Let phi z := Rpower z c / W c z.
Lemma BSB : subst 0 p_infty 0 1 phi (fun z => c * Rpower z (c - 1) / W c z ^ 2) (fun y => Rpower (y / (1 - y)) (1 / c)).
Proof.
  constructor.
  - simpl; lra.
  - intros x _. unfold phi, W. pose proof (Rpower_pos x c). split; simpl; [apply Rdiv_pos; lra|]. apply Rlt_div_l; lra.
  - intros x [X _]. simpl in X. pose proof (W_pos c x). pose proof (is_derive_Rpower x c X) as D. unfold phi. evar_last.
    + apply (is_derive_div (fun z => Rpower z c) (W c) x (c * Rpower x (c - 1)) (c * Rpower x (c - 1))); [apply D| |lra].
      unfold W. evar_last; [apply (is_derive_plus (fun _ => 1) (fun z => Rpower z c)); [apply is_derive_const|apply D]|].
      unfold plus, zero; simpl. ring.
    + unfold W. pose proof (Rpower_pos x c). field. lra.
  - intros x [X _]. simpl in X. pose proof (W_pos c x). apply ex_derive_cont. unfold W, Rpower in *. auto_derive. repeat split; auto. rewrite Rmult_1_r. nra.
  - intros y [Y1 Y2]. simpl in *. assert (P : 0 < y / (1 - y)) by (apply Rdiv_pos; lra).
    split; [split; simpl; auto; apply Rpower_pos|]. unfold phi, W. rewrite Rpower_inv by lra. field. lra.
Qed.
Definition Mn (n : nat) : R := d * Beta (d - INR n / c) (1 + INR n / c).
Lemma mom_int n : INR n < c * d -> integrates_to (fun z => z ^ n * f c d z) 0 p_infty (Mn n).
Proof.
  intros L. pose proof (pos_INR n). set (q := INR n / c). assert (Q0 : 0 <= q) by (apply Rdiv_le_0_compat; lra).
  assert (QD : 0 < d - q). { assert (q < d); [|lra]. unfold q. apply Rlt_div_l; lra. }
  assert (P : 0 < 1 + q) by lra. pose proof (Bi (1 + q) (d - q) P QD) as I.
  assert (C : forall y, inside 0 1 y -> continuous (fun u => d * beta_kernel (1 + q) (d - q) u) y).
  { intros y Y. apply (continuous_scal_r d (beta_kernel (1 + q) (d - q))). apply (if_cont _ _ _ _ _ I); auto. }
  assert (INC : forall x, inside 0 p_infty x -> 0 < c * Rpower x (c - 1) / W c x ^ 2).
  { intros x _. pose proof (W_pos c x). apply Rdiv_pos; [apply Rmult_lt_0_compat; [auto|apply Rpower_pos]|apply pow_lt; lra]. }
  assert (EM : Mn n = d * Beta (1 + q) (d - q)) by (unfold Mn; fold q; f_equal; apply Beta_sym; auto). rewrite EM.
  pose proof (sub_integral BSB INC (fun u => d * beta_kernel (1 + q) (d - q) u) _ C (integrates_scal _ _ _ _ _ (if_integral I))) as J.
  revert J. apply integrates_ext; [simpl; auto|]. intros x [X _]. simpl in X. unfold beta_kernel, f, phi.
  pose proof (W_pos c x) as WP. assert (PX : 0 < Rpower x c) by apply Rpower_pos.
  assert (E1 : 1 - Rpower x c / W c x = Rpower (W c x) (-1)).
  { rewrite (Rpower_Ropp _ 1), Rpower_1 by lra. unfold W. field. unfold W in WP; lra. }
  assert (E2 : Rpower x c / W c x = Rpower x c * Rpower (W c x) (-1)) by (rewrite (Rpower_Ropp _ 1), Rpower_1 by lra; reflexivity).
  rewrite E1, E2. rewrite Rpower_base_mult by (auto; apply Rpower_pos).
  rewrite !Rpower_mult. replace (c * (1 + q - 1)) with (INR n) by (unfold q; field; lra). rewrite Rpower_pow by auto.
  unfold Rdiv. rewrite <- !Rpower_Ropp.
  replace (/ W c x ^ 2) with (Rpower (W c x) (-2)) by (replace (-2) with (- INR 2) by (simpl; ring); rewrite Rpower_Ropp, Rpower_pow by lra; reflexivity).
  replace (Rpower (W c x) (- (d + 1))) with (Rpower (W c x) (-1 * (1 + q - 1)) * Rpower (W c x) (-1 * (d - q - 1)) * Rpower (W c x) (-2)); [ring|].
  rewrite <- !Rpower_plus. f_equal. ring.
Qed.
End Mom.
Section P.
Variables c d s : R.
Hypothesis Hc : 0 < c.
Hypothesis Hd : 0 < d.
Hypothesis Hs : 0 < s.
Lemma z_pos x : 0 < x -> 0 < x / s. Proof. intros. apply Rdiv_pos; lra. Qed.
Lemma z_pos' x : 0 < x / s -> 0 < x.
Proof. intros. assert (0 < x / s * s) by nra. unfold Rdiv in H0. rewrite Rmult_assoc, Rinv_l in H0 by lra. lra. Qed.
Lemma lo_eq : Finite 0 = sc s 0. Proof. simpl. f_equal. ring. Qed.
Lemma pdf_fin (x : R) : 0 < x -> pdf x c d s = Fin (f c d (x / s) / s) /\ logpdf x c d s = Fin (ln (f c d (x / s) / s)).
Proof.
  intros H. pose proof (z_pos x H) as Z. pose proof (W_pos c (x / s)) as WP. unfold W in WP. pose proof (Rpower_pos (x / s) c).
  pose proof (Rpower_pos (1 + Rpower (x / s) c) (d + 1)).
  split.
  - start. veval. unfold f, W. f_equal. field. lra.
  - start. veval. f_equal. rewrite ln_div by (auto; apply f_pos; auto).
    unfold f. pose proof (Rpower_pos (x / s) (c - 1)). unfold W.
    rewrite ln_div by (auto; apply Rmult_lt_0_compat; nra).
    rewrite !ln_mult, !ln_Rpower, ln_div by (auto; nra). ring.
Qed.
Lemma sf_fin (x : R) : 0 < x -> sf x c d s = Fin (1 - F c d (x / s)).
Proof.
  intros H. pose proof (z_pos x H) as Z. pose proof (W_pos c (x / s)) as WP. unfold W in WP.
  start. veval. unfold F, W. f_equal. ring.
Qed.
Lemma cdf_fin (x : R) : 0 < x -> cdf x c d s = Fin (F c d (x / s)).
Proof.
  intros H. unfold cdf. rewrite sf_fin by auto. unfold validate, validate_positive. veval. f_equal. ring.
Qed.
Lemma CERT : cert (fun x => pdf x c d s) (fun x => logpdf x c d s) (fun x => cdf x c d s) (fun x => sf x c d s)
  (fun p => invcdf p c d s) (fun p => invsf p c d s) 0 p_infty (fun x => F c d (x / s))
  (fun x => f c d (x / s) / s) (fun p => s * Q c d p).
Proof.
  apply (sc_cert 0 p_infty (F c d) (f c d) (Q c d) (ST c d Hc Hd) s Hs); auto using lo_eq.
  - constructor.
    + intros x [H _]. simpl in H. split; [apply cdf_fin|apply sf_fin]; auto.
    + intros x H. simpl in H. start. veval. auto.
    + intros x [].
    + start. veval. auto.
    + start. veval. split; f_equal; lra.
  - intros x [H _]. simpl in H. apply pdf_fin. apply z_pos'; auto.
  - intros x [H|[]]. simpl in H. start. veval. auto.
  - intros p H. pose proof (q_pos d Hd p H). pose proof (q_pos d Hd (1 - p) ltac:(lra)) as H1.
    replace (1 - (1 - p)) with p in H1 by ring.
    unfold Q. start. veval. replace (1 - (1 - p)) with p by ring. auto.
Qed.
Lemma log_all (x : R) : log_of (fun x => pdf x c d s) (fun x => logpdf x c d s) x.
Proof.
  revert x. apply (cert_log_ends CERT); intros x E; [|discriminate]. injection E as E; subst x.
  right; left. start. veval. auto.
Qed.
Lemma log_cdf_sf (x : R) : log_of (fun x => cdf x c d s) (fun x => logcdf x c d s) x /\
  log_of (fun x => sf x c d s) (fun x => logsf x c d s) x.
Proof.
  destruct (Rle_lt_dec x 0) as [H|H].
  - split.
    + right; left. start. veval. auto.
    + left. exists 1. split; [lra|]. start. veval. rewrite ln_1. auto.
  - pose proof (F_open01 _ _ _ _ (ce_smooth _ _ _ _ _ _ _ _ _ _ _ CERT) x (conj H I)) as O. cbv beta in O.
    pose proof (z_pos x H) as Z. pose proof (W_pos c (x / s)) as WP. unfold W in WP. pose proof (Rpower_pos (x / s) c).
    split; left.
    + exists (F c d (x / s)). split; [lra|]. rewrite cdf_fin by auto. split; auto.
      unfold logcdf. rewrite sf_fin by auto. unfold validate, validate_positive. veval. do 2 f_equal. ring.
    + exists (1 - F c d (x / s)). split; [lra|]. rewrite sf_fin by auto. split; auto.
      unfold logsf, validate, validate_positive. veval. f_equal. unfold F, W.
      replace (1 - (1 - Rpower (1 + Rpower (x / s) c) (- d))) with (Rpower (1 + Rpower (x / s) c) (- d)) by ring.
      rewrite ln_Rpower. ring.
Qed.
Lemma median_ok : median_is (fun x => cdf x c d s) (median c d s).
Proof.
  pose proof (q_pos d Hd (1/2) ltac:(lra)) as P. assert (E : Rpower (1 - 1/2) (-1 / d) = Rpower 2 (1 / d)).
  { replace (1 - 1/2) with (/ 2) by field. unfold Rpower. rewrite ln_Rinv by lra. f_equal. field. lra. }
  rewrite E in P. exists (s * Q c d (1/2)). split.
  - start. veval. unfold Q. rewrite E. auto.
  - destruct (cert_inverse CERT) as [I _]. destruct (I (1/2) ltac:(lra)) as [x [Ex [_ C]]].
    destruct (ce_inv _ _ _ _ _ _ _ _ _ _ _ CERT (1/2) ltac:(lra)) as [Ey _]. cbv beta in Ex, Ey. rewrite Ey in Ex.
    injection Ex as ->. auto.
Qed.
Lemma rejects : rejects_bad_p (fun p => invcdf p c d s) /\ rejects_bad_p (fun p => invsf p c d s) /\
  invcdf (Fin 0) c d s = Fin 0 /\ invsf (Fin 1) c d s = Fin 0.
Proof.
  assert (IK : 0 < 1 / c) by (apply Rdiv_pos; lra).
  split; [|split; [|split]].
  - split; [intros p [H|H]|split]; start; veval; reflexivity.
  - split; [intros p [H|H]|split]; start; veval; reflexivity.
  - start. veval. rewrite Rminus_0_r, Rpower_1_l. replace (1 - 1) with 0 by ring. veval. f_equal; ring.
  - start. veval. rewrite Rpower_1_l. replace (1 - 1) with 0 by ring. veval. f_equal; ring.
Qed.
(** Where -1/d is a multiple of one half the power of zero raises; otherwise it is infinite. *)
Lemma ends_hi : (exists k : positive, d = 2 / IZR (Zpos k)) ->
  invcdf (Fin 1) c d s = Exc ZeroDivisionError /\ invsf (Fin 0) c d s = Exc ZeroDivisionError.
Proof.
  intros [k0 K0]. pose proof (is_intb_half d k0 K0) as T. assert (N : -1 / d < 0) by (apply Rdiv_neg; lra).
  assert (V : vpow (Fin 0) (Fin (-1 / d)) = Exc ZeroDivisionError).
  { unfold vpow. unfold Rltb, Reqb. destruct (Rlt_dec 0 0); [lra|]. destruct (Req_EM_T 0 0); [|lra].
    destruct (Req_EM_T (-1 / d) 0); [lra|]. destruct (Rlt_dec 0 (-1 / d)); [lra|]. rewrite T. auto. }
  start. split; veval.
  - replace (1 - 1) with 0 by ring. rewrite V. veval. auto.
  - rewrite V. veval. auto.
Qed.
Lemma mode_ok : 1 < c -> is_mode (fun x => pdf x c d s) (mode c d s).
Proof.
  intros H. assert (KK : 0 < (c - 1) / (d * c + 1)) by (apply Rdiv_pos; nra). assert (0 < d * c + 1) by nra.
  set (m := Rpower ((c - 1) / (d * c + 1)) (1 / c)). assert (M : 0 < m) by apply Rpower_pos.
  assert (SM : 0 < s * m) by nra.
  exists (s * m), (f c d m / s). split; [start; veval; reflexivity|]. split.
  - rewrite (proj1 (pdf_fin _ SM)). do 3 f_equal. field. lra.
  - intros x. destruct (Rle_lt_dec x 0) as [L|L].
    + exists 0. split; [start; veval; auto|]. left. apply Rdiv_pos; auto. apply f_pos; auto.
    + eexists. split; [apply (pdf_fin _ L)|]. apply Rmult_le_compat_r; [left; apply Rinv_0_lt_compat; auto|].
      apply f_max; auto. apply z_pos; auto.
Qed.
Lemma f_anti y z : c <= 1 -> 0 < y -> y < z -> f c d z <= f c d y.
Proof.
  intros C Y YZ. unfold f. assert (L : ln y < ln z) by (apply ln_increasing; lra).
  assert (P1 : Rpower z (c - 1) <= Rpower y (c - 1)) by (unfold Rpower; apply exp_le_compat; nra).
  assert (P2 : Rpower y c <= Rpower z c) by (unfold Rpower; apply exp_le_compat; nra).
  assert (P3 : Rpower (W c y) (d + 1) <= Rpower (W c z) (d + 1)).
  { unfold Rpower at 1 2. apply exp_le_compat. apply Rmult_le_compat_l; [lra|]. pose proof (W_pos c y). apply ln_le_compat; [lra|].
    unfold W. lra. }
  pose proof (Rpower_pos (W c y) (d + 1)). pose proof (Rpower_pos z (c - 1)).
  unfold Rdiv. apply Rmult_le_compat.
  - apply Rmult_le_pos; nra.
  - left. apply Rinv_0_lt_compat. lra.
  - apply Rmult_le_compat_l; auto. nra.
  - apply Rinv_le_contravar; auto.
Qed.
Lemma mode_low : c <= 1 -> mode c d s = Fin 0 /\ pdf (Fin 0) c d s = Fin 0 /\
  forall x y : R, 0 < x < y -> exists fx fy, pdf x c d s = Fin fx /\ pdf y c d s = Fin fy /\ fy <= fx.
Proof.
  intros C. split; [start; veval; auto|]. split; [start; veval; auto|]. intros x y [X Y].
  do 2 eexists. split; [apply (pdf_fin x X)|]. split; [apply (pdf_fin y); lra|].
  apply Rmult_le_compat_r; [left; apply Rinv_0_lt_compat; auto|]. apply f_anti; auto. apply z_pos; auto.
  apply Rmult_lt_compat_r; auto. apply Rinv_0_lt_compat; auto.
Qed.
Lemma nll_ok xs : (forall x, In x xs -> 0 < x) ->
  nll (map Fin xs) c d s = vneg (loglik (fun x => logpdf x c d s) xs).
Proof.
  intros H. unfold nll, validate, validate_positive. vif. rewrite vxb_pass.
  - unfold loglik. rewrite map_map. reflexivity.
  - intros x I. pose proof (H x I). simpl. auto.
Qed.
Lemma nll_bad xs : (exists x, In x xs /\ x <= 0) -> nll (map Fin xs) c d s = Exc ValueError.
Proof. intros H. unfold nll, validate, validate_positive. vif. rewrite vxb_low; auto. Qed.
(** ** moments *)
Lemma elo : Finite 0 = ls 0 s 0. Proof. simpl. f_equal. ring. Qed.
Lemma pdf_in0 x : inside 0 p_infty x -> pdf (Fin x) c d s = Fin (f c d ((x - 0) / s) / s).
Proof. intros [H _]. simpl in H. rewrite Rminus_0_r. apply (pdf_fin x H). Qed.
Lemma mom_le N : INR N < c * d -> forall n, (n <= N)%nat -> integrates_to (fun z => z ^ n * f c d z) 0 p_infty (Mn c d n).
Proof. intros H n L. apply mom_int; auto. apply le_INR in L. lra. Qed.
Notation LSM lem N H := (lem 0 p_infty (F c d) (f c d) (Q c d) (ST c d Hc Hd) 0 s (fun x => pdf x c d s) (Finite 0) p_infty Hs elo eq_refl pdf_in0 (Mn c d) N%nat (mom_le N H)).
Lemma vB q : 0 <= q -> q < c * d -> vbeta (Fin (d - q / c)) (Fin (1 + q / c)) = Fin (Beta (d - q / c) (1 + q / c)).
Proof.
  intros N L. assert (0 <= q / c) by (apply Rdiv_le_0_compat; lra). assert (q / c < d) by (apply Rlt_div_l; lra).
  unfold vbeta. rewrite !Rltb_true by lra. reflexivity.
Qed.
Lemma mean_val : 1 < c * d -> mean vbeta c d s = Fin (s * Mn c d 1).
Proof.
  intros H. unfold mean, validate, validate_positive, Mn. veval. rewrite vB by lra. cbn [vmul INR]. f_equal. ring.
Qed.
Lemma mean_ok : 1 < c * d -> mean_is (fun x => pdf x c d s) 0 p_infty (mean vbeta c d s).
Proof. intros H. apply (LSM lsm_mean 1 H); auto. rewrite mean_val by auto. f_equal. ring. Qed.
Lemma mean_nan beta : c * d <= 1 -> mean beta c d s = NaN.
Proof. intros H. unfold mean, validate, validate_positive. veval. reflexivity. Qed.
End P.
Lemma var_val c d s : 0 < c -> 0 < d -> 0 < s -> 2 < c * d -> var vbeta c d s = Fin (s ^ 2 * (Mn c d 2 - Mn c d 1 ^ 2)).
Proof.
  intros Hc Hd Hs H. unfold var. rewrite (mean_val c d 1) by lra. unfold validate, validate_positive. veval. rewrite vB by lra.
  cbn [vpown vmul vneg vadd vsub]. unfold Mn. simpl INR. replace (1 + 1) with 2 by ring. f_equal. ring.
Qed.
Lemma var_ok (c d s : R) : 0 < c -> 0 < d -> 0 < s -> 2 < c * d -> var_is (fun x => pdf x c d s) 0 p_infty (mean vbeta c d s) (var vbeta c d s).
Proof.
  intros Hc Hd Hs H. assert (H2 : INR 2 < c * d) by (simpl; lra).
  apply (lsm_var 0 p_infty (F c d) (f c d) (Q c d) (ST c d Hc Hd) 0 s (fun x => pdf x c d s) (Finite 0) p_infty Hs (elo s) eq_refl (pdf_in0 c d s Hc Hd Hs) (Mn c d) 2%nat (mom_le c d Hc 2 H2)); auto.
  - rewrite mean_val by (auto; lra). f_equal. ring.
  - rewrite var_val by auto. reflexivity.
Qed.
Lemma var_nan (c d s : R) beta : 0 < c -> 0 < d -> 0 < s -> c * d <= 2 -> var beta c d s = NaN.
Proof. intros Hc Hd Hs H. unfold var, validate, validate_positive. veval. reflexivity. Qed.

Lemma scale_ok (c d : R) : 0 < c -> 0 < d ->
  scale_law (fun x s => pdf x c d s) (fun x s => cdf x c d s) (fun x s => sf x c d s)
    (fun p s => invcdf p c d s) (fun p s => invsf p c d s) 0 p_infty.
Proof.
  intros Hc Hd. apply (scale_from_cert _ (fun x s => logpdf x c d s) _ _ _ _ 0 p_infty (F c d) (f c d) (Q c d)).
  intros s S. rewrite <- lo_eq. apply CERT; auto.
Qed.
Lemma bad_params beta c d s : isnum c -> isnum d -> isnum s -> nonpositive c \/ nonpositive d \/ nonpositive s ->
  support c d s = Err ValueError /\
  always_ValueError [ fun x => pdf x c d s; fun x => logpdf x c d s; fun x => cdf x c d s; fun x => sf x c d s;
    fun x => logcdf x c d s; fun x => logsf x c d s;
    fun p => invcdf p c d s; fun p => invsf p c d s; fun _ => median c d s; fun _ => mode c d s;
    fun _ => mean beta c d s; fun _ => var beta c d s ] /\ forall xs, nll xs c d s = Exc ValueError.
Proof.
  intros N1 N2 N3 H.
  assert (G : forall A (CR : CanRaise A) (k : A), validate c d s k = raise ValueError).
  { intros A CR k. unfold validate. destruct H as [H|[H|H]].
    - apply vp_bad; auto.
    - apply vp_pass; auto. apply vp_bad; auto.
    - apply vp_pass; auto. apply vp_pass; auto. apply vp_bad; auto. }
  unfold support, pdf, logpdf, cdf, sf, invcdf, invsf, mean, mode, var, median, logcdf, logsf, nll.
  split; [apply G|]. split; [all_ve; intros x Hx; apply G|]. intros; apply G.
Qed.
Lemma mle_d_opt xs (c s : R) : xs <> [] -> 0 < c -> 0 < s -> (forall x, In x xs -> 0 < x) ->
  exists d, mle_d (map Fin xs) c s = Ok (Fin c, Fin d, Fin s) /\
  minimises (fun d => 0 < d) (fun d => nll (map Fin xs) c (Fin d) s) d.
Proof.
  intros N C S X. pose proof (length_pos xs N) as LN. set (n := INR (length xs)) in *.
  assert (UP : forall x, In x xs -> 0 < ln (1 + Rpower (x / s) c)).
  { intros x I. apply ln_pos. pose proof (Rpower_pos (x / s) c). lra. }
  set (T := rsum (map (fun x => ln (1 + Rpower (x / s) c)) xs)).
  assert (TP : 0 < T) by (apply rsum_pos; auto).
  exists (n / T). split.
  - unfold mle_d. rewrite vxb_pass by (intros x I; pose proof (X x I); simpl; auto).
    unfold validate, validate_positive. vif.
    rewrite map_map. rewrite (mean_of _ (fun x => ln (1 + Rpower (x / s) c)) xs N).
    + fold T. fold n. assert (0 < T / n) by (apply Rdiv_pos; auto). varith. cbn [bindv]. replace (1 / (T / n)) with (n / T) by (field; lra). reflexivity.
    + intros x I. pose proof (X x I). pose proof (Rdiv_pos x s H S). pose proof (Rpower_pos (x / s) c). veval. auto.
  - split; [apply Rdiv_pos; auto|].
    set (K := rsum (map (fun x => (ln c + (c - 1) * ln x - c * ln s) - ln (1 + Rpower (x / s) c)) xs)).
    assert (NL : forall d : R, 0 < d -> nll (map Fin xs) c d s = Fin ((n * ln (/ d) + T / (/ d)) - K)).
    { intros d D. rewrite nll_ok by auto.
      rewrite (loglik_fin _ (fun x => ((ln c + (c - 1) * ln x - c * ln s) - ln (1 + Rpower (x / s) c)) + (ln d - d * ln (1 + Rpower (x / s) c)))).
      - change (vneg (Fin ?x)) with (Fin (- x)). f_equal.
        rewrite (rsum_plus (fun x => (ln c + (c - 1) * ln x - c * ln s) - ln (1 + Rpower (x / s) c)) (fun x => ln d - d * ln (1 + Rpower (x / s) c))).
        fold K. rewrite rsum_minus, rsum_const, rsum_scal. fold T. fold n. rewrite ln_Rinv by auto. field. lra.
      - intros x I. pose proof (X x I) as XP. pose proof (Rdiv_pos x s XP S). pose proof (Rpower_pos (x / s) c). start. veval. f_equal. ring. }
    eexists. split; [apply NL; apply Rdiv_pos; auto|]. intros d D. eexists. split; [apply NL; auto|].
    apply Rplus_le_compat_r. pose proof (scale_opt n T (/ d) LN TP (Rinv_0_lt_compat _ D)) as O.
    replace (/ (n / T)) with (T / n) by (field; lra). replace (T / (T / n)) with n by (field; lra). exact O.
Qed.
