(** Proofs about M_exponweib. *)
From Coq Require Import Reals Lra List.
From Coquelicot Require Import Coquelicot.
From Verif Require Import Values VTac Spec RLib DistLib DistLS DistSc PLib M_common.
From Verif Require M_weibull_min P_weibull_min.
From Verif Require Import M_exponweib.
Import ListNotations.
Local Open Scope R_scope.
Set Bullet Behavior "Strict Subproofs".

Section Std.
Variables a c : R.
Hypothesis Ha : 0 < a.
Hypothesis Hc : 0 < c.
Definition W (z : R) := 1 - exp (- Rpower z c).
Definition F (z : R) := Rpower (W z) a.
Definition f (z : R) := a * c * Rpower z (c - 1) * Rpower (W z) (a - 1) * exp (- Rpower z c).
Definition Q (p : R) := Rpower (- ln (1 - Rpower p (1 / a))) (1 / c).
Lemma W_in z : 0 < W z < 1.
Proof.
  unfold W. pose proof (Rpower_pos z c). pose proof (exp_pos (- Rpower z c)).
  pose proof (exp_lt_1 (- Rpower z c) ltac:(lra)). lra.
Qed.
Lemma f_pos z : 0 < f z.
Proof.
  unfold f. pose proof (Rpower_pos z (c - 1)). pose proof (Rpower_pos (W z) (a - 1)). pose proof (exp_pos (- Rpower z c)).
  repeat apply Rmult_lt_0_compat; auto.
Qed.
Lemma root_in p : 0 < p < 1 -> 0 < Rpower p (1 / a) < 1.
Proof. intros H. split; [apply Rpower_pos|]. apply Rpower_lt_1; auto. apply Rdiv_pos; lra. Qed.
Lemma W_der z : 0 < z -> is_derive W z (c * Rpower z (c - 1) * exp (- Rpower z c)).
Proof.
  intros H. unfold W, Rpower. auto_derive; auto.
  replace ((c - 1) * ln z) with (c * ln z + - ln z) by ring. rewrite exp_plus, (exp_Ropp (ln z)), (exp_ln z H). field. lra.
Qed.
Lemma ST : std 0 p_infty F f Q.
Proof.
  constructor.
  - constructor; simpl; auto.
    + intros z _. unfold F. pose proof (Rpower_lt_1 (W z) a (W_in z) Ha). pose proof (Rpower_pos (W z) a). lra.
    + intros z [H _]. simpl in H. evar_last.
      * apply (is_derive_comp (fun w => Rpower w a) W); [apply is_derive_Rpower; apply W_in|apply W_der; auto].
      * unfold scal; simpl; unfold mult; simpl. unfold f. ring.
    + intros z _. apply f_pos.
  - intros z [H _]. simpl in H. pose proof (W_in z) as WW. unfold W, Rpower in WW. apply ex_derive_cont. unfold f, W, Rpower. auto_derive.
    repeat split; auto; lra.
  - intros p H. pose proof (root_in p H) as RR. unfold Q. split; [split; simpl; auto; apply Rpower_pos|].
    unfold F, W. pose proof (ln_neg (1 - Rpower p (1 / a)) ltac:(lra)).
    rewrite Rpower_inv by lra. rewrite Ropp_involutive, exp_ln by lra.
    replace (1 - (1 - Rpower p (1 / a))) with (Rpower p (1 / a)) by ring. apply Rpower_inv; lra.
Qed.
End Std.

Ltac start := unfold pdf, logpdf, cdf, sf, invcdf, invsf, support, validate, validate_positive, validate_p.

Section P.
Variables a c s : R.
Hypothesis Ha : 0 < a.
Hypothesis Hc : 0 < c.
Hypothesis Hs : 0 < s.
Lemma z_pos x : 0 < x -> 0 < x / s. Proof. intros. apply Rdiv_pos; lra. Qed.
Lemma z_pos' x : 0 < x / s -> 0 < x.
Proof. intros. assert (0 < x / s * s) by nra. unfold Rdiv in H0. rewrite Rmult_assoc, Rinv_l in H0 by lra. lra. Qed.
Lemma lo_eq : Finite 0 = sc s 0. Proof. simpl. f_equal. ring. Qed.
Lemma pdf_fin (x : R) : 0 < x -> pdf x a c s = Fin (f a c (x / s) / s) /\ logpdf x a c s = Fin (ln (f a c (x / s) / s)).
Proof.
  intros H. pose proof (z_pos x H) as Z. pose proof (W_in c (x / s)) as WW. unfold W in WW.
  assert (WE : - (exp (- Rpower (x / s) c) - 1) = W c (x / s)) by (unfold W; ring).
  assert (W0 : 0 < - (exp (- Rpower (x / s) c) - 1)) by lra.
  split.
  - start. veval. unfold f. rewrite WE. f_equal. field. lra.
  - start. veval. rewrite WE. f_equal. rewrite (ln_div (f a c (x / s)) s) by (auto; apply f_pos; auto). unfold f.
    pose proof (Rpower_pos (x / s) (c - 1)). pose proof (Rpower_pos (W c (x / s)) (a - 1)). pose proof (exp_pos (- Rpower (x / s) c)).
    rewrite !ln_mult; auto; [|repeat apply Rmult_lt_0_compat; auto..]. rewrite ln_exp, !ln_Rpower. ring.
Qed.
Lemma cdf_fin (x : R) : 0 < x -> cdf x a c s = Fin (F a c (x / s)) /\ sf x a c s = Fin (1 - F a c (x / s)).
Proof.
  intros H. pose proof (z_pos x H) as Z. pose proof (W_in c (x / s)) as WW. unfold W in WW.
  assert (WE : - (exp (- Rpower (x / s) c) - 1) = W c (x / s)) by (unfold W; ring).
  assert (W0 : 0 < - (exp (- Rpower (x / s) c) - 1)) by lra.
  start. veval. unfold F. rewrite WE. split; f_equal; ring.
Qed.
Lemma E0 : - (exp (- 0) - 1) = 0. Proof. rewrite Ropp_0, exp_0. ring. Qed.
Lemma CERT : cert (fun x => pdf x a c s) (fun x => logpdf x a c s) (fun x => cdf x a c s) (fun x => sf x a c s)
  (fun p => invcdf p a c s) (fun p => invsf p a c s) 0 p_infty (fun x => F a c (x / s))
  (fun x => f a c (x / s) / s) (fun p => s * Q a c p).
Proof.
  apply (sc_cert 0 p_infty (F a c) (f a c) (Q a c) (ST a c Ha Hc) s Hs); auto using lo_eq.
  - constructor.
    + intros x [H _]. simpl in H. apply cdf_fin; lra.
    + intros x H. simpl in H. destruct H as [H| ->]; [start; veval; auto|].
      assert (Z : 0 / s = 0) by (field; lra). start. veval. rewrite E0. veval. split; f_equal; ring.
    + intros x [].
    + start. veval. auto.
    + start. veval. replace (- (-1)) with 1 by ring. veval. rewrite Rpower_1_l. split; f_equal; lra.
  - intros x [H _]. simpl in H. apply pdf_fin. apply z_pos'; auto.
  - intros x [H|[]]. simpl in H. start. veval. auto.
  - intros p H. pose proof (root_in a Ha p H) as R1. pose proof (root_in a Ha (1 - p) ltac:(lra)) as R2.
    pose proof (ln_neg (1 - Rpower p (1 / a)) ltac:(lra)) as L1. pose proof (ln_neg (1 - Rpower (1 - p) (1 / a)) ltac:(lra)) as L2.
    assert (IA : 0 < 1 / a) by (apply Rdiv_pos; lra). assert (IC : 0 < 1 / c) by (apply Rdiv_pos; lra).
    assert (E : - (exp (ln (1 - p) / a) - 1) = 1 - Rpower (1 - p) (1 / a)).
    { unfold Rpower. replace (1 / a * ln (1 - p)) with (ln (1 - p) / a) by (field; lra). ring. }
    unfold Q. start. veval. rewrite E. veval. auto.
Qed.
Lemma ends : rejects_bad_p (fun p => invcdf p a c s) /\ rejects_bad_p (fun p => invsf p a c s) /\
  at_ends (fun p => invcdf p a c s) (Fin 0) PInf /\ at_ends (fun p => invsf p a c s) PInf (Fin 0).
Proof.
  assert (IA : 0 < 1 / a) by (apply Rdiv_pos; lra). assert (IC : 0 < 1 / c) by (apply Rdiv_pos; lra).
  assert (L : - ln (1 - 0) = 0) by (replace (1 - 0) with 1 by ring; rewrite ln_1; ring).
  assert (E : - (exp (ln (1 - 0) / a) - 1) = 0).
  { replace (1 - 0) with 1 by ring. rewrite ln_1. replace (0 / a) with 0 by (field; lra). rewrite exp_0. ring. }
  assert (L1 : - ln (- -1) = 0) by (replace (- -1) with 1 by ring; rewrite ln_1; ring).
  split; [|split; [|split]].
  - split; [intros p [H|H]|split]; start; veval; reflexivity.
  - split; [intros p [H|H]|split]; start; veval; reflexivity.
  - unfold at_ends. start. veval. rewrite Rpower_1_l. replace (1 - 1) with 0 by ring. veval. split; try reflexivity; f_equal; ring.
  - unfold at_ends. start. veval. split; try reflexivity; f_equal; ring.
Qed.
(** The end 0: for c = 1 or a = 1 the log-density has a term 0 * -inf. *)
Lemma logpdf_0 : c = 1 \/ a = 1 -> logpdf (Fin 0) a c s = NaN.
Proof.
  intros D. assert (Z : 0 / s = 0) by (field; lra).
  start. veval. rewrite E0. veval.
  destruct (Req_dec c 1) as [C|C].
  - subst c. replace (1 - 1) with 0 by ring. veval. unfold scale_inf. destruct (Reqb (a - 1) 0), (Rltb 0 (a - 1)); reflexivity.
  - assert (A : a = 1) by tauto. subst a. replace (1 - 1) with 0 by ring. veval. unfold scale_inf. destruct (Reqb (c - 1) 0), (Rltb 0 (c - 1)); reflexivity.
Qed.
Lemma pdf_0 : c = 1 -> a = 1 -> pdf (Fin 0) a c s = Fin (1 / s).
Proof.
  intros C A. subst a c. assert (Z : 0 / s = 0) by (field; lra).
  start. veval. rewrite E0. replace (1 - 1) with 0 by ring. veval. rewrite Ropp_0, exp_0. f_equal. field. lra.
Qed.
End P.
(** a = 1: the Weibull distribution. *)
Lemma is_weibull (c s x : R) : 0 < c -> 0 < s -> 0 < x ->
  pdf x (Fin 1) c s = M_weibull_min.pdf x c (Fin 0) s /\ logpdf x (Fin 1) c s = M_weibull_min.logpdf x c (Fin 0) s.
Proof.
  intros C S X. rewrite (proj1 (pdf_fin 1 c s ltac:(lra) C S x X)), (proj2 (pdf_fin 1 c s ltac:(lra) C S x X)).
  rewrite (proj1 (P_weibull_min.pdf_fin c 0 s C S x X)), (proj2 (P_weibull_min.pdf_fin c 0 s C S x X)).
  assert (E : f 1 c (x / s) = P_weibull_min.f c ((x - 0) / s)).
  { unfold f, P_weibull_min.f. rewrite Rminus_0_r. replace (1 - 1) with 0 by ring. rewrite Rpower_O by apply W_in. ring. }
  rewrite E. auto.
Qed.
Lemma is_weibull_cdf (c s x : R) : 0 < c -> 0 < s ->
  cdf x (Fin 1) c s = M_weibull_min.cdf x c (Fin 0) s /\ sf x (Fin 1) c s = M_weibull_min.sf x c (Fin 0) s.
Proof.
  intros C S. pose proof (ce_core _ _ _ _ _ _ _ _ _ _ _ (CERT 1 c s ltac:(lra) C S)) as CC.
  pose proof (ce_core _ _ _ _ _ _ _ _ _ _ _ (P_weibull_min.CERT c 0 s C S)) as CW.
  destruct (Rle_lt_dec x 0) as [X|X].
  - rewrite !(proj1 (co_below _ _ _ _ _ CC x X)), !(proj2 (co_below _ _ _ _ _ CC x X)).
    rewrite !(proj1 (co_below _ _ _ _ _ CW x X)), !(proj2 (co_below _ _ _ _ _ CW x X)). auto.
  - assert (I : inside 0 p_infty x) by (split; simpl; auto).
    rewrite !(proj1 (co_in _ _ _ _ _ CC x I)), !(proj2 (co_in _ _ _ _ _ CC x I)).
    rewrite !(proj1 (co_in _ _ _ _ _ CW x I)), !(proj2 (co_in _ _ _ _ _ CW x I)).
    assert (E : F 1 c (x / s) = P_weibull_min.F c ((x - 0) / s)).
    { unfold F, P_weibull_min.F. rewrite Rminus_0_r, Rpower_1 by apply W_in. reflexivity. }
    rewrite E. auto.
Qed.
Lemma scale_ok a c : 0 < a -> 0 < c -> scale_law (fun x => pdf x a c) (fun x => cdf x a c) (fun x => sf x a c)
  (fun p => invcdf p a c) (fun p => invsf p a c) 0 p_infty.
Proof.
  intros K B. apply (scale_from_cert (fun x => pdf x a c) (fun x => logpdf x a c) (fun x => cdf x a c) (fun x => sf x a c)
    (fun p => invcdf p a c) (fun p => invsf p a c) 0 p_infty (F a c) (f a c) (Q a c)).
  intros s S. rewrite <- lo_eq. apply CERT; auto.
Qed.
Lemma validate_bad {A} `{CanRaise A} (c b s : val) (k : A) : isnum c -> isnum b -> isnum s -> nonpositive c \/ nonpositive b \/ nonpositive s ->
  validate c b s k = raise ValueError.
Proof.
  intros N1 N2 N3 [B|[B|B]]; unfold validate; [apply vp_bad; auto|apply vp_pass; auto; apply vp_bad; auto|].
  apply vp_pass; auto. apply vp_pass; auto. apply vp_bad; auto.
Qed.
Lemma bad_params (a c s : val) : isnum a -> isnum c -> isnum s -> nonpositive a \/ nonpositive c \/ nonpositive s ->
  support a c s = Err ValueError /\
  always_ValueError [ fun x => pdf x a c s; fun x => logpdf x a c s; fun x => cdf x a c s; fun x => sf x a c s;
    fun p => invcdf p a c s; fun p => invsf p a c s ].
Proof.
  intros N1 N2 N3 B. unfold support, pdf, logpdf, cdf, sf, invcdf, invsf.
  split; [|all_ve; intros x Hx]; rewrite ?validate_bad by auto; reflexivity.
Qed.
