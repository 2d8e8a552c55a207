(** Proofs about M_power_normal. *)
From Coq Require Import Reals Lra List.
From Coquelicot Require Import Coquelicot.
From Verif Require Import Values VTac Spec RLib LimLib DistLib DistLS IntLib MomLib PLib M_common
  SFun GammaLib GammaLib2 GammaLib3 M_sfun P_sfun TruncLib.
From Verif Require M_normal P_normal P_truncnorm.
From Verif Require Import M_power_normal.
Import ListNotations.
Local Open Scope R_scope.
Set Bullet Behavior "Strict Subproofs".

Notation Qn := P_normal.Q.
Lemma n01 z : 0 < ncdf z < 1. Proof. apply (F01 _ _ _ P_truncnorm.NST). Qed.
Lemma nQ p : 0 < p < 1 -> ncdf (Qn p) = p. Proof. intros H. apply (st_quant _ _ _ _ _ P_truncnorm.NST); auto. Qed.
Section P.
Variables c l s : R.
Hypothesis CP : 0 < c.
Hypothesis S : 0 < s.
Definition F z := 1 - Rpower (ncdf (- z)) c.
Definition f z := c * nkernel z * Rpower (ncdf (- z)) (c - 1).
Definition Q p := - Qn (Rpower (1 - p) (1 / c)).
Lemma pw01 p : 0 < p < 1 -> 0 < Rpower p (1 / c) < 1.
Proof.
  intros H. split; [apply exp_pos|]. apply Rlt_le_trans with (exp 0); [|rewrite exp_0; lra]. apply exp_increasing.
  assert (ln p < 0) by (rewrite <- ln_1; apply ln_increasing; lra). rewrite <- (Rmult_0_r (1 / c)). apply Rmult_lt_compat_l; auto. apply Rdiv_pos; lra.
Qed.
Lemma F_range z : 0 < Rpower (ncdf (- z)) c < 1.
Proof.
  pose proof (n01 (- z)) as N. split; [apply exp_pos|]. rewrite <- exp_0. apply exp_increasing.
  assert (ln (ncdf (- z)) < 0) by (rewrite <- ln_1; apply ln_increasing; lra). nra.
Qed.
Lemma der z : is_derive F z (f z).
Proof.
  unfold F, f. pose proof (n01 (- z)) as N.
  assert (D : is_derive (fun z => ncdf (- z)) z (- nkernel z)).
  { rewrite <- (nkernel_even z). replace (- nkernel (- z)) with (scal (- 1)%R (nkernel (- z))) by (unfold scal; simpl; unfold mult; simpl; ring).
    apply (is_derive_comp ncdf (fun z => - z) z); [apply ncdf_der|]. apply (is_derive_opp (fun z => z) z 1 (is_derive_id z)). }
  set (w := fun z : R => ncdf (- z)) in *. change (is_derive w z (- nkernel z)) in D. change (ncdf (- z)) with (w z) in *. change (is_derive (fun z => 1 - Rpower (w z) c) z (c * nkernel z * Rpower (w z) (c - 1))).
  clearbody w. unfold Rpower. auto_derive.
  - repeat split; try lra. exists (- nkernel z); auto.
  - change (Derive (fun x : R => w x) z) with (Derive w z). rewrite (is_derive_unique _ _ _ D). replace ((c - 1) * ln (w z)) with (c * ln (w z) - ln (w z)) by ring. rewrite exp_minus, exp_ln by lra. field. lra.
Qed.
Lemma ST : std m_infty p_infty F f Q.
Proof.
  constructor.
  - constructor; simpl; auto.
    + intros z _. pose proof (F_range z). unfold F. lra.
    + intros z _. apply der.
    + intros z _. unfold f. pose proof (nkernel_pos z). pose proof (exp_pos ((c - 1) * ln (ncdf (- z)))). unfold Rpower. pos.
  - intros z _. unfold f. apply ex_derive_cont. pose proof (n01 (- z)) as N.
    apply (ex_derive_mult (fun z => c * nkernel z) (fun z => Rpower (ncdf (- z)) (c - 1))).
    + unfold nkernel. pose proof sqrt2PI_pos. auto_derive. lra.
    + unfold Rpower. assert (ex_derive (fun z => ncdf (- z)) z) by (apply (ex_derive_comp ncdf (fun z => - z)); [eexists; apply ncdf_der|auto_derive; auto]).
      set (w := fun z : R => ncdf (- z)) in *. change (ex_derive w z) in H. change (ncdf (- z)) with (w z) in *. change (ex_derive (fun z => exp ((c - 1) * ln (w z))) z). clearbody w. auto_derive. repeat split; auto; lra.
  - intros p H. split; [split; simpl; auto|]. unfold F, Q. rewrite Ropp_involutive. rewrite nQ by (apply pw01; lra).
    rewrite Rpower_mult. replace (1 / c * c) with 1 by (field; lra). rewrite Rpower_1 by lra. ring.
Qed.
Lemma vok {A} `{CanRaise A} (k : A) : validate (Fin c) (Fin l) (Fin s) k = k.
Proof.
  unfold validate. change (cle (Fin c) (Fin 0)) with (CB (Rleb c 0)). change (cle (Fin s) (Fin 0)) with (CB (Rleb s 0)). rewrite !Rleb_false by lra. reflexivity.
Qed.
Lemma nc (z : R) : vncdf (Fin z) (Fin 0) (Fin 1) = Fin (ncdf z). Proof. apply (P_truncnorm.vncdf_V (Finite z)). Qed.
Lemma np (z : R) : vnpdf (Fin z) (Fin 0) (Fin 1) = Fin (nkernel z).
Proof. change (Fin z) with (val_of_Rbar (Finite z)). rewrite P_truncnorm.vnpdf_V. f_equal. unfold xk, xe. simpl. ring. Qed.
Lemma pdf_fin (x : R) : pdf x c l s = Fin (f ((x - l) / s) / s) /\ logpdf x c l s = Fin (ln (f ((x - l) / s) / s)).
Proof.
  unfold pdf, logpdf. rewrite !vok. cbv zeta. cbn [vsub vadd vneg]. rewrite !vdiv_Fin by lra. cbn [vneg].
  change (x + - l) with (x - l). set (z := (x - l) / s). rewrite nc, np, P_truncnorm.nlog. pose proof (n01 (- z)). pose proof (nkernel_pos z).
  set (w := ncdf (- z)) in *. split.
  - assert (0 < Rpower w (c - 1)) by apply exp_pos. veval. f_equal.
  - veval. f_equal. unfold f. change (ncdf (- z)) with w. assert (0 < Rpower w (c - 1)) by apply exp_pos. rewrite ln_div, !ln_mult by (auto; pos). unfold Rpower. rewrite ln_exp. ring.
Qed.
Lemma CERT : cert (fun x => pdf x c l s) (fun x => logpdf x c l s) (fun x => cdf x c l s) (fun x => sf x c l s)
  (fun p => invcdf p c l s) (fun p => invsf p c l s) m_infty p_infty (fun x => F ((x - l) / s))
  (fun x => f ((x - l) / s) / s) (fun p => l + s * Q p).
Proof.
  apply (ls_cert m_infty p_infty F f Q ST l s S); auto.
  - constructor.
    + intros x _. unfold cdf, sf. rewrite !vok. cbv zeta. cbn [vsub vadd vneg]. rewrite !vdiv_Fin by lra. cbn [vneg]. change (x + - l) with (x - l). set (z := (x - l) / s).
      rewrite nc. pose proof (n01 (- z)). veval. unfold F, Rpower. split; f_equal; ring.
    + intros x [].
    + intros x [].
    + unfold cdf, sf. rewrite !vok. cbv zeta. veval. rewrite (vncdf_PInf 0 1) by lra. veval. rewrite ln_1, Rmult_0_r, exp_0. split; f_equal; ring.
    + unfold cdf, sf. rewrite !vok. cbv zeta. veval. rewrite (vncdf_NInf 0 1) by lra. veval. split; f_equal; ring.
  - intros x _. apply pdf_fin.
  - intros x [[]|[]].
  - intros p H. pose proof (pw01 p H). assert (H1 : 0 < 1 - p < 1) by lra. pose proof (pw01 (1 - p) H1).
    unfold invcdf, invsf, validate_p. rewrite !vok. vif. cbn [vsub vadd vneg]. rewrite vdiv_Fin by lra. change (1 + - p) with (1 - p). veval.
    rewrite !P_truncnorm.ninv by auto. veval. unfold Q. split; f_equal; [ring|]. replace (1 - (1 - p)) with p by ring. ring.
Qed.
Lemma ends : rejects_bad_p (fun p => invcdf p c l s) /\ rejects_bad_p (fun p => invsf p c l s) /\
  at_ends (fun p => invcdf p c l s) NInf PInf /\ at_ends (fun p => invsf p c l s) PInf NInf.
Proof.
  assert (IC : 0 < 1 / c) by (apply Rdiv_pos; lra).
  split; [|split; [|split]].
  - split; [intros p [H'|H']|split]; unfold invcdf, validate_p; rewrite !vok; veval; reflexivity.
  - split; [intros p [H'|H']|split]; unfold invsf, validate_p; rewrite !vok; veval; reflexivity.
  - unfold at_ends, invcdf, validate_p. rewrite !vok. vif. cbn [vsub vadd vneg]. rewrite vdiv_Fin by lra. 
    replace (1 + - 0) with 1 by ring. replace (1 + - (1)) with 0 by ring. veval.
    rewrite Rpower_1_l. pose proof (P_truncnorm.ninv_V p_infty) as E1. pose proof (P_truncnorm.ninv_V m_infty) as E2. unfold xF, xe in E1, E2. cbn [val_of_Rbar] in E1, E2. rewrite E1, E2. veval. auto.
  - unfold at_ends, invsf, validate_p. rewrite !vok. vif. rewrite vdiv_Fin by lra. veval.
    rewrite Rpower_1_l. pose proof (P_truncnorm.ninv_V p_infty) as E1. pose proof (P_truncnorm.ninv_V m_infty) as E2. unfold xF, xe in E1, E2. cbn [val_of_Rbar] in E1, E2. rewrite E1, E2. veval. auto.
Qed.
(** With an integer c the law is that of the smallest of c independent normal variables. *)
Lemma minimum (n : nat) (x : R) : c = INR n -> exists q, M_normal.sf x l s = Fin q /\ sf x c l s = Fin (q ^ n).
Proof.
  intros E. exists (ncdf (- ((x - l) / s))). split.
  - rewrite (proj2 (co_in _ _ _ _ _ (ce_core _ _ _ _ _ _ _ _ _ _ _ (P_normal.CERT l s S)) x (conj I I))). f_equal. rewrite ncdf_opp. auto.
  - unfold sf. rewrite vok. cbv zeta. cbn [vsub vadd vneg]. rewrite !vdiv_Fin by lra. cbn [vneg]. change (x + - l) with (x - l). set (z := (x - l) / s).
    rewrite nc. pose proof (n01 (- z)). veval. f_equal. rewrite E. fold (Rpower (ncdf (- z)) (INR n)). apply Rpower_pow. lra.
Qed.
End P.
(** One factor: the normal law. *)
Lemma normal_case (x p l s : R) : 0 < s -> 0 < p < 1 ->
  pdf x 1 l s = M_normal.pdf x l s /\ logpdf x 1 l s = M_normal.logpdf x l s /\ cdf x 1 l s = M_normal.cdf x l s /\
  sf x 1 l s = M_normal.sf x l s /\ invcdf p 1 l s = M_normal.invcdf p l s.
Proof.
  intros S P. destruct (pdf_fin 1 l s ltac:(lra) S x) as [E1 E2]. destruct (P_normal.pdf_fin l s S x) as [E3 E4].
  assert (EF : f 1 ((x - l) / s) = P_normal.f ((x - l) / s)).
  { unfold f, P_normal.f. replace (1 - 1) with 0 by ring. rewrite Rpower_O by apply n01. ring. }
  rewrite E1, E2, E3, E4, EF. split; auto. split; auto.
  assert (EG : F 1 ((x - l) / s) = P_normal.F ((x - l) / s)).
  { unfold F, P_normal.F. rewrite Rpower_1 by apply n01. rewrite ncdf_opp. ring. }
  destruct (co_in _ _ _ _ _ (ce_core _ _ _ _ _ _ _ _ _ _ _ (P_normal.CERT l s S)) x (conj I I)) as [-> ->].
  destruct (co_in _ _ _ _ _ (ce_core _ _ _ _ _ _ _ _ _ _ _ (CERT 1 l s ltac:(lra) S)) x (conj I I)) as [-> ->].
  rewrite EG. split; auto. split; auto.
  rewrite (proj1 (ce_inv _ _ _ _ _ _ _ _ _ _ _ (P_normal.CERT l s S) p P)), (proj1 (ce_inv _ _ _ _ _ _ _ _ _ _ _ (CERT 1 l s ltac:(lra) S) p P)).
  do 3 f_equal. apply (F_inj _ _ _ _ (st_smooth _ _ _ _ _ P_truncnorm.NST)); try (split; simpl; auto; fail).
  rewrite nQ by auto. unfold Q. rewrite ncdf_opp. replace (1 / 1) with 1 by field. rewrite Rpower_1 by lra. rewrite nQ by lra. ring.
Qed.
Lemma loc_scale (c : R) : 0 < c -> loc_scale_law (fun x => pdf x c) (fun x => cdf x c) (fun x => sf x c) (fun x => invcdf x c) (fun x => invsf x c) m_infty p_infty.
Proof. intros H. apply (loc_scale_from_cert (fun x => pdf x c) (fun x => logpdf x c) _ _ _ _ m_infty p_infty (F c) (f c) (Q c)). intros l s S. apply CERT; auto. Qed.
Lemma bad_params (c l s : val) : isnum c -> isnum s -> nonpositive c \/ nonpositive s ->
  support c l s = Err ValueError /\
  always_ValueError [ fun x => pdf x c l s; fun x => logpdf x c l s; fun x => cdf x c l s; fun x => sf x c l s;
    fun p => invcdf p c l s; fun p => invsf p c l s ].
Proof.
  intros H1 H2 H. assert (E : forall (T : Type) (CR : CanRaise T) (k : T), validate c l s k = raise ValueError).
  { intros. change (validate c l s k) with (validate_positive c (validate_positive s k)).
    destruct H as [H|H]; [apply vp_bad; auto|]. apply vp_pass; auto. apply vp_bad; auto. }
  unfold support, pdf, logpdf, cdf, sf, invcdf, invsf.
  split; [|all_ve; intros x Hx]; rewrite E; reflexivity.
Qed.
