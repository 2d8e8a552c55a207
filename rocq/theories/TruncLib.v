(** A law on the whole line conditioned on an interval with ends in the extended line, and the
    moments of the truncated standard normal law. *)
From Coq Require Import Reals Lra List.
From Coquelicot Require Import Coquelicot.
From Verif Require Import Values VTac Spec RLib LimLib DistLib DistLS IntLib MomLib SFun GammaLib GammaLib2 GammaLib3 M_sfun P_sfun.
Local Open Scope R_scope.
Set Bullet Behavior "Strict Subproofs".

(** A function on the line extended by given values at the two ends. *)
Definition xe (F : R -> R) (l h : R) (a : Rbar) : R :=
  match a with Finite r => F r | p_infty => h | m_infty => l end.
Section Trunc.
Variables (F f Q : R -> R) (a b : Rbar).
Hypothesis ST : std m_infty p_infty F f Q.
Hypothesis AB : Rbar_lt a b.
Definition xF := xe F 0 1.
Definition xD := xF b - xF a.
Definition cF x := (F x - xF a) / xD.
Definition cf x := f x / xD.
Definition cQ p := Q (p * xD + xF a).
Lemma F01 x : 0 < F x < 1.
Proof. apply (F_open01 _ _ _ _ (st_smooth _ _ _ _ _ ST)). split; simpl; auto. Qed.
Lemma Finc x y : x < y -> F x < F y.
Proof. apply (F_incr _ _ _ _ (st_smooth _ _ _ _ _ ST)); split; simpl; auto. Qed.
Lemma xF_lt u v : Rbar_lt u v -> xF u < xF v.
Proof.
  destruct u as [u| |], v as [v| |]; simpl; try tauto; try lra; intros H.
  - apply Finc; auto.
  - apply F01.
  - apply F01.
Qed.
Lemma xF_01 u : 0 <= xF u <= 1.
Proof. destruct u as [u| |]; simpl; try lra. pose proof (F01 u). lra. Qed.
Lemma xF_lt_inv (x : R) u : F x < xF u -> Rbar_lt x u.
Proof.
  destruct u as [u| |]; simpl; auto.
  - intros H. destruct (Rlt_le_dec x u) as [L|[L| ->]]; auto; [|lra]. pose proof (Finc u x L). lra.
  - intros H. pose proof (F01 x). lra.
Qed.
Lemma xF_gt_inv (x : R) u : xF u < F x -> Rbar_lt u x.
Proof.
  destruct u as [u| |]; simpl; auto.
  - intros H. destruct (Rlt_le_dec u x) as [L|[L| ->]]; auto; [|lra]. pose proof (Finc x u L). lra.
  - intros H. pose proof (F01 x). lra.
Qed.
Lemma xD_pos : 0 < xD.
Proof. unfold xD. pose proof (xF_lt a b AB). lra. Qed.
Lemma p_in p : 0 < p < 1 -> 0 < p * xD + xF a < 1 /\ xF a < p * xD + xF a < xF b.
Proof.
  intros H. pose proof xD_pos. pose proof (xF_01 a). pose proof (xF_01 b).
  assert (0 < p * xD) by nra. assert (p * xD < xD) by nra. unfold xD in *. lra.
Qed.
Lemma cST : std a b cF cf cQ.
Proof.
  pose proof xD_pos as D. constructor.
  - constructor; auto.
    + intros x [H1 H2]. pose proof (xF_lt a x H1) as E1. pose proof (xF_lt x b H2) as E2. change (xF x) with (F x) in *. unfold cF. split.
      * apply Rdiv_nonneg; lra.
      * apply Rmult_le_reg_r with xD; auto. unfold Rdiv. rewrite Rmult_assoc, Rinv_l by lra. unfold xD in *. lra.
    + intros x _. unfold cF, cf. assert (is_derive F x (f x)) by (apply (sm_der _ _ _ _ (st_smooth _ _ _ _ _ ST)); split; simpl; auto).
      replace (f x / xD) with (/ xD * (f x - 0)) by (field; lra).
      apply (is_derive_ext (fun x => / xD * (F x - xF a))); [intros t; apply Rmult_comm|].
      apply (is_derive_scal (fun x => F x - xF a) x (/ xD)). apply (is_derive_minus F (fun _ => xF a)); auto. apply (is_derive_const (xF a) x).
    + intros x _. unfold cf. apply Rdiv_pos; auto. apply (sm_pos _ _ _ _ (st_smooth _ _ _ _ _ ST)). split; simpl; auto.
  - intros x _. unfold cf. apply (continuous_mult f (fun _ => / xD)); [|apply continuous_const].
    apply (st_cont _ _ _ _ _ ST). split; simpl; auto.
  - intros p H. pose proof (p_in p H) as [P1 [P2 P3]]. destruct (st_quant _ _ _ _ _ ST _ P1) as [_ E]. unfold cQ.
    split; [split; [apply xF_gt_inv|apply xF_lt_inv]; rewrite E; auto|]. unfold cF. rewrite E. field. lra.
Qed.
End Trunc.

(** The truncated moments of the normal kernel. *)
Definition xk (n : nat) := xe (fun x => x ^ n * nkernel x) 0 0.
Lemma xk_lo n a b : Rbar_lt a b -> filterlim (fun x => x ^ n * nkernel x) (near_lo a) (locally (xk n a)).
Proof.
  destruct a as [a| |]; simpl; intros H; [|destruct H|apply nkernel_lim_m].
  apply (flim_right (fun x => x ^ n * nkernel x)). apply zn_cont.
Qed.
Lemma xk_hi n a b : Rbar_lt a b -> filterlim (fun x => x ^ n * nkernel x) (near_hi b) (locally (xk n b)).
Proof.
  destruct b as [b| |]; simpl; intros H; [|apply nkernel_lim|destruct a; destruct H].
  apply (flim_left (fun x => x ^ n * nkernel x)). apply zn_cont.
Qed.
Lemma trunc_rec n m a b : Rbar_lt a b -> integrates_to (fun z => z ^ n * nkernel z) a b m ->
  integrates_to (fun z => z ^ (S (S n)) * nkernel z) a b (INR (S n) * m + xk (S n) a - xk (S n) b).
Proof.
  intros AB H. assert (Z : integrates_to (fun z => INR (S n) * (z ^ n * nkernel z) - z ^ (S (S n)) * nkernel z) a b (xk (S n) b - xk (S n) a)).
  { apply (mk_integral _ (fun z => z ^ S n * nkernel z)); auto.
    - intros z _. evar_last.
      + apply (is_derive_mult (fun z => z ^ S n) nkernel z (INR (S n) * z ^ n) (- z * nkernel z)).
        * evar_last; [apply (is_derive_pow (fun z => z) (S n) z 1); apply (is_derive_id z)|]. cbn [Init.Nat.pred]. ring.
        * apply nkernel_der.
        * intros; apply Rmult_comm.
      + unfold plus, mult; cbn -[INR pow]. simpl pow. ring.
    - intros z _. apply (continuous_minus (fun z => INR (S n) * (z ^ n * nkernel z)) (fun z => z ^ (S (S n)) * nkernel z)); [|apply zn_cont].
      apply (continuous_scal_r (INR (S n)) (fun z => z ^ n * nkernel z)). apply zn_cont.
    - apply (xk_lo _ a b); auto.
    - apply (xk_hi _ a b); auto. }
  replace (INR (S n) * m + xk (S n) a - xk (S n) b) with (INR (S n) * m + -1 * (xk (S n) b - xk (S n) a)) by ring.
  refine (integrates_ext a b AB _ _ _ _ (integrates_plus a b _ _ _ _ (integrates_scal a b (INR (S n)) _ _ H) (integrates_scal a b (-1) _ _ Z))).
  intros z _. cbn -[pow INR]. ring.
Qed.
Lemma trunc_m1 a b : Rbar_lt a b -> integrates_to (fun z => z ^ 1 * nkernel z) a b (xk 0 a - xk 0 b).
Proof.
  intros AB. replace (xk 0 a - xk 0 b) with (-1 * (xk 0 b - xk 0 a)) by ring.
  apply (integrates_ext a b AB (fun z => -1 * (- z * nkernel z))); [intros; ring|]. apply integrates_scal.
  apply (mk_integral _ (fun z => z ^ 0 * nkernel z)); auto.
  - intros z _. apply (is_derive_ext nkernel); [intros; simpl; ring|]. apply nkernel_der.
  - intros z _. apply (continuous_ext (fun z => (-1) * (z ^ 1 * nkernel z))); [intros; simpl; ring|].
    apply (continuous_scal_r (-1) (fun z => z ^ 1 * nkernel z)). apply zn_cont.
  - apply (xk_lo _ a b); auto.
  - apply (xk_hi _ a b); auto.
Qed.
(** The moments of the truncated law: d = P(a < Z < b). *)
Fixpoint tm (a b : Rbar) (d : R) (n : nat) : R :=
  match n with
  | O => 1
  | S n' => match n' with
            | O => (xk 0 a - xk 0 b) / d
            | S n'' => INR n' * tm a b d n'' + (xk n' a - xk n' b) / d
            end
  end.
Lemma tm_0 a b d : tm a b d 0 = 1. Proof. auto. Qed.
Lemma tm_1 a b d : tm a b d 1 = (xk 0 a - xk 0 b) / d. Proof. auto. Qed.
Lemma tm_SS a b d n : tm a b d (S (S n)) = INR (S n) * tm a b d n + (xk (S n) a - xk (S n) b) / d. Proof. auto. Qed.
Lemma tm_int a b n : Rbar_lt a b -> let d := xD ncdf a b in 0 < d -> integrates_to (fun z => nkernel z / d) a b 1 ->
  integrates_to (fun z => z ^ n * (nkernel z / d)) a b (tm a b d n).
Proof.
  intros AB d D M0.
  assert (E : forall k v, integrates_to (fun z => z ^ k * nkernel z) a b v -> integrates_to (fun z => z ^ k * (nkernel z / d)) a b (v / d)).
  { intros k v H. replace (v / d) with (/ d * v) by (field; lra).
    apply (integrates_ext a b AB (fun z => / d * (z ^ k * nkernel z))); [intros; field; lra|]. apply integrates_scal; auto. }
  assert (E' : forall k v, integrates_to (fun z => z ^ k * (nkernel z / d)) a b v -> integrates_to (fun z => z ^ k * nkernel z) a b (d * v)).
  { intros k v H. apply (integrates_ext a b AB (fun z => d * (z ^ k * (nkernel z / d)))); [intros; field; lra|]. apply integrates_scal; auto. }
  enough (G : integrates_to (fun z => z ^ n * (nkernel z / d)) a b (tm a b d n) /\ integrates_to (fun z => z ^ S n * (nkernel z / d)) a b (tm a b d (S n))) by apply G.
  induction n as [|n [IH1 IH2]].
  - split; [rewrite tm_0; apply (integrates_ext a b AB (fun z => nkernel z / d)); [intros; simpl; ring|auto]|].
    rewrite tm_1. apply E. apply trunc_m1; auto.
  - split; auto. rewrite tm_SS.
    replace (INR (S n) * tm a b d n + (xk (S n) a - xk (S n) b) / d) with ((INR (S n) * (d * tm a b d n) + xk (S n) a - xk (S n) b) / d) by (field; lra).
    apply E. apply trunc_rec; auto.
Qed.
