(** Variances are positive. *)
From Coq Require Import Reals Lra List.
From Coquelicot Require Import Coquelicot.
From Verif Require Import Values Spec RLib DistLib DistLS LimLib IntLib MomLib GammaLib.
Local Open Scope R_scope.
Set Bullet Behavior "Strict Subproofs".

Lemma integral_ge lo hi (g : R -> R) v a0 b0 : inside lo hi a0 -> inside lo hi b0 -> (forall x, inside lo hi x -> continuous g x) ->
  (forall x, inside lo hi x -> 0 <= g x) -> integrates_to g lo hi v -> prim g a0 b0 <= v.
Proof.
  intros A0 B0 CT PO I. assert (LT : Rbar_lt lo hi) by (destruct A0 as [C1 C2]; destruct lo, hi; simpl in *; auto; lra).
  pose proof (near_lo_proper lo hi LT) as PL. pose proof (near_hi_proper lo hi LT) as PH.
  assert (PD : forall x, inside lo hi x -> is_derive (prim g a0) x (g x)) by (intros x X; apply (prim_der lo hi g a0 A0 CT x X)).
  assert (RI : forall a b, inside lo hi a -> inside lo hi b -> is_RInt g a b (prim g a0 b - prim g a0 a)).
  { intros a b A B. apply (is_RInt_derive (prim g a0) g).
    - intros x X. apply PD. apply (inside_between lo hi a b); auto.
    - intros x X. apply CT. apply (inside_between lo hi a b); auto. }
  assert (MO : forall x y, inside lo hi x -> inside lo hi y -> x <= y -> prim g a0 x <= prim g a0 y).
  { intros x y X Y XY. apply (nonneg_between lo hi (prim g a0) g x y X Y XY). intros t T.
    assert (Iy : inside lo hi t) by (apply (inside_mid lo hi x y); auto). auto. }
  apply Rnot_lt_le. intros L. set (e := (prim g a0 b0 - v)). assert (EP : 0 < e) by (unfold e; lra).
  assert (B1 : locally v (fun y => y < v + e)).
  { exists (mkposreal e EP). intros y B. unfold ball in B; simpl in B; unfold AbsRing_ball, abs, minus, plus, opp in B; simpl in B.
    apply Rabs_def2 in B. lra. }
  destruct (I _ B1) as [A B HA HB HAB].
  destruct (filter_ex _ (filter_and _ _ HA (near_lo_below lo hi a0 A0))) as [a [Aa [Ia La]]].
  destruct (filter_ex _ (filter_and _ _ HB (near_hi_above lo hi b0 B0))) as [b [Bb [Ib Lb]]].
  destruct (HAB a b Aa Bb) as [y [Y1 Y2]]. simpl in Y1. pose proof (RI a b Ia Ib) as R1.
  assert (E : y = prim g a0 b - prim g a0 a) by (rewrite <- (is_RInt_unique _ _ _ _ Y1); apply is_RInt_unique; auto).
  pose proof (MO a a0 Ia A0 ltac:(lra)) as K1. pose proof (MO b0 b B0 Ib ltac:(lra)) as K2. rewrite prim_c in K1. unfold e in Y2. lra.
Qed.
Lemma sq_pos_int lo hi (f : R -> R) m v : Rbar_lt lo hi -> (forall x, inside lo hi x -> continuous f x /\ 0 < f x) ->
  integrates_to (fun z => (z - m) ^ 2 * f z) lo hi v -> 0 < v.
Proof.
  intros LT FP I. set (g := fun z => (z - m) ^ 2 * f z) in *.
  assert (CT : forall x, inside lo hi x -> continuous g x).
  { intros x X. apply (continuous_mult (fun z => (z - m) ^ 2) f); [|apply FP; auto]. apply ex_derive_cont. auto_derive; auto. }
  assert (PO : forall x, inside lo hi x -> 0 <= g x).
  { intros x X. apply Rmult_le_pos; [apply pow2_ge_0|left; apply FP; auto]. }
  destruct (inside_ex lo hi LT) as [q Q]. destruct (exists_below lo hi q Q) as [p [PQ P]]. destruct (exists_above lo hi q Q) as [r [QR R0]].
  assert (K : forall x y, inside lo hi x -> inside lo hi y -> x < y -> (m <= x \/ y <= m) -> 0 < v).
  { intros x y X Y XY D. apply Rlt_le_trans with (prim g x y); [|apply (integral_ge lo hi g v x y); auto].
    rewrite <- (prim_c g x). apply (smono_closed (prim g x) g); auto.
    - intros t T. assert (Iy : inside lo hi t) by (apply (inside_mid lo hi x y); auto; lra). split; [apply (prim_der lo hi g x X CT t Iy)|].
      apply Rmult_lt_0_compat; [|apply FP; auto]. assert (t - m <> 0) by lra. apply pow2_gt_0; auto.
    - apply ex_derive_cont. eexists. apply (prim_der lo hi g x X CT x X).
    - apply ex_derive_cont. eexists. apply (prim_der lo hi g x X CT y Y). }
  destruct (Rle_lt_dec m q) as [D|D]; [apply (K q r); auto|apply (K p q); auto; lra].
Qed.
(** The second central moment computed from raw moments is positive. *)
Lemma mvar_pos lo hi F f Q (M : nat -> R) : std lo hi F f Q -> integrates_to (fun z => z ^ 1 * f z) lo hi (M 1%nat) -> integrates_to (fun z => z ^ 2 * f z) lo hi (M 2%nat) -> 0 < mvar M.
Proof.
  intros ST I1 I2. pose proof (sm_lt _ _ _ _ (st_smooth _ _ _ _ _ ST)) as LT. apply (sq_pos_int lo hi f (M 1%nat)); auto.
  - intros x X. split; [apply (st_cont _ _ _ _ _ ST); auto|apply (sm_pos _ _ _ _ (st_smooth _ _ _ _ _ ST)); auto].
  - unfold mvar. replace (M 2%nat - M 1%nat ^ 2) with (M 2%nat + ((-2 * M 1%nat) * M 1%nat + M 1%nat ^ 2 * 1)) by ring.
    apply (integrates_ext lo hi LT (fun z => z ^ 2 * f z + ((-2 * M 1%nat) * (z ^ 1 * f z) + M 1%nat ^ 2 * f z))); [intros; ring|].
    apply (integrates_plus lo hi (fun z => z ^ 2 * f z)); auto. apply (integrates_plus lo hi (fun z => (-2 * M 1%nat) * (z ^ 1 * f z))); apply integrates_scal; auto.
    apply (std_mass lo hi LT F f Q ST).
Qed.
