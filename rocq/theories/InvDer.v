(** The inverse of an increasing differentiable function on (0, 1) is a distribution function. *)
From Coq Require Import Reals Lra.
From Coquelicot Require Import Coquelicot.
From Verif Require Import Values VTac Spec RLib LimLib DistLib DistLS.
Local Open Scope R_scope.
Set Bullet Behavior "Strict Subproofs".

Section Inv.
Variables (lo hi : Rbar) (Q q F : R -> R).
Hypothesis LT : Rbar_lt lo hi.
Hypothesis QD : forall p, 0 < p < 1 -> is_derive Q p (q p).
Hypothesis QP : forall p, 0 < p < 1 -> 0 < q p.
Hypothesis QC : forall p, 0 < p < 1 -> continuous q p.
Hypothesis QI : forall p, 0 < p < 1 -> inside lo hi (Q p).
Hypothesis FQ : forall x, inside lo hi x -> 0 < F x < 1 /\ Q (F x) = x.
Lemma Q_incr p r : 0 < p < 1 -> 0 < r < 1 -> p < r -> Q p < Q r.
Proof.
  intros P R0 L. apply (deriv_pos_incr 0 1 Q q); auto; try (split; simpl; lra); intros x [A B]; auto.
Qed.
Lemma Q_lt p r : 0 < p < 1 -> 0 < r < 1 -> Q p < Q r -> p < r.
Proof. intros P R0 L. destruct (Rlt_le_dec p r) as [A|[A|A]]; auto; [pose proof (Q_incr r p R0 P A); lra|subst; lra]. Qed.
Lemma F_Q p : 0 < p < 1 -> F (Q p) = p.
Proof.
  intros P. destruct (FQ (Q p) (QI p P)) as [A B]. destruct (Rtotal_order (F (Q p)) p) as [L|[L|L]]; auto.
  - pose proof (Q_incr _ _ A P L). lra.
  - pose proof (Q_incr _ _ P A L). lra.
Qed.
Lemma F_near x e : inside lo hi x -> 0 < e -> exists d, 0 < d /\ forall y, Rabs (y - x) < d -> inside lo hi y /\ Rabs (F y - F x) < e.
Proof.
  intros X E. destruct (FQ x X) as [P EQ]. set (p := F x) in *.
  set (e' := Rmin (e / 2) (Rmin (p / 2) ((1 - p) / 2))). assert (E1 : 0 < e') by (unfold e'; repeat apply Rmin_glb_lt; lra).
  assert (E2 : e' <= e / 2) by apply Rmin_l. assert (E3 : e' <= p / 2) by (eapply Rle_trans; [apply Rmin_r|apply Rmin_l]). assert (E4 : e' <= (1 - p) / 2) by (eapply Rle_trans; [apply Rmin_r|apply Rmin_r]).
  assert (P1 : 0 < p - e' < 1) by lra. assert (P2 : 0 < p + e' < 1) by lra.
  pose proof (Q_incr (p - e') p P1 P ltac:(lra)) as L1. pose proof (Q_incr p (p + e') P P2 ltac:(lra)) as L2.
  exists (Rmin (x - Q (p - e')) (Q (p + e') - x)). split; [apply Rmin_glb_lt; lra|]. intros y Y.
  pose proof (Rmin_l (x - Q (p - e')) (Q (p + e') - x)). pose proof (Rmin_r (x - Q (p - e')) (Q (p + e') - x)). apply Rabs_def2 in Y.
  destruct (QI _ P1) as [I1 _]. destruct (QI _ P2) as [_ I2].
  assert (IY : inside lo hi y). { split; [apply (Rbar_lt_trans _ (Finite (Q (p - e')))); auto; simpl; lra|apply (Rbar_lt_trans _ (Finite (Q (p + e')))); auto; simpl; lra]. }
  split; auto. destruct (FQ y IY) as [PY EY].
  assert (A : p - e' < F y) by (apply Q_lt; auto; lra). assert (B : F y < p + e') by (apply Q_lt; auto; lra). apply Rabs_def1; lra.
Qed.
Lemma F_der x : inside lo hi x -> is_derive F x (/ q (F x)).
Proof.
  intros X. destruct (FQ x X) as [P EQ]. set (p := F x) in *. pose proof (QP p P) as K. assert (D := QD p P). apply is_derive_Reals in D.
  apply is_derive_Reals. intros eps EPS.
  set (e := Rmin (q p / 2) (eps * (q p * q p / 2) / 2)). assert (E0 : 0 < e). { apply Rmin_glb_lt; [lra|]. assert (0 < q p * q p) by nra. nra. }
  destruct (D e E0) as [del DE]. destruct (F_near x del X (cond_pos del)) as (d & D0 & DN).
  exists (mkposreal d D0). intros h Hh HD. simpl in HD. destruct (DN (x + h)) as [IY NY]; [replace (x + h - x) with h by ring; auto|].
  destruct (FQ (x + h) IY) as [PY EY]. fold p in NY. set (k := F (x + h) - p) in *. assert (KK : k <> 0). { intros Z. apply Hh. assert (F (x + h) = p) by (unfold k in Z; lra). rewrite H in EY. lra. }
  specialize (DE k KK NY). replace (p + k) with (F (x + h)) in DE by (unfold k; ring). rewrite EY, EQ in DE. replace (x + h - x) with h in DE by ring.
  fold p. fold k. set (dd := h / k) in *. assert (KD : k / h = / dd) by (unfold dd; field; auto). rewrite KD.
  pose proof (Rmin_l (q p / 2) (eps * (q p * q p / 2) / 2)) as M1. pose proof (Rmin_r (q p / 2) (eps * (q p * q p / 2) / 2)) as M2. fold e in M1, M2. apply Rabs_def2 in DE.
  assert (DP : q p / 2 < dd) by lra. replace (/ dd - / q p) with ((q p - dd) / (dd * q p)) by (field; lra). unfold Rdiv. rewrite Rabs_mult, (Rabs_pos_eq (/ _)) by (left; apply Rinv_0_lt_compat; nra).
  change (Rabs (q p - dd) / (dd * q p) < eps). apply Rlt_div_l; [nra|]. assert (R1 : Rabs (q p - dd) < e) by (apply Rabs_def1; lra). assert (q p * q p / 2 <= dd * q p) by nra. nra.
Qed.
Lemma inv_std : std lo hi F (fun x => / q (F x)) Q.
Proof.
  constructor.
  - constructor; auto.
    + intros x X. destruct (FQ x X). lra.
    + apply F_der.
    + intros x X. apply Rinv_0_lt_compat. apply QP. apply FQ. auto.
  - intros x X. destruct (FQ x X) as [P _]. apply (continuous_comp (fun x => q (F x)) Rinv).
    + apply (continuous_comp F q); [apply ex_derive_cont; eexists; apply F_der; auto|apply QC; auto].
    + apply ex_derive_cont. auto_derive. pose proof (QP _ P). lra.
  - intros p P. split; [apply QI; auto|apply F_Q; auto].
Qed.
End Inv.
