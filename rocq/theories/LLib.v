(** Lists of reals. *)
From Coq Require Import Reals Lra List Arith Bool Permutation Sorted Lia.
From Verif Require Import Values VTac.
From Verif Require SpecStat.
Import ListNotations.
Local Open Scope R_scope.
Set Bullet Behavior "Strict Subproofs".

Notation rsum := SpecStat.sum.

Lemma rsum_nil : rsum [] = 0. Proof. reflexivity. Qed.
Lemma rsum_cons x l : rsum (x :: l) = x + rsum l. Proof. reflexivity. Qed.
Lemma rsum_app l1 l2 : rsum (l1 ++ l2) = rsum l1 + rsum l2.
Proof. induction l1; simpl; [unfold rsum; simpl; lra|]. rewrite IHl1. lra. Qed.
Lemma rsum_perm l1 l2 : Permutation l1 l2 -> rsum l1 = rsum l2.
Proof. induction 1; simpl; lra. Qed.
Lemma vfsum_Fin l : vfsum (map Fin l) = Fin (rsum l).
Proof. induction l as [|x l IH]; simpl; [reflexivity|]. rewrite IH. reflexivity. Qed.
Lemma vfsum_map {A} (f : A -> val) (g : A -> R) l :
  (forall x, In x l -> f x = Fin (g x)) -> vfsum (map f l) = Fin (rsum (map g l)).
Proof.
  induction l as [|x l IH]; intros H; simpl; [reflexivity|].
  rewrite H by (simpl; auto). rewrite IH by (intros; apply H; simpl; auto). reflexivity.
Qed.
Lemma rsum_ext {A} (f g : A -> R) l : (forall x, In x l -> f x = g x) -> rsum (map f l) = rsum (map g l).
Proof.
  induction l as [|x l IH]; intros H; simpl; [reflexivity|].
  rewrite H by (simpl; auto). rewrite IH by (intros; apply H; simpl; auto). reflexivity.
Qed.
Lemma rsum_le {A} (f g : A -> R) l : (forall x, In x l -> f x <= g x) -> rsum (map f l) <= rsum (map g l).
Proof.
  induction l as [|x l IH]; intros H; simpl; [lra|].
  pose proof (H x ltac:(simpl; auto)). pose proof (IH ltac:(intros; apply H; simpl; auto)). lra.
Qed.
Lemma rsum_plus {A} (f g : A -> R) l : rsum (map (fun x => f x + g x) l) = rsum (map f l) + rsum (map g l).
Proof. induction l; simpl; lra. Qed.
Lemma rsum_minus {A} (f g : A -> R) l : rsum (map (fun x => f x - g x) l) = rsum (map f l) - rsum (map g l).
Proof. induction l; simpl; lra. Qed.
Lemma rsum_scal {A} (f : A -> R) a l : rsum (map (fun x => a * f x) l) = a * rsum (map f l).
Proof. induction l; simpl; lra. Qed.
Lemma rsum_scal_r {A} (f : A -> R) a l : rsum (map (fun x => f x * a) l) = rsum (map f l) * a.
Proof. induction l; simpl; lra. Qed.
Lemma rsum_div {A} (f : A -> R) a l : rsum (map (fun x => f x / a) l) = rsum (map f l) / a.
Proof. induction l; simpl; lra. Qed.
Lemma rsum_const {A} a (l : list A) : rsum (map (fun _ => a) l) = INR (length l) * a.
Proof.
  induction l as [|x l IH]; [simpl; lra|]. cbn [map length]. rewrite rsum_cons, IH, S_INR. lra.
Qed.
Lemma rsum_nonneg {A} (f : A -> R) l : (forall x, In x l -> 0 <= f x) -> 0 <= rsum (map f l).
Proof. intros H. induction l; simpl; [lra|]. pose proof (H a ltac:(simpl; auto)).
  pose proof (IHl ltac:(intros; apply H; simpl; auto)). lra. Qed.
Lemma rsum_nonneg_0 {A} (f : A -> R) l : (forall x, In x l -> 0 <= f x) -> rsum (map f l) = 0 ->
  forall x, In x l -> f x = 0.
Proof.
  induction l as [|a l IH]; intros H E x Hx; [destruct Hx|].
  pose proof (rsum_nonneg f l ltac:(intros; apply H; simpl; auto)).
  pose proof (H a ltac:(simpl; auto)). simpl in E.
  destruct Hx as [->|Hx]; [lra|]. apply IH; auto; [intros; apply H; simpl; auto|lra].
Qed.
Lemma rsum_pos {A} (f : A -> R) l : l <> [] -> (forall x, In x l -> 0 < f x) -> 0 < rsum (map f l).
Proof.
  intros N H. destruct l as [|a l]; [congruence|]. simpl.
  pose proof (H a ltac:(simpl; auto)).
  pose proof (rsum_nonneg f l ltac:(intros; left; apply H; simpl; auto)). lra.
Qed.
Lemma map_id_R (l : list R) : map (fun x => x) l = l. Proof. apply map_id. Qed.
Lemma length_pos {A} (l : list A) : l <> [] -> 0 < INR (length l).
Proof. destruct l; [congruence|]. intros _. apply lt_0_INR. simpl. lia. Qed.
Lemma rsum_map_perm {A} (f : A -> R) l l' : Permutation l l' -> rsum (map f l) = rsum (map f l').
Proof. intros. apply rsum_perm. apply Permutation_map. auto. Qed.
Lemma rsum_swap {A B} (f : A -> B -> R) l l' :
  rsum (map (fun a => rsum (map (fun b => f a b) l')) l) = rsum (map (fun b => rsum (map (fun a => f a b) l)) l').
Proof.
  induction l as [|a l IH]; simpl.
  - symmetry. transitivity (rsum (map (fun _ : B => 0) l')); [reflexivity|]. rewrite rsum_const. lra.
  - rewrite IH. rewrite <- rsum_plus. reflexivity.
Qed.
