(** Lemmas about the data validators. *)
From Coq Require Import Reals Lra List.
From Verif Require Import Values VTac Spec SpecStat M_common P_basic2.
Import ListNotations.
Local Open Scope R_scope.

Lemma cany_true (f : val -> cond) (xs : list R) : (forall x, In x xs -> f (Fin x) = CB false \/ f (Fin x) = CB true) ->
  (exists x, In x xs /\ f (Fin x) = CB true) -> cany f (map Fin xs) = CB true.
Proof.
  induction xs as [|y ys IH]; intros D [x [I H]]; [destruct I|].
  cbn [map cany]. destruct (D y (or_introl eq_refl)) as [E|E]; rewrite E; [|reflexivity].
  destruct I as [->|I]; [congruence|]. simpl. apply IH; [intros z Z; apply D; right; auto|eauto].
Qed.
Lemma cany_Fin_false (f : val -> cond) (xs : list R) : (forall x, In x xs -> f (Fin x) = CB false) -> cany f (map Fin xs) = CB false.
Proof. intros H. apply cany_false. intros a I. apply in_map_iff in I. destruct I as [x [<- I]]. auto. Qed.

(** A finite datum satisfies the bounds. *)
Definition above (s : bool) (l : option val) (t : R) : Prop :=
  match l with
  | None => True | Some NInf => s = false \/ True | Some (Fin a) => if s then a < t else a <= t | _ => False end.
Definition below (s : bool) (h : option val) (t : R) : Prop :=
  match h with
  | None => True | Some PInf => s = false \/ True | Some (Fin b) => if s then t < b else t <= b | _ => False end.
Lemma vxb_pass {A} `{CanRaise A} (xs : list R) low high (sl sh : bool) (k : A) :
  (forall x, In x xs -> above sl low x /\ below sh high x) ->
  validate_x_bounds (map Fin xs) low high sl sh k = k.
Proof.
  intros HB. unfold validate_x_bounds.
  replace (match low with None => CB false | Some l => _ end) with (CB false).
  - replace (match high with None => CB false | Some l => _ end) with (CB false); [reflexivity|].
    destruct high as [h|]; auto. symmetry. apply cany_Fin_false. intros x I. destruct (HB x I) as [_ B].
    destruct h; simpl in B; try tauto; destruct sh; ccond.
  - destruct low as [l|]; auto. symmetry. apply cany_Fin_false. intros x I. destruct (HB x I) as [B _].
    destruct l; simpl in B; try tauto; destruct sl; ccond.
Qed.
Lemma vxb_low {A} `{CanRaise A} (xs : list R) (a : R) high (sl sh : bool) (k : A) :
  (exists x, In x xs /\ if sl then x <= a else x < a) ->
  validate_x_bounds (map Fin xs) (Some (Fin a)) high sl sh k = raise ValueError.
Proof.
  intros [x [I B]]. unfold validate_x_bounds. rewrite cany_true; [reflexivity| |].
  - intros y _. destruct sl.
    + destruct (Rle_lt_dec y a); [right|left]; ccond.
    + destruct (Rlt_le_dec y a); [right|left]; ccond.
  - exists x. split; auto. destruct sl; ccond.
Qed.
Lemma vxb_high {A} `{CanRaise A} (xs : list R) low (b : R) (sl sh : bool) (k : A) :
  (forall x, In x xs -> above sl low x) ->
  (exists x, In x xs /\ if sh then b <= x else b < x) ->
  validate_x_bounds (map Fin xs) low (Some (Fin b)) sl sh k = raise ValueError.
Proof.
  intros HB [x [I B]]. unfold validate_x_bounds.
  replace (match low with None => CB false | Some l => _ end) with (CB false).
  - unfold cif at 1. rewrite cany_true; [reflexivity| |].
    + intros y _. destruct sh.
      * destruct (Rle_lt_dec b y); [right|left]; ccond.
      * destruct (Rlt_le_dec b y); [right|left]; ccond.
    + exists x. split; auto. destruct sh; ccond.
  - destruct low as [l|]; auto. symmetry. apply cany_Fin_false. intros y J. pose proof (HB y J) as B'.
    destruct l; simpl in B'; try tauto; destruct sl; ccond.
Qed.
