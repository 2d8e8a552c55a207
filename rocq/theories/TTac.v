(** Tactics that discharge the hypotheses of the concrete instances shown beside the theorems. *)
From Coq Require Import Reals Lra Lia List.
From Coquelicot Require Import Coquelicot.
From Verif Require Import Values Spec SpecStat VTac M_common.
Import ListNotations.
Local Open Scope R_scope.

Ltac inst1 :=
  match goal with
  | |- ~ constant (?a :: ?b :: _) => let H := fresh in intros H; specialize (H a b ltac:(simpl; auto) ltac:(simpl; auto)); lra
  | |- forall x, In x _ -> _ => let H := fresh in intros x H; simpl in H; intuition (subst; first [lra | lia])
  | |- exists x, In x (?a :: _) /\ _ => exists a; split; [simpl; auto|lra]
  | |- exists x, In x (_ :: ?a :: _) /\ _ => exists a; split; [simpl; auto|lra]
  | |- exists k : positive, _ => first [exists 1%positive; lra | exists 2%positive; lra]
  | |- _ < sum _ => simpl; lra
  | |- _ :: _ <> [] => discriminate
  | |- isnum _ => repeat constructor
  | |- nonpositive _ => constructor; try constructor; lra
  | |- ext_le _ _ => constructor; try constructor; lra
  | |- _ => lra
  | |- _ => nra
  | |- _ /\ _ => split; inst1
  | |- _ \/ _ => first [left; inst1 | right; inst1]
  end.
Ltac inst := first [solve [side] | solve [simpl; lia] | solve [inst1] | solve [simpl; lra] | solve [left; eexists; split; [reflexivity|lra]] | solve [repeat constructor; lra]].
(** The value of [support] for valid parameters. *)
Ltac supp := unfold validate_loc_scale, validate_positive; vif; reflexivity.
