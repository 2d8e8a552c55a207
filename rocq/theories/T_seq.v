(** C05 (unique_counts) and C06 (the median used by the estimators). *)
From Coq Require Import Reals Lra List Arith Permutation Sorted.
From Verif Require Import Values VTac M_seq.
From Verif Require P_seq LLib.
Import ListNotations.
Local Open Scope R_scope.

Theorem C05_unique_counts : forall x, x <> [] ->
  exists vs cs, unique_counts x = Ok (vs, cs) /\
    StronglySorted Rlt vs /\                          (* strictly increasing *)
    (forall v, In v vs <-> In v x) /\                 (* exactly the elements of x *)
    cs = map (count_occ Req_EM_T x) vs.               (* the multiplicities *)
Proof. exact P_seq.unique_counts_spec. Qed.
Print Assumptions C05_unique_counts.
Theorem C05_order_irrelevant : forall x y, Permutation x y -> unique_counts x = unique_counts y.
Proof. exact P_seq.unique_counts_perm. Qed.
Print Assumptions C05_order_irrelevant.
Theorem C05_empty : unique_counts [] = Err ValueError.
Proof. exact eq_refl. Qed.
Print Assumptions C05_empty.
Example C05_instance : unique_counts [3; 1; 3] = Ok ([1; 3], [1%nat; 2%nat]).
Proof.
  unfold unique_counts.
  repeat (simpl; first [rewrite Rleb_true by lra | rewrite Rleb_false by lra]).
  repeat (simpl; first [rewrite Reqb_true by lra | rewrite Reqb_false by lra]). reflexivity.
Qed.

(** Half of the data on each side. *)
Theorem C06_half : forall x, x <> [] -> exists m, median x = Fin m /\
  (length x <= 2 * length (filter (fun t => Rleb t m) x))%nat /\
  (length x <= 2 * length (filter (fun t => Rleb m t) x))%nat.
Proof. exact P_seq.median_half. Qed.
Print Assumptions C06_half.
Theorem C06_least_absolute_deviation : forall x, x <> [] -> exists m, median x = Fin m /\
  forall c, fold_right Rplus 0 (map (fun t => Rabs (t - m)) x)
         <= fold_right Rplus 0 (map (fun t => Rabs (t - c)) x).
Proof. exact P_seq.median_min. Qed.
Print Assumptions C06_least_absolute_deviation.
Theorem C06_order_irrelevant : forall x y, Permutation x y -> median x = median y.
Proof. exact P_seq.median_perm. Qed.
Print Assumptions C06_order_irrelevant.
Theorem C06_empty : median [] = Fin 0.
Proof. exact P_seq.median_nil. Qed.
Print Assumptions C06_empty.
Example C06_instance : median [3; 1; 7; 5] = Fin 4.
Proof.
  unfold median.
  repeat (simpl; first [rewrite Rleb_true by lra | rewrite Rleb_false by lra]). simpl.
  rewrite Reqb_false by lra. f_equal. lra.
Qed.
