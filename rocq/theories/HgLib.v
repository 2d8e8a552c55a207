(** The hypergeometric weights: Vandermonde, ratios, tails. *)
From Coq Require Import Reals Lra Lia List ZArith Arith Bool.
From Coquelicot Require Import Coquelicot.
From Verif Require Import Values VTac Spec SpecStat SpecDisc SFun GammaLib M_common M_sfun M_disc SpecInt BinLib DiscLib IncLib DiscLib2.
Import ListNotations.
Local Open Scope R_scope.
Set Bullet Behavior "Strict Subproofs".

Definition hg (K B n i : nat) : R := INR (choose K i) * INR (choose B (n - i)) / INR (choose (K + B) n).
Lemma choose_INR_pos n k : (k <= n)%nat -> 0 < INR (choose n k).
Proof. intros H. apply lt_0_INR. apply choose_pos. auto. Qed.
Lemma choose_ratio_R n k : INR (S k) * INR (choose n (S k)) = (INR n - INR k) * INR (choose n k).
Proof.
  destruct (Nat.le_gt_cases k n) as [H|H].
  - rewrite <- minus_INR by auto. rewrite <- !mult_INR. f_equal. apply choose_ratio. auto.
  - rewrite !choose_gt by lia. simpl. ring.
Qed.
Lemma hg_nonneg K B n i : (n <= K + B)%nat -> 0 <= hg K B n i.
Proof. intros H. unfold hg. pose proof (choose_INR_pos _ _ H). apply Rdiv_le_0_compat; auto. apply Rmult_le_pos; apply pos_INR. Qed.
Lemma hg_pos K B n i : (i <= K)%nat -> (i <= n)%nat -> (n - i <= B)%nat -> 0 < hg K B n i.
Proof. intros H H' H''. unfold hg. apply Rdiv_lt_0_compat; [apply Rmult_lt_0_compat|]; apply choose_INR_pos; lia. Qed.
Lemma hg_mass K B n : (n <= K + B)%nat -> nsum (hg K B n) (S n) = 1.
Proof.
  intros H. pose proof (choose_INR_pos _ _ H). unfold hg.
  rewrite (nsum_ext _ (fun i => / INR (choose (K + B) n) * INR (choose K i * choose B (n - i)))).
  - rewrite nsum_scal, <- nsum_INR, vandermonde. field. lra.
  - intros i _. rewrite mult_INR. field. lra.
Qed.
Lemma hg_ratio K B n i : (n <= K + B)%nat -> (i < n)%nat -> (INR i + 1) * (INR B - INR n + INR i + 1) * hg K B n (S i) = (INR K - INR i) * (INR n - INR i) * hg K B n i.
Proof.
  intros H I. pose proof (choose_INR_pos _ _ H). unfold hg. pose proof (choose_ratio_R K i) as A. pose proof (choose_ratio_R B (n - S i)) as C.
  replace (S (n - S i)) with (n - i)%nat in C by lia. rewrite !minus_INR in C by lia. rewrite S_INR in A, C.
  apply (Rmult_eq_reg_r (INR (choose (K + B) n))); [|lra].
  transitivity ((INR B - (INR n - (INR i + 1))) * INR (choose B (n - S i)) * ((INR i + 1) * INR (choose K (S i)))); [field; lra|].
  rewrite <- C, A. field. lra.
Qed.
Lemma hg_sym K n B D i : (K + B = n + D)%nat -> (i <= K)%nat -> (i <= n)%nat ->
  INR (choose n i) * INR (choose D (K - i)) / INR (choose (K + B) K) = hg K B n i.
Proof.
  intros E I J. unfold hg. destruct (Nat.le_gt_cases (n - i) B) as [H|H].
  - pose proof (choose_fact n i J) as F1. pose proof (choose_fact D (K - i) ltac:(lia)) as F2. pose proof (choose_fact (K + B) K ltac:(lia)) as F3.
    pose proof (choose_fact K i I) as F4. pose proof (choose_fact B (n - i) H) as F5. pose proof (choose_fact (K + B) n ltac:(lia)) as F6.
    replace (K + B - K)%nat with B in F3 by lia. replace (K + B - n)%nat with D in F6 by lia. replace (D - (K - i))%nat with (B - (n - i))%nat in F2 by lia.
    apply (f_equal INR) in F1, F2, F3, F4, F5, F6. rewrite !mult_INR in *.
    pose proof (choose_INR_pos n i J). pose proof (choose_INR_pos D (K - i) ltac:(lia)). pose proof (choose_INR_pos (K + B) K ltac:(lia)).
    pose proof (choose_INR_pos (K + B) n ltac:(lia)).
    pose proof (INR_fact_lt_0 i). pose proof (INR_fact_lt_0 (n - i)). pose proof (INR_fact_lt_0 (K - i)). pose proof (INR_fact_lt_0 (B - (n - i))).
    pose proof (INR_fact_lt_0 K). pose proof (INR_fact_lt_0 B). pose proof (INR_fact_lt_0 n). pose proof (INR_fact_lt_0 D). pose proof (INR_fact_lt_0 (K + B)).
    set (a := INR (choose n i)) in *. set (b := INR (choose D (K - i))) in *. set (c := INR (choose (K + B) K)) in *. set (d := INR (choose K i)) in *. set (e := INR (choose B (n - i))) in *. set (f := INR (choose (K + B) n)) in *.
    assert (a = INR (fact n) / (INR (fact i) * INR (fact (n - i)))) as -> by (rewrite <- F1; field; lra).
    assert (b = INR (fact D) / (INR (fact (K - i)) * INR (fact (B - (n - i))))) as -> by (rewrite <- F2; field; lra).
    assert (c = INR (fact (K + B)) / (INR (fact K) * INR (fact B))) as -> by (rewrite <- F3; field; lra).
    assert (d = INR (fact K) / (INR (fact i) * INR (fact (K - i)))) as -> by (rewrite <- F4; field; lra).
    assert (e = INR (fact B) / (INR (fact (n - i)) * INR (fact (B - (n - i))))) as -> by (rewrite <- F5; field; lra).
    assert (f = INR (fact (K + B)) / (INR (fact n) * INR (fact D))) as -> by (rewrite <- F6; field; lra).
    field. repeat split; lra.
  - rewrite (choose_gt B) by lia. rewrite (choose_gt D) by lia. simpl. unfold Rdiv. ring.
Qed.
Lemma hg_sb K B n i : (n <= K + B)%nat -> (i <= n)%nat -> INR (S i) * hg (S K) B (S n) (S i) = (INR (S n) * INR (S K) / INR (S (K + B))) * hg K B n i.
Proof.
  intros H I. unfold hg. pose proof (choose_absorb K i) as A. pose proof (choose_absorb (K + B) n) as C. apply (f_equal INR) in A, C. rewrite !mult_INR in A, C.
  replace (S n - S i)%nat with (n - i)%nat by lia. change (S K + B)%nat with (S (K + B)).
  pose proof (choose_INR_pos (S (K + B)) (S n) ltac:(lia)). pose proof (choose_INR_pos (K + B) n ltac:(lia)).
  assert (0 < INR (S (K + B))) by (apply lt_0_INR; lia). assert (0 < INR (S n)) by (apply lt_0_INR; lia).
  transitivity (INR (S i) * INR (choose (S K) (S i)) * INR (choose B (n - i)) / INR (choose (S (K + B)) (S n))); [unfold Rdiv; ring|].
  rewrite A. replace (INR (choose (S (K + B)) (S n))) with (INR (S (K + B)) * INR (choose (K + B) n) / INR (S n)) by (rewrite <- C; field; lra).
  field. lra.
Qed.
(** beta functions of integers. *)
Lemma Beta_choose T i : (i <= T)%nat -> (INR T + 1) * Beta (INR i + 1) (INR T - INR i + 1) = / INR (choose T i).
Proof.
  intros H. rewrite choose_Gamma by auto. unfold binomR, Beta. assert (INR i <= INR T) by (apply le_INR; auto). pose proof (pos_INR i).
  replace (INR i + 1 + (INR T - INR i + 1)) with (INR T + 1 + 1) by ring. rewrite (Gamma_succ (INR T + 1)) by lra.
  pose proof (Gamma_pos (INR T + 1) ltac:(lra)). pose proof (Gamma_pos (INR i + 1) ltac:(lra)). pose proof (Gamma_pos (INR T - INR i + 1) ltac:(lra)).
  field. repeat split; lra.
Qed.
Lemma vbeta_Z T (k : Z) : vbeta (Fin (IZR k + 1)) (Fin (INR T - IZR k + 1)) =
  if (0 <=? k)%Z && (k <=? Z.of_nat T)%Z then Fin (/ ((INR T + 1) * INR (choose T (Z.to_nat k)))) else PInf.
Proof.
  replace (IZR k + 1) with (IZR (k + 1)) by (rewrite plus_IZR; reflexivity). replace (INR T - IZR k + 1) with (IZR (Z.of_nat T - k + 1)) by (rewrite plus_IZR, minus_IZR, <- INR_IZR_INZ; reflexivity).
  unfold vbeta. rewrite <- plus_IZR, !polb_IZR. replace (k + 1 + (Z.of_nat T - k + 1) <=? 0)%Z with false by (symmetry; apply Z.leb_gt; lia).
  destruct (Z.leb_spec 0 k) as [A|A]; cbn [andb].
  - rewrite Rltb_true by (apply IZR_lt; lia). destruct (Z.leb_spec k (Z.of_nat T)) as [C|C].
    + rewrite Rltb_true by (apply IZR_lt; lia). f_equal. pose proof (Beta_choose T (Z.to_nat k) ltac:(lia)) as E.
      rewrite (INR_IZR_INZ (Z.to_nat k)), Z2Nat.id in E by lia. rewrite !plus_IZR, minus_IZR, <- INR_IZR_INZ.
      pose proof (choose_INR_pos T (Z.to_nat k) ltac:(lia)). pose proof (pos_INR T). 
      apply (Rmult_eq_reg_l (INR T + 1)); [|lra]. rewrite E. field. lra.
    + rewrite Rltb_false by (apply IZR_le; lia). replace (Z.of_nat T - k + 1 <=? 0)%Z with true by (symmetry; apply Z.leb_le; lia). reflexivity.
  - rewrite Rltb_false by (apply IZR_le; lia). replace (k + 1 <=? 0)%Z with true by (symmetry; apply Z.leb_le; lia). reflexivity.
Qed.
(** Upper tails: [P(X >= m)] in [n] draws, and one more draw. *)
Definition tail (K B n m : nat) : R := nsum (fun j => hg K B n (m + j)) (S n - m).
Lemma hg_step K B n i : (n < K + B)%nat -> (i < n)%nat ->
  hg K B (S n) (S i) = hg K B n (S i) - hg K B n (S i) * (INR K - INR (S i)) / (INR (K + B) - INR n) + hg K B n i * (INR K - INR i) / (INR (K + B) - INR n).
Proof.
  intros H I. unfold hg. pose proof (choose_INR_pos _ _ (Nat.lt_le_incl _ _ H)). pose proof (choose_INR_pos (K + B) (S n) ltac:(lia)).
  pose proof (choose_ratio_R (K + B) n) as N1. pose proof (choose_ratio_R B (n - S i)) as B1. pose proof (choose_ratio_R K i) as K1.
  replace (S n - S i)%nat with (n - i)%nat by lia. replace (S (n - S i)) with (n - i)%nat in B1 by lia. rewrite !minus_INR in B1 by lia. 
  assert (D : 0 < INR (K + B) - INR n) by (apply lt_INR in H; lra). assert (0 < INR (S n)) by (apply lt_0_INR; lia).
  assert (E : INR (choose (K + B) (S n)) = (INR (K + B) - INR n) * INR (choose (K + B) n) / INR (S n)) by (rewrite <- N1; field; lra). rewrite E.
  apply (Rmult_eq_reg_r ((INR (K + B) - INR n) * INR (choose (K + B) n))); [|apply Rgt_not_eq; apply Rmult_lt_0_compat; auto].
  transitivity (INR (S n) * INR (choose K (S i)) * INR (choose B (n - i))); [field; lra|].
  transitivity (INR (choose K (S i)) * INR (choose B (n - S i)) * ((INR (K + B) - INR n) - (INR K - INR (S i))) + (INR K - INR i) * INR (choose K i) * INR (choose B (n - i))); [|field; lra].
  rewrite <- K1. transitivity (INR (choose K (S i)) * ((INR B - (INR n - INR (S i))) * INR (choose B (n - S i))) + INR (S i) * INR (choose K (S i)) * INR (choose B (n - i))); [|rewrite plus_INR; ring].
  rewrite <- B1. rewrite !S_INR. ring.
Qed.
Lemma tail_step K B n m : (n < K + B)%nat -> (m < n)%nat -> tail K B (S n) (S m) = tail K B n (S m) + hg K B n m * (INR K - INR m) / (INR (K + B) - INR n).
Proof.
  intros H M. unfold tail. replace (S (S n) - S m)%nat with (S (n - m)) by lia. replace (S n - S m)%nat with (n - m)%nat by lia.
  assert (D : 0 < INR (K + B) - INR n) by (apply lt_INR in H; lra).
  set (f i := hg K B n i * (INR K - INR i) / (INR (K + B) - INR n)).
  change (nsum (fun j => hg K B (S n) (S m + j)) (S (n - m))) with (nsum (fun j => hg K B (S n) (S m + j)) (n - m) + hg K B (S n) (S m + (n - m))).
  rewrite (nsum_ext (fun j => hg K B (S n) (S m + j)) (fun j => hg K B n (S m + j) + (-1) * (f (m + S j)%nat - f (m + j)%nat))).
  - rewrite nsum_plus, nsum_scal. rewrite (nsum_tele (fun j => f (m + j)%nat)). rewrite Nat.add_0_r. replace (m + (n - m))%nat with n by lia. replace (S m + (n - m))%nat with (S n) by lia.
    assert (hg K B (S n) (S n) = f n); [|unfold f in *; lra]. unfold f, hg. rewrite !Nat.sub_diag, !choose_0.
    pose proof (choose_INR_pos _ _ (Nat.lt_le_incl _ _ H)). pose proof (choose_INR_pos (K + B) (S n) ltac:(lia)). pose proof (choose_ratio_R (K + B) n) as N1. pose proof (choose_ratio_R K n) as K1. assert (0 < INR (S n)) by (apply lt_0_INR; lia).
    assert (E : INR (choose (K + B) (S n)) = (INR (K + B) - INR n) * INR (choose (K + B) n) / INR (S n)) by (rewrite <- N1; field; lra). rewrite E.
    transitivity (INR (S n) * INR (choose K (S n)) / ((INR (K + B) - INR n) * INR (choose (K + B) n))); [simpl (INR 1); field; lra|]. rewrite K1. simpl (INR 1). field. lra.
  - intros j J. unfold f. replace (m + S j)%nat with (S m + j)%nat by lia. change (S m + j)%nat with (S (m + j)). rewrite hg_step by lia. unfold Rdiv. ring.
Qed.
Lemma tail_0 K B n : (n <= K + B)%nat -> tail K B n 0 = 1.
Proof. intros H. unfold tail. rewrite <- (hg_mass K B n) by auto. rewrite Nat.sub_0_r. reflexivity. Qed.
Lemma tail_split K B n m : (n <= K + B)%nat -> (m <= S n)%nat -> nsum (hg K B n) m = 1 - tail K B n m.
Proof. intros H M. rewrite <- (hg_mass K B n) by auto. unfold tail. replace (S n) with (m + (S n - m))%nat at 1 by lia. rewrite nsum_app. ring. Qed.

Lemma rising_last x n : rising x (S n) = rising x n * (x + INR n).
Proof.
  revert x; induction n as [|n IH]; intros x; [simpl; ring|]. change (rising x (S (S n))) with (x * rising (x + 1) (S n)). rewrite IH.
  change (rising x (S n)) with (x * rising (x + 1) n). rewrite S_INR. ring.
Qed.
Lemma rising_pos x n : 0 < x -> 0 < rising x n.
Proof. revert x; induction n as [|n IH]; intros x H; simpl; [lra|]. apply Rmult_lt_0_compat; auto. apply IH. lra. Qed.
Lemma rising_1 n : rising 1 n = INR (fact n).
Proof. induction n as [|n IH]; [reflexivity|]. rewrite rising_last, IH. change (fact (S n)) with (S n * fact n)%nat. rewrite mult_INR, S_INR. ring. Qed.
(** The hypergeometric series for the tail. *)
Lemma hg_series K B n m j : (n <= K + B)%nat -> (m + j <= n)%nat -> (m + j <= K)%nat -> (n <= B + m)%nat ->
  hg K B n m * hyp_term 1 (INR m - INR K) (INR m - INR n) (INR m + 1) (INR B + INR m + 1 - INR n) j = hg K B n (m + j).
Proof.
  intros H M M' L. induction j as [|j IH].
  - rewrite Nat.add_0_r. unfold hyp_term. simpl. field.
  - pose proof (hg_ratio K B n (m + j) H ltac:(lia)) as R. replace (m + S j)%nat with (S (m + j)) by lia. rewrite plus_INR in R.
    assert (0 < INR B - INR n + (INR m + INR j) + 1) by (apply le_INR in L; rewrite plus_INR in L; pose proof (pos_INR j); lra).
    assert (0 < INR m + INR j + 1) by (pose proof (pos_INR m); pose proof (pos_INR j); lra).
    apply (Rmult_eq_reg_l ((INR m + INR j + 1) * (INR B - INR n + (INR m + INR j) + 1))); [|apply Rgt_not_eq; apply Rmult_lt_0_compat; lra].
    rewrite R, <- IH by lia. unfold hyp_term. rewrite !rising_last. rewrite !rising_1. change (fact (S j)) with (S j * fact j)%nat. rewrite mult_INR, S_INR.
    pose proof (INR_fact_lt_0 j). pose proof (rising_pos (INR m + 1) j ltac:(pose proof (pos_INR m); lra)).
    pose proof (rising_pos (INR B + INR m + 1 - INR n) j ltac:(apply le_INR in L; rewrite plus_INR in L; lra)). pose proof (pos_INR j).
    field. repeat split; lra.
Qed.

(** The distribution concentrated at 0. *)
Lemma delta_moment (n c : nat) (d : R) : nsum (fun i => (INR i - d) ^ c * (if Nat.eqb i 0 then 1 else 0)) (S n) = (- d) ^ c.
Proof. rewrite nsum_first, nsum_0; [simpl; rewrite Rplus_0_r, Rmult_1_r; f_equal; ring|]. intros i _. simpl. ring. Qed.
Lemma delta_disc n pmf : (forall i, (i <= n)%nat -> pmf (Fin (IZR (Z.of_nat i))) = Fin (if Nat.eqb i 0 then 1 else 0)) ->
  dmean_is pmf (sup0 (Some (S n))) (Fin 0) /\ dvar_is pmf (sup0 (Some (S n))) (Fin 0).
Proof.
  intros H. assert (M : forall c, dmoment pmf (sup0 (Some (S n))) 0 c ((- 0) ^ c)).
  { intros c. apply (disc_moment (Some (S n)) _ (fun i => if Nat.eqb i 0 then 1 else 0)); [simpl; intros i I; apply H; lia|]. apply delta_moment. }
  assert (M1 := M 1%nat). assert (M2 := M 2%nat). replace ((- 0) ^ 1) with 0 in M1 by ring. replace ((- 0) ^ 2) with 0 in M2 by ring.
  split; [exists 0; auto|exists 0, 0; auto].
Qed.
