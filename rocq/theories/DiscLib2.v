(** Size-biasing, powers and validators shared by the discrete distributions. *)
From Coq Require Import Reals Lra Lia List ZArith Arith Bool.
From Coquelicot Require Import Coquelicot.
From Verif Require Import Values VTac Spec SpecStat SpecDisc LLib SFun GammaLib M_common M_sfun M_disc SpecInt BinLib DiscLib IncLib.
Import ListNotations.
Local Open Scope R_scope.
Set Bullet Behavior "Strict Subproofs".

(** [(i+1) g(i+1) = c g'(i)] gives the mean and variance of [g] from the mean of [g']. *)
Lemma sb_moments N' pmf (g g' : nat -> R) c m' :
  (forall i, DiscLib.below (option_map S N') i -> pmf (Fin (IZR (Z.of_nat i))) = Fin (g i)) ->
  (forall i, DiscLib.below N' i -> INR (S i) * g (S i) = c * g' i) ->
  tot (option_map S N') g 1 -> tot N' g' 1 -> tot N' (fun i => INR i * g' i) m' ->
  dmean_is pmf (sup0 (option_map S N')) (Fin c) /\ dvar_is pmf (sup0 (option_map S N')) (Fin (c * m' + c - c ^ 2)).
Proof.
  intros P E G G' M'.
  assert (T1 : tot (option_map S N') (fun i => INR i * g i) (c * 1)) by (apply (tot_shift N' g g'); auto).
  assert (T2 : tot (option_map S N') (fun i => INR i * ((INR i - 1) * g i)) (c * m')).
  { apply (tot_shift N' (fun i => (INR i - 1) * g i) (fun i => INR i * g' i)); auto.
    intros i B. specialize (E i B). rewrite S_INR in *. replace ((INR i + 1) * ((INR i + 1 - 1) * g (S i))) with (INR i * ((INR i + 1) * g (S i))) by ring. rewrite E. ring. }
  rewrite Rmult_1_r in T1. split; [apply (disc_mean _ pmf g); auto|].
  set (M := fun n : nat => match n with O => 1 | 1%nat => c | _ => c * m' + c end).
  replace (c * m' + c - c ^ 2) with (dvar M) by (unfold dvar, M; ring).
  apply (disc_var _ pmf g P M); [|reflexivity].
  intros [|[|[|n]]] Hn; try lia; unfold M.
  - eapply tot_ext; [|exact G]. intros; simpl; ring.
  - eapply tot_ext; [|exact T1]. intros; simpl; ring.
  - eapply tot_ext; [|exact (tot_plus _ _ _ _ _ T2 T1)]. intros; simpl; ring.
Qed.
Lemma vpow_nat p i : 0 <= p -> vpow (Fin p) (Fin (INR i)) = Fin (p ^ i).
Proof.
  intros [P| <-]; [rewrite vpow_Fin, Rpower_INR by auto; reflexivity|]. destruct i as [|i].
  - apply vpow_0_0.
  - rewrite vpow_0_pos by (apply lt_0_INR; lia). rewrite pow_i by lia. reflexivity.
Qed.
Lemma vp01 {A} `{CanRaise A} p (k : A) : 0 <= p <= 1 -> validate_p (Fin p) k = k.
Proof. intros P. unfold validate_p, cor, cgt, clt, cmp, ltb. rewrite !Rltb_false by lra. reflexivity. Qed.
Lemma sub_INR n i : (i <= n)%nat -> vsub (Fin (INR n)) (Fin (INR i)) = Fin (INR (n - i)).
Proof. intros H. rewrite minus_INR by auto. reflexivity. Qed.
Lemma add1_INR n : vadd (Fin (INR n)) (Fin 1) = Fin (INR (S n)).
Proof. rewrite S_INR. reflexivity. Qed.
Lemma lt_INR_false a b : (b <= a)%nat -> clt (Fin (INR a)) (Fin (INR b)) = CB false.
Proof. intros H. unfold clt, cmp, ltb. rewrite Rltb_false; auto. apply le_INR; auto. Qed.
Lemma lt0_INR a : clt (Fin (INR a)) (Fin 0) = CB false.
Proof. unfold clt, cmp, ltb. rewrite Rltb_false; auto. apply pos_INR. Qed.
Lemma eq_INR_true a b : a = b -> ceq (Fin (INR a)) (Fin (INR b)) = CB true.
Proof. intros ->. unfold ceq, cmp, eqb. rewrite Reqb_true; auto. Qed.
Lemma eq_INR_false a b : a <> b -> ceq (Fin (INR a)) (Fin (INR b)) = CB false.
Proof. intros H. unfold ceq, cmp, eqb. rewrite Reqb_false; auto. intros E. apply H. apply INR_eq. auto. Qed.
Lemma int_nat {A} `{CanRaise A} n (k : A) : validate_int (Fin (INR n)) k = k.
Proof. unfold validate_int. rewrite vint_INR. unfold cne, cmp, eqb. rewrite Reqb_true; auto. Qed.
Lemma int_Z {A} `{CanRaise A} n (k : A) : validate_int (Fin (IZR n)) k = k.
Proof. unfold validate_int. rewrite vint_IZR. unfold cne, cmp, eqb. rewrite Reqb_true; auto. Qed.
Lemma binomial_nsum x y n : nsum (fun i => INR (choose n i) * x ^ i * y ^ (n - i)) (S n) = (x + y) ^ n.
Proof.
  rewrite nsum_sum_n, sum_n_Reals. rewrite binomial. apply sum_eq. intros i I. f_equal. f_equal.
  unfold Binomial.C. pose proof (choose_fact n i I) as E. apply (f_equal INR) in E. rewrite !mult_INR in E. rewrite <- E.
  pose proof (INR_fact_neq_0 i). pose proof (INR_fact_neq_0 (n - i)). field. auto.
Qed.
