(** Proofs about M_dirichlet. *)
From Coq Require Import Reals Lra Lia List Bool Arith.
From Coquelicot Require Import Coquelicot.
From Verif Require Import Values VTac SpecStat SFun LLib DiscLib GammaLib M_common M_sfun M_fun M_dirichlet.
From Verif Require P_logb.
Import ListNotations.
Local Open Scope R_scope.
Set Bullet Behavior "Strict Subproofs".

Definition all_pos (l : list R) := forall a, In a l -> 0 < a.
Lemma va_ok {A} `{CanRaise A} al (k : A) : all_pos al -> validate_alpha (map Fin al) k = k.
Proof.
  intros P. unfold validate_alpha. assert (cany (fun a => cle a (Fin 0)) (map Fin al) = CB false) as ->; [|reflexivity].
  induction al as [|a l IH]; auto. cbn [map cany]. rewrite IH by (intros x I; apply P; right; auto). change (cle (Fin a) (Fin 0)) with (CB (Rleb a 0)). rewrite Rleb_false; [reflexivity|]. specialize (P a (or_introl eq_refl)). lra.
Qed.
Lemma va_bad {A} `{CanRaise A} al (k : A) a : In a al -> a <= 0 -> validate_alpha (map Fin al) k = raise ValueError.
Proof.
  intros I L. unfold validate_alpha. assert (cany (fun a => cle a (Fin 0)) (map Fin al) = CB true) as ->; [|reflexivity].
  induction al as [|b l IH]; [destruct I|]. cbn [map cany]. change (cle (Fin b) (Fin 0)) with (CB (Rleb b 0)). destruct I as [->|I]; [rewrite Rleb_true by auto; reflexivity|]. rewrite IH by auto. destruct (Rleb b 0); reflexivity.
Qed.
Lemma bad eps al a x : In a al -> a <= 0 -> mean (map Fin al) = Err ValueError /\ cov (map Fin al) = Err ValueError /\ entropy (map Fin al) = Exc ValueError /\
  logpdf eps x (map Fin al) = Exc ValueError /\ pdf eps x (map Fin al) = Exc ValueError.
Proof.
  intros I L. unfold mean, cov, entropy, pdf, logpdf, validate_x_alpha. rewrite !(va_bad al _ a) by auto. repeat split; reflexivity.
Qed.
Section D.
Variable al : list R.
Hypothesis NE : al <> [].
Hypothesis POS : forall a, In a al -> 0 < a.
Definition a0 := sum al.
Lemma a0_pos : 0 < a0.
Proof. unfold a0. rewrite <- (map_id al). apply rsum_pos; auto. Qed.
Definition r (i : nat) := nth i al 0 / a0.
Lemma rr : map (fun a => vdiv a (vfsum (map Fin al))) (map Fin al) = map (fun a => Fin (a / a0)) al.
Proof. rewrite map_map. apply map_ext. intros a. rewrite vfsum_Fin. change (sum al) with a0. apply vdiv_Fin. pose proof a0_pos. lra. Qed.
Lemma mean_ok : exists ms, mean (map Fin al) = Ok (map Fin ms) /\ ms = map (fun a => a / sum al) al /\ (forall m, In m ms -> 0 < m) /\ sum ms = 1.
Proof.
  exists (map (fun a => a / a0) al). unfold mean. rewrite va_ok by exact POS. split; [cbv zeta; rewrite rr, map_map; reflexivity|]. split; [reflexivity|]. pose proof a0_pos. split.
  - intros m I. apply in_map_iff in I. destruct I as [a [<- I]]. apply Rdiv_lt_0_compat; auto.
  - rewrite rsum_div, map_id. unfold a0 in *. field. lra.
Qed.
Notation n := (length al).
Lemma r_nth i : (i < n)%nat -> nth i (map (fun a => Fin (a / a0)) al) NaN = Fin (r i).
Proof. intros H. rewrite (nth_indep _ NaN (Fin (0 / a0))) by (rewrite map_length; auto). rewrite (map_nth (fun a => Fin (a / a0))). reflexivity. Qed.
Lemma r_pos i : (i < n)%nat -> 0 < r i.
Proof. intros H. apply Rdiv_lt_0_compat; [apply POS; apply nth_In; auto|apply a0_pos]. Qed.
Lemma r_sum : nsum r n = 1.
Proof.
  unfold r. rewrite <- sum_seq. rewrite (rsum_div (fun i => nth i al 0)). pose proof a0_pos. assert (map (fun i => nth i al 0) (seq 0 n) = al) as ->; [|change (a0 / a0 = 1); field; lra].
  apply (nth_ext _ _ 0 0); [rewrite map_length, seq_length; auto|]. intros i HM. rewrite map_length, seq_length in HM.
  rewrite (nth_indep _ 0 (nth 0 al 0)) by (rewrite map_length, seq_length; auto). rewrite (map_nth (fun i => nth i al 0)). rewrite seq_nth by auto. reflexivity.
Qed.
Definition C (i j : nat) : R := if Nat.eqb i j then r i * (1 - r i) / (a0 + 1) else - r i * r j / (a0 + 1).
Lemma C_sym i j : C i j = C j i.
Proof. unfold C. rewrite (Nat.eqb_sym j i). destruct (Nat.eqb_spec i j) as [->|]; auto. unfold Rdiv. ring. Qed.
Notation vr := (map (fun a => Fin (a / a0)) al).
Lemma assign_eq m i j v : assign m i j v i j = v. Proof. unfold assign. rewrite !Nat.eqb_refl. reflexivity. Qed.
Lemma assign_ne m i j v i' j' : i' <> i \/ j' <> j -> assign m i j v i' j' = m i' j'.
Proof. intros H. unfold assign. destruct (Nat.eqb_spec i' i); [|reflexivity]. destruct (Nat.eqb_spec j' j); [|reflexivity]. lia. Qed.
Lemma inner i : (i < n)%nat -> forall k s m, (i < s)%nat -> (s + k <= n)%nat ->
  (forall i' j', (i' < n)%nat -> (j' < n)%nat -> (min i' j' < i \/ (min i' j' = i /\ max i' j' < s))%nat -> m i' j' = Fin (C i' j')) ->
  forall i' j', (i' < n)%nat -> (j' < n)%nat -> (min i' j' < i \/ (min i' j' = i /\ max i' j' < s + k))%nat ->
  fold_left (fun m j => let m := assign m i j (vdiv (vmul (vneg (nth i vr NaN)) (nth j vr NaN)) (vadd (Fin a0) (Fin 1))) in assign m j i (m i j)) (seq s k) m i' j' = Fin (C i' j').
Proof.
  intros Hi. induction k as [|k IH]; intros s m Hs Hk INV i' j' I J H.
  - simpl. apply INV; auto. lia.
  - cbn [seq fold_left]. apply IH; auto; try lia. clear IH H i' j' I J. intros i' j' I J H. cbv zeta. pose proof a0_pos.
    assert (V : vdiv (vmul (vneg (nth i vr NaN)) (nth s vr NaN)) (vadd (Fin a0) (Fin 1)) = Fin (C i s)).
    { rewrite !r_nth by lia. cbn [vneg vmul vadd]. rewrite vdiv_Fin by lra. unfold C. destruct (Nat.eqb_spec i s); [lia|]. reflexivity. }
    rewrite V. rewrite assign_eq.
    destruct (Nat.eq_dec i' s) as [->|N1]; [destruct (Nat.eq_dec j' i) as [->|N2]|].
    + rewrite assign_eq. f_equal. apply C_sym.
    + rewrite assign_ne by auto. rewrite assign_ne by lia. apply INV; auto. lia.
    + rewrite assign_ne by auto. destruct (Nat.eq_dec i' i) as [->|N2]; [destruct (Nat.eq_dec j' s) as [->|N3]|].
      * rewrite assign_eq. reflexivity.
      * rewrite assign_ne by auto. apply INV; auto. lia.
      * rewrite assign_ne by auto. apply INV; auto. lia.
Qed.
Lemma rows : forall k m, (k <= n)%nat -> forall i' j', (i' < n)%nat -> (j' < n)%nat -> (min i' j' < k)%nat ->
  fold_left (cov_row (Fin a0) vr n) (seq 0 k) m i' j' = Fin (C i' j').
Proof.
  induction k as [|k IH]; intros m Hk i' j' I J H; [lia|]. rewrite seq_S, fold_left_app. cbn [fold_left]. rewrite Nat.add_0_l. unfold cov_row at 1. cbv zeta. pose proof a0_pos.
  apply inner; auto; try lia. clear i' j' I J H. intros i' j' I J H.
  destruct (Nat.eq_dec i' k) as [->|N1]; [destruct (Nat.eq_dec j' k) as [->|N2]|].
  - rewrite assign_eq. rewrite r_nth by lia. change (vsub (Fin 1) (Fin (r k))) with (Fin (1 - r k)). cbn [vmul vadd]. rewrite vdiv_Fin by lra. unfold C. rewrite Nat.eqb_refl. reflexivity.
  - rewrite assign_ne by auto. apply IH; auto; lia.
  - rewrite assign_ne by auto. apply IH; auto; lia.
Qed.
Lemma quad c : nsum (fun i => nsum (fun j => c i * c j * C i j) n) n = (nsum (fun i => r i * (c i * c i)) n - nsum (fun i => r i * c i) n * nsum (fun i => r i * c i) n) / (a0 + 1).
Proof.
  pose proof a0_pos. assert (E : forall i, (i < n)%nat -> nsum (fun j => c i * c j * C i j) n = (r i * (c i * c i) - r i * c i * nsum (fun i => r i * c i) n) / (a0 + 1)).
  { intros i Hi. assert (X : forall m, (m <= n)%nat -> nsum (fun j => c i * c j * C i j) m = ((if Nat.ltb i m then r i * (c i * c i) else 0) - r i * c i * nsum (fun i => r i * c i) m) / (a0 + 1)).
    { induction m as [|m IH]; intros Hm; [simpl; unfold Rdiv; ring|]. cbn [nsum]. rewrite IH by lia. unfold C. destruct (Nat.eqb_spec i m) as [->|NE'].
      - rewrite (proj2 (Nat.ltb_ge m m)) by lia. rewrite (proj2 (Nat.ltb_lt m (S m))) by lia. field. lra.
      - destruct (Nat.ltb_spec i m); destruct (Nat.ltb_spec i (S m)); try lia; field; lra. }
    rewrite X by lia. rewrite (proj2 (Nat.ltb_lt i n)) by auto. reflexivity. }
  rewrite (nsum_ext _ _ _ E). set (T := nsum (fun i => r i * c i) n).
  rewrite (nsum_ext _ (fun i => / (a0 + 1) * (r i * (c i * c i)) + (- T / (a0 + 1)) * (r i * c i))) by (intros; field; lra).
  rewrite nsum_plus, !nsum_scal. fold T. field. lra.
Qed.
Lemma jensen c : nsum (fun i => r i * c i) n * nsum (fun i => r i * c i) n <= nsum (fun i => r i * (c i * c i)) n.
Proof.
  set (T := nsum (fun i => r i * c i) n).
  assert (0 <= nsum (fun i => r i * ((c i - T) * (c i - T))) n).
  { assert (X : forall m, (m <= n)%nat -> 0 <= nsum (fun i => r i * ((c i - T) * (c i - T))) m); [|apply X; auto]. induction m as [|m IH]; intros Hm; [simpl; lra|]. cbn [nsum]. specialize (IH ltac:(lia)). pose proof (r_pos m ltac:(lia)).
    assert (0 <= (c m - T) * (c m - T)) by (apply Rle_0_sqr). nra. }
  rewrite (nsum_ext _ (fun i => r i * (c i * c i) + ((- 2 * T) * (r i * c i) + T * T * r i))) in H by (intros; ring).
  rewrite nsum_plus, nsum_plus, !nsum_scal, r_sum in H. fold T in H. lra.
Qed.
Lemma row_sum i : (i < n)%nat -> sum (map (C i) (seq 0 n)) = 0.
Proof.
  intros Hi. rewrite sum_seq. pose proof a0_pos.
  assert (X : forall m, (m <= n)%nat -> nsum (C i) m = ((if Nat.ltb i m then r i else 0) - r i * nsum r m) / (a0 + 1)).
  { induction m as [|m IH]; intros Hm; [simpl; unfold Rdiv; ring|]. cbn [nsum]. rewrite IH by lia. unfold C. destruct (Nat.eqb_spec i m) as [->|NE'].
    - rewrite (proj2 (Nat.ltb_ge m m)) by lia. rewrite (proj2 (Nat.ltb_lt m (S m))) by lia. field. lra.
    - destruct (Nat.ltb_spec i m); destruct (Nat.ltb_spec i (S m)); try lia; field; lra. }
  rewrite X by lia. rewrite (proj2 (Nat.ltb_lt i n)), r_sum by auto. field. lra.
Qed.
Lemma cov_ok : exists (m : mat) (c : nat -> nat -> R), cov (map Fin al) = Ok (length al, m) /\
  (forall i j, (i < length al)%nat -> (j < length al)%nat -> m i j = Fin (c i j) /\ c i j = c j i /\
     (i = j -> c i j = nth i al 0 / sum al * (1 - nth i al 0 / sum al) / (sum al + 1)) /\
     (i <> j -> c i j = - (nth i al 0 / sum al) * (nth j al 0 / sum al) / (sum al + 1))) /\
  (forall i, (i < length al)%nat -> 0 <= c i i /\ sum (map (c i) (seq 0 (length al))) = 0) /\
  (forall v : nat -> R, 0 <= sum (map (fun i => sum (map (fun j => v i * v j * c i j) (seq 0 (length al)))) (seq 0 (length al)))).
Proof.
  exists (fold_left (cov_row (Fin a0) vr n) (seq 0 n) (fun _ _ => Fin 0)), C. pose proof a0_pos. split; [|split; [|split]].
  - unfold cov. rewrite va_ok by exact POS. cbv zeta. rewrite map_length, rr, vfsum_Fin. reflexivity.
  - intros i j I J. split; [apply rows; auto; lia|]. split; [apply C_sym|]. unfold C. destruct (Nat.eqb_spec i j); split; intros; try congruence; reflexivity.
  - intros i I. split; [|apply row_sum; auto]. unfold C. rewrite Nat.eqb_refl. apply Rdiv_le_0_compat; [|lra]. pose proof (r_pos i I).
    assert (r i <= 1). { rewrite <- r_sum. clear - I POS NE. assert (X : forall m, (m <= n)%nat -> (i < m)%nat -> r i <= nsum r m). { induction m as [|m IH]; intros M L; [lia|]. cbn [nsum]. pose proof (r_pos m ltac:(lia)). destruct (Nat.eq_dec i m) as [->|]; [|specialize (IH ltac:(lia) ltac:(lia)); lra].
      assert (0 <= nsum r m); [|lra]. clear - M POS NE. induction m as [|m IH]; [simpl; lra|]. cbn [nsum]. pose proof (r_pos m ltac:(lia)). specialize (IH ltac:(lia)). lra. } apply X; auto. }
    apply Rmult_le_pos; lra.
  - intros v. rewrite sum_seq. rewrite (nsum_ext _ (fun i => nsum (fun j => v i * v j * C i j) n)) by (intros; apply sum_seq). rewrite quad. pose proof (jensen v). apply Rdiv_le_0_compat; lra.
Qed.
(** The density. *)
Notation prod := (fold_right Rmult 1).
Lemma xlogy_pos a x : 0 < x -> xlogy (vsub (Fin a) (Fin 1)) (Fin x) = Fin ((a - 1) * ln x).
Proof.
  intros X. unfold xlogy. change (vsub (Fin a) (Fin 1)) with (Fin (a - 1)). cbn [visnan cor]. change (ceq (Fin (a - 1)) (Fin 0)) with (CB (Reqb (a - 1) 0)). destruct (Reqb_spec (a - 1) 0) as [[-> ->]|[L ->]]; cbn [cif]; [f_equal; ring|]. rewrite vlog_Fin by auto. reflexivity.
Qed.
Lemma mlb : multivariate_logbeta vloggamma (map Fin al) = Fin (sum (map (fun a => ln (Gamma a)) al) - ln (Gamma (sum al))).
Proof.
  unfold multivariate_logbeta. rewrite vfsum_Fin. rewrite P_logb.vlg by apply a0_pos. rewrite map_map. rewrite (map_ext_in (fun x => vloggamma (Fin x)) (fun a => Fin (ln (Gamma a)))) by (intros a I; apply P_logb.vlg; auto).
  cbn [vneg]. change [Fin (- ln (Gamma (sum al)))] with (map Fin [- ln (Gamma (sum al))]). rewrite <- (map_map (fun a => ln (Gamma a)) Fin), <- map_app, vfsum_Fin. f_equal. rewrite rsum_app. simpl. lra.
Qed.
Lemma exp_sum l : exp (sum l) = prod (map exp l).
Proof. induction l as [|a l IH]; simpl; [apply exp_0|]. rewrite exp_plus, IH. reflexivity. Qed.
Lemma prod_Gamma l : (forall a, In a l -> 0 < a) -> exp (sum (map (fun a => ln (Gamma a)) l)) = prod (map Gamma l).
Proof. intros P. induction l as [|a l IH]; simpl; [apply exp_0|]. rewrite exp_plus, IH by (intros; apply P; right; auto). rewrite exp_ln; [reflexivity|]. apply Gamma_pos. apply P. left. reflexivity. Qed.
Lemma pdf_ok eps xs : 0 <= eps -> length xs = length al -> (forall x, In x xs -> 0 < x) -> sum xs = 1 ->
  exists l, logpdf eps (map Fin xs) (map Fin al) = Fin l /\ pdf eps (map Fin xs) (map Fin al) = Fin (exp l) /\
  exp l = prod (map (fun '(x, a) => Rpower x (a - 1)) (combine xs al)) * Gamma (sum al) / prod (map Gamma al).
Proof.
  intros EPS L XP XS. exists (sum (map (fun '(x, a) => (a - 1) * ln x) (combine xs al) ++ [- (sum (map (fun a => ln (Gamma a)) al) - ln (Gamma (sum al)))])).
  assert (E : logpdf eps (map Fin xs) (map Fin al) = Fin (sum (map (fun '(x, a) => (a - 1) * ln x) (combine xs al) ++ [- (sum (map (fun a => ln (Gamma a)) al) - ln (Gamma (sum al)))]))).
  { unfold logpdf, validate_x_alpha. rewrite va_ok by exact POS. unfold validate_x.
    assert (cany (fun t => clt t (Fin 0)) (map Fin xs) = CB false) as ->.
    { clear - XP. induction xs as [|a l IH]; auto. cbn [map cany]. rewrite IH by (intros x I; apply XP; right; auto). change (clt (Fin a) (Fin 0)) with (CB (Rltb a 0)). rewrite Rltb_false; [reflexivity|]. specialize (XP a (or_introl eq_refl)). lra. }
    rewrite vfsum_Fin, XS. unfold almosteq1. rewrite (Rleb_true (Rabs (1 - 1)) eps) by (rewrite Rminus_eq_0, Rabs_R0; auto). cbn [cnot cif]. rewrite !map_length, L, Nat.eqb_refl. rewrite mlb. cbn [bindv vneg].
    assert (map (fun '(t, a) => xlogy (vsub a (Fin 1)) t) (combine (map Fin xs) (map Fin al)) = map Fin (map (fun '(x, a) => (a - 1) * ln x) (combine xs al))) as ->.
    { clear - XP. revert al. induction xs as [|x l IH]; intros [|a m]; auto. cbn [map combine]. rewrite IH by (intros; apply XP; right; auto). rewrite xlogy_pos by (apply XP; left; auto). reflexivity. }
    change [Fin (- (sum (map (fun a => ln (Gamma a)) al) - ln (Gamma (sum al))))] with (map Fin [- (sum (map (fun a => ln (Gamma a)) al) - ln (Gamma (sum al)))]). rewrite <- map_app, vfsum_Fin. reflexivity. }
  split; [exact E|]. split; [unfold pdf; rewrite E; reflexivity|].
  rewrite rsum_app. rewrite exp_plus. cbn [SpecStat.sum fold_right]. rewrite Rplus_0_r. replace (- (sum (map (fun a => ln (Gamma a)) al) - ln (Gamma (sum al)))) with (ln (Gamma (sum al)) - sum (map (fun a => ln (Gamma a)) al)) by ring.
  unfold Rminus. rewrite exp_plus, exp_Ropp, prod_Gamma by auto. rewrite exp_ln by (apply Gamma_pos; apply a0_pos). rewrite exp_sum, map_map.
  rewrite (map_ext (fun x : R * R => exp (let '(x0, a) := x in (a + - (1)) * ln x0)) (fun '(x, a) => Rpower x (a - 1))) by (intros [x a]; reflexivity). unfold Rdiv, Rminus. ring.
Qed.
Lemma pdf_bad eps xs : 0 < eps -> (exists x, In x xs /\ x < 0) \/ Rabs (sum xs - 1) > eps * Rmax 1 (Rabs (sum xs)) \/ length xs <> length al -> logpdf eps (map Fin xs) (map Fin al) = Exc ValueError.
Proof.
  intros EPS H. unfold logpdf, validate_x_alpha. rewrite va_ok by exact POS. unfold validate_x.
  assert (X : cany (fun t => clt t (Fin 0)) (map Fin xs) = CB true \/ (cany (fun t => clt t (Fin 0)) (map Fin xs) = CB false /\ ~ exists x, In x xs /\ x < 0)).
  { clear. induction xs as [|a l IH]; [right; split; auto; intros [x [[] _]]|]. cbn [map cany]. change (clt (Fin a) (Fin 0)) with (CB (Rltb a 0)). destruct (Rltb_spec a 0) as [[L ->]|[L ->]]; [left; reflexivity|]. destruct IH as [->|[-> IH]]; [left; reflexivity|]. right. split; [reflexivity|]. intros [x [[->|I] N]]; [lra|]. apply IH. eauto. }
  destruct X as [->|[-> X]]; [reflexivity|]. cbn [cif]. rewrite vfsum_Fin. unfold almosteq1.
  destruct H as [H|[H|H]]; [contradiction| |].
  - rewrite (Rleb_false (Rabs (sum xs - 1)) eps) by (pose proof (Rmax_l 1 (Rabs (sum xs))); nra).
    assert (Rleb (Rabs (sum xs - 1) / (if Rltb (Rabs (sum xs)) 1 then 1 else Rabs (sum xs))) eps = false) as ->; [|reflexivity]. apply Rleb_false.
    destruct (Rltb_spec (Rabs (sum xs)) 1) as [[L ->]|[L ->]].
    + rewrite Rmax_left in H by lra. lra.
    + rewrite Rmax_right in H by lra. apply Rlt_div_r; lra.
  - destruct (cnot _) as [[]|] eqn:E; try reflexivity; [|unfold cnot in E; destruct (if Rleb _ _ then _ else _); discriminate]. cbn [cif]. rewrite !map_length. rewrite (proj2 (Nat.eqb_neq (length al) (length xs))) by lia. reflexivity.
Qed.
End D.
