(** Proofs about M_odds_ratio: tables. *)
From Coq Require Import Reals Lra Lia List ZArith Arith Bool String QArith Qreals.
From Coquelicot Require Import Coquelicot.
From Verif Require Import Values VTac Spec SpecStat SpecDisc SpecRoot SpecOdds SpecInt RootLib LLib XLib PLib DiscLib TiltLib M_common SFun M_sfun P_sfun M_bracket M_odds_ratio P_odds_ratio.
From Verif Require M_fnch P_fnch M_hypergeometric P_hypergeometric M_fisher P_fisher2.
Import ListNotations.
Local Open Scope R_scope.
Set Bullet Behavior "Strict Subproofs".

Lemma vZ_nat k : vZ (Z.of_nat k) = Fin (INR k). Proof. unfold vZ. rewrite <- INR_IZR_INZ. reflexivity. Qed.
Lemma rcz a b c d : row_or_column_zero (Z.of_nat a) (Z.of_nat b) (Z.of_nat c) (Z.of_nat d) = true <-> degenerate a b c d.
Proof. unfold row_or_column_zero, degenerate. rewrite !orb_true_iff, !andb_true_iff, !Z.eqb_eq. lia. Qed.
Lemma rcz_false a b c d : ~ degenerate a b c d -> row_or_column_zero (Z.of_nat a) (Z.of_nat b) (Z.of_nat c) (Z.of_nat d) = false.
Proof. intros H. apply not_true_iff_false. rewrite rcz. auto. Qed.
Lemma rcz_true a b c d : degenerate a b c d -> row_or_column_zero (Z.of_nat a) (Z.of_nat b) (Z.of_nat c) (Z.of_nat d) = true.
Proof. apply rcz. Qed.
Lemma kind_ok k : good_kind k -> negb (String.eqb k "conditional" || String.eqb k "sample")%bool = false.
Proof. intros [->| ->]; reflexivity. Qed.
Lemma alt_ok k : good_alt k -> negb (String.eqb k "two-sided" || String.eqb k "less" || String.eqb k "greater")%bool = false.
Proof. intros [->|[->| ->]]; reflexivity. Qed.
Lemma neg_ok a b c d : (Z.ltb (Z.of_nat a) 0 || Z.ltb (Z.of_nat b) 0 || Z.ltb (Z.of_nat c) 0 || Z.ltb (Z.of_nat d) 0)%bool = false.
Proof. rewrite !orb_false_iff, !Z.ltb_ge. lia. Qed.

Lemma invalid fr fuel table kind alt :
  ~ good_kind kind \/ ~ good_alt alt \/ ~ (exists a b c d, table = zt a b c d) ->
  odds_ratio fr fuel table kind alt = Err ValueError.
Proof.
  intros H. unfold odds_ratio. destruct (negb (String.eqb kind "conditional" || String.eqb kind "sample")) eqn:E1; [reflexivity|].
  destruct (negb (String.eqb alt "two-sided" || String.eqb alt "less" || String.eqb alt "greater")) eqn:E2; [reflexivity|].
  apply negb_false_iff in E1, E2. rewrite !orb_true_iff, !String.eqb_eq in E1; rewrite !orb_true_iff, !String.eqb_eq in E2. destruct H as [H|[H|H]]; [unfold good_kind in H; tauto|unfold good_alt in H; tauto|].
  destruct table as [|[|a [|b [|]]] [|[|c [|d [|]]] [|]]]; try reflexivity.
  destruct (Z.ltb a 0 || Z.ltb b 0 || Z.ltb c 0 || Z.ltb d 0)%bool eqn:E; [reflexivity|]. exfalso. apply H. rewrite !orb_false_iff, !Z.ltb_ge in E.
  exists (Z.to_nat a), (Z.to_nat b), (Z.to_nat c), (Z.to_nat d). unfold zt. rewrite !Z2Nat.id by lia. reflexivity.
Qed.
Lemma ci_reject fr fuel r x : x < 0 \/ 1 < x -> odds_ratio_ci fr fuel r (Fin x) = Err ValueError.
Proof.
  intros H. unfold odds_ratio_ci. destruct (tab r) as [[[a b] c] d]. unfold clt, cgt, cmp, ltb. destruct (Rltb_spec x 0) as [[L ->]|[L ->]]; [reflexivity|]. rewrite (Rltb_true 1 x) by lra. reflexivity.
Qed.
Lemma conf_ok {A} `{CanRaise A} (x : R) (t e : A) : 0 <= x <= 1 -> cif (cor (clt (Fin x) (Fin 0)) (cgt (Fin x) (Fin 1))) t e = e.
Proof. intros Hx. unfold clt, cgt, cmp, ltb. rewrite !Rltb_false by lra. reflexivity. Qed.
Lemma degenerate_case fr fuel a b c d kind alt : good_kind kind -> good_alt alt -> degenerate a b c d ->
  exists r, odds_ratio fr fuel (zt a b c d) kind alt = Ok r /\ or_value r = NaN /\ pvalue r = Fin 1 /\
    forall x, 0 <= x <= 1 -> odds_ratio_ci fr fuel r (Fin x) = Ok (Fin 0, PInf).
Proof.
  intros HK HA D. unfold odds_ratio, zt. rewrite kind_ok, alt_ok, neg_ok, rcz_true by auto. eexists. split; [reflexivity|]. split; [reflexivity|]. split; [reflexivity|].
  intros x Hx. unfold odds_ratio_ci. cbn [tab]. rewrite conf_ok by auto. rewrite rcz_true by auto. reflexivity.
Qed.
Lemma INR0 k : (0 < k)%nat -> 0 < INR k. Proof. apply lt_0_INR. Qed.
Lemma sor_pos a b c d : (0 < b)%nat -> (0 < c)%nat -> sample_odds_ratio (Z.of_nat a) (Z.of_nat b) (Z.of_nat c) (Z.of_nat d) = Fin (INR a * INR d / (INR b * INR c)).
Proof.
  intros B C. apply INR0 in B, C. unfold sample_odds_ratio. rewrite !vZ_nat. unfold cgt, cmp, ltb. rewrite !Rltb_true by auto. cbn [cand cif vmul]. rewrite vdiv_Fin by nra. f_equal. field. lra.
Qed.
Lemma sor_inf a b c d : ~ degenerate a b c d -> (b = 0 \/ c = 0)%nat -> sample_odds_ratio (Z.of_nat a) (Z.of_nat b) (Z.of_nat c) (Z.of_nat d) = PInf.
Proof.
  intros D H. unfold degenerate in D. assert (A : (0 < a)%nat) by lia. assert (DD : (0 < d)%nat) by lia. apply INR0 in A, DD.
  unfold sample_odds_ratio. rewrite !vZ_nat. unfold cgt, ceq, cmp, ltb, eqb. rewrite !(Reqb_false _ 0) by lra. destruct H as [-> | ->].
  - rewrite (Rltb_false 0 (INR 0)) by (simpl; lra). destruct (Rltb 0 (INR c)); reflexivity.
  - rewrite (Rltb_false 0 (INR 0)) by (simpl; lra). reflexivity.
Qed.
Definition se (a b c d : nat) : R := sqrt (1 / INR a + 1 / INR b + 1 / INR c + 1 / INR d).
Lemma sample_ok fr fuel a b c d alt : (0 < a)%nat -> (0 < b)%nat -> (0 < c)%nat -> (0 < d)%nat -> good_alt alt ->
  let theta := INR a * INR d / (INR b * INR c) in
  let z := ln theta / sqrt (1 / INR a + 1 / INR b + 1 / INR c + 1 / INR d) in
  exists r, odds_ratio fr fuel (zt a b c d) "sample" alt = Ok r /\ or_value r = Fin theta /\
    pvalue r = Fin (if String.eqb alt "two-sided" then 2 * ncdf (- Rabs z) else if String.eqb alt "less" then ncdf z else ncdf (- z)).
Proof.
  intros A B C D HA theta z. assert (ND : ~ degenerate a b c d) by (unfold degenerate; lia). unfold odds_ratio, zt. rewrite (kind_ok "sample") by (right; auto). rewrite alt_ok, neg_ok, rcz_false by auto.
  change (String.eqb "sample" "sample") with true. cbn iota. rewrite sor_pos by auto. fold theta. cbn [bindv].
  apply INR0 in A, B, C, D. assert (TH : 0 < theta) by (apply Rdiv_lt_0_compat; nra). rewrite vlog_Fin by auto. cbn [bindv]. rewrite !vZ_nat, !vdiv_Fin by lra. cbn [vadd].
  assert (0 < 1 / INR a) by (apply Rdiv_lt_0_compat; lra). assert (0 < 1 / INR b) by (apply Rdiv_lt_0_compat; lra). assert (0 < 1 / INR c) by (apply Rdiv_lt_0_compat; lra). assert (0 < 1 / INR d) by (apply Rdiv_lt_0_compat; lra).
  rewrite vsqrt_Fin by lra. cbn [bindv]. assert (SE : 0 < sqrt (1 / INR a + 1 / INR b + 1 / INR c + 1 / INR d)) by (apply sqrt_lt_R0; lra).
  set (s := sqrt (1 / INR a + 1 / INR b + 1 / INR c + 1 / INR d)) in *. unfold z.
  destruct HA as [->|[->| ->]]; cbn [String.eqb Ascii.eqb Bool.eqb]; cbn [vabs vneg]; rewrite vdiv_Fin by lra; rewrite vncdf_Fin by lra; cbn [vmul bindv]; eexists; (split; [reflexivity|]); (split; [reflexivity|]); cbn [pvalue]; f_equal.
  - f_equal. f_equal. rewrite Rabs_div by lra. rewrite (Rabs_pos_eq s) by lra. field. lra.
  - f_equal. field. lra.
  - f_equal. field. lra.
Qed.
Lemma div0 : vdiv (Fin 1) (Fin (INR 0)) = Exc ZeroDivisionError.
Proof. simpl. rewrite Reqb_true by auto. reflexivity. Qed.
Lemma div_cases k : vdiv (Fin 1) (Fin (INR k)) = Exc ZeroDivisionError \/ exists x, vdiv (Fin 1) (Fin (INR k)) = Fin x.
Proof. destruct k; [left; apply div0|right]. rewrite vdiv_Fin by (apply not_0_INR; lia). eauto. Qed.
Lemma sum_zero a b c d : (a = 0 \/ b = 0 \/ c = 0 \/ d = 0)%nat ->
  vadd (vadd (vadd (vdiv (Fin 1) (vZ (Z.of_nat a))) (vdiv (Fin 1) (vZ (Z.of_nat b)))) (vdiv (Fin 1) (vZ (Z.of_nat c)))) (vdiv (Fin 1) (vZ (Z.of_nat d))) = Exc ZeroDivisionError.
Proof.
  intros H. rewrite !vZ_nat.
  destruct (div_cases a) as [Ea|[xa Ea]]; rewrite Ea; [reflexivity|]. destruct (div_cases b) as [Eb|[xb Eb]]; rewrite Eb; [reflexivity|]. destruct (div_cases c) as [Ec|[xc Ec]]; rewrite Ec; [reflexivity|]. destruct (div_cases d) as [Ed|[xd Ed]]; rewrite Ed; [reflexivity|].
  exfalso. destruct H as [->|[->|[->| ->]]]; rewrite div0 in *; discriminate.
Qed.
Lemma log_num a b c d : ~ degenerate a b c d -> exists v, vlog (sample_odds_ratio (Z.of_nat a) (Z.of_nat b) (Z.of_nat c) (Z.of_nat d)) = v /\ (forall e, v <> Exc e) /\ forall e, sample_odds_ratio (Z.of_nat a) (Z.of_nat b) (Z.of_nat c) (Z.of_nat d) <> Exc e.
Proof.
  intros D. destruct (Nat.eq_dec b 0) as [B|B]; [rewrite sor_inf by auto; eexists; split; [reflexivity|]; split; discriminate|].
  destruct (Nat.eq_dec c 0) as [C|C]; [rewrite sor_inf by auto; eexists; split; [reflexivity|]; split; discriminate|].
  rewrite sor_pos by lia. eexists. split; [reflexivity|]. split; [|discriminate]. 
  assert (0 <= INR a * INR d / (INR b * INR c)). { apply Rdiv_le_0_compat; [apply Rmult_le_pos; apply pos_INR|]. apply Rmult_lt_0_compat; apply INR0; lia. }
  intros e. destruct (Req_dec (INR a * INR d / (INR b * INR c)) 0) as [->|N]; [|rewrite vlog_Fin by lra; discriminate]. unfold vlog. rewrite ?Rltb_false, ?Reqb_true by lra. discriminate.
Qed.
Lemma bindv_num {B} `{CanRaise B} v (f : val -> B) : (forall e, v <> Exc e) -> bindv v f = f v.
Proof. destruct v; try reflexivity. intros X. exfalso. eapply X. reflexivity. Qed.
Lemma sample_zero fr fuel a b c d alt : ~ degenerate a b c d -> (a = 0 \/ b = 0 \/ c = 0 \/ d = 0)%nat -> good_alt alt ->
  odds_ratio fr fuel (zt a b c d) "sample" alt = Err ZeroDivisionError.
Proof.
  intros ND Z HA. unfold odds_ratio, zt. rewrite (kind_ok "sample") by (right; auto). rewrite alt_ok, neg_ok, rcz_false by auto. change (String.eqb "sample" "sample") with true. cbn iota.
  destruct (log_num a b c d ND) as [v [V [V1 V2]]]. rewrite bindv_num, V by auto. rewrite bindv_num by auto. rewrite sum_zero by auto. reflexivity.
Qed.
Lemma sample_ci fr fuel a b c d alt x : (0 < a)%nat -> (0 < b)%nat -> (0 < c)%nat -> (0 < d)%nat -> good_alt alt -> 0 <= x <= 1 ->
  exists r, odds_ratio fr fuel (zt a b c d) "sample" alt = Ok r /\ odds_ratio_ci fr fuel r (Fin x) = Err TypeError.
Proof.
  intros A B C D HA Hx. destruct (sample_ok fr fuel a b c d alt A B C D HA) as [r [E _]]. exists r. split; auto.
  assert (ND : ~ degenerate a b c d) by (unfold degenerate; lia). assert (T : tab r = (Z.of_nat a, Z.of_nat b, Z.of_nat c, Z.of_nat d) /\ kind r = "sample"%string).
  { revert E. unfold odds_ratio, zt. rewrite (kind_ok "sample") by (right; auto). rewrite alt_ok, neg_ok, rcz_false by auto. change (String.eqb "sample" "sample") with true. cbn iota. unfold bindv.
    repeat match goal with |- context [match ?v with Fin _ => _ | _ => _ end] => destruct v; try discriminate end; intros [= <-]; split; reflexivity. }
  destruct T as [T1 T2]. unfold odds_ratio_ci. rewrite T1, T2. rewrite conf_ok by auto. rewrite rcz_false by auto. change (String.eqb "sample" "conditional") with false. cbn iota. unfold sample_odds_ratio_ci.
  destruct (log_num a b c d ND) as [v [V [V1 V2]]]. rewrite V, bindv_num by auto. apply INR0 in A, B, C, D. rewrite !vZ_nat, !vdiv_Fin by lra. reflexivity.
Qed.

(** Conditional: margins. *)
Section Cond.
Variables a b c d : nat.
Hypothesis ND : ~ degenerate a b c d.
Definition N := (a + b + c + d)%nat. Definition K := (a + b)%nat. Definition n := (a + c)%nat.
Lemma HK : (K <= N)%nat. Proof. unfold K, N. lia. Qed.
Lemma Hn : (n <= N)%nat. Proof. unfold n, N. lia. Qed.
Lemma lo_v : P_hypergeometric.lo N K n = Z.of_nat (a - d). Proof. unfold P_hypergeometric.lo, N, K, n. lia. Qed.
Lemma hi_v : P_hypergeometric.hi K n = Z.of_nat (a + Nat.min b c). Proof. unfold P_hypergeometric.hi, N, K, n. lia. Qed.
Lemma nlo_v : P_fnch.nlo N K n = (a - d)%nat. Proof. unfold P_fnch.nlo. rewrite lo_v. lia. Qed.
Lemma nhi_v : P_fnch.nhi K n = (a + Nat.min b c)%nat. Proof. unfold P_fnch.nhi. rewrite hi_v. lia. Qed.
Lemma vN_ : vZ (Z.of_nat a + Z.of_nat b + Z.of_nat c + Z.of_nat d) = Fin (INR N). Proof. unfold N. rewrite <- vZ_nat. f_equal. lia. Qed.
Lemma vK_ : vZ (Z.of_nat a + Z.of_nat b) = Fin (INR K). Proof. unfold K. rewrite <- vZ_nat. f_equal. lia. Qed.
Lemma vn_ : vZ (Z.of_nat a + Z.of_nat c) = Fin (INR n). Proof. unfold n. rewrite <- vZ_nat. f_equal. lia. Qed.
Variable fr : (val -> val) -> val * val -> val.
Hypothesis FR : bracket_solver fr.
Lemma cond_val : exists v k, (forall fuel, (k <= fuel)%nat -> conditional_oddsratio fr fuel (Z.of_nat a) (Z.of_nat b) (Z.of_nat c) (Z.of_nat d) = v) /\
  ((a = 0 \/ d = 0)%nat -> v = Fin 0) /\ ((b = 0 \/ c = 0)%nat -> v = PInf) /\
  ((0 < a)%nat -> (0 < b)%nat -> (0 < c)%nat -> (0 < d)%nat -> exists t, v = Fin t /\ 0 < t /\ mu N K n t = INR a).
Proof.
  unfold degenerate in ND.
  assert (E : forall fuel, conditional_oddsratio fr fuel (Z.of_nat a) (Z.of_nat b) (Z.of_nat c) (Z.of_nat d) =
     if Z.eqb (Z.of_nat a) (Z.of_nat (a - d)) then Fin 0 else if Z.eqb (Z.of_nat a) (Z.of_nat (a + Nat.min b c)) then PInf else nc_hypergeom_mean_inverse fr fuel (Fin (INR a)) (Fin (INR N)) (Fin (INR K)) (Fin (INR n))).
  { intros fuel. unfold conditional_oddsratio. rewrite vN_, vK_, vn_, vZ_nat. unfold M_hypergeometric.support_pmf. rewrite P_hypergeometric.support_ok by (apply HK || apply Hn). cbn [bindr]. rewrite lo_v, hi_v.
    replace (Z.of_nat (a + Nat.min b c) + 1 <=? Z.of_nat (a - d))%Z with false by (symmetry; apply Z.leb_gt; lia). replace (Z.of_nat (a + Nat.min b c) + 1 - 1)%Z with (Z.of_nat (a + Nat.min b c)) by lia. reflexivity. }
  destruct (Z.eqb_spec (Z.of_nat a) (Z.of_nat (a - d))) as [L|L].
  - exists (Fin 0), 0%nat. split; [intros; apply E|]. split; auto. split; intros; exfalso; lia.
  - destruct (Z.eqb_spec (Z.of_nat a) (Z.of_nat (a + Nat.min b c))) as [H|H].
    + exists PInf, 0%nat. split; [intros; apply E|]. split; [intros; exfalso; lia|]. split; auto. intros. exfalso. lia.
    + destruct (mean_inverse N K n HK Hn fr FR a) as [t [k [T [M F]]]]; [rewrite nlo_v, nhi_v; lia|].
      exists (Fin t), k. split; [intros fuel Hf; rewrite E; auto|]. split; [intros; exfalso; lia|]. split; [intros; exfalso; lia|]. eauto.
Qed.
Lemma fisher_p alt : good_alt alt -> exists o p, M_fisher.fisher_exact (Z.of_nat a) (Z.of_nat b) (Z.of_nat c) (Z.of_nat d) alt = Ok (o, p).
Proof.
  intros H. destruct (P_fisher2.valid (mkT a b c d) alt) as [o [p [E _]]]; [unfold good_alt in H; tauto|]. exists o, p. exact E.
Qed.
Lemma pmf_w t k : 0 < t -> (a - d <= k <= a + Nat.min b c)%nat -> M_fnch.pmf (Fin (INR k)) (Fin t) (Fin (INR N)) (Fin (INR K)) (Fin (INR n)) = Fin (P_fnch.w N K n k * t ^ k / TiltLib.tot (P_fnch.w N K n) (S n) t).
Proof.
  intros T H. rewrite INR_IZR_INZ, P_fnch.pmf_in by (try apply HK; try apply Hn; auto; rewrite lo_v, hi_v; lia). unfold P_fnch.q. rewrite Nat2Z.id. reflexivity.
Qed.
Lemma or_cond v alt k : good_alt alt -> (forall fuel, (k <= fuel)%nat -> conditional_oddsratio fr fuel (Z.of_nat a) (Z.of_nat b) (Z.of_nat c) (Z.of_nat d) = v) -> (forall e, v <> Exc e) ->
  exists o p, M_fisher.fisher_exact (Z.of_nat a) (Z.of_nat b) (Z.of_nat c) (Z.of_nat d) alt = Ok (o, p) /\
  forall fuel, (k <= fuel)%nat -> odds_ratio fr fuel (zt a b c d) "conditional" alt = Ok (Result (Z.of_nat a, Z.of_nat b, Z.of_nat c, Z.of_nat d) "conditional" alt v (Fin (Q2R p))).
Proof.
  intros HA H NE. destruct (fisher_p alt HA) as [o [p F]]. exists o, p. split; auto. intros fuel Hf.
  unfold odds_ratio, zt. rewrite (kind_ok "conditional") by (left; auto). rewrite alt_ok, neg_ok, rcz_false by auto. change (String.eqb "conditional" "sample") with false. cbn iota. rewrite H by auto. rewrite bindv_num by auto. rewrite F. reflexivity.
Qed.
Lemma cond_ne v : ((a = 0 \/ d = 0)%nat -> v = Fin 0) -> ((b = 0 \/ c = 0)%nat -> v = PInf) ->
  ((0 < a)%nat -> (0 < b)%nat -> (0 < c)%nat -> (0 < d)%nat -> exists t, v = Fin t /\ 0 < t /\ mu N K n t = INR a) -> forall e, v <> Exc e.
Proof.
  intros V0 VI VP e.
  destruct (Nat.eq_dec a 0); [rewrite V0 by auto; discriminate|]. destruct (Nat.eq_dec d 0); [rewrite V0 by auto; discriminate|]. destruct (Nat.eq_dec b 0); [rewrite VI by auto; discriminate|]. destruct (Nat.eq_dec c 0); [rewrite VI by auto; discriminate|].
  destruct VP as [t [-> _]]; try lia. discriminate.
Qed.
Lemma conditional_ok alt : good_alt alt ->
  exists k o p v, M_fisher.fisher_exact (Z.of_nat a) (Z.of_nat b) (Z.of_nat c) (Z.of_nat d) alt = Ok (o, p) /\
  (forall fuel, (k <= fuel)%nat -> exists r, odds_ratio fr fuel (zt a b c d) "conditional" alt = Ok r /\ or_value r = v /\ pvalue r = Fin (Q2R p)) /\
  (v = Fin 0 <-> (a = 0 \/ d = 0)%nat) /\ (v = PInf <-> (b = 0 \/ c = 0)%nat) /\
  ((0 < a)%nat -> (0 < b)%nat -> (0 < c)%nat -> (0 < d)%nat -> exists t, v = Fin t /\ 0 < t /\
     M_fnch.mean (Fin t) (Fin (INR (a + b + c + d))) (Fin (INR (a + b))) (Fin (INR (a + c))) = Fin (INR a) /\
     (forall s, 0 < s -> M_fnch.mean (Fin s) (Fin (INR (a + b + c + d))) (Fin (INR (a + b))) (Fin (INR (a + c))) = Fin (INR a) -> s = t) /\
     forall s, 0 < s -> exists ps pt,
       M_fnch.pmf (Fin (INR a)) (Fin s) (Fin (INR (a + b + c + d))) (Fin (INR (a + b))) (Fin (INR (a + c))) = Fin ps /\
       M_fnch.pmf (Fin (INR a)) (Fin t) (Fin (INR (a + b + c + d))) (Fin (INR (a + b))) (Fin (INR (a + c))) = Fin pt /\ ps <= pt).
Proof.
  intros HA. destruct cond_val as [v [k [E [V0 [VI VP]]]]].
  destruct (or_cond v alt k HA E (cond_ne v V0 VI VP)) as [o [p [F O]]]. exists k, o, p, v. split; auto. split.
  { intros fuel Hf. rewrite O by auto. eexists. split; [reflexivity|]. auto. }
  unfold degenerate in ND. split; [|split].
  - split; auto. intros ->. destruct (Nat.eq_dec a 0); auto. destruct (Nat.eq_dec d 0); auto. exfalso. destruct (Nat.eq_dec b 0); [specialize (VI ltac:(auto)); discriminate|]. destruct (Nat.eq_dec c 0); [specialize (VI ltac:(auto)); discriminate|].
    destruct VP as [t [[= <-] [T _]]]; try lia. lra.
  - split; auto. intros ->. destruct (Nat.eq_dec b 0); auto. destruct (Nat.eq_dec c 0); auto. exfalso. destruct (Nat.eq_dec a 0); [specialize (V0 ltac:(auto)); discriminate|]. destruct (Nat.eq_dec d 0); [specialize (V0 ltac:(auto)); discriminate|].
    destruct VP as [t [T _]]; try lia. discriminate.
  - intros A B C D. destruct (VP A B C D) as [t [-> [T M]]]. exists t. split; auto. split; auto. fold N K n. split; [rewrite mean_mu by (try apply HK; try apply Hn; auto); f_equal; auto|]. split.
    + intros s Hs. rewrite mean_mu by (try apply HK; try apply Hn; auto). intros [= MS].
      assert (LH : (P_fnch.nlo N K n < P_fnch.nhi K n)%nat) by (rewrite nlo_v, nhi_v; lia).
      destruct (Rtotal_order s t) as [L|[L|L]]; auto; exfalso; [pose proof (mu_lt N K n HK Hn s t Hs L LH)|pose proof (mu_lt N K n HK Hn t s T L LH)]; lra.
    + intros s Hs. rewrite !pmf_w by (auto; lia). do 2 eexists. split; [reflexivity|]. split; [reflexivity|]. apply mle; try apply HK; try apply Hn; auto. rewrite nlo_v, nhi_v. lia.
Qed.
(** The confidence limits. *)
Lemma zero_test x : ceq (Fin x) (Fin 0) = CB (Reqb x 0). Proof. reflexivity. Qed.
Lemma sor_zero : (0 < b)%nat -> (0 < c)%nat -> (INR a * INR d / (INR b * INR c) = 0 <-> (a = 0 \/ d = 0)%nat).
Proof.
  intros B C. apply INR0 in B, C. split.
  - intros H. assert (X : INR a * INR d = 0). { apply (f_equal (fun x => x * (INR b * INR c))) in H. rewrite Rmult_0_l in H. rewrite <- H. field. lra. }
    apply Rmult_integral in X. destruct X as [X|X]; apply INR_eq in X || (change 0 with (INR 0) in X; apply INR_eq in X); auto.
  - intros [->| ->]; simpl; unfold Rdiv; ring.
Qed.
Lemma upper al : 0 < al < 1 -> exists h k, (forall fuel, (k <= fuel)%nat -> ci_upper fr fuel (Z.of_nat a) (Z.of_nat b) (Z.of_nat c) (Z.of_nat d) (Fin al) = h) /\
  ((b = 0 \/ c = 0)%nat -> h = PInf) /\ ((0 < b)%nat -> (0 < c)%nat -> exists t, h = Fin t /\ 0 < t /\ S_ N K n a t = 1 - al).
Proof.
  intros AL. pose proof ND as ND'. unfold degenerate in ND'. destruct (Nat.eq_dec b 0) as [B|B].
  { exists PInf, 0%nat. split; [|split; auto; intros; lia]. intros fuel _. unfold ci_upper. rewrite sor_inf by auto. reflexivity. }
  destruct (Nat.eq_dec c 0) as [C|C].
  { exists PInf, 0%nat. split; [|split; auto; intros; lia]. intros fuel _. unfold ci_upper. rewrite sor_inf by auto. reflexivity. }
  destruct (upper_root N K n HK Hn fr FR a al) as [r [k [A1 [A2 A3]]]]; [rewrite nlo_v, nhi_v; lia|auto|].
  exists (Fin r), k. split; [|split; [intros; lia|eauto]]. intros fuel Hf. unfold ci_upper. rewrite sor_pos by lia. rewrite vN_, vK_, vn_, vZ_nat. apply A3; auto.
Qed.
Lemma lower al : 0 < al < 1 -> exists l k, (forall fuel, (k <= fuel)%nat -> ci_lower fr fuel (Z.of_nat a) (Z.of_nat b) (Z.of_nat c) (Z.of_nat d) (Fin al) = l) /\
  ((a = 0 \/ d = 0)%nat -> l = Fin 0) /\ ((0 < a)%nat -> (0 < d)%nat -> exists t, l = Fin t /\ 0 < t /\ S_ N K n (a - 1) t = al).
Proof.
  intros AL. pose proof ND as ND'. unfold degenerate in ND'.
  assert (Z0 : (a = 0 \/ d = 0)%nat -> forall fuel, ci_lower fr fuel (Z.of_nat a) (Z.of_nat b) (Z.of_nat c) (Z.of_nat d) (Fin al) = Fin 0).
  { intros H fuel. unfold ci_lower. rewrite sor_pos by lia. rewrite zero_test. rewrite Reqb_true by (apply sor_zero; lia). reflexivity. }
  destruct (Nat.eq_dec a 0) as [A|A]; [exists (Fin 0), 0%nat; split; [intros; apply Z0; auto|split; auto; intros; lia]|].
  destruct (Nat.eq_dec d 0) as [D|D]; [exists (Fin 0), 0%nat; split; [intros; apply Z0; auto|split; auto; intros; lia]|].
  destruct (lower_root N K n HK Hn fr FR (a - 1) al) as [r [k [A1 [A2 A3]]]]; [rewrite nlo_v, nhi_v; lia|auto|].
  exists (Fin r), k. split; [|split; [intros; lia|eauto]]. intros fuel Hf. unfold ci_lower.
  assert (E : ceq (sample_odds_ratio (Z.of_nat a) (Z.of_nat b) (Z.of_nat c) (Z.of_nat d)) (Fin 0) = CB false).
  { destruct (Nat.eq_dec b 0) as [B|B]; [rewrite sor_inf by auto; reflexivity|]. destruct (Nat.eq_dec c 0) as [C|C]; [rewrite sor_inf by auto; reflexivity|].
    rewrite sor_pos by lia. rewrite zero_test, Reqb_false; auto. rewrite sor_zero by lia. lia. }
  rewrite E. cbn [cif]. rewrite vN_, vK_, vn_. replace (Z.of_nat a - 1)%Z with (Z.of_nat (a - 1)) by lia. rewrite vZ_nat. apply A3; auto.
Qed.
End Cond.
