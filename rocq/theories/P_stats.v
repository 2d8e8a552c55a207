(** Proofs about pearsonr, pearsonr_ci, anova_oneway, chisquare, gtest. *)
From Coq Require Import Reals Lra List Bool Arith Lia Psatz Permutation String.
From Coquelicot Require Import Coquelicot.
From Verif Require Import Values VTac RLib LLib SpecStat M_fun M_basic M_stats P_fun P_basic P_basic2.
Import ListNotations.
Local Open Scope R_scope.
Set Bullet Behavior "Strict Subproofs".
Local Notation length := List.length.

(** * pearsonr *)
Definition const_data (xs : list R) := forall a b, In a xs -> In b xs -> a = b.
Lemma all_equal_spec xs : exists b, all_equal (map Fin xs) = CB b /\ (b = true <-> const_data xs).
Proof.
  destruct xs as [|x0 xs]; simpl; [exists true; split; auto; split; auto; intros _ a b []|].
  assert (H : exists b, call (fun t => ceq (Fin x0) t) (map Fin xs) = CB b /\ (b = true <-> forall y, In y xs -> y = x0)).
  { induction xs as [|y xs [b [IH1 IH2]]]; cbn [map call]; [exists true; split; auto; split; auto; intros _ y []|].
    rewrite IH1. cconv. destruct (Reqb_spec x0 y) as [[E ->]|[E ->]].
    - exists b. split; [destruct b; reflexivity|]. rewrite IH2. split; [intros H z [<-|I]; auto|intros H z I; apply H; right; auto].
    - exists false. split; auto. split; [discriminate|]. intros H. exfalso. apply E. symmetry. apply H. left; auto. }
  destruct H as [b [H1 H2]]. exists b. split; auto. rewrite H2. split.
  - intros H. intros a c [<-|Ha] [<-|Hc]; auto; [symmetry; auto|rewrite (H a), (H c); auto].
  - intros H y I. apply H; simpl; auto.
Qed.
Lemma all_equal_const xs : const_data xs -> all_equal (map Fin xs) = CB true.
Proof. intros C. destruct (all_equal_spec xs) as [b [E H]]. rewrite E. f_equal. apply H; auto. Qed.
Lemma all_equal_not xs : ~ const_data xs -> all_equal (map Fin xs) = CB false.
Proof. intros C. destruct (all_equal_spec xs) as [b [E H]]. rewrite E. f_equal. destruct b; auto. exfalso. apply C, H. auto. Qed.

Definition dev (xs : list R) := map (fun x => x - mu xs) xs.
Definition dot (u v : list R) := sum (map (fun '(s, t) => s * t) (combine u v)).
Definition sxy xs ys := dot (dev xs) (dev ys).
Definition corr xs ys := sxy xs ys / sqrt (ss xs * ss ys).

Lemma dot_comm u : forall v, dot u v = dot v u.
Proof.
  unfold dot. induction u as [|a u IH]; intros [|b v]; simpl; auto. f_equal; [ring|]. apply IH.
Qed.
Lemma dot_self u : dot u u = sum (map (fun x => x^2) u).
Proof. unfold dot. induction u as [|a u IH]; simpl; auto. f_equal; [ring|]. apply IH. Qed.
Lemma dot_scal a u : forall v, dot (map (fun x => a * x) u) v = a * dot u v.
Proof.
  unfold dot. induction u as [|x u IH]; intros [|y v]; simpl; try ring.
  change (fold_right Rplus 0 (map (fun '(s, t) => s * t) (combine (map (fun x => a * x) u) v)))
    with (sum (map (fun '(s, t) => s * t) (combine (map (fun x => a * x) u) v))).
  rewrite IH. unfold sum. ring.
Qed.
Lemma ss_dot xs : ss xs = dot (dev xs) (dev xs).
Proof. rewrite dot_self. unfold dev, ss. rewrite map_map. reflexivity. Qed.
Lemma dot_quad u : forall v t, length u = length v ->
  sum (map (fun '(a, b) => (t * a + b)^2) (combine u v)) = t^2 * dot u u + 2 * t * dot u v + dot v v.
Proof.
  induction u as [|a u IH]; intros [|b v] t L; simpl in L; try lia.
  - unfold dot. simpl. ring.
  - unfold dot in *. cbn [combine map]. rewrite !rsum_cons, IH by lia. ring.
Qed.
Lemma cauchy_schwarz u v : length u = length v -> (dot u v)^2 <= dot u u * dot v v.
Proof.
  intros L.
  assert (Q : forall t, 0 <= t^2 * dot u u + 2 * t * dot u v + dot v v).
  { intros t. rewrite <- dot_quad by auto. apply rsum_nonneg. intros [a b] _. apply pow2_ge_0. }
  assert (A : 0 <= dot u u). { rewrite dot_self. apply rsum_nonneg. intros; apply pow2_ge_0. }
  assert (B : 0 <= dot v v). { rewrite dot_self. apply rsum_nonneg. intros; apply pow2_ge_0. }
  destruct (Req_EM_T (dot u u) 0) as [Z|Z].
  - rewrite Z in *. 
    assert (dot u v = 0).
    { destruct (Req_EM_T (dot u v) 0) as [|N]; auto. exfalso.
      pose proof (Q (- (dot v v + 1) / (2 * dot u v))) as H.
      replace ((- (dot v v + 1) / (2 * dot u v))^2 * 0 + 2 * (- (dot v v + 1) / (2 * dot u v)) * dot u v + dot v v)
        with (- 1) in H by (field; auto). lra. }
    rewrite H. lra.
  - pose proof (Q (- dot u v / dot u u)) as H.
    replace ((- dot u v / dot u u)^2 * dot u u + 2 * (- dot u v / dot u u) * dot u v + dot v v)
      with ((dot u u * dot v v - (dot u v)^2) / dot u u) in H by (field; auto).
    assert (0 <= (dot u u * dot v v - dot u v ^ 2) / dot u u * dot u u) by (apply Rmult_le_pos; auto).
    replace ((dot u u * dot v v - dot u v ^ 2) / dot u u * dot u u) with (dot u u * dot v v - dot u v ^ 2) in H0
      by (field; auto). lra.
Qed.
Lemma ss_pos xs : ~ const_data xs -> 0 < ss xs.
Proof.
  intros C. destruct (ss_nonneg xs) as [|E]; auto. exfalso. apply C. intros a b. apply ss_zero. auto.
Qed.
Lemma dev_length xs : length (dev xs) = length xs. Proof. apply map_length. Qed.
Lemma not_const_nil xs : ~ const_data xs -> xs <> []. Proof. intros C ->. apply C. intros a b []. Qed.
Lemma sqrt_pos_lt x : 0 < x -> 0 < sqrt x. Proof. apply sqrt_lt_R0. Qed.

Lemma corr_range xs ys : length xs = length ys -> ~ const_data xs -> ~ const_data ys -> -1 <= corr xs ys <= 1.
Proof.
  intros L Cx Cy. pose proof (ss_pos xs Cx) as Px. pose proof (ss_pos ys Cy) as Py.
  assert (P : 0 < ss xs * ss ys) by (apply Rmult_lt_0_compat; auto).
  pose proof (sqrt_pos_lt _ P) as S. unfold corr.
  assert (CS : (sxy xs ys)^2 <= ss xs * ss ys).
  { rewrite !ss_dot. apply cauchy_schwarz. rewrite !dev_length. auto. }
  assert (SS : sqrt (ss xs * ss ys) * sqrt (ss xs * ss ys) = ss xs * ss ys) by (apply sqrt_sqrt; lra).
  set (s := sqrt (ss xs * ss ys)) in *. set (c := sxy xs ys) in *.
  assert (- s <= c <= s) by nra.
  split; apply (Rmult_le_reg_r s); auto; replace (c / s * s) with c by (field; lra); lra.
Qed.
Lemma corr_sym xs ys : corr xs ys = corr ys xs.
Proof. unfold corr, sxy. rewrite dot_comm, Rmult_comm. reflexivity. Qed.
Lemma dev_affine a b xs : xs <> [] -> dev (map (fun x => a * x + b) xs) = map (fun x => a * x) (dev xs).
Proof.
  intros N. unfold dev. rewrite mu_affine, !map_map by auto. apply map_ext. intros; ring.
Qed.
Lemma corr_affine a b xs ys : a <> 0 -> ~ const_data xs -> ~ const_data ys ->
  corr (map (fun x => a * x + b) xs) ys = (if Rlt_dec 0 a then 1 else -1) * corr xs ys.
Proof.
  intros A Cx Cy. pose proof (not_const_nil _ Cx) as N.
  pose proof (ss_pos xs Cx) as Px. pose proof (ss_pos ys Cy) as Py.
  assert (P : 0 < ss xs * ss ys) by (apply Rmult_lt_0_compat; auto). pose proof (sqrt_pos_lt _ P) as S.
  unfold corr, sxy. rewrite dev_affine, dot_scal, ss_affine by auto.
  replace (a^2 * ss xs * ss ys) with (a^2 * (ss xs * ss ys)) by ring.
  rewrite sqrt_mult_alt by apply pow2_ge_0.
  replace (sqrt (a^2)) with (Rabs a) by (rewrite <- sqrt_Rsqr_abs; f_equal; unfold Rsqr; ring).
  pose proof (Rabs_pos_lt a A).
  destruct (Rlt_dec 0 a); [rewrite Rabs_pos_eq in * by lra|rewrite Rabs_left in * by lra]; field; lra.
Qed.
Lemma corr_linear a b xs : a <> 0 -> ~ const_data xs ->
  corr xs (map (fun x => a * x + b) xs) = if Rlt_dec 0 a then 1 else -1.
Proof.
  intros A Cx. rewrite corr_sym, corr_affine by auto.
  pose proof (ss_pos xs Cx). unfold corr. rewrite sqrt_square by lra. unfold sxy. rewrite <- ss_dot. field. lra.
Qed.
Lemma const_affine a b xs : a <> 0 -> ~ const_data xs -> ~ const_data (map (fun x => a * x + b) xs).
Proof.
  intros A C D. apply C. intros x y Hx Hy.
  assert (E : a * x + b = a * y + b) by (apply D; apply in_map_iff; eauto). nra.
Qed.

Definition alt_ok (alt : string) := alt = "two-sided"%string \/ alt = "less"%string \/ alt = "greater"%string.
(** The incomplete beta integral and the beta function return numbers where the
    code calls them. *)
Definition beta_fns (betainc : val -> val -> val -> val) (beta : val -> val -> val) :=
  (forall a x, 0 < a -> 0 <= x <= 1 -> exists v, betainc (Fin a) (Fin a) (Fin x) = Fin v) /\
  (forall a, 0 < a -> exists v, beta (Fin a) (Fin a) = Fin v /\ v <> 0).

Lemma pearsonr_bad bi be x y alt :
  (~ alt_ok alt \/ (alt_ok alt /\ length x <> length y)) -> pearsonr bi be x y alt = Err ValueError.
Proof.
  intros H. unfold pearsonr.
  destruct (String.eqb_spec alt "two-sided"); simpl; [|destruct (String.eqb_spec alt "less"); simpl;
    [|destruct (String.eqb_spec alt "greater"); simpl]]; try reflexivity;
  (destruct H as [H|[_ H]]; [exfalso; apply H; unfold alt_ok; auto|];
   apply Nat.eqb_neq in H; rewrite H; reflexivity).
Qed.
Lemma alt_true alt : alt_ok alt -> negb ((String.eqb alt "two-sided" || String.eqb alt "less"
           || String.eqb alt "greater")%bool) = false.
Proof. intros [->|[->| ->]]; reflexivity. Qed.
Lemma pearsonr_const bi be xs ys alt : alt_ok alt -> length xs = length ys -> const_data xs \/ const_data ys ->
  pearsonr bi be (map Fin xs) (map Fin ys) alt = Ok (NaN, NaN).
Proof.
  intros A L C. unfold pearsonr. rewrite alt_true, !map_length, L, Nat.eqb_refl by auto. simpl negb. cbv iota.
  destruct (all_equal_spec xs) as [b1 [E1 H1]]. destruct (all_equal_spec ys) as [b2 [E2 H2]]. rewrite E1, E2.
  destruct C as [C|C].
  - rewrite (proj2 H1 C). reflexivity.
  - rewrite (proj2 H2 C). destruct b1; reflexivity.
Qed.
Lemma pearsonr_two bi be a b c d alt : alt_ok alt -> a <> b -> c <> d ->
  pearsonr bi be [Fin a; Fin b] [Fin c; Fin d] alt
  = Ok (Fin (if Rlt_dec 0 ((b - a) * (d - c)) then 1 else -1), Fin 1).
Proof.
  intros A N1 N2. unfold pearsonr. rewrite alt_true by auto. simpl Nat.eqb. simpl negb. cbv iota.
  cbn [all_equal call]. cconv. rewrite !Reqb_false by auto. cbn [cif].
  assert (S1 : b - a < 0 \/ 0 < b - a) by lra. assert (S2 : d - c < 0 \/ 0 < d - c) by lra.
  destruct S1, S2; varith; cbn [bindv]; destruct (Rlt_dec 0 ((b - a) * (d - c))); try nra;
  repeat f_equal; lra.
Qed.
Lemma pearsonr_main bi be xs ys alt : beta_fns bi be -> alt_ok alt -> length xs = length ys -> (3 <= length xs)%nat ->
  ~ const_data xs -> ~ const_data ys ->
  exists p, pearsonr bi be (map Fin xs) (map Fin ys) alt = Ok (Fin (corr xs ys), Fin p).
Proof.
  intros [HB HG] A L N Cx Cy. unfold pearsonr.
  rewrite alt_true, !map_length, L, Nat.eqb_refl by auto. simpl negb. cbv iota.
  rewrite all_equal_not by auto. rewrite all_equal_not by auto. cbn [cor cif].
  pose proof (ss_pos xs Cx) as Px. pose proof (ss_pos ys Cy) as Py.
  assert (P : 0 < ss xs * ss ys) by (apply Rmult_lt_0_compat; auto). pose proof (sqrt_pos_lt _ P) as S.
  pose proof (corr_range xs ys L Cx Cy) as R.
  pose proof (not_const_nil _ Cx) as Nx. pose proof (not_const_nil _ Cy) as Ny.
  pose proof (length_pos xs Nx) as LP.
  match goal with |- exists p, ?m = _ => match m with
    | context [bindv ?q ?k] => enough (E : exists p, bindv q k = Ok (Fin (corr xs ys), Fin p)) end end.
  { destruct xs as [|x0 [|x1 [|x2 xs]]]; simpl in N; try lia.
    destruct ys as [|y0 [|y1 [|y2 ys]]]; simpl in L; try lia. exact E. }
  assert (V : vdiv (vfsum (map (fun '(s, t) => vmul s t)
     (combine (map (fun t => vsub t (vdiv (vfsum (map Fin xs)) (vlen (map Fin xs)))) (map Fin xs))
              (map (fun t => vsub t (vdiv (vfsum (map Fin ys)) (vlen (map Fin ys)))) (map Fin ys)))))
     (vsqrt (vmul (vfsum (map (fun t => vpown t 2) (map (fun t => vsub t (vdiv (vfsum (map Fin xs)) (vlen (map Fin xs)))) (map Fin xs))))
        (vfsum (map (fun t => vpown t 2) (map (fun t => vsub t (vdiv (vfsum (map Fin ys)) (vlen (map Fin ys)))) (map Fin ys))))))
     = Fin (corr xs ys)).
  { assert (M : forall zs, zs <> [] -> map (fun t => vsub t (vdiv (vfsum (map Fin zs)) (vlen (map Fin zs)))) (map Fin zs)
       = map Fin (dev zs)).
    { intros zs Nz. pose proof (length_pos zs Nz). rewrite vfsum_Fin. unfold vlen. rewrite map_length. veval.
      rewrite map_map. unfold dev. rewrite map_map. reflexivity. }
    rewrite !M by auto. rewrite combine_Fin, map_map.
    rewrite (vfsum_map _ (fun '(s, t) => s * t)) by (intros [s t] _; reflexivity). fold (dot (dev xs) (dev ys)).
    rewrite !map_map.
    rewrite !(vfsum_map _ (fun t => t^2)) by (intros s _; apply vpown_Fin).
    rewrite <- !dot_self, <- !ss_dot. varith. reflexivity. }
  rewrite V. cbn [bindv]. unfold vlen. rewrite map_length. set (n := length xs) in *.
  assert (N3 : 3 <= INR n) by (replace 3 with (INR 3) by (simpl; lra); apply le_INR; auto).
  assert (HA : 0 < INR n / 2 - 1) by lra. set (r := corr xs ys) in *.
  destruct (HG _ HA) as [g [Eg Ng]].
  destruct A as [->|[->| ->]]; cbn [String.eqb Ascii.eqb Bool.eqb].
  - destruct (HB (INR n / 2 - 1) (1 / 2 * (1 - Rabs r))) as [v Ev]; auto.
    { unfold Rabs. destruct (Rcase_abs r); lra. }
    varith. rewrite Ev, Eg. veval. cbn [bindv]. eauto.
  - destruct (HB (INR n / 2 - 1) (1 / 2 * (1 + r))) as [v Ev]; auto; [lra|].
    varith. rewrite Ev, Eg. veval. cbn [bindv]. eauto.
  - destruct (HB (INR n / 2 - 1) (1 / 2 * (1 - r))) as [v Ev]; auto; [lra|].
    varith. rewrite Ev, Eg. veval. cbn [bindv]. eauto.
Qed.

(** * pearsonr_ci *)
Lemma tanh_exp x : tanh x = 1 - 2 / (exp (2 * x) + 1).
Proof.
  unfold tanh, sinh, cosh. replace (2 * x) with (x + x) by ring. rewrite exp_plus, exp_Ropp.
  pose proof (exp_pos x). field. split; nra.
Qed.
Lemma tanh_range x : -1 < tanh x < 1.
Proof.
  rewrite tanh_exp. pose proof (exp_pos (2 * x)).
  assert (0 < 2 / (exp (2*x) + 1)) by (apply Rdiv_pos; lra).
  assert (2 / (exp (2*x) + 1) < 2).
  { apply (Rmult_lt_reg_r (exp (2*x) + 1)); [lra|]. unfold Rdiv. rewrite Rmult_assoc, Rinv_l; lra. }
  lra.
Qed.
Lemma tanh_incr x y : x < y -> tanh x < tanh y.
Proof.
  intros H. rewrite !tanh_exp. pose proof (exp_pos (2 * x)).
  assert (exp (2*x) < exp (2*y)) by (apply exp_increasing; lra).
  assert (/ (exp (2*y) + 1) < / (exp (2*x) + 1)) by (apply Rinv_lt_contravar; [nra|lra]). unfold Rdiv. lra.
Qed.
Lemma tanh_atanh r : -1 < r < 1 -> tanh (/2 * ln ((1 + r) / (1 - r))) = r.
Proof.
  intros H. rewrite tanh_exp. replace (2 * (/ 2 * ln ((1 + r) / (1 - r)))) with (ln ((1 + r) / (1 - r))) by field.
  rewrite exp_ln by (apply Rdiv_pos; lra). field. split; lra.
Qed.
Section CI.
Variables (invcdf : val -> val) (Q : R -> R).
Hypothesis HQ : forall p, 0 < p < 1 -> invcdf (Fin p) = Fin (Q p).
Hypothesis HI : forall p q, 0 < p -> p < q -> q < 1 -> Q p < Q q.
Hypothesis H0 : Q (1/2) = 0.
Definition z r := /2 * ln ((1 + r) / (1 - r)).
Lemma ci_two r n alpha : -1 < r < 1 -> 3 < n -> 0 < alpha < 1 ->
  pearsonr_ci invcdf (Fin r) (Fin n) (Fin alpha) "two-sided"
  = Ok (Fin (tanh (z r - Q (1 - alpha / 2) * sqrt (1 / (n - 3)))), Fin (tanh (z r + Q (1 - alpha / 2) * sqrt (1 / (n - 3))))).
Proof.
  intros R N A. unfold pearsonr_ci. cbn [String.eqb Ascii.eqb Bool.eqb orb negb].
  assert (0 < 1 / (n - 3)) by (apply Rdiv_pos; lra). varith. cbn [bindv]. rewrite HQ by lra. veval. reflexivity.
Qed.
Lemma ci_less r n alpha : -1 < r < 1 -> 3 < n -> 0 < alpha < 1 ->
  pearsonr_ci invcdf (Fin r) (Fin n) (Fin alpha) "less"
  = Ok (Fin (-1), Fin (tanh (z r + Q (1 - alpha) * sqrt (1 / (n - 3))))).
Proof.
  intros R N A. unfold pearsonr_ci. cbn [String.eqb Ascii.eqb Bool.eqb orb negb].
  assert (0 < 1 / (n - 3)) by (apply Rdiv_pos; lra). varith. cbn [bindv]. rewrite HQ by lra. veval. reflexivity.
Qed.
Lemma ci_greater r n alpha : -1 < r < 1 -> 3 < n -> 0 < alpha < 1 ->
  pearsonr_ci invcdf (Fin r) (Fin n) (Fin alpha) "greater"
  = Ok (Fin (tanh (z r - Q (1 - alpha) * sqrt (1 / (n - 3)))), Fin 1).
Proof.
  intros R N A. unfold pearsonr_ci. cbn [String.eqb Ascii.eqb Bool.eqb orb negb].
  assert (0 < 1 / (n - 3)) by (apply Rdiv_pos; lra). varith. cbn [bindv]. rewrite HQ by lra. veval. reflexivity.
Qed.
Lemma ci_contains r n alpha : -1 < r < 1 -> 3 < n -> 0 < alpha < 1 ->
  exists lo hi, pearsonr_ci invcdf (Fin r) (Fin n) (Fin alpha) "two-sided" = Ok (Fin lo, Fin hi) /\
    -1 < lo /\ lo < r /\ r < hi /\ hi < 1.
Proof.
  intros R N A. do 2 eexists. split; [apply ci_two; auto|].
  pose proof (tanh_range (z r - Q (1 - alpha / 2) * sqrt (1 / (n - 3)))).
  pose proof (tanh_range (z r + Q (1 - alpha / 2) * sqrt (1 / (n - 3)))).
  assert (P : 0 < 1 / (n - 3)) by (apply Rdiv_pos; lra). pose proof (sqrt_lt_R0 _ P).
  assert (0 < Q (1 - alpha / 2)) by (rewrite <- H0; apply HI; lra).
  assert (0 < Q (1 - alpha/2) * sqrt (1 / (n - 3))) by (apply Rmult_lt_0_compat; auto).
  pose proof (tanh_incr (z r - Q (1 - alpha / 2) * sqrt (1 / (n - 3))) (z r) ltac:(lra)) as I1.
  pose proof (tanh_incr (z r) (z r + Q (1 - alpha / 2) * sqrt (1 / (n - 3))) ltac:(lra)) as I2.
  unfold z in I1 at 2. unfold z in I2 at 1. rewrite tanh_atanh in I1, I2 by auto. lra.
Qed.
Lemma ci_nested r n alpha alpha' : -1 < r < 1 -> 3 < n -> 0 < alpha -> alpha < alpha' -> alpha' < 1 ->
  exists lo hi lo' hi', pearsonr_ci invcdf (Fin r) (Fin n) (Fin alpha) "two-sided" = Ok (Fin lo, Fin hi) /\
    pearsonr_ci invcdf (Fin r) (Fin n) (Fin alpha') "two-sided" = Ok (Fin lo', Fin hi') /\
    lo < lo' /\ hi' < hi.
Proof.
  intros R N A1 A2 A3. do 4 eexists. split; [apply ci_two; auto; lra|]. split; [apply ci_two; auto; lra|].
  assert (P : 0 < 1 / (n - 3)) by (apply Rdiv_pos; lra). pose proof (sqrt_lt_R0 _ P).
  assert (Q (1 - alpha' / 2) < Q (1 - alpha / 2)) by (apply HI; lra).
  assert (Q (1 - alpha'/2) * sqrt (1 / (n - 3)) < Q (1 - alpha/2) * sqrt (1 / (n - 3))) by (apply Rmult_lt_compat_r; auto).
  split; apply tanh_incr; lra.
Qed.
Lemma ci_onesided r n alpha : -1 < r < 1 -> 3 < n -> 0 < alpha < 1 ->
  exists lo hi, pearsonr_ci invcdf (Fin r) (Fin n) (Fin alpha) "less" = Ok (Fin (-1), Fin hi) /\
    pearsonr_ci invcdf (Fin r) (Fin n) (Fin alpha) "greater" = Ok (Fin lo, Fin 1) /\
    -1 < lo < 1 /\ -1 < hi < 1 /\ (alpha < 1/2 -> lo < r < hi).
Proof.
  intros R N A. do 2 eexists. split; [apply ci_less; auto|]. split; [apply ci_greater; auto|].
  split; [apply tanh_range|]. split; [apply tanh_range|]. intros Ha.
  assert (P : 0 < 1 / (n - 3)) by (apply Rdiv_pos; lra). pose proof (sqrt_lt_R0 _ P).
  assert (0 < Q (1 - alpha)) by (rewrite <- H0; apply HI; lra).
  assert (0 < Q (1 - alpha) * sqrt (1 / (n - 3))) by (apply Rmult_lt_0_compat; auto).
  pose proof (tanh_incr (z r - Q (1 - alpha) * sqrt (1 / (n - 3))) (z r) ltac:(lra)) as I1.
  pose proof (tanh_incr (z r) (z r + Q (1 - alpha) * sqrt (1 / (n - 3))) ltac:(lra)) as I2.
  unfold z in I1 at 2. unfold z in I2 at 1. rewrite tanh_atanh in I1, I2 by auto. lra.
Qed.
End CI.
Lemma ci_bad invcdf r n alpha alt : ~ alt_ok alt -> pearsonr_ci invcdf r n alpha alt = Err ValueError.
Proof.
  intros H. unfold pearsonr_ci.
  destruct (String.eqb_spec alt "two-sided"); simpl; [|destruct (String.eqb_spec alt "less"); simpl;
    [|destruct (String.eqb_spec alt "greater"); simpl]]; try reflexivity;
  exfalso; apply H; unfold alt_ok; auto.
Qed.
Lemma corr_spec xs ys : corr xs ys = correlation xs ys.
Proof.
  unfold corr, correlation, sxy, dot, dev. f_equal. rewrite combine_map_l, map_map, combine_map_r, map_map.
  apply rsum_ext. intros [x y] _. reflexivity.
Qed.
Lemma pearsonr_spec bi be xs ys alt : beta_fns bi be -> alt_ok alt -> length xs = length ys -> (3 <= length xs)%nat ->
  ~ constant xs -> ~ constant ys ->
  (exists p, pearsonr bi be (map Fin xs) (map Fin ys) alt = Ok (Fin (correlation xs ys), Fin p)) /\
  -1 <= correlation xs ys <= 1.
Proof.
  intros. rewrite <- corr_spec. split; [apply pearsonr_main; auto|apply corr_range; auto].
Qed.
Lemma correlation_sym xs ys : correlation xs ys = correlation ys xs.
Proof. rewrite <- !corr_spec. apply corr_sym. Qed.
Lemma correlation_affine a b xs ys : a <> 0 -> ~ constant xs -> ~ constant ys ->
  correlation (map (fun x => a * x + b) xs) ys = (if Rlt_dec 0 a then 1 else -1) * correlation xs ys /\
  ~ constant (map (fun x => a * x + b) xs).
Proof. intros. rewrite <- !corr_spec. split; [apply corr_affine; auto|apply const_affine; auto]. Qed.
Lemma correlation_linear a b xs : a <> 0 -> ~ constant xs ->
  correlation xs (map (fun x => a * x + b) xs) = if Rlt_dec 0 a then 1 else -1.
Proof. intros. rewrite <- !corr_spec. apply corr_linear; auto. Qed.
Lemma ci_contains' invcdf Q :
  (forall p, 0 < p < 1 -> invcdf (Fin p) = Fin (Q p)) -> (forall p q, 0 < p -> p < q -> q < 1 -> Q p < Q q) ->
  Q (1/2) = 0 -> forall r n alpha, -1 < r < 1 -> 3 < n -> 0 < alpha < 1 ->
  exists lo hi, pearsonr_ci invcdf (Fin r) (Fin n) (Fin alpha) "two-sided" = Ok (Fin lo, Fin hi) /\
    -1 < lo /\ lo < r /\ r < hi /\ hi < 1.
Proof. intros A B C. apply (ci_contains invcdf Q); auto. Qed.
