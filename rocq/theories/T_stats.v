(** C12-C15: pearsonr, pearsonr_ci, anova_oneway, chisquare, gtest.  The reference
    formulas ([correlation], [F_ratio], [chi2_statistic], [G_statistic]) are in
    SpecStat. *)
From Coq Require Import Reals Lra List String Permutation.
From Verif Require Import Values SpecStat M_stats.
From Verif Require P_stats P_stats2.
Import ListNotations.
Local Open Scope R_scope.
Notation data xs := (map Fin xs).
Notation groups gs := (map (map Fin) gs).

(** The three accepted alternatives. *)
Definition known_alternative (alt : string) :=
  alt = "two-sided"%string \/ alt = "less"%string \/ alt = "greater"%string.
(** What is assumed of mpmath's [betainc] and [beta] for the p-value: on the arguments
    a > 0 and 0 <= x <= 1 they return finite numbers, the beta function nonzero. *)
Definition beta_functions (betainc : val -> val -> val -> val) (beta : val -> val -> val) :=
  (forall a x, 0 < a -> 0 <= x <= 1 -> exists v, betainc (Fin a) (Fin a) (Fin x) = Fin v) /\
  (forall a, 0 < a -> exists v, beta (Fin a) (Fin a) = Fin v /\ v <> 0).

(** ** C12 *)
Theorem C12_value_and_range : forall betainc beta xs ys alt, beta_functions betainc beta -> known_alternative alt ->
  List.length xs = List.length ys -> (3 <= List.length xs)%nat -> ~ constant xs -> ~ constant ys ->
  (exists p, pearsonr betainc beta (data xs) (data ys) alt = Ok (Fin (correlation xs ys), Fin p)) /\
  -1 <= correlation xs ys <= 1.
Proof. exact P_stats.pearsonr_spec. Qed.
Print Assumptions C12_value_and_range.
Theorem C12_symmetric : forall xs ys, correlation xs ys = correlation ys xs.
Proof. exact P_stats.correlation_sym. Qed.
Print Assumptions C12_symmetric.
Theorem C12_affine : forall a b xs ys, a <> 0 -> ~ constant xs -> ~ constant ys ->
  correlation (map (fun x => a * x + b) xs) ys = (if Rlt_dec 0 a then 1 else -1) * correlation xs ys /\
  ~ constant (map (fun x => a * x + b) xs).
Proof. exact P_stats.correlation_affine. Qed.
Print Assumptions C12_affine.
Theorem C12_linear_data : forall a b xs, a <> 0 -> ~ constant xs ->
  correlation xs (map (fun x => a * x + b) xs) = if Rlt_dec 0 a then 1 else -1.
Proof. exact P_stats.correlation_linear. Qed.
Print Assumptions C12_linear_data.
Theorem C12_constant : forall betainc beta xs ys alt, known_alternative alt -> List.length xs = List.length ys ->
  constant xs \/ constant ys -> pearsonr betainc beta (data xs) (data ys) alt = Ok (NaN, NaN).
Proof. exact P_stats.pearsonr_const. Qed.
Print Assumptions C12_constant.
Theorem C12_two_points : forall betainc beta a b c d alt, known_alternative alt -> a <> b -> c <> d ->
  pearsonr betainc beta [Fin a; Fin b] [Fin c; Fin d] alt
  = Ok (Fin (if Rlt_dec 0 ((b - a) * (d - c)) then 1 else -1), Fin 1).
Proof. exact P_stats.pearsonr_two. Qed.
Print Assumptions C12_two_points.
Theorem C12_errors : forall betainc beta x y alt,
  ~ known_alternative alt \/ (known_alternative alt /\ List.length x <> List.length y) ->
  pearsonr betainc beta x y alt = Err ValueError.
Proof. exact P_stats.pearsonr_bad. Qed.
Print Assumptions C12_errors.
Example C12_instance : beta_functions (fun _ _ _ => Fin 0) (fun _ _ => Fin 1) /\
  ~ constant [1; 2; 3] /\ ~ constant [5; 5; 4].
Proof.
  split; [split; [intros; eexists; reflexivity|intros; exists 1; split; [reflexivity|lra]]|].
  split; intros C.
  - specialize (C 1 2 ltac:(simpl; auto) ltac:(simpl; auto)). lra.
  - specialize (C 5 4 ltac:(simpl; auto) ltac:(simpl; auto)). lra.
Qed.

(** ** C13: [invcdf] is any strictly increasing quantile function with median 0. *)
Theorem C13_contains : forall invcdf Q,
  (forall p, 0 < p < 1 -> invcdf (Fin p) = Fin (Q p)) -> (forall p q, 0 < p -> p < q -> q < 1 -> Q p < Q q) ->
  Q (1/2) = 0 -> forall r n alpha, -1 < r < 1 -> 3 < n -> 0 < alpha < 1 ->
  exists lo hi, pearsonr_ci invcdf (Fin r) (Fin n) (Fin alpha) "two-sided" = Ok (Fin lo, Fin hi) /\
    -1 < lo /\ lo < r /\ r < hi /\ hi < 1.
Proof. exact P_stats.ci_contains'. Qed.
Print Assumptions C13_contains.
Theorem C13_nested : forall invcdf Q,
  (forall p, 0 < p < 1 -> invcdf (Fin p) = Fin (Q p)) -> (forall p q, 0 < p -> p < q -> q < 1 -> Q p < Q q) ->
  forall r n alpha alpha', -1 < r < 1 -> 3 < n -> 0 < alpha -> alpha < alpha' -> alpha' < 1 ->
  exists lo hi lo' hi', pearsonr_ci invcdf (Fin r) (Fin n) (Fin alpha) "two-sided" = Ok (Fin lo, Fin hi) /\
    pearsonr_ci invcdf (Fin r) (Fin n) (Fin alpha') "two-sided" = Ok (Fin lo', Fin hi') /\
    lo < lo' /\ hi' < hi.
Proof. exact P_stats.ci_nested. Qed.
Print Assumptions C13_nested.
Theorem C13_one_sided : forall invcdf Q,
  (forall p, 0 < p < 1 -> invcdf (Fin p) = Fin (Q p)) -> (forall p q, 0 < p -> p < q -> q < 1 -> Q p < Q q) ->
  Q (1/2) = 0 -> forall r n alpha, -1 < r < 1 -> 3 < n -> 0 < alpha < 1 ->
  exists lo hi, pearsonr_ci invcdf (Fin r) (Fin n) (Fin alpha) "less" = Ok (Fin (-1), Fin hi) /\
    pearsonr_ci invcdf (Fin r) (Fin n) (Fin alpha) "greater" = Ok (Fin lo, Fin 1) /\
    -1 < lo < 1 /\ -1 < hi < 1 /\ (alpha < 1/2 -> lo < r < hi).
Proof. exact P_stats.ci_onesided. Qed.
Print Assumptions C13_one_sided.
Theorem C13_errors : forall invcdf r n alpha alt, ~ known_alternative alt ->
  pearsonr_ci invcdf r n alpha alt = Err ValueError.
Proof. exact P_stats.ci_bad. Qed.
Print Assumptions C13_errors.
Example C13_instance : let Q := fun p => p - 1/2 in
  (forall p q, 0 < p -> p < q -> q < 1 -> Q p < Q q) /\ Q (1/2) = 0.
Proof. simpl. split; intros; lra. Qed.

(** ** C14: [f_sf] is the survival function of the F distribution. *)
Theorem C14_value : forall f_sf gs, (2 <= List.length gs)%nat -> (forall g, In g gs -> g <> []) -> within_ss gs <> 0 ->
  anova_oneway f_sf (groups gs)
  = bindv (f_sf (Fin (F_ratio gs)) (Fin (INR (List.length gs) - 1)) (Fin (total_size gs - INR (List.length gs))))
          (fun p => Ok (Fin (F_ratio gs), p)).
Proof. exact P_stats2.anova_value. Qed.
Print Assumptions C14_value.
Theorem C14_decomposition : forall gs, (forall g, In g gs -> g <> []) ->
  sum (map (fun g => sum (map (fun x => (x - average (List.concat gs))^2) g)) gs) = within_ss gs + between_ss gs.
Proof. exact P_stats2.decomposition. Qed.
Print Assumptions C14_decomposition.
Theorem C14_nonneg : forall gs, (2 <= List.length gs)%nat -> (forall g, In g gs -> g <> []) -> within_ss gs <> 0 ->
  0 <= F_ratio gs.
Proof. exact P_stats2.Fstat_nonneg. Qed.
Print Assumptions C14_nonneg.
Theorem C14_affine : forall a b gs, a <> 0 -> (2 <= List.length gs)%nat -> (forall g, In g gs -> g <> []) ->
  within_ss gs <> 0 -> F_ratio (map (map (fun x => a * x + b)) gs) = F_ratio gs.
Proof. exact P_stats2.Fstat_affine. Qed.
Print Assumptions C14_affine.
Theorem C14_permutation : forall gs gs', Permutation gs gs' -> F_ratio gs = F_ratio gs'.
Proof. exact P_stats2.Fstat_perm. Qed.
Print Assumptions C14_permutation.
Example C14_instance : (forall g, In g [[1; 2]; [4]] -> g <> []) /\ within_ss [[1; 2]; [4]] <> 0.
Proof.
  split; [intros g [<-|[<-|[]]]; discriminate|].
  unfold within_ss, sumsq_dev, average, sum. simpl. lra.
Qed.

(** ** C15: [gi] and [ga] are mpmath's upper incomplete gamma and gamma functions. *)
Definition p_value (gi : val -> val -> val) (ga : val -> val) (n : nat) (stat : R) : val :=
  let half_df := vdiv (vsub (Fin (INR n)) (Fin 1)) (Fin 2) in
  vdiv (gi half_df (vdiv (Fin stat) (Fin 2))) (ga half_df).
Theorem C15_chisquare : forall gi ga os es, List.length os = List.length es -> (forall e, In e es -> 0 < e) ->
  forall tol, sum os = sum es ->
  chisquare gi ga (data os) (data es) tol
  = bindv (p_value gi ga (List.length os) (chi2_statistic os es)) (fun p => Ok (Fin (chi2_statistic os es), p)).
Proof. exact (fun gi ga os es _ => P_stats2.chisq_value gi ga os es). Qed.
Print Assumptions C15_chisquare.
Theorem C15_gtest : forall gi ga os es, List.length os = List.length es -> (forall e, In e es -> 0 < e) ->
  forall tol, (forall o, In o os -> 0 <= o) -> sum os = sum es ->
  gtest gi ga (data os) (data es) tol
  = bindv (p_value gi ga (List.length os) (G_statistic os es)) (fun p => Ok (Fin (G_statistic os es), p)).
Proof. exact (fun gi ga os es _ => P_stats2.gtest_value gi ga os es). Qed.
Print Assumptions C15_gtest.
Theorem C15_chisquare_nonneg : forall os es, (forall e, In e es -> 0 < e) -> 0 <= chi2_statistic os es.
Proof. exact P_stats2.chi2_nonneg. Qed.
Print Assumptions C15_chisquare_nonneg.
Theorem C15_chisquare_zero : forall os es, List.length os = List.length es -> (forall e, In e es -> 0 < e) ->
  (chi2_statistic os es = 0 <-> os = es).
Proof. exact P_stats2.chi2_zero. Qed.
Print Assumptions C15_chisquare_zero.
Theorem C15_gtest_nonneg : forall os es, List.length os = List.length es -> (forall e, In e es -> 0 < e) ->
  (forall o, In o os -> 0 <= o) -> sum os = sum es -> 0 <= G_statistic os es.
Proof. exact P_stats2.g_nonneg. Qed.
Print Assumptions C15_gtest_nonneg.
Theorem C15_gtest_zero : forall os es, List.length os = List.length es -> (forall e, In e es -> 0 < e) ->
  (forall o, In o os -> 0 <= o) -> sum os = sum es -> (G_statistic os es = 0 <-> os = es).
Proof. exact P_stats2.g_zero. Qed.
Print Assumptions C15_gtest_zero.
Theorem C15_unequal_totals : forall gi ga os es tol, sum os <> sum es ->
  tol * Rmax (Rabs (sum os)) (Rabs (sum es)) < Rabs (sum os - sum es) ->
  chisquare gi ga (data os) (data es) (Fin tol) = Err ValueError /\
  gtest gi ga (data os) (data es) (Fin tol) = Err ValueError.
Proof. exact P_stats2.gof_bad. Qed.
Print Assumptions C15_unequal_totals.
Example C15_instance : sum [0; 4; 2] = sum [1; 2; 3] /\ (forall e, In e [1; 2; 3] -> 0 < e).
Proof. split; [simpl; lra|]. intros e [<-|[<-|[<-|[]]]]; lra. Qed.
