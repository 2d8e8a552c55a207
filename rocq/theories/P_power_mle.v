(** Proofs about M_power_mle. *)
From Coq Require Import Reals Lra Lia List.
From Coquelicot Require Import Coquelicot.
From Verif Require Import Values VTac Spec SpecStat SpecEst SpecInv SpecPower RLib LLib PLib M_fun M_basic M_stats P_fun P_basic2 P_stats P_est P_sfun P_normal GamMix KumLib.
From Verif Require Import M_power_mle.
Import ListNotations.
Local Open Scope R_scope.
Set Bullet Behavior "Strict Subproofs".

(** the normal part *)
Lemma dens_ln psi mu sigma x : 0 < sigma -> 0 < Derive psi x ->
  ln (transformed_density psi mu sigma x) = ln (Derive psi x) + (- (ln (2 * PI) / 2 + ln sigma) + - (/ (2 * sigma ^ 2)) * (psi x - mu) ^ 2).
Proof.
  intros S D. unfold transformed_density. pose proof PI_RGT_0. assert (0 < sqrt (2 * PI)) by (apply sqrt_lt_R0; lra). assert (0 < sigma * sqrt (2 * PI)) by nra. pose proof (exp_pos (- ((psi x - mu) / sigma) ^ 2 / 2)).
  rewrite ln_mult, ln_div, ln_exp, ln_mult, ln_sqrt; auto; try lra; [field; lra|]. apply Rdiv_pos; auto.
Qed.
Lemma ll_eq psi xs mu sigma : 0 < sigma -> (forall x, In x xs -> 0 < Derive psi x) ->
  transformed_loglik psi xs mu sigma = sum (map (fun x => ln (Derive psi x)) xs) - (INR (length xs) * (ln (2 * PI) / 2 + ln sigma) + sum (map (fun y => (y - mu) ^ 2) (map psi xs)) / (2 * sigma ^ 2)).
Proof.
  intros S D. unfold transformed_loglik. change sum with rsum.
  rewrite (rsum_ext _ (fun x => ln (Derive psi x) + (- (ln (2 * PI) / 2 + ln sigma) + - (/ (2 * sigma ^ 2)) * (psi x - mu) ^ 2))) by (intros; apply dens_ln; auto).
  rewrite rsum_plus, rsum_plus, rsum_const, rsum_scal, map_map. unfold Rdiv. ring.
Qed.
Lemma profile_ok psi xs : ~ constant (map psi xs) -> (forall x, In x xs -> 0 < Derive psi x) ->
  profile_max (transformed_loglik psi xs) (sum (map (fun x => ln (Derive psi x)) xs) - INR (length xs) / 2 * ln (sumsq_dev (map psi xs) / INR (length xs)) - INR (length xs) / 2 * (1 + ln (2 * PI))).
Proof.
  intros C DP. set (ys := map psi xs) in *. pose proof (const_nil ys C) as N. pose proof (length_pos ys N) as LN. pose proof (dev_pos ys C) as D. assert (EL : length ys = length xs) by apply map_length. rewrite <- EL.
  set (v := sumsq_dev ys / INR (length ys)) in *. pose proof (sqrt_lt_R0 _ D) as SP.
  assert (V : sumsq_dev ys = INR (length ys) * v) by (unfold v; field; lra). split.
  - exists (average ys), (sqrt v). split; [auto|]. rewrite ll_eq by auto. fold ys. rewrite sumsq_about by auto. rewrite V, ln_sqrt, pow2_sqrt, <- EL by lra. field. lra.
  - intros mu sigma S. rewrite ll_eq by auto. fold ys. rewrite sumsq_about, V, <- EL by auto.
    pose proof (lik_opt (INR (length ys)) v ((average ys - mu) ^ 2) sigma LN D (pow2_ge_0 _) S) as K. rewrite ln_sqrt, pow2_sqrt in K by lra.
    replace (INR (length ys) * v / (2 * v)) with (INR (length ys) / 2) in K by (field; lra). lra.
Qed.
(** Box-Cox *)
Lemma bc_der lam x : 0 < x -> is_derive (boxcox_fn lam) x (Rpower x (lam - 1)).
Proof.
  intros X. unfold boxcox_fn. destruct (Req_EM_T lam 0) as [->|L].
  - replace (Rpower x (0 - 1)) with (/ x). 2:{ replace (0 - 1) with (- (1)) by ring. rewrite Rpower_Ropp, Rpower_1; auto. } apply is_derive_Reals, derivable_pt_lim_ln; auto.
  - replace (Rpower x (lam - 1)) with (Rpower x lam * / x). 2:{ unfold Rminus. rewrite Rpower_plus, Rpower_Ropp, Rpower_1; auto. } unfold Rpower. auto_derive; [auto|]. field. lra.
Qed.
Lemma bc_Der lam x : 0 < x -> Derive (boxcox_fn lam) x = Rpower x (lam - 1). Proof. intros X. apply is_derive_unique, bc_der; auto. Qed.
Lemma inc_inj (f df : R -> R) a b : a < b -> (forall x, a <= x <= b -> is_derive f x (df x)) -> (forall x, a <= x <= b -> 0 < df x) -> f a < f b.
Proof.
  intros L D P. destruct (MVT_gen f a b df) as [c [C E]].
  - intros x X. rewrite Rmin_left, Rmax_right in X by lra. apply D. lra.
  - intros x X. rewrite Rmin_left, Rmax_right in X by lra. apply continuity_pt_filterlim, (ex_derive_continuous f). exists (df x). apply D. lra.
  - rewrite Rmin_left, Rmax_right in C by lra. pose proof (P c C). nra.
Qed.
Lemma not_const (psi : R -> R) (S : R -> Prop) xs : (forall x y, S x -> S y -> x < y -> psi x < psi y) -> (forall x, In x xs -> S x) -> ~ constant xs -> ~ constant (map psi xs).
Proof.
  intros INC SX C K. apply C. intros a b A B. destruct (Rtotal_order a b) as [L|[L|L]]; auto; exfalso.
  - pose proof (INC a b (SX a A) (SX b B) L). assert (psi a = psi b) by (apply K; apply in_map; auto). lra.
  - pose proof (INC b a (SX b B) (SX a A) L). assert (psi a = psi b) by (apply K; apply in_map; auto). lra.
Qed.
Lemma bc_inc lam x y : 0 < x -> 0 < y -> x < y -> boxcox_fn lam x < boxcox_fn lam y.
Proof. intros X Y L. apply (inc_inj (boxcox_fn lam) (fun x => Rpower x (lam - 1))); auto; intros z Z; [apply bc_der; lra|apply exp_pos]. Qed.
Lemma var0 ys : ~ constant ys -> var (map Fin ys) (Fin 0) = Fin (sumsq_dev ys / INR (length ys)).
Proof. intros C. pose proof (const_nil ys C) as N. pose proof (length_pos ys N) as LN. rewrite var_fin by (auto; lra). f_equal. unfold Rdiv. rewrite Rminus_0_r. reflexivity. Qed.
Lemma bc_llf lam xs : (forall x, In x xs -> 0 < x) -> ~ constant xs ->
  boxcox_llf (Fin lam) (map Fin xs) = Fin (sum (map (fun x => ln (Derive (boxcox_fn lam) x)) xs) - INR (length xs) / 2 * ln (sumsq_dev (map (boxcox_fn lam) xs) / INR (length xs))).
Proof.
  intros X C. pose proof (not_const (boxcox_fn lam) (fun x => 0 < x) xs (bc_inc lam) X C) as C'. pose proof (const_nil _ C') as N. pose proof (dev_pos _ C') as DP. rewrite map_length in DP.
  assert (LN : 0 < INR (length xs)). { rewrite <- (map_length (boxcox_fn lam)). apply length_pos. auto. }
  unfold boxcox_llf. rewrite !map_map. assert (SL : vfsum (map (fun x => vlog (Fin x)) xs) = Fin (rsum (map ln xs))). { apply vfsum_map. intros x I. pose proof (X x I). veval. reflexivity. } rewrite SL.
  assert (V : (cif (A := val) (ceq (Fin lam) (Fin 0)) (var (map (fun x => vlog (Fin x)) xs) (Fin 0)) (var (map (fun x => vdiv (vpow (Fin x) (Fin lam)) (Fin lam)) xs) (Fin 0))) = Fin (sumsq_dev (map (boxcox_fn lam) xs) / INR (length xs))).
  { destruct (Req_dec lam 0) as [->|L].
    - vif. rewrite <- (map_length (boxcox_fn 0) xs). rewrite <- var0 by auto. f_equal. rewrite map_map. apply map_ext_in. intros x I. pose proof (X x I). unfold boxcox_fn. destruct (Req_EM_T 0 0); [|lra]. veval. reflexivity.
    - vif. rewrite <- (map_length (boxcox_fn lam) xs). rewrite <- var0 by auto.
      destruct (var_laws (map (boxcox_fn lam) xs) 0 N ltac:(rewrite map_length; lra)) as (v & E & _ & _ & _ & _ & A). specialize (A 1 (/ lam)). rewrite E. replace (1 ^ 2 * v) with v in A by ring. rewrite <- A. f_equal. rewrite !map_map. apply map_ext_in. intros x I. pose proof (X x I).
      unfold boxcox_fn. destruct (Req_EM_T lam 0); [lra|]. veval. f_equal. field. auto. }
  rewrite V. unfold vlen. rewrite map_length. veval. f_equal. f_equal.
  change sum with rsum. rewrite <- rsum_scal. apply rsum_ext. intros x I. rewrite bc_Der by auto. unfold Rpower. rewrite ln_exp. reflexivity.
Qed.
Lemma boxcox_profile (lam : R) (xs : list R) : (forall x, In x xs -> 0 < x) -> ~ constant xs ->
  exists L, boxcox_llf (Fin lam) (map Fin xs) = Fin L /\ profile_max (transformed_loglik (boxcox_fn lam) xs) (L - INR (length xs) / 2 * (1 + ln (2 * PI))).
Proof.
  intros X C. eexists. split; [apply bc_llf; auto|]. apply profile_ok; [apply (not_const _ (fun x => 0 < x)); auto; apply bc_inc|]. intros x I. rewrite bc_Der by auto. apply exp_pos.
Qed.
(** Yeo-Johnson *)
Definition yj_d (lam x : R) := if Rle_dec 0 x then Rpower (1 + x) (lam - 1) else Rpower (1 - x) (1 - lam).
Lemma glue (f f1 f2 : R -> R) l : (forall x, 0 <= x -> f x = f1 x) -> (forall x, x < 0 -> f x = f2 x) -> f1 0 = f2 0 -> is_derive f1 0 l -> is_derive f2 0 l -> is_derive f 0 l.
Proof.
  intros E1 E2 E D1 D2. apply is_derive_Reals. apply is_derive_Reals in D1. apply is_derive_Reals in D2. intros e EP. destruct (D1 e EP) as [d1 H1]. destruct (D2 e EP) as [d2 H2].
  assert (MP : 0 < Rmin d1 d2) by (apply Rmin_pos; [apply d1|apply d2]). exists (mkposreal _ MP). simpl. intros h HN HL. rewrite Rplus_0_l in *. rewrite (E1 0) by lra.
  destruct (Rle_lt_dec 0 h) as [P|P].
  - rewrite E1 by auto. specialize (H1 h HN). rewrite Rplus_0_l in H1. apply H1. pose proof (Rmin_l d1 d2). lra.
  - rewrite E2, E by auto. specialize (H2 h HN). rewrite Rplus_0_l in H2. apply H2. pose proof (Rmin_r d1 d2). lra.
Qed.
Lemma yj1 lam x : -1 < x -> is_derive (fun x => boxcox_fn lam (1 + x)) x (Rpower (1 + x) (lam - 1)).
Proof. intros X. evar_last; [apply (is_derive_comp (boxcox_fn lam) (fun x => 1 + x)); [apply bc_der; lra|auto_derive; auto]|]. unfold scal. simpl. unfold mult. simpl. ring. Qed.
Lemma yj2 lam x : x < 1 -> is_derive (fun x => - boxcox_fn (2 - lam) (1 - x)) x (Rpower (1 - x) (1 - lam)).
Proof.
  intros X. evar_last; [apply (is_derive_opp (fun x => boxcox_fn (2 - lam) (1 - x))); apply (is_derive_comp (boxcox_fn (2 - lam)) (fun x => 1 - x)); [apply bc_der; lra|auto_derive; auto]|]. unfold opp, scal. simpl. unfold mult. simpl. replace (2 - lam - 1) with (1 - lam) by ring. ring.
Qed.
Lemma yj_der lam x : is_derive (yeojohnson_fn lam) x (yj_d lam x).
Proof.
  destruct (Rtotal_order x 0) as [L|[->|L]].
  - unfold yj_d. destruct (Rle_dec 0 x) as [K|_]; [lra|]. apply (is_derive_ext_loc (fun x => - boxcox_fn (2 - lam) (1 - x))); [|apply yj2; lra].
    generalize (open_lt 0 x L). apply filter_imp. intros y Y. unfold yeojohnson_fn. destruct (Rle_dec 0 y); [lra|reflexivity].
  - unfold yj_d. destruct (Rle_dec 0 0) as [_|K]; [|lra]. rewrite Rplus_0_r. apply (glue _ (fun x => boxcox_fn lam (1 + x)) (fun x => - boxcox_fn (2 - lam) (1 - x))).
    + intros y Y. unfold yeojohnson_fn. destruct (Rle_dec 0 y); [reflexivity|lra].
    + intros y Y. unfold yeojohnson_fn. destruct (Rle_dec 0 y); [lra|reflexivity].
    + rewrite Rplus_0_r, Rminus_0_r. assert (Z : forall l, boxcox_fn l 1 = 0). { intros l. unfold boxcox_fn. destruct (Req_EM_T l 0); [apply ln_1|]. unfold Rpower. rewrite ln_1, Rmult_0_r, exp_0. field. auto. } rewrite !Z. ring.
    + pose proof (yj1 lam 0 ltac:(lra)) as D. rewrite Rplus_0_r in D. exact D.
    + pose proof (yj2 lam 0 ltac:(lra)) as D. rewrite Rminus_0_r in D. unfold Rpower in *. rewrite ln_1, Rmult_0_r in *. exact D.
  - unfold yj_d. destruct (Rle_dec 0 x) as [_|K]; [|lra]. apply (is_derive_ext_loc (fun x => boxcox_fn lam (1 + x))); [|apply yj1; lra].
    generalize (open_gt 0 x L). apply filter_imp. intros y Y. unfold yeojohnson_fn. destruct (Rle_dec 0 y); [reflexivity|lra].
Qed.
Lemma yj_Der lam x : Derive (yeojohnson_fn lam) x = yj_d lam x. Proof. apply is_derive_unique, yj_der. Qed.
Lemma yj_pos lam x : 0 < yj_d lam x. Proof. unfold yj_d. destruct (Rle_dec 0 x); apply exp_pos. Qed.
Lemma yj_inc lam x y : True -> True -> x < y -> yeojohnson_fn lam x < yeojohnson_fn lam y.
Proof. intros _ _ L. apply (inc_inj (yeojohnson_fn lam) (yj_d lam)); auto; intros z Z; [apply yj_der|apply yj_pos]. Qed.
Lemma yj_val (lam x : R) : yeojohnson (Fin x) (Fin lam) = Fin (yeojohnson_fn lam x).
Proof.
  unfold yeojohnson, yeojohnson_fn. destruct (Rle_dec 0 x) as [P|P].
  - unfold boxcox_fn. destruct (Req_EM_T lam 0) as [->|L]; vif.
    + veval. reflexivity.
    + rewrite pow1pm1_fin by lra. veval. reflexivity.
  - assert (x < 0) by lra. unfold boxcox_fn. destruct (Req_EM_T (2 - lam) 0) as [L|L].
    + assert (lam = 2) by lra. subst lam. vif. assert (-1 < - x) by lra. veval. reflexivity.
    + assert (lam <> 2) by lra. vif. change (vneg (Fin x)) with (Fin (- x)). change (vsub (Fin 2) (Fin lam)) with (Fin (2 - lam)). rewrite pow1pm1_fin by lra. veval. f_equal. replace (1 + - x) with (1 - x) by ring. field. lra.
Qed.
Lemma yj_llf lam xs : ~ constant xs ->
  yeojohnson_llf (Fin lam) (map Fin xs) = Fin (sum (map (fun x => ln (Derive (yeojohnson_fn lam) x)) xs) - INR (length xs) / 2 * ln (sumsq_dev (map (yeojohnson_fn lam) xs) / INR (length xs))).
Proof.
  intros C. pose proof (not_const (yeojohnson_fn lam) (fun _ => True) xs (yj_inc lam) (fun _ _ => I) C) as C'. pose proof (dev_pos _ C') as DP. rewrite map_length in DP. pose proof (const_nil _ C) as N.
  unfold yeojohnson_llf. assert (U : forall (c : val), match map Fin xs with [] => Exc ValueError | _ => c end = c) by (intros; destruct xs; [congruence|reflexivity]). cbv zeta. rewrite U. rewrite !map_map.
  assert (E : map (fun x => yeojohnson (Fin x) (Fin lam)) xs = map Fin (map (yeojohnson_fn lam) xs)). { rewrite map_map. apply map_ext. intros x. apply yj_val. } rewrite E, var0 by auto. rewrite map_length.
  assert (SL : vfsum (map (fun x => vmul (vsign (Fin x)) (vlog1p (vabs (Fin x)))) xs) = Fin (rsum (map (fun x => sign x * ln (1 + Rabs x)) xs))).
  { apply vfsum_map. intros x I. pose proof (Rabs_pos x) as AP. destruct (Rtotal_order x 0) as [L|[->|L]]; unfold vsign.
    - rewrite (Rltb_false 0 x), (Rltb_true x 0) by lra. rewrite sign_eq_m1 by auto. veval. reflexivity.
    - rewrite (Rltb_false 0 0) by lra. rewrite sign_0. veval. reflexivity.
    - rewrite (Rltb_true 0 x) by lra. rewrite sign_eq_1 by auto. veval. reflexivity. }
  rewrite SL. unfold vlen. rewrite map_length. veval. f_equal. replace (sum (map (fun x => ln (Derive (yeojohnson_fn lam) x)) xs)) with ((lam - 1) * rsum (map (fun x => sign x * ln (1 + Rabs x)) xs)); [field|].
  change sum with rsum. rewrite <- rsum_scal. apply rsum_ext. intros x I. rewrite yj_Der. unfold yj_d. destruct (Rle_dec 0 x) as [P|P].
  - unfold Rpower. rewrite ln_exp. destruct P as [P|<-]; [rewrite sign_eq_1, Rabs_right by lra; ring|]. rewrite sign_0, Rplus_0_r, ln_1. ring.
  - unfold Rpower. rewrite ln_exp. rewrite sign_eq_m1, Rabs_left by lra. replace (1 + - x) with (1 - x) by ring. ring.
Qed.
Lemma yeojohnson_profile (lam : R) (xs : list R) : ~ constant xs ->
  exists L, yeojohnson_llf (Fin lam) (map Fin xs) = Fin L /\ profile_max (transformed_loglik (yeojohnson_fn lam) xs) (L - INR (length xs) / 2 * (1 + ln (2 * PI))).
Proof.
  intros C. eexists. split; [apply yj_llf; auto|]. apply profile_ok; [apply (not_const _ (fun _ => True)); auto; apply yj_inc|]. intros x I. rewrite yj_Der. apply yj_pos.
Qed.
(** the transformations depend smoothly on lam, also at 0 and 2 *)
Definition hs (n : nat) := / INR (fact (S n)).
Lemma hs_entire : entire hs.
Proof.
  apply (entire_le (fun n => 1 ^ n / INR (fact n)) _ 1); [|apply entire_exp]. intros n. rewrite Rmult_1_l, pow1. unfold hs. pose proof (fact_pos n) as F1. pose proof (fact_pos (S n)) as F2.
  rewrite (Rabs_right (/ _)) by (apply Rle_ge, Rlt_le, Rinv_0_lt_compat; auto). unfold Rdiv. rewrite Rmult_1_l. rewrite Rabs_right by (apply Rle_ge, Rlt_le, Rinv_0_lt_compat; auto).
  apply Rinv_le_contravar; auto. apply le_INR. apply fact_le. lia.
Qed.
Lemma hs_exp u : exp u = 1 + u * PSeries hs u.
Proof.
  set (e := fun n => 1 ^ n / INR (fact n)). assert (EX : ex_pseries e u) by (apply CV_radius_inside; rewrite entire_radius; [simpl; auto|apply entire_exp]).
  pose proof (PSeries_decr_1 e u EX) as P. unfold e at 1 in P. rewrite exp_ser, Rmult_1_l in P. rewrite P. f_equal; [unfold e; simpl; field|]. f_equal. apply PSeries_ext. intros n. unfold PS_decr_1, e, hs. rewrite pow1. unfold Rdiv. rewrite Rmult_1_l. reflexivity.
Qed.
Lemma bc_series lam x : boxcox_fn lam x = ln x * PSeries hs (lam * ln x).
Proof.
  unfold boxcox_fn. destruct (Req_EM_T lam 0) as [->|L].
  - rewrite Rmult_0_l, PSeries_0. unfold hs. simpl. field.
  - unfold Rpower. rewrite hs_exp. field. auto.
Qed.
Lemma bc_smooth lam x : ex_derive (fun l => boxcox_fn l x) lam.
Proof.
  apply (ex_derive_ext (fun l => ln x * PSeries hs (l * ln x))); [intros; symmetry; apply bc_series|]. eexists. apply (is_derive_scal (fun l => PSeries hs (l * ln x))). apply (is_derive_comp (PSeries hs) (fun l => l * ln x)); [apply entire_der, hs_entire|auto_derive; auto].
Qed.
Lemma yj_smooth lam x : ex_derive (fun l => yeojohnson_fn l x) lam.
Proof.
  unfold yeojohnson_fn. destruct (Rle_dec 0 x); [apply bc_smooth|]. apply (ex_derive_opp (fun l => boxcox_fn (2 - l) (1 - x))). apply (ex_derive_comp (fun l => boxcox_fn l (1 - x)) (fun l => 2 - l)); [apply bc_smooth|auto_derive; auto].
Qed.
Lemma ex_derive_rsum (g : R -> R -> R) xs l : (forall x, ex_derive (fun l => g l x) l) -> ex_derive (fun l => rsum (map (g l) xs)) l.
Proof. intros D. induction xs as [|x xs IH]; simpl; [apply ex_derive_const|]. apply (ex_derive_plus (fun l => g l x) (fun l => rsum (map (g l) xs))); auto. Qed.
Lemma dev_smooth (g : R -> R -> R) xs l : (forall x, ex_derive (fun l => g l x) l) -> ex_derive (fun l => sumsq_dev (map (g l) xs)) l.
Proof.
  intros D. apply (ex_derive_ext (fun l => rsum (map (fun x => (g l x - / INR (length xs) * rsum (map (g l) xs)) ^ 2) xs))).
  - intros t. unfold sumsq_dev, average. rewrite map_map, map_length. apply rsum_ext. intros x _. f_equal. unfold Rdiv. rewrite Rmult_comm. reflexivity.
  - apply (ex_derive_rsum (fun l x => (g l x - / INR (length xs) * rsum (map (g l) xs)) ^ 2)). intros x. apply (ex_derive_comp (fun u => u ^ 2) (fun l => g l x - / INR (length xs) * rsum (map (g l) xs))); [auto_derive; auto|].
    apply (ex_derive_minus (fun l => g l x) (fun l => / INR (length xs) * rsum (map (g l) xs))); [auto|]. apply (ex_derive_scal (fun l => rsum (map (g l) xs))). apply ex_derive_rsum; auto.
Qed.
Lemma llf_smooth (g : R -> R -> R) A xs l : 0 < sumsq_dev (map (g l) xs) / INR (length xs) -> (forall x, ex_derive (fun l => g l x) l) ->
  ex_derive (fun l => (l - 1) * A - INR (length xs) / 2 * ln (sumsq_dev (map (g l) xs) / INR (length xs))) l.
Proof.
  intros P D. apply (ex_derive_minus (fun l => (l - 1) * A) (fun l => INR (length xs) / 2 * ln (sumsq_dev (map (g l) xs) / INR (length xs)))); [auto_derive; auto|].
  apply (ex_derive_scal (fun l => ln (sumsq_dev (map (g l) xs) / INR (length xs)))). apply (ex_derive_comp ln (fun l => sumsq_dev (map (g l) xs) / INR (length xs))); [eexists; apply is_derive_Reals, derivable_pt_lim_ln; auto|].
  apply (ex_derive_ext (fun l => / INR (length xs) * sumsq_dev (map (g l) xs))); [intros; apply Rmult_comm|]. apply (ex_derive_scal (fun l => sumsq_dev (map (g l) xs))). apply dev_smooth; auto.
Qed.
Lemma bc_llf_smooth xs lam : (forall x, In x xs -> 0 < x) -> ~ constant xs -> ex_derive (fun l => toR (boxcox_llf (Fin l) (map Fin xs))) lam.
Proof.
  intros X C. apply (ex_derive_ext (fun l => (l - 1) * rsum (map ln xs) - INR (length xs) / 2 * ln (sumsq_dev (map (boxcox_fn l) xs) / INR (length xs)))).
  - intros l. rewrite bc_llf by auto. simpl. f_equal. change sum with rsum. rewrite <- rsum_scal. apply rsum_ext. intros x I. rewrite bc_Der by auto. unfold Rpower. rewrite ln_exp. reflexivity.
  - apply (llf_smooth boxcox_fn); [|intros; apply bc_smooth]. rewrite <- (map_length (boxcox_fn lam) xs). apply dev_pos. apply (not_const _ (fun x => 0 < x)); auto. apply bc_inc.
Qed.
Lemma yj_llf_smooth xs lam : ~ constant xs -> ex_derive (fun l => toR (yeojohnson_llf (Fin l) (map Fin xs))) lam.
Proof.
  intros C. apply (ex_derive_ext (fun l => (l - 1) * rsum (map (fun x => sign x * ln (1 + Rabs x)) xs) - INR (length xs) / 2 * ln (sumsq_dev (map (yeojohnson_fn l) xs) / INR (length xs)))).
  - intros l. rewrite yj_llf by auto. simpl. f_equal. change sum with rsum. rewrite <- rsum_scal. apply rsum_ext. intros x I. rewrite yj_Der. unfold yj_d. destruct (Rle_dec 0 x) as [P|P].
    + unfold Rpower. rewrite ln_exp. destruct P as [P|<-]; [rewrite sign_eq_1, Rabs_right by lra; ring|]. rewrite sign_0, Rplus_0_r, ln_1. ring.
    + unfold Rpower. rewrite ln_exp. rewrite sign_eq_m1, Rabs_left by lra. replace (1 + - x) with (1 - x) by ring. ring.
  - apply (llf_smooth yeojohnson_fn); [|intros; apply yj_smooth]. rewrite <- (map_length (yeojohnson_fn lam) xs). apply dev_pos. apply (not_const _ (fun _ => True)); auto. apply yj_inc.
Qed.
Lemma boxcox_mle_ok fr (xs : list R) (lam0 lam : R) : checked_solver1 fr -> (forall x, In x xs -> 0 < x) -> ~ constant xs -> boxcox_mle fr (map Fin xs) lam0 = Fin lam ->
  is_derive (fun l => toR (boxcox_llf (Fin l) (map Fin xs))) lam 0.
Proof. intros CS X C E. apply CS in E. injection E as E. rewrite <- E. apply Derive_correct. apply bc_llf_smooth; auto. Qed.
Lemma yeojohnson_mle_ok fr (xs : list R) (lam0 lam : R) : checked_solver1 fr -> ~ constant xs -> yeojohnson_mle fr (map Fin xs) lam0 = Fin lam ->
  is_derive (fun l => toR (yeojohnson_llf (Fin l) (map Fin xs))) lam 0.
Proof. intros CS C E. apply CS in E. injection E as E. rewrite <- E. apply Derive_correct. apply yj_llf_smooth; auto. Qed.
(** cases in which a value is returned *)
Definition one_root (r : R) (g : val -> val) (_ : val) : val := match g (Fin r) with Fin u => if Req_EM_T u 0 then Fin r else NaN | _ => NaN end.
Lemma one_root_ok r : checked_solver1 (one_root r).
Proof. intros g x0 q. unfold one_root. destruct (g (Fin r)) as [u| | | |] eqn:E; try discriminate. destruct (Req_EM_T u 0) as [->|]; try discriminate. intros H. injection H as <-. exact E. Qed.
Lemma sym_stationary (f : R -> R) c : ex_derive f c -> (forall l, f (2 * c - l) = f l) -> Derive f c = 0.
Proof.
  intros D S. apply Derive_correct in D. set (d := Derive f c) in *. assert (D2 : is_derive f c (- d)).
  { apply (is_derive_ext (fun l => f (2 * c - l))); [intros; apply S|]. replace c with (2 * c - c) in D at 1 by ring. evar_last; [apply (is_derive_comp f (fun l => 2 * c - l)); [exact D|auto_derive; auto]|]. unfold scal. simpl. unfold mult. simpl. ring. }
  apply is_derive_unique in D. apply is_derive_unique in D2. lra.
Qed.
Lemma dev2 u v : sumsq_dev [u; v] = (u - v) ^ 2 / 2. Proof. unfold sumsq_dev, average. simpl. field. Qed.
Lemma bc_case : exists fr, checked_solver1 fr /\ boxcox_mle fr (map Fin [exp (-1); exp 1]) (Fin 0) = Fin 0.
Proof.
  exists (one_root 0). split; [apply one_root_ok|]. set (xs := [exp (-1); exp 1]).
  assert (X : forall x, In x xs -> 0 < x) by (intros x [<-|[<-|[]]]; apply exp_pos). assert (C : ~ constant xs). { intros C. assert (K : exp (-1) = exp 1) by (apply C; simpl; auto). apply exp_inv in K. lra. }
  unfold boxcox_mle, one_root, vdiff. fold (toR). assert (D : Derive (fun s => toR (boxcox_llf (Fin s) (map Fin xs))) 0 = 0).
  { apply sym_stationary; [apply bc_llf_smooth; auto|]. intros l. rewrite !bc_llf by auto. simpl toR. f_equal.
    - unfold xs. simpl. rewrite !bc_Der by apply exp_pos. unfold Rpower. rewrite !ln_exp. ring.
    - f_equal. f_equal. f_equal. unfold xs. cbn [map]. rewrite !dev2. rewrite !bc_series, !ln_exp. replace ((2 * 0 - l) * -1) with (l * 1) by ring. replace ((2 * 0 - l) * 1) with (l * -1) by ring. field. }
  unfold toR in D. rewrite D. destruct (Req_EM_T 0 0); [reflexivity|lra].
Qed.
Lemma yj_case : exists fr, checked_solver1 fr /\ yeojohnson_mle fr (map Fin [-1; 1]) (Fin 0) = Fin 1.
Proof.
  exists (one_root 1). split; [apply one_root_ok|]. set (xs := [-1; 1]).
  assert (C : ~ constant xs). { intros C. assert (K : -1 = 1) by (apply C; simpl; auto). lra. }
  unfold yeojohnson_mle, one_root, vdiff. assert (D : Derive (fun s => toR (yeojohnson_llf (Fin s) (map Fin xs))) 1 = 0).
  { apply sym_stationary; [apply yj_llf_smooth; auto|]. intros l. rewrite !yj_llf by auto. simpl toR. f_equal.
    - unfold xs. simpl. rewrite !yj_Der. unfold yj_d. destruct (Rle_dec 0 (-1)); [lra|]. destruct (Rle_dec 0 1); [|lra]. unfold Rpower. rewrite !ln_exp. replace (1 - -1) with (1 + 1) by ring. ring.
    - f_equal. f_equal. f_equal. unfold xs. cbn [map]. rewrite !dev2. unfold yeojohnson_fn. destruct (Rle_dec 0 (-1)); [lra|]. destruct (Rle_dec 0 1); [|lra]. replace (1 - -1) with (1 + 1) by ring. replace (2 - (2 * 1 - l)) with l by ring. replace (2 * 1 - l) with (2 - l) by ring. field. }
  unfold toR in D. rewrite D. destruct (Req_EM_T 1 1); destruct (Req_EM_T 0 0); try lra; reflexivity.
Qed.
