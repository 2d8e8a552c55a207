(** Real-analysis helpers shared by the proofs about continuous distributions. *)
From Coq Require Import Reals Lia Lra List Bool ZArith.
From Coquelicot Require Import Coquelicot.
From Verif Require Import Values VTac Spec.
Local Open Scope R_scope.
Set Bullet Behavior "Strict Subproofs".

Lemma inside_locally lo hi x : inside lo hi x -> locally x (inside lo hi).
Proof.
  intros [H1 H2]. apply filter_and.
  - apply (open_Rbar_gt' x lo) in H1. exact H1.
  - apply (open_Rbar_lt' x hi) in H2. exact H2.
Qed.

(** From closed forms inside the support to [density_of]. *)
Lemma mk_density (cdf pdf : val -> val) (lo hi : Rbar) (F f : R -> R) :
  (forall x, inside lo hi x -> cdf (Fin x) = Fin (F x)) ->
  (forall x, inside lo hi x -> pdf (Fin x) = Fin (f x)) ->
  (forall x, inside lo hi x -> 0 <= f x) ->
  (forall x, inside lo hi x -> is_derive F x (f x)) ->
  (forall x : R, Rbar_lt x lo \/ Rbar_lt hi x -> pdf (Fin x) = Fin 0) ->
  density_of cdf pdf lo hi.
Proof.
  intros HF Hf Hpos Hd Hout. split; [|exact Hout].
  intros x Hx. exists (f x). split; [auto|]. split; [auto|].
  apply (is_derive_ext_loc F).
  - generalize (inside_locally _ _ _ Hx). apply filter_imp.
    intros t Ht. rewrite HF by exact Ht. reflexivity.
  - auto.
Qed.

Lemma near_lo_proper lo hi : Rbar_lt lo hi -> ProperFilter (near_lo lo).
Proof. destruct lo; simpl; intros; try apply at_right_proper_filter;
  apply Rbar_locally_filter. Qed.
Lemma near_hi_proper lo hi : Rbar_lt lo hi -> ProperFilter (near_hi hi).
Proof. destruct hi; simpl; intros; try apply at_left_proper_filter;
  apply Rbar_locally_filter. Qed.
Lemma near_lo_filter lo : Filter (near_lo lo).
Proof. destruct lo; simpl; try apply Rbar_locally_filter.
  apply within_filter; apply locally_filter. Qed.
Lemma near_hi_filter hi : Filter (near_hi hi).
Proof. destruct hi; simpl; try apply Rbar_locally_filter.
  apply within_filter; apply locally_filter. Qed.

Lemma near_lo_inside lo hi : Rbar_lt lo hi -> near_lo lo (inside lo hi).
Proof.
  intros H. destruct lo as [a| |]; simpl.
  - unfold at_right, within.
    assert (L : locally a (fun y => Rbar_lt y hi)) by (apply (open_Rbar_lt' a hi); exact H).
    revert L; apply filter_imp. intros y Hy Hay. split; simpl; auto.
  - destruct H.
  - destruct hi as [b| |]; simpl.
    + exists b. intros x Hx. split; simpl; auto.
    + exists 0. intros x _. split; simpl; auto.
    + destruct H.
Qed.
Lemma near_hi_inside lo hi : Rbar_lt lo hi -> near_hi hi (inside lo hi).
Proof.
  intros H. destruct hi as [a| |]; simpl.
  - unfold at_left, within.
    assert (L : locally a (fun y => Rbar_lt lo y)) by (apply (open_Rbar_gt' a lo); exact H).
    revert L; apply filter_imp. intros y Hy Hay. split; simpl; auto.
  - destruct lo as [b| |]; simpl.
    + exists b. intros x Hx. split; simpl; auto.
    + destruct H.
    + exists 0. intros x _. split; simpl; auto.
  - destruct lo; destruct H.
Qed.

Lemma inside_between lo hi a b t :
  inside lo hi a -> inside lo hi b -> Rmin a b <= t <= Rmax a b -> inside lo hi t.
Proof.
  intros [A1 A2] [B1 B2] [T1 T2].
  assert (Hmin : inside lo hi (Rmin a b)) by (unfold Rmin; destruct (Rle_dec a b); split; auto).
  assert (Hmax : inside lo hi (Rmax a b)) by (unfold Rmax; destruct (Rle_dec a b); split; auto).
  destruct Hmin as [M1 _], Hmax as [_ M2]. split.
  - destruct lo; simpl in *; auto; lra.
  - destruct hi; simpl in *; auto; lra.
Qed.

(** The fundamental theorem of calculus for an open, possibly infinite, interval. *)
Lemma mk_integral (f F : R -> R) (lo hi : Rbar) (l0 l1 : R) :
  Rbar_lt lo hi ->
  (forall x, inside lo hi x -> is_derive F x (f x)) ->
  (forall x, inside lo hi x -> continuous f x) ->
  filterlim F (near_lo lo) (locally l0) ->
  filterlim F (near_hi hi) (locally l1) ->
  integrates_to f lo hi (l1 - l0).
Proof.
  intros Hlt Hd Hc H0 H1. unfold integrates_to, is_RInt_gen.
  pose proof (near_lo_filter lo) as FL. pose proof (near_hi_filter hi) as FH.
  assert (HL : filterlim (fun ab : R * R => F (snd ab) - F (fst ab))
                 (filter_prod (near_lo lo) (near_hi hi)) (locally (l1 - l0))).
  { unfold Rminus.
    apply (filterlim_comp_2 (F := filter_prod (near_lo lo) (near_hi hi))
             (G := locally l1) (H := locally (-l0))
             (fun ab : R*R => F (snd ab)) (fun ab => - F (fst ab)) Rplus).
    - apply filterlim_comp with (2 := H1). apply filterlim_snd.
    - apply filterlim_comp with (g := Ropp) (G := locally l0).
      + apply filterlim_comp with (2 := H0). apply filterlim_fst.
      + apply (filterlim_opp (V:=R_NormedModule)).
    - apply (filterlim_plus (V:=R_NormedModule)). }
  intros P HP. specialize (HL P HP). unfold filtermapi, filtermap in *.
  assert (HI : filter_prod (near_lo lo) (near_hi hi)
            (fun ab => inside lo hi (fst ab) /\ inside lo hi (snd ab))).
  { apply (Filter_prod _ _ _ (inside lo hi) (inside lo hi)).
    - apply near_lo_inside; auto.
    - apply near_hi_inside; auto.
    - simpl; auto. }
  generalize (filter_and _ _ HL HI). apply filter_imp.
  intros [a b] [HPab [Ha Hb]]. simpl in *.
  exists (F b - F a). split; [|exact HPab].
  apply (is_RInt_derive F f).
  - intros z Hz. apply Hd. exact (inside_between lo hi a b z Ha Hb Hz).
  - intros z Hz. apply Hc. exact (inside_between lo hi a b z Ha Hb Hz).
Qed.

Lemma mk_total_mass (pdf : val -> val) (lo hi : Rbar) (F f : R -> R) :
  Rbar_lt lo hi ->
  (forall x, inside lo hi x -> pdf (Fin x) = Fin (f x)) ->
  (forall x, inside lo hi x -> is_derive F x (f x)) ->
  (forall x, inside lo hi x -> continuous f x) ->
  filterlim F (near_lo lo) (locally 0) ->
  filterlim F (near_hi hi) (locally 1) ->
  total_mass_one pdf lo hi.
Proof.
  intros Hlt Hf Hd Hc H0 H1. unfold total_mass_one.
  replace 1 with (1 - 0) by ring.
  apply (mk_integral (fun t => toR (pdf (Fin t))) F lo hi 0 1);
    [exact Hlt | | | exact H0 | exact H1].
  - intros x Hx. rewrite Hf by auto. simpl. auto.
  - intros x Hx. apply (continuous_ext_loc _ f).
    + generalize (inside_locally _ _ _ Hx). apply filter_imp. intros t Ht.
      rewrite Hf by auto. reflexivity.
    + auto.
Qed.

(** Elementary inequalities. *)
Lemma exp_gt_1 x : 0 < x -> 1 < exp x.
Proof. intros. rewrite <- exp_0. apply exp_increasing; auto. Qed.
Lemma exp_lt_1 x : x < 0 -> exp x < 1.
Proof. intros. rewrite <- exp_0. apply exp_increasing; auto. Qed.
Lemma exp_le_1 x : x <= 0 -> exp x <= 1.
Proof. intros [H| ->]; [left; apply exp_lt_1; auto|rewrite exp_0; lra]. Qed.
Lemma exp_ge_1 x : 0 <= x -> 1 <= exp x.
Proof. intros [H| <-]; [left; apply exp_gt_1; auto|rewrite exp_0; lra]. Qed.
Lemma exp_le_compat x y : x <= y -> exp x <= exp y.
Proof. intros [H| ->]; [left; apply exp_increasing; auto|lra]. Qed.
Lemma ln_pos x : 1 < x -> 0 < ln x.
Proof. intros. rewrite <- ln_1. apply ln_increasing; lra. Qed.
Lemma ln_neg x : 0 < x < 1 -> ln x < 0.
Proof. intros. rewrite <- ln_1. apply ln_increasing; lra. Qed.
Lemma ln_le_compat x y : 0 < x -> x <= y -> ln x <= ln y.
Proof. intros Hx [H| ->]; [left; apply ln_increasing; auto|lra]. Qed.
Lemma exp_ineq x : 1 + x <= exp x.
Proof. destruct (Req_dec x 0) as [->|H]; [rewrite exp_0; lra|left; apply exp_ineq1; auto]. Qed.
Lemma ln_ineq x : 0 < x -> ln x <= x - 1.
Proof. intros H. pose proof (exp_ineq (ln x)). rewrite exp_ln in H0 by auto. lra. Qed.
Lemma Rpower_pos x y : 0 < Rpower x y.
Proof. apply exp_pos. Qed.
Lemma sqrt_gt_1 x : 1 < x -> 1 < sqrt x.
Proof. intros. rewrite <- sqrt_1. apply sqrt_lt_1; lra. Qed.
Lemma div_gt_1 x y : 0 < y -> y < x -> 1 < x / y.
Proof. intros. apply Rmult_lt_reg_r with y; auto. unfold Rdiv. rewrite Rmult_assoc, Rinv_l; lra. Qed.
Lemma div_lt_1 x y : 0 < y -> x < y -> x / y < 1.
Proof. intros. apply Rmult_lt_reg_r with y; auto. unfold Rdiv. rewrite Rmult_assoc, Rinv_l; lra. Qed.
Lemma Rdiv_pos x y : 0 < x -> 0 < y -> 0 < x / y.
Proof. intros. apply Rdiv_lt_0_compat; auto. Qed.
Lemma Rdiv_neg x y : x < 0 -> 0 < y -> x / y < 0.
Proof. intros. assert (0 < / y) by (apply Rinv_0_lt_compat; auto). unfold Rdiv. nra. Qed.
Lemma Rdiv_nonneg x y : 0 <= x -> 0 < y -> 0 <= x / y.
Proof. intros. assert (0 < / y) by (apply Rinv_0_lt_compat; auto). unfold Rdiv. nra. Qed.
Lemma Rpower_1_l y : Rpower 1 y = 1.
Proof. unfold Rpower. rewrite ln_1, Rmult_0_r. apply exp_0. Qed.
Lemma ln_Rpower x y : ln (Rpower x y) = y * ln x.
Proof. unfold Rpower. apply ln_exp. Qed.
Lemma ln_div x y : 0 < x -> 0 < y -> ln (x / y) = ln x - ln y.
Proof.
  intros. unfold Rdiv. rewrite ln_mult; auto; [|apply Rinv_0_lt_compat; auto].
  rewrite ln_Rinv by auto. ring.
Qed.
Lemma ex_derive_cont (f : R -> R) x : ex_derive f x -> continuous f x.
Proof. apply (ex_derive_continuous (V := R_NormedModule)). Qed.
Lemma mul_np a b : a <= 0 -> 0 < b -> a * b <= 0.
Proof. intros; nra. Qed.
Lemma mul_pn a b : 0 < a -> b <= 0 -> a * b <= 0.
Proof. intros; nra. Qed.
Lemma mul_zp a b : 0 <= a -> 0 < b -> 0 <= a * b.
Proof. intros; nra. Qed.
Lemma mul_pz a b : 0 < a -> 0 <= b -> 0 <= a * b.
Proof. intros; nra. Qed.
Lemma div_np a b : a <= 0 -> 0 < b -> a / b <= 0.
Proof. intros. unfold Rdiv. apply mul_np; auto. apply Rinv_0_lt_compat; auto. Qed.
Lemma exp_minus x y : exp (x - y) = exp x / exp y.
Proof. unfold Rminus, Rdiv. rewrite exp_plus, exp_Ropp. reflexivity. Qed.

(** Real powers. *)
Lemma is_derive_Rpower x k : 0 < x -> is_derive (fun x => Rpower x k) x (k * Rpower x (k - 1)).
Proof.
  intros H. unfold Rpower. auto_derive; auto.
  replace ((k - 1) * ln x) with (k * ln x + - ln x) by ring. rewrite exp_plus, exp_Ropp, exp_ln by auto. field. lra.
Qed.
Lemma Rpower_inv x k : 0 < x -> k <> 0 -> Rpower (Rpower x (1 / k)) k = x.
Proof. intros H K. rewrite Rpower_mult. replace (1 / k * k) with 1 by (field; auto). apply Rpower_1; auto. Qed.
Lemma Rpower_inv' x k : 0 < x -> k <> 0 -> Rpower (Rpower x k) (1 / k) = x.
Proof. intros H K. rewrite Rpower_mult. replace (k * (1 / k)) with 1 by (field; auto). apply Rpower_1; auto. Qed.
Lemma Rpower_gt_1 x k : 1 < x -> 0 < k -> 1 < Rpower x k.
Proof. intros H K. unfold Rpower. apply exp_gt_1. apply Rmult_lt_0_compat; auto. apply ln_pos; auto. Qed.
Lemma Rpower_lt_1 x k : 0 < x < 1 -> 0 < k -> Rpower x k < 1.
Proof. intros H K. unfold Rpower. apply exp_lt_1. pose proof (ln_neg x H). nra. Qed.
Lemma Rpower_gt_1_neg x k : 0 < x < 1 -> k < 0 -> 1 < Rpower x k.
Proof. intros H K. unfold Rpower. apply exp_gt_1. pose proof (ln_neg x H). nra. Qed.
Lemma Rpower_lt_1_neg x k : 1 < x -> k < 0 -> Rpower x k < 1.
Proof. intros H K. unfold Rpower. apply exp_lt_1. pose proof (ln_pos x H). nra. Qed.
Lemma Rpower_base_mult x y k : 0 < x -> 0 < y -> Rpower (x * y) k = Rpower x k * Rpower y k.
Proof. intros. unfold Rpower. rewrite ln_mult, Rmult_plus_distr_l, exp_plus; auto. Qed.
Lemma Rpower_base_div x y k : 0 < x -> 0 < y -> Rpower (x / y) k = Rpower x k / Rpower y k.
Proof. intros. unfold Rpower. rewrite ln_div by auto. rewrite <- exp_minus. f_equal. ring. Qed.
Lemma Rpower_minus_1 x k : 0 < x -> Rpower x (k - 1) = Rpower x k / x.
Proof. intros H. unfold Rpower. replace ((k - 1) * ln x) with (k * ln x - ln x) by ring. rewrite exp_minus, exp_ln; auto. Qed.
Lemma is_intb_IZR z : is_intb (IZR z) = true.
Proof.
  unfold is_intb, Reqb. destruct (base_Int_part (IZR z)) as [H1 H2].
  assert (Int_part (IZR z) = z).
  { apply le_IZR in H1. assert (IZR (z - 1) < IZR (Int_part (IZR z))) by (rewrite minus_IZR; lra). apply lt_IZR in H. lia. }
  rewrite H. destruct (Req_EM_T (IZR z) (IZR z)) as [E|E]; [auto|destruct E; auto].
Qed.
Lemma is_intb_half d (k : positive) : d = 2 / IZR (Zpos k) -> is_intb (2 * (-1 / d)) = true.
Proof.
  intros ->. assert (0 < IZR (Zpos k)) by (apply IZR_lt; lia).
  replace (2 * (-1 / (2 / IZR (Zpos k)))) with (IZR (Zneg k)). { apply is_intb_IZR. }
  change (Zneg k) with (- Zpos k)%Z. rewrite opp_IZR. field. lra.
Qed.
