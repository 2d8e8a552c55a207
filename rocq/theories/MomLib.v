(** Improper integrals: extensionality, linearity, change of location and scale. *)
From Coq Require Import Reals Lra List Bool ZArith.
From Coquelicot Require Import Coquelicot.
From Verif Require Import Values VTac Spec RLib DistLib DistLS.
Local Open Scope R_scope.
Set Bullet Behavior "Strict Subproofs".

Section Int.
Variables (lo hi : Rbar).
Hypothesis LT : Rbar_lt lo hi.

Lemma integrates_ext f g v : (forall x, inside lo hi x -> f x = g x) ->
  integrates_to f lo hi v -> integrates_to g lo hi v.
Proof.
  intros E. pose proof (near_lo_filter lo). pose proof (near_hi_filter hi).
  apply (is_RInt_gen_ext f g).
  apply (Filter_prod _ _ _ (inside lo hi) (inside lo hi)).
  - apply near_lo_inside; auto.
  - apply near_hi_inside; auto.
  - simpl. intros a b A B x Hx. apply E. apply (inside_between lo hi a b); auto. lra.
Qed.
Lemma integrates_plus f g u v : integrates_to f lo hi u -> integrates_to g lo hi v ->
  integrates_to (fun x => f x + g x) lo hi (u + v).
Proof.
  pose proof (near_lo_filter lo). pose proof (near_hi_filter hi).
  intros A B. exact (is_RInt_gen_plus f g u v A B).
Qed.
Lemma integrates_scal c f u : integrates_to f lo hi u -> integrates_to (fun x => c * f x) lo hi (c * u).
Proof.
  pose proof (near_lo_filter lo). pose proof (near_hi_filter hi).
  intros A. exact (is_RInt_gen_scal f c u A).
Qed.
Lemma integrates_unique f u v : integrates_to f lo hi u -> integrates_to f lo hi v -> u = v.
Proof.
  pose proof (near_lo_proper lo hi LT). pose proof (near_hi_proper lo hi LT).
  intros A B. transitivity (RInt_gen f (near_lo lo) (near_hi hi)).
  - symmetry. apply (is_RInt_gen_unique (V := R_CompleteNormedModule)). auto.
  - apply (is_RInt_gen_unique (V := R_CompleteNormedModule)). auto.
Qed.
Lemma std_mass F f Q : std lo hi F f Q -> integrates_to f lo hi 1.
Proof.
  intros [SM C HQ]. replace 1 with (1 - 0) by ring. apply (mk_integral f F); auto.
  - apply (sm_der _ _ _ _ SM).
  - apply (lim_lo lo hi F f Q SM HQ).
  - apply (lim_hi lo hi F f Q SM HQ).
Qed.
End Int.

Section LS.
Variables (l s : R).
Hypothesis S : 0 < s.
Lemma back_lo b : filterlim (fun x => (x - l) / s) (near_lo (ls l s b)) (near_lo b).
Proof.
  destruct b as [r| |]; simpl.
  - intros P [e He]. unfold filtermap, at_right, within.
    exists (mkposreal (e * s) (Rmult_lt_0_compat _ _ (cond_pos e) S)). intros y Hy Hlt.
    assert (E : (y - l) / s - r = (y - (l + s * r)) / s) by (field; lra).
    assert (P0 : 0 < (y - l) / s - r) by (rewrite E; apply Rdiv_pos; lra).
    apply He; [|lra]. unfold ball in *; simpl in *; unfold AbsRing_ball, abs, minus, plus, opp in *; simpl in *.
    change ((y - l) / s + - r) with ((y - l) / s - r). rewrite Rabs_right by lra. rewrite E.
    rewrite Rabs_right in Hy by lra. apply (Rmult_lt_reg_r s); auto. unfold Rdiv. rewrite Rmult_assoc, Rinv_l; lra.
  - intros P [M HM]. exists (l + s * M). intros x Hx. apply HM.
    apply (Rmult_lt_reg_r s); auto. unfold Rdiv. rewrite Rmult_assoc, Rinv_l; lra.
  - intros P [M HM]. exists (l + s * M). intros x Hx. apply HM.
    apply (Rmult_lt_reg_r s); auto. unfold Rdiv. rewrite Rmult_assoc, Rinv_l; lra.
Qed.
Lemma back_hi b : filterlim (fun x => (x - l) / s) (near_hi (ls l s b)) (near_hi b).
Proof.
  destruct b as [r| |]; simpl.
  - intros P [e He]. unfold filtermap, at_left, within.
    exists (mkposreal (e * s) (Rmult_lt_0_compat _ _ (cond_pos e) S)). intros y Hy Hlt.
    assert (E : (y - l) / s - r = (y - (l + s * r)) / s) by (field; lra).
    assert (P0 : (y - l) / s - r < 0) by (rewrite E; apply Rdiv_neg; lra).
    apply He; [|lra]. unfold ball in *; simpl in *; unfold AbsRing_ball, abs, minus, plus, opp in *; simpl in *.
    change ((y - l) / s + - r) with ((y - l) / s - r). rewrite Rabs_left by lra. rewrite E.
    rewrite Rabs_left in Hy by lra. apply (Rmult_lt_reg_r s); auto.
    replace (- ((y - (l + s * r)) / s) * s) with (- (y - (l + s * r))) by (field; lra). lra.
  - intros P [M HM]. exists (l + s * M). intros x Hx. apply HM.
    apply (Rmult_lt_reg_r s); auto. unfold Rdiv. rewrite Rmult_assoc, Rinv_l; lra.
  - intros P [M HM]. exists (l + s * M). intros x Hx. apply HM.
    apply (Rmult_lt_reg_r s); auto. unfold Rdiv. rewrite Rmult_assoc, Rinv_l; lra.
Qed.
(** Change of variable t = l + s z. *)
Lemma ls_integral lo hi g v : integrates_to g lo hi v ->
  integrates_to (fun x => g ((x - l) / s) / s) (ls l s lo) (ls l s hi) v.
Proof.
  intros H P HP. specialize (H P HP). unfold filtermapi in *. destruct H as [A B HA HB HAB].
  apply (Filter_prod _ _ _ (fun x => A ((x - l) / s)) (fun x => B ((x - l) / s))).
  - apply (back_lo lo A HA).
  - apply (back_hi hi B HB).
  - intros a b Ha Hb. destruct (HAB _ _ Ha Hb) as [y [Hy Py]]. exists y. split; auto. simpl in *.
    apply (is_RInt_ext (fun x => scal (/ s) (g (/ s * x + (- l / s))))).
    + intros x _. unfold scal; simpl; unfold mult; simpl. replace (/ s * x + - l / s) with ((x - l) / s) by (field; lra).
      field. lra.
    + apply (is_RInt_comp_lin g). 
      replace (/ s * a + - l / s) with ((a - l) / s) by (field; lra).
      replace (/ s * b + - l / s) with ((b - l) / s) by (field; lra). auto.
Qed.
End LS.

(** Moments of a location-scale family from those of the standard member. *)
Section Mom.
Variables (lo hi : Rbar) (F f Q : R -> R).
Hypothesis ST : std lo hi F f Q.
Variables (l s : R) (pdf : val -> val) (lo' hi' : Rbar).
Hypothesis S : 0 < s.
Hypothesis ELO : lo' = ls l s lo.
Hypothesis EHI : hi' = ls l s hi.
Hypothesis PDF : forall x, inside lo' hi' x -> pdf (Fin x) = Fin (f ((x - l) / s) / s).
Let LT : Rbar_lt lo hi := sm_lt _ _ _ _ (st_smooth _ _ _ _ _ ST).
Lemma LT' : Rbar_lt lo' hi'.
Proof. subst. pose proof LT. destruct lo, hi; simpl in *; auto. nra. Qed.
Lemma ls_expect g v (h : R -> R) : integrates_to (fun z => g z * f z) lo hi v ->
  (forall x, h x = g ((x - l) / s)) ->
  integrates_to (fun t => h t * toR (pdf (Fin t))) lo' hi' v.
Proof.
  intros I E. apply (ls_integral l s S) in I. rewrite <- ELO, <- EHI in I.
  apply (integrates_ext lo' hi' LT' (fun x => g ((x - l) / s) * f ((x - l) / s) / s)); auto.
  intros x Hx. rewrite PDF by auto. rewrite E. simpl. unfold Rdiv. ring.
Qed.
Lemma ls_mean m1 : integrates_to (fun z => z * f z) lo hi m1 ->
  integrates_to (fun t => t * toR (pdf (Fin t))) lo' hi' (l + s * m1).
Proof.
  intros I. apply (ls_expect (fun z => l + s * z)); [|intros x; field; lra].
  replace (l + s * m1) with (l * 1 + s * m1) by ring.
  apply (integrates_ext lo hi LT (fun z => l * f z + s * (z * f z))); [intros; ring|].
  apply integrates_plus; apply integrates_scal; auto. apply (std_mass lo hi LT F f Q ST).
Qed.
Lemma ls_var m1 m2 : integrates_to (fun z => z * f z) lo hi m1 -> integrates_to (fun z => z ^ 2 * f z) lo hi m2 ->
  integrates_to (fun t => (t - (l + s * m1)) ^ 2 * toR (pdf (Fin t))) lo' hi' (s ^ 2 * (m2 - m1 ^ 2)).
Proof.
  intros I1 I2. apply (ls_expect (fun z => (s * (z - m1)) ^ 2)); [|intros x; field; lra].
  replace (s ^ 2 * (m2 - m1 ^ 2)) with (s ^ 2 * m2 + (- 2 * s ^ 2 * m1) * m1 + (s ^ 2 * m1 ^ 2) * 1) by ring.
  apply (integrates_ext lo hi LT (fun z => s ^ 2 * (z ^ 2 * f z) + (- 2 * s ^ 2 * m1) * (z * f z) + (s ^ 2 * m1 ^ 2) * f z)); [intros; ring|].
  apply integrates_plus; [apply integrates_plus|]; apply integrates_scal; auto. apply (std_mass lo hi LT F f Q ST).
Qed.
Lemma ls_entropy h : integrates_to (fun z => - (f z * ln (f z))) lo hi h ->
  integrates_to (fun t => - (toR (pdf (Fin t)) * ln (toR (pdf (Fin t))))) lo' hi' (ln s + h).
Proof.
  intros I.
  apply (integrates_ext lo' hi' LT' (fun t => (ln s - ln (f ((t - l) / s))) * toR (pdf (Fin t)))).
  - intros x Hx. rewrite PDF by auto. simpl. rewrite ln_div; auto; [ring|].
    apply (sm_pos _ _ _ _ (st_smooth _ _ _ _ _ ST)). subst. apply ls_inside in Hx; auto.
  - apply (ls_expect (fun z => ln s - ln (f z))); auto.
    replace (ln s + h) with (ln s * 1 + h) by ring.
    apply (integrates_ext lo hi LT (fun z => ln s * f z + - (f z * ln (f z)))); [intros; ring|].
    apply integrates_plus; auto. apply integrates_scal. apply (std_mass lo hi LT F f Q ST).
Qed.
Lemma ls_mean_is m m1 : integrates_to (fun z => z * f z) lo hi m1 -> m = Fin (l + s * m1) -> mean_is pdf lo' hi' m.
Proof. intros I E. exists (l + s * m1). split; auto. apply ls_mean; auto. Qed.
Lemma ls_var_is m v m1 m2 : integrates_to (fun z => z * f z) lo hi m1 -> integrates_to (fun z => z ^ 2 * f z) lo hi m2 ->
  m = Fin (l + s * m1) -> v = Fin (s ^ 2 * (m2 - m1 ^ 2)) -> var_is pdf lo' hi' m v.
Proof. intros I1 I2 E V. exists (l + s * m1), (s ^ 2 * (m2 - m1 ^ 2)). split; [|split]; auto. apply ls_var; auto. Qed.
Lemma ls_entropy_is e h : integrates_to (fun z => - (f z * ln (f z))) lo hi h -> e = Fin (ln s + h) -> entropy_is pdf lo' hi' e.
Proof. intros I E. exists (ln s + h). split; auto. apply ls_entropy; auto. Qed.
End Mom.

(** Moments about the mean from the raw moments of a density [f]. *)
Section Raw.
Variables (lo hi : Rbar) (pdf : val -> val) (f : R -> R) (M : nat -> R) (N : nat).
Hypothesis LT : Rbar_lt lo hi.
Hypothesis PDF : forall x : R, inside lo hi x -> pdf (Fin x) = Fin (f x).
Hypothesis MOM : forall n, (n <= N)%nat -> integrates_to (fun x => x ^ n * f x) lo hi (M n).
Hypothesis M0 : M 0%nat = 1.
Definition mvar := M 2%nat - M 1%nat ^ 2.
Definition mcen3 := M 3%nat - 3 * M 1%nat * M 2%nat + 2 * M 1%nat ^ 3.
Definition mcen4 := M 4%nat - 4 * M 1%nat * M 3%nat + 6 * M 1%nat ^ 2 * M 2%nat - 3 * M 1%nat ^ 4.
Lemma raw_ext (g : R -> R) h v : (forall x, inside lo hi x -> g x = h x * f x) -> integrates_to g lo hi v ->
  integrates_to (fun t => h t * toR (pdf (Fin t))) lo hi v.
Proof. intros E. apply integrates_ext; auto. intros x Hx. rewrite PDF, E by auto. auto. Qed.
Lemma raw_mean : (1 <= N)%nat -> integrates_to (fun t => t * toR (pdf (Fin t))) lo hi (M 1%nat).
Proof. intros H. apply (raw_ext (fun x => x ^ 1 * f x)); [intros; ring|]. apply MOM; auto. Qed.
Lemma raw_mean_is m : (1 <= N)%nat -> m = Fin (M 1%nat) -> mean_is pdf lo hi m.
Proof. intros H ->. eexists; split; [reflexivity|]. apply raw_mean; auto. Qed.
Lemma raw_moment_is n m : (n <= N)%nat -> m = Fin (M n) -> moment_is pdf lo hi n m.
Proof. intros H ->. eexists; split; [reflexivity|]. apply (raw_ext (fun x => x ^ n * f x)); [intros; ring|]. apply MOM; auto. Qed.
Lemma raw_central2 : (2 <= N)%nat -> central_is pdf lo hi 2 (M 1%nat) mvar.
Proof.
  intros H. unfold mvar.
  replace (M 2%nat - M 1%nat ^ 2) with (M 2%nat + (-2 * M 1%nat * M 1%nat + M 1%nat ^ 2 * M 0%nat)) by (rewrite M0; ring).
  apply (raw_ext (fun x => x ^ 2 * f x + ((-2 * M 1%nat) * (x ^ 1 * f x) + M 1%nat ^ 2 * (x ^ 0 * f x)))); [intros; ring|].
  apply integrates_plus; [apply MOM; auto|]. apply integrates_plus; apply integrates_scal; apply MOM; auto with arith.
Qed.
Lemma raw_central3 : (3 <= N)%nat -> central_is pdf lo hi 3 (M 1%nat) mcen3.
Proof.
  intros H. unfold mcen3.
  replace (M 3%nat - 3 * M 1%nat * M 2%nat + 2 * M 1%nat ^ 3) with
    (M 3%nat + ((-3 * M 1%nat) * M 2%nat + ((3 * M 1%nat ^ 2) * M 1%nat + (- M 1%nat ^ 3) * M 0%nat))) by (rewrite M0; ring).
  apply (raw_ext (fun x => x ^ 3 * f x + ((-3 * M 1%nat) * (x ^ 2 * f x) + ((3 * M 1%nat ^ 2) * (x ^ 1 * f x) + (- M 1%nat ^ 3) * (x ^ 0 * f x))))); [intros; ring|].
  assert (L : forall k, (k <= 3)%nat -> (k <= N)%nat) by (intros; apply (PeanoNat.Nat.le_trans _ 3); auto).
  apply integrates_plus; [apply MOM; auto|]. apply integrates_plus; [apply integrates_scal, MOM; auto|].
  apply integrates_plus; apply integrates_scal; apply MOM; auto with arith.
Qed.
Lemma raw_central4 : (4 <= N)%nat -> central_is pdf lo hi 4 (M 1%nat) mcen4.
Proof.
  intros H. unfold mcen4.
  replace (M 4%nat - 4 * M 1%nat * M 3%nat + 6 * M 1%nat ^ 2 * M 2%nat - 3 * M 1%nat ^ 4) with
    (M 4%nat + ((-4 * M 1%nat) * M 3%nat + ((6 * M 1%nat ^ 2) * M 2%nat + ((-4 * M 1%nat ^ 3) * M 1%nat + M 1%nat ^ 4 * M 0%nat)))) by (rewrite M0; ring).
  apply (raw_ext (fun x => x ^ 4 * f x + ((-4 * M 1%nat) * (x ^ 3 * f x) + ((6 * M 1%nat ^ 2) * (x ^ 2 * f x) +
    ((-4 * M 1%nat ^ 3) * (x ^ 1 * f x) + M 1%nat ^ 4 * (x ^ 0 * f x)))))); [intros; ring|].
  assert (L : forall k, (k <= 4)%nat -> (k <= N)%nat) by (intros; apply (PeanoNat.Nat.le_trans _ 4); auto).
  apply integrates_plus; [apply MOM; auto|]. apply integrates_plus; [apply integrates_scal, MOM; auto|].
  apply integrates_plus; [apply integrates_scal, MOM; auto|].
  apply integrates_plus; apply integrates_scal; apply MOM; auto with arith.
Qed.
Lemma raw_var_is m v : (2 <= N)%nat -> m = Fin (M 1%nat) -> v = Fin mvar -> var_is pdf lo hi m v.
Proof. intros H -> ->. eexists _, _. split; [reflexivity|split; [reflexivity|]]. apply raw_central2; auto. Qed.
Lemma raw_skewness_is k : (3 <= N)%nat -> 0 < mvar -> k = Fin (mcen3 / (mvar * sqrt mvar)) -> skewness_is pdf lo hi k.
Proof.
  intros H V ->. exists (M 1%nat), mvar, mcen3.
  split; [apply raw_mean|split; [|split; [apply raw_central2|split; [apply raw_central3|]]]]; auto;
    apply (PeanoNat.Nat.le_trans _ 3); auto.
Qed.
Lemma raw_kurtosis_is k : (4 <= N)%nat -> 0 < mvar -> k = Fin (mcen4 / mvar ^ 2 - 3) -> kurtosis_is pdf lo hi k.
Proof.
  intros H V ->. exists (M 1%nat), mvar, mcen4.
  split; [apply raw_mean|split; [|split; [apply raw_central2|split; [apply raw_central4|]]]]; auto;
    apply (PeanoNat.Nat.le_trans _ 4); auto.
Qed.
End Raw.
