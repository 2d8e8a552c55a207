(** Proofs about M_nct. *)
From Coq Require Import Reals Lra Lia List ZArith Arith.
From Coquelicot Require Import Coquelicot.
From Verif Require Import Values VTac Spec SpecStat SFun RLib LimLib MomLib DistLib IntLib SubLib GammaLib GammaLib2 DiscLib M_common M_sfun M_nct.
From Verif Require P_logb.
Import ListNotations.
Local Open Scope R_scope.
Set Bullet Behavior "Strict Subproofs".

(** Value of the polynomial with coefficients [c], lowest power first. *)
Fixpoint peval (c : list Z) (x : R) : R := match c with [] => 0 | a :: c => IZR a + x * peval c x end.
Lemma peval_app a b x : peval (a ++ b) x = peval a x + x ^ length a * peval b x.
Proof. induction a as [|h a IH]; simpl; [lra|]. rewrite IH. ring. Qed.
Lemma polyval_ok cs : forall acc x, polyval (Fin acc) cs (Fin x) = Fin (x ^ length cs * acc + peval (rev cs) x).
Proof.
  induction cs as [|c cs IH]; intros acc x; cbn [polyval].
  - f_equal. simpl. ring.
  - cbn [vmul vadd]. rewrite IH. f_equal. cbn [length rev]. rewrite peval_app, rev_length. simpl. ring.
Qed.
Lemma polyval_rev cs x : polyval (Fin 0) (rev cs) (Fin x) = Fin (peval cs x).
Proof. rewrite polyval_ok, rev_involutive. f_equal. ring. Qed.

Lemma peval_nsum c x : peval c x = nsum (fun i => IZR (nth i c 0%Z) * x ^ i) (length c).
Proof.
  induction c as [|a c IH]; [reflexivity|]. cbn [peval length]. rewrite nsum_first. rewrite IH. cbn [nth pow]. rewrite Rmult_1_r. f_equal.
  rewrite <- nsum_scal. apply nsum_ext. intros i _. ring.
Qed.
(** Coefficients of one step. *)
Lemma nth_zipadd a b i : length a = length b -> (i < length a)%nat -> nth i (map (fun '(a, b) => (a + b)%Z) (combine a b)) 0%Z = (nth i a 0 + nth i b 0)%Z.
Proof.
  revert b i. induction a as [|x a IH]; intros [|y b] i L H; simpl in *; try lia. destruct i; auto. apply IH; lia.
Qed.
Lemma nth_enum : forall l s i, nth i (map (fun '(i, j) => (i * j)%Z) (combine (map Z.of_nat (seq s (length l))) l)) 0%Z = (Z.of_nat (s + i) * nth i l 0)%Z.
Proof.
  induction l as [|x l IH]; intros s i; cbn [length seq map combine]; [destruct i; cbn [nth]; lia|]. destruct i; cbn [nth]; [f_equal; lia|]. rewrite IH. f_equal. lia.
Qed.
Definition cf (c : list Z) (i : nat) : Z := nth i c 0%Z.
Definition shift (c : list Z) (i : nat) : Z := match i with O => 0%Z | S j => cf c j end.
Lemma tl_nth c i : nth i (tl c) 0%Z = nth (S i) c 0%Z. Proof. destruct c; [destruct i|]; reflexivity. Qed.
Lemma nth_firstn (l : list Z) n i : (i < n)%nat -> nth i (firstn n l) 0%Z = nth i l 0%Z.
Proof. revert n i. induction l as [|a l IH]; intros [|n] [|i] H; try lia; auto. simpl. apply IH. lia. Qed.
(** Invariants: degree [k], leading coefficient 1, parity. *)
Definition inv (k : nat) (c : list Z) := length c = S k /\ cf c k = 1%Z /\ forall i, Nat.Odd (i + k) -> cf c i = 0%Z.
Lemma cf_out c i : (length c <= i)%nat -> cf c i = 0%Z. Proof. intros. apply nth_overflow. auto. Qed.
Lemma step_cf k c i : (1 <= k)%nat -> inv k c -> length (poly_step c) = S (S k) /\ cf (poly_step c) i = (Z.of_nat (S i) * cf c (S i) + shift c i)%Z.
Proof.
  intros K [L [LC PAR]]. unfold poly_step.
  set (d := map (fun '(i, j) => (i * j)%Z) (combine (map Z.of_nat (seq 1 (length (tl c)))) (tl c))).
  assert (LT : length (tl c) = k) by (destruct c; simpl in *; lia).
  assert (Ld : length d = k) by (unfold d; rewrite map_length, combine_length, map_length, seq_length, LT; lia).
  assert (Lf : length (0%Z :: firstn (length c - 2) c) = k) by (simpl; rewrite firstn_length, L; lia).
  assert (Lm : length (map (fun '(a, b) => (a + b)%Z) (combine d (0%Z :: firstn (length c - 2) c))) = k) by (rewrite map_length, combine_length, Ld, Lf; lia).
  split; [rewrite app_length, Lm; simpl; lia|]. unfold cf.
  destruct (Nat.lt_ge_cases i k) as [H|H].
  - rewrite app_nth1 by lia. rewrite nth_zipadd by lia. unfold d. rewrite nth_enum, tl_nth. rewrite Nat.add_1_l. f_equal.
    destruct i; [reflexivity|]. cbn [nth shift]. unfold cf. apply nth_firstn. lia.
  - rewrite app_nth2 by lia. rewrite Lm. rewrite (nth_overflow c) by lia. rewrite Z.mul_0_r, Z.add_0_l.
    destruct i; [lia|]. cbn [shift]. destruct (Nat.eq_dec (S i) k) as [E|N].
    + replace (S i - k)%nat with O by lia. cbn [nth]. symmetry. apply PAR. exists i. lia.
    + destruct (Nat.eq_dec i k) as [->|N'].
      * replace (S k - k)%nat with 1%nat by lia. cbn [nth]. symmetry. exact LC.
      * replace (S i - k)%nat with (S (S (i - k - 1))) by lia. cbn [nth]. rewrite cf_out by lia. destruct (i - k - 1)%nat; reflexivity.
Qed.
Lemma coeffs_S k : (1 <= k)%nat -> poly_coeffs (S k) = poly_step (poly_coeffs k).
Proof. destruct k; [lia|]. reflexivity. Qed.
Lemma coeffs_inv k : inv k (poly_coeffs k) /\ length (poly_coeffs (S k)) = S (S k) /\ (forall i, cf (poly_coeffs (S k)) i = (Z.of_nat (S i) * cf (poly_coeffs k) (S i) + shift (poly_coeffs k) i)%Z).
Proof.
  induction k as [|k [I [L IH]]].
  - split; [split; [reflexivity|split; [reflexivity|]]|split; [reflexivity|]].
    + intros i O. destruct i as [|i]; [destruct O; lia|]. simpl. destruct i; reflexivity.
    + intros [|[|i]]; unfold cf; simpl; try reflexivity; try (destruct i; lia).
  - assert (II : inv (S k) (poly_coeffs (S k))).
    { destruct I as [L0 [LC PAR]]. split; [exact L|]. split.
      - rewrite IH. cbn [shift]. rewrite cf_out by lia. rewrite LC. lia.
      - intros i O. rewrite IH. rewrite PAR by (destruct O as [m O]; exists m; lia). destruct i; cbn [shift]; [lia|]. rewrite PAR by (destruct O as [m O]; exists (m - 1)%nat; lia). lia. }
    split; [exact II|]. rewrite (coeffs_S (S k)) by lia. split; [apply (step_cf (S k) _ O); auto; lia|]. intros i. apply (step_cf (S k)); auto. lia.
Qed.
Notation P k := (peval (poly_coeffs k)).
Lemma P_sum k x m : (k < m)%nat -> P k x = nsum (fun i => IZR (cf (poly_coeffs k) i) * x ^ i) m.
Proof.
  intros H. destruct (proj1 (coeffs_inv k)) as [L _]. rewrite peval_nsum, L. induction m as [|m IH]; [lia|]. destruct (Nat.eq_dec m k) as [->|]; [reflexivity|]. cbn [nsum]. rewrite <- IH by lia. rewrite cf_out by lia. rewrite Rmult_0_l, Rplus_0_r. reflexivity.
Qed.
(** The derivative of the polynomial, and the recurrence. *)
Definition P' k x := nsum (fun i => INR (S i) * IZR (cf (poly_coeffs k) (S i)) * x ^ i) k.
Lemma nsum_derive (f f' : nat -> R -> R) x n : (forall i, (i < n)%nat -> is_derive (f i) x (f' i x)) -> is_derive (fun x => nsum (fun i => f i x) n) x (nsum (fun i => f' i x) n).
Proof.
  induction n as [|n IH]; intros H; cbn [nsum]; [apply (is_derive_const (0:R))|]. apply (is_derive_plus (fun x => nsum (fun i => f i x) n) (f n)); [apply IH; intros; apply H; lia|apply H; lia].
Qed.
Lemma P_der k x : is_derive (P k) x (P' k x).
Proof.
  apply (is_derive_ext (fun x => nsum (fun i => IZR (cf (poly_coeffs k) i) * x ^ i) (S k))); [intros; symmetry; apply P_sum; lia|].
  apply (is_derive_ext (fun x => IZR (cf (poly_coeffs k) 0) + nsum (fun i => IZR (cf (poly_coeffs k) (S i)) * x ^ S i) k)).
  { intros t. rewrite nsum_first. cbn [pow]. ring_simplify. reflexivity. }
  evar_last; [apply (is_derive_plus (fun _ => IZR (cf (poly_coeffs k) 0))); [apply is_derive_const|]|].
  - apply (nsum_derive (fun i x => IZR (cf (poly_coeffs k) (S i)) * x ^ S i) (fun i x => INR (S i) * IZR (cf (poly_coeffs k) (S i)) * x ^ i)).
    intros i _. auto_derive; auto. change (match i with O => 1 | S _ => INR i + 1 end) with (INR (S i)). change (x : R) with x. generalize (x ^ i : R). intros y. ring.
  - unfold P'. unfold plus, zero; simpl. ring.
Qed.
Lemma P_S k x : P (S k) x = x * P k x + P' k x.
Proof.
  destruct (coeffs_inv k) as [_ [_ R]]. rewrite (P_sum (S k) x (S (S k))) by lia. rewrite (nsum_ext _ (fun i => INR (S i) * IZR (cf (poly_coeffs k) (S i)) * x ^ i + IZR (shift (poly_coeffs k) i) * x ^ i)).
  - rewrite nsum_plus. rewrite Rplus_comm. f_equal.
    + rewrite nsum_first. cbn [shift]. rewrite (P_sum k x (S k)) by lia. rewrite <- nsum_scal. rewrite Rmult_0_l, Rplus_0_l. apply nsum_ext. intros i _. cbn [shift pow]. ring.
    + unfold P'. cbn [nsum]. destruct (proj1 (coeffs_inv k)) as [L _]. rewrite !cf_out by lia. ring.
  - intros i _. rewrite R. rewrite plus_IZR, mult_IZR, <- INR_IZR_INZ. ring.
Qed.
Lemma derivs k x : is_derive_n (fun x => exp (x ^ 2 / 2)) k x (exp (x ^ 2 / 2) * P k x).
Proof.
  revert x. induction k as [|k IH]; intros x.
  - simpl. ring.
  - assert (E : forall y, Derive_n (fun x => exp (x ^ 2 / 2)) k y = exp (y ^ 2 / 2) * P k y) by (intros y; apply is_derive_n_unique; apply IH).
    cbn [is_derive_n]. apply (is_derive_ext (fun y => exp (y ^ 2 / 2) * P k y)); [intros; symmetry; apply E|].
    evar_last; [apply (is_derive_mult (fun y => exp (y ^ 2 / 2)) (P k)); [auto_derive; auto; reflexivity|apply P_der|intros; apply Rmult_comm]|].
    rewrite P_S. unfold plus, mult; simpl. set (A := exp _). set (B := peval _ _). set (D := P' k x). field.
Qed.
Lemma coeffs_ok k : length (poly_coeffs k) = S k /\ nth k (poly_coeffs k) 0%Z = 1%Z /\
  forall x, is_derive_n (fun x => exp (x ^ 2 / 2)) k x (exp (x ^ 2 / 2) * sum (map (fun i => IZR (nth i (poly_coeffs k) 0%Z) * x ^ i) (seq 0 (S k)))).
Proof.
  destruct (coeffs_inv k) as [[L [LC _]] _]. repeat split; auto. intros x. rewrite sum_seq. change (nsum _ (S k)) with (nsum (fun i => IZR (cf (poly_coeffs k) i) * x ^ i) (S k)). rewrite <- P_sum by lia. apply derivs.
Qed.
(** Appell property. *)
Lemma appell_cf k i : (Z.of_nat (S i) * cf (poly_coeffs (S k)) (S i) = Z.of_nat (S k) * cf (poly_coeffs k) i)%Z.
Proof.
  revert i. induction k as [|k IH]; intros i.
  - unfold cf. destruct i as [|i]; [reflexivity|]. simpl poly_coeffs. cbn [nth]. destruct i; lia.
  - rewrite (proj2 (proj2 (coeffs_inv (S k)))). cbn [shift].
    pose proof (IH (S i)) as A. pose proof (proj2 (proj2 (coeffs_inv k)) i) as B. rewrite Z.mul_add_distr_l in *. rewrite A.
    assert (A2 : (Z.of_nat i * cf (poly_coeffs (S k)) i = Z.of_nat (S k) * shift (poly_coeffs k) i)%Z) by (destruct i as [|i]; [simpl; lia|cbn [shift]; apply IH]).
    set (u := cf (poly_coeffs (S k)) i) in *. set (v := cf (poly_coeffs k) (S i)) in *. set (w := shift (poly_coeffs k) i) in *.
    rewrite !Nat2Z.inj_succ in *. set (ii := Z.of_nat i) in *. set (kk := Z.of_nat k) in *. clearbody u v w ii kk.
    assert (E : (Z.succ kk * u = Z.succ kk * (Z.succ ii * v) + Z.succ kk * w)%Z) by (rewrite B; ring).
    clear B A. lia || nia.
Qed.
Lemma P'_S k x : P' (S k) x = INR (S k) * P k x.
Proof.
  unfold P'. rewrite (P_sum k x (S k)) by lia. rewrite <- nsum_scal. apply nsum_ext. intros i _. rewrite !INR_IZR_INZ, <- mult_IZR, appell_cf, mult_IZR. ring.
Qed.
(** Gaussian moments. *)
Lemma gk_lim x k : filterlim (fun z => (z + x) ^ k * nkernel z) (Rbar_locally p_infty) (locally 0).
Proof.
  apply (flim_squeeze0 _ _ (fun z => / sqrt (2 * PI) * (exp 2 * exp (Rabs x)) * ((z + Rabs x) ^ k * exp (- (z + Rabs x))))).
  - exists (Rmax 0 (Rabs x)). intros z Hz. pose proof (Rmax_l 0 (Rabs x)). pose proof (Rmax_r 0 (Rabs x)). unfold nkernel.
    pose proof PI_RGT_0. assert (0 < sqrt (2 * PI)) by (apply sqrt_lt_R0; lra).
    rewrite Rabs_mult, <- RPow_abs. rewrite (Rabs_right (exp _ / _)) by (apply Rle_ge, Rlt_le, Rdiv_pos; [apply exp_pos|auto]).
    assert (Rabs (z + x) ^ k <= (z + Rabs x) ^ k). { apply pow_incr. split; [apply Rabs_pos|]. eapply Rle_trans; [apply Rabs_triang|]. rewrite (Rabs_right z) by lra. lra. }
    assert (exp (- z ^ 2 / 2) <= exp 2 * exp (Rabs x) * exp (- (z + Rabs x))). { rewrite <- !exp_plus. apply exp_le_compat. nra. }
    pose proof (exp_pos (- z ^ 2 / 2)). pose proof (Rabs_pos (z + x)). pose proof (pow_le (Rabs (z + x)) k H6).
    replace (/ sqrt (2 * PI) * (exp 2 * exp (Rabs x)) * ((z + Rabs x) ^ k * exp (- (z + Rabs x)))) with ((z + Rabs x) ^ k * (exp 2 * exp (Rabs x) * exp (- (z + Rabs x)) / sqrt (2 * PI))) by (field; lra).
    apply Rmult_le_compat; auto; [apply Rlt_le, Rdiv_pos; auto|]. apply Rmult_le_compat_r; [apply Rlt_le, Rinv_0_lt_compat; auto|auto].
  - apply (flim_val _ _ (/ sqrt (2 * PI) * (exp 2 * exp (Rabs x)) * 0)); [|ring]. apply flim_scal; [apply Rbar_locally_filter|].
    apply (filterlim_comp _ _ _ (fun z => z + Rabs x) (fun y => y ^ k * exp (- y)) _ (Rbar_locally p_infty)); [|apply lim_pow_exp].
    intros Q [M HQ]. exists (M - Rabs x). intros y Hy. apply HQ. lra.
Qed.
Lemma nkernel_even z : nkernel (- z) = nkernel z.
Proof. unfold nkernel. replace ((- z) ^ 2) with (z ^ 2) by ring. reflexivity. Qed.
Lemma gk_lim_m x k : filterlim (fun z => (z + x) ^ k * nkernel z) (Rbar_locally m_infty) (locally 0).
Proof.
  apply lim_opp_minf. apply (filterlim_ext (fun z => (-1) ^ k * ((z + - x) ^ k * nkernel z))).
  - intros z. rewrite nkernel_even. rewrite <- Rmult_assoc, <- Rpow_mult_distr. f_equal. f_equal. ring.
  - apply (flim_val _ _ ((-1) ^ k * 0)); [|ring]. apply flim_scal; [apply Rbar_locally_filter|]. apply gk_lim.
Qed.
Lemma nk_der z : is_derive nkernel z (- z * nkernel z).
Proof. unfold nkernel. pose proof PI_RGT_0. assert (0 < sqrt (2 * PI)) by (apply sqrt_lt_R0; lra). auto_derive; auto. replace (- (z * (z * 1)) * / 2) with (- (z * (z * 1)) / 2) by reflexivity. set (e := exp _). field. lra. Qed.
Lemma nk_cont z : continuous nkernel z.
Proof. apply ex_derive_cont. eexists. apply nk_der. Qed.
Lemma LT : Rbar_lt m_infty p_infty. Proof. exact I. Qed.
Lemma gauss_cont' x k z : continuous (fun z => (z + x) ^ k * nkernel z) z.
Proof. apply (continuous_mult (fun z => (z + x) ^ k) nkernel); [apply ex_derive_cont; auto_derive; auto|apply nk_cont]. Qed.
Lemma gauss_moments x k : integrates_to (fun z => (z + x) ^ k * nkernel z) m_infty p_infty (P k x) /\ integrates_to (fun z => (z + x) ^ S k * nkernel z) m_infty p_infty (P (S k) x).
Proof.
  assert (ST : forall k, integrates_to (fun z => (INR k * (z + x) ^ pred k - z * (z + x) ^ k) * nkernel z) m_infty p_infty (0 - 0)).
  { intros m. apply (mk_integral _ (fun z => (z + x) ^ m * nkernel z)); try exact I.
    - intros z _. evar_last; [apply (is_derive_mult (fun z => (z + x) ^ m) nkernel); [auto_derive; auto; reflexivity|apply nk_der|intros; apply Rmult_comm]|]. unfold plus, mult; simpl. ring.
    - intros z _. apply (continuous_mult (fun z => INR m * (z + x) ^ pred m - z * (z + x) ^ m) nkernel); [apply ex_derive_cont; auto_derive; auto|apply nk_cont].
    - apply gk_lim_m.
    - apply gk_lim. }
  induction k as [|k [A B]].
  - assert (Z : integrates_to nkernel m_infty p_infty 1) by apply (if_integral ncdf_if). split.
    + replace (P 0 x) with 1 by (simpl; ring). apply (integrates_ext _ _ LT nkernel); [|exact Z]. intros; simpl; ring.
    + replace (P 1 x) with (x * 1 + (-1) * (0 - 0)) by (simpl; ring).
      apply (integrates_ext _ _ LT (fun z => x * nkernel z + (-1) * ((INR 0 * (z + x) ^ pred 0 - z * (z + x) ^ 0) * nkernel z))); [intros; simpl; ring|].
      apply integrates_plus; [apply integrates_scal; exact Z|apply integrates_scal; apply ST].
  - split; [exact B|]. rewrite P_S, P'_S.
    replace (x * P (S k) x + INR (S k) * P k x) with (x * P (S k) x + (INR (S k) * P k x + (-1) * (0 - 0))) by ring.
    apply (integrates_ext _ _ LT (fun z => x * ((z + x) ^ S k * nkernel z) + (INR (S k) * ((z + x) ^ k * nkernel z) + (-1) * ((INR (S k) * (z + x) ^ pred (S k) - z * (z + x) ^ S k) * nkernel z)))).
    { intros z _. simpl pred. cbn [pow]. ring. }
    apply integrates_plus; [apply integrates_scal; exact B|]. apply integrates_plus; apply integrates_scal; [exact A|apply ST].
Qed.

(** The two factors of the moments. *)
Lemma scale2 : subst 0 p_infty 0 p_infty (fun v => v / 2) (fun _ => 1 / 2) (fun t => 2 * t).
Proof.
  constructor.
  - exact I.
  - intros x [H _]. split; simpl in *; auto. lra.
  - intros x _. auto_derive; auto.
  - intros x _. apply continuous_const.
  - intros y [H _]. split; [split; simpl in *; auto; lra|field].
Qed.
Definition chi2_kernel (df v : R) := Rpower v (df / 2 - 1) * exp (- v / 2) / (Rpower 2 (df / 2) * Gamma (df / 2)).
Lemma chi_moment df n : INR n < df -> 0 < df ->
  integrates_to (fun v => Rpower (v / df) (- INR n / 2) * chi2_kernel df v) 0 p_infty (Rpower (df / 2) (INR n / 2) * Gamma ((df - INR n) / 2) / Gamma (df / 2)).
Proof.
  intros N D. assert (G : 0 < Gamma (df / 2)) by (apply Gamma_pos; lra). set (h := Rpower (df / 2) (INR n / 2) / Gamma (df / 2)).
  replace (Rpower (df / 2) (INR n / 2) * Gamma ((df - INR n) / 2) / Gamma (df / 2)) with (h * Gamma ((df - INR n) / 2)) by (unfold h; field; lra).
  apply (integrates_ext 0 p_infty I (fun v => h * (gamma_kernel ((df - INR n) / 2) (v / 2) * (1 / 2)))).
  - intros v [V _]. simpl in V. unfold chi2_kernel, gamma_kernel, h.
    replace (Rpower (df / 2) (INR n / 2)) with (Rpower df (INR n / 2) / Rpower 2 (INR n / 2)) by (symmetry; apply Rpower_base_div; lra).
    rewrite !Rpower_base_div by lra. replace (- INR n / 2) with (- (INR n / 2)) by field. rewrite !Rpower_Ropp.
    replace ((df - INR n) / 2 - 1) with (df / 2 - 1 + - (INR n / 2)) by field. rewrite !Rpower_plus, !Rpower_Ropp.
    replace (Rpower 2 (df / 2)) with (2 * Rpower 2 (df / 2 - 1)). 2: { rewrite Rpower_minus_1 by lra. field. }
    replace (- (v / 2)) with (- v / 2) by field.
    pose proof (Rpower_pos df (INR n / 2)). pose proof (Rpower_pos 2 (INR n / 2)). pose proof (Rpower_pos v (INR n / 2)). pose proof (Rpower_pos 2 (df / 2 - 1)). field. lra.
  - apply integrates_scal. apply (sub_integral scale2 ltac:(intros; lra) (gamma_kernel ((df - INR n) / 2))).
    + intros y H. apply gk_cont. apply inpos. auto.
    + apply Gamma_int. lra.
Qed.
Lemma moment_nan n (df nc : R) : df <= INR n -> noncentral_moment n (Fin df) (Fin nc) = NaN.
Proof. intros H. unfold noncentral_moment. change (cle (Fin df) (Fin (INR n))) with (CB (Rleb df (INR n))). rewrite Rleb_true by auto. reflexivity. Qed.
Lemma moment_val n (df nc : R) : INR n < df -> 0 < df -> noncentral_moment n (Fin df) (Fin nc) = Fin (Rpower (df / 2) (INR n / 2) * Gamma ((df - INR n) / 2) / Gamma (df / 2) * P n nc).
Proof.
  intros N D. unfold noncentral_moment. change (cle (Fin df) (Fin (INR n))) with (CB (Rleb df (INR n))). rewrite Rleb_false by auto. cbn [cif]. rewrite polyval_rev.
  change (vsub (Fin df) (Fin (INR n))) with (Fin (df - INR n)). rewrite !vdiv_Fin by lra. rewrite vlog_Fin by lra. rewrite !P_logb.vlg by lra. cbn [vmul vadd vneg vexp]. unfold vsub. cbn [vneg vadd vexp vmul]. f_equal.
  rewrite <- (exp_ln (Gamma ((df - INR n) / 2))) at 2 by (apply Gamma_pos; lra). rewrite <- (exp_ln (Gamma (df / 2))) at 2 by (apply Gamma_pos; lra). unfold Rpower, Rdiv. rewrite !exp_plus, exp_Ropp. ring.
Qed.
Lemma moment_ok n (df nc : R) : INR n < df -> 0 < df -> exists a b, noncentral_moment n (Fin df) (Fin nc) = Fin (a * b) /\ integrates_to (fun z => (z + nc) ^ n * nkernel z) m_infty p_infty a /\ integrates_to (fun v => Rpower (v / df) (- INR n / 2) * chi2_kernel df v) 0 p_infty b.
Proof.
  intros N D. exists (P n nc), (Rpower (df / 2) (INR n / 2) * Gamma ((df - INR n) / 2) / Gamma (df / 2)). split; [rewrite moment_val by auto; f_equal; ring|].
  split; [exact (proj1 (gauss_moments nc n))|apply chi_moment; auto].
Qed.
Lemma mean_ok (df nc : R) : 1 < df -> 0 < nc -> mean (Fin df) (Fin nc) = noncentral_moment 1 (Fin df) (Fin nc).
Proof.
  intros D N. rewrite moment_val by (simpl; lra). unfold mean. change (vsub (Fin df) (Fin 1)) with (Fin (df - 1)). rewrite !vdiv_Fin by lra. rewrite !vlog_Fin by lra. rewrite vdiv_Fin by lra. rewrite !P_logb.vlg by lra. unfold vsub. cbn [vneg vadd vexp]. f_equal.
  unfold Rdiv. rewrite !exp_plus, exp_Ropp. rewrite !exp_ln by (try apply Gamma_pos; lra). simpl. unfold Rpower. rewrite (Rmult_comm (ln _)). replace (1 * / 2 * ln (df * / 2)) with (/ 2 * ln (df * / 2)) by ring. ring.
Qed.
Lemma mean_nonpos (df nc : R) : nc < 0 -> mean (Fin df) (Fin nc) = Exc NonReal.
Proof. intros N. unfold mean. unfold vlog at 1. rewrite Rltb_false by lra. rewrite Reqb_false by lra. reflexivity. Qed.
Lemma var_ok (df nc : R) : 2 < df -> 0 < nc -> exists m1 m2, mean (Fin df) (Fin nc) = Fin m1 /\ noncentral_moment 2 (Fin df) (Fin nc) = Fin m2 /\ var (Fin df) (Fin nc) = Fin (m2 - m1 ^ 2).
Proof.
  intros D N. eexists. eexists. split; [rewrite mean_ok, moment_val by (simpl; lra); reflexivity|]. split; [apply moment_val; simpl; lra|].
  unfold var. change (vsub (Fin df) (Fin 1)) with (Fin (df - 1)). change (vsub (Fin df) (Fin 2)) with (Fin (df - 2)). rewrite !vdiv_Fin by lra. rewrite !P_logb.vlg by lra. unfold vsub. cbn [vneg vadd vexp vmul vpown]. f_equal.
  rewrite exp_plus, exp_Ropp, !exp_ln by (apply Gamma_pos; lra).
  assert (G : 0 < Gamma (df / 2)) by (apply Gamma_pos; lra).
  assert (G2 : 0 < Gamma ((df - INR 2) / 2)) by (apply Gamma_pos; simpl; lra).
  assert (GS : Rpower (df / 2) (INR 2 / 2) * Gamma ((df - INR 2) / 2) / Gamma (df / 2) = df / (df - 2)).
  { replace (Gamma (df / 2)) with (Gamma ((df - INR 2) / 2 + 1)) by (f_equal; simpl; field). rewrite Gamma_succ by (simpl; lra).
    replace (INR 2 / 2) with 1 by (simpl; field). rewrite (Rpower_1 (df / 2)) by lra. revert G2. simpl INR. intros G2. field. repeat split; lra. }
  rewrite GS.
  assert (HH : Rpower (df / 2) (INR 1 / 2) ^ 2 = df / 2). { replace (INR 1 / 2) with (/ 2) by (simpl; field). rewrite Rpower_sqrt by lra. rewrite pow2_sqrt by lra. reflexivity. }
  unfold Rdiv at 5 6. unfold Rdiv in HH |- *. rewrite !Rpow_mult_distr, HH. unfold poly_coeffs. simpl peval. simpl INR. simpl. field. lra.
Qed.
Lemma var_2 (nc : R) : 0 < nc -> var (Fin 2) (Fin nc) = Exc ZeroDivisionError.
Proof.
  intros N. unfold var. change (vsub (Fin 2) (Fin 2)) with (Fin (2 - 2)). assert (vdiv (Fin 2) (Fin (2 - 2)) = Exc ZeroDivisionError) as -> by (unfold vdiv; rewrite Reqb_true by lra; reflexivity). reflexivity.
Qed.
