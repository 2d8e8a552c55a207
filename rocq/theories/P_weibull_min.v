(** Proofs about M_weibull_min. *)
From Coq Require Import Reals Lra Lia List.
From Coquelicot Require Import Coquelicot.
From Verif Require Import Values VTac Spec RLib DistLib DistLS PLib M_common M_weibull_common SpecStat SpecEst LLib P_basic P_basic2 P_est.
From Verif Require Import SFun MomLib LSMom DiscLib GammaLib GamLib EulerLib SpecEuler VarPos WeibLib M_sfun.
From Verif Require Import M_weibull_min.
Import ListNotations.
Local Open Scope R_scope.
Set Bullet Behavior "Strict Subproofs".

Section Std.
Variable k : R.
Hypothesis K : 0 < k.
Definition F (z : R) := 1 - exp (- Rpower z k).
Definition f (z : R) := k * Rpower z (k - 1) * exp (- Rpower z k).
Definition Q (p : R) := Rpower (- ln (1 - p)) (1 / k).
Lemma f_pos z : 0 < f z.
Proof. unfold f. apply Rmult_lt_0_compat; [apply Rmult_lt_0_compat; [auto|apply Rpower_pos]|apply exp_pos]. Qed.
Lemma ST : std 0 p_infty F f Q.
Proof.
  constructor.
  - constructor; simpl; auto.
    + intros z _. unfold F. pose proof (Rpower_pos z k). pose proof (exp_pos (- Rpower z k)).
      pose proof (exp_le_1 (- Rpower z k) ltac:(lra)). lra.
    + intros z [H _]. simpl in H. unfold F, f, Rpower. auto_derive; auto.
      replace ((k - 1) * ln z) with (k * ln z + - ln z) by ring. rewrite exp_plus, (exp_Ropp (ln z)), (exp_ln z H). field. lra.
    + intros z _. apply f_pos.
  - intros z [H _]. simpl in H. unfold f, Rpower. apply ex_derive_cont. auto_derive. auto.
  - intros p H. unfold Q. split; [split; simpl; auto; apply Rpower_pos|].
    unfold F. pose proof (ln_neg (1 - p) ltac:(lra)).
    rewrite Rpower_inv by lra. rewrite Ropp_involutive, exp_ln by lra. ring.
Qed.
(** With w = z^k, log f is (k-1)/k log w - w up to a constant. *)
Lemma f_max z : 1 < k -> 0 < z -> f z <= f (Rpower ((k - 1) / k) (1 / k)).
Proof.
  intros K1 Z. set (m := (k - 1) / k). assert (M : 0 < m) by (apply Rdiv_pos; lra).
  assert (E : forall y, 0 < y -> f y = k * exp (m * ln (Rpower y k) - Rpower y k)).
  { intros y Y. unfold f. unfold Rminus at 2. rewrite exp_plus, ln_Rpower. rewrite Rmult_assoc. f_equal. f_equal.
    unfold Rpower. f_equal. unfold m. field. lra. }
  rewrite !E by (auto; apply Rpower_pos). rewrite Rpower_inv by lra.
  apply Rmult_le_compat_l; [lra|]. apply exp_le_compat. set (w := Rpower z k).
  assert (W : 0 < w) by apply Rpower_pos.
  pose proof (ln_ineq (w / m) ltac:(apply Rdiv_pos; auto)) as L. rewrite ln_div in L by auto.
  assert (m * (w / m) = w) by (field; lra). nra.
Qed.
Lemma f_dec z : k <= 1 -> 0 < z -> k = 1 -> f z <= 1.
Proof.
  intros K1 Z E. unfold f. rewrite E. replace (1 - 1) with 0 by ring. rewrite Rpower_O, Rpower_1 by auto.
  pose proof (exp_le_1 (- z) ltac:(lra)). lra.
Qed.
End Std.
Ltac start := unfold pdf, logpdf, cdf, sf, invcdf, invsf, support, mode, validate_params, validate_p.

Section P.
Variables k l s : R.
Hypothesis K : 0 < k.
Hypothesis S : 0 < s.
Lemma lo_eq : Finite l = ls l s 0.
Proof. simpl. f_equal. ring. Qed.
Lemma z_pos x : l < x -> 0 < (x - l) / s. Proof. intros. apply Rdiv_pos; lra. Qed.
Lemma z_pos' x : 0 < (x - l) / s -> l < x.
Proof. intros. assert (0 < (x - l) / s * s) by nra. unfold Rdiv in H0. rewrite Rmult_assoc, Rinv_l in H0 by lra. lra. Qed.
Lemma pdf_fin (x : R) : l < x -> pdf x k l s = Fin (f k ((x - l) / s) / s) /\ logpdf x k l s = Fin (ln (f k ((x - l) / s) / s)).
Proof.
  intros Hx. pose proof (z_pos x Hx) as Z. set (z := (x - l) / s) in *.
  assert (E : ln (f k z / s) = ln k - k * ln s + (k - 1) * ln (x - l) - Rpower z k).
  { rewrite ln_div by (auto; apply f_pos; auto). unfold f. pose proof (Rpower_pos z (k-1)). pose proof (exp_pos (- Rpower z k)).
    rewrite !ln_mult, ln_exp, ln_Rpower; auto using Rmult_lt_0_compat.
    unfold z at 1. rewrite ln_div by lra. ring. }
  assert (P : 0 < f k z / s) by (apply Rdiv_pos; auto; apply f_pos; auto).
  rewrite <- (exp_ln _ P), E, ln_exp. start. veval. fold z. auto.
Qed.
Lemma cdf_fin (x : R) : l < x -> cdf x k l s = Fin (F k ((x - l) / s)) /\ sf x k l s = Fin (1 - F k ((x - l) / s)).
Proof.
  intros Hx. pose proof (z_pos x Hx) as Z. start. veval. unfold F. split; f_equal; lra.
Qed.
Lemma CERT : cert (fun x => pdf x k l s) (fun x => logpdf x k l s) (fun x => cdf x k l s) (fun x => sf x k l s)
  (fun p => invcdf p k l s) (fun p => invsf p k l s) l p_infty (fun x => F k ((x - l) / s))
  (fun x => f k ((x - l) / s) / s) (fun p => l + s * Q k p).
Proof.
  apply (ls_cert 0 p_infty (F k) (f k) (Q k) (ST k K) l s S); auto using lo_eq.
  - constructor.
    + intros x [H _]. simpl in H. apply cdf_fin. lra.
    + intros x H. simpl in H. start. veval. auto.
    + intros x [].
    + start. veval. auto.
    + start. veval. split; f_equal; lra.
  - intros x [H _]. simpl in H. apply pdf_fin. apply z_pos'; auto.
  - intros x [H|[]]. simpl in H. start. veval. auto.
  - intros p H. unfold Q. start. pose proof (ln_neg p H). pose proof (ln_neg (1 - p) ltac:(lra)). veval.
    split; f_equal; [ring|]. replace (1 - (1 - p)) with p by ring. ring.
Qed.
Lemma log_all (x : R) : log_of (fun x => pdf x k l s) (fun x => logpdf x k l s) x.
Proof.
  revert x. apply (cert_log_ends CERT); intros x E; [|discriminate]. injection E as E; subst x.
  destruct (Rtotal_order k 1) as [H|[H|H]].
  - right; right. start. veval. auto.
  - left. exists (1 / s). split; [apply Rdiv_pos; lra|]. start. veval. split; auto. rewrite ln_div, ln_1 by lra. f_equal. ring.
  - right; left. start. veval. auto.
Qed.
Lemma ends : rejects_bad_p (fun p => invcdf p k l s) /\ rejects_bad_p (fun p => invsf p k l s) /\
  at_ends (fun p => invcdf p k l s) l PInf /\ at_ends (fun p => invsf p k l s) PInf l.
Proof.
  assert (IK : 0 < 1 / k) by (apply Rdiv_pos; lra).
  assert (L : - ln (1 - 0) = 0) by (replace (1 - 0) with 1 by ring; rewrite ln_1; ring).
  assert (L1 : - ln 1 = 0) by (rewrite ln_1; ring).
  split; [|split; [|split]].
  - split; [intros p [H|H]|split]; start; veval; reflexivity.
  - split; [intros p [H|H]|split]; start; veval; reflexivity.
  - unfold at_ends. start. veval. rewrite ?L. veval. split; try reflexivity; f_equal; ring.
  - unfold at_ends. start. veval. rewrite ?L1. veval. split; try reflexivity; f_equal; ring.
Qed.
Lemma mode_ok : is_mode_ext (fun x => pdf x k l s) (mode k l s).
Proof.
  assert (SI : 0 <= / s) by (left; apply Rinv_0_lt_compat; auto).
  destruct (Rlt_le_dec 1 k) as [H|H].
  - set (m := Rpower ((k - 1) / k) (1 / k)). assert (M : 0 < m) by apply Rpower_pos.
    assert (KK : 0 < (k - 1) / k) by (apply Rdiv_pos; lra).
    exists (l + s * m). split; [start; veval; reflexivity|].
    assert (LM : l < l + s * m) by nra.
    rewrite (proj1 (pdf_fin _ LM)). replace ((l + s * m - l) / s) with m by (field; lra).
    intros x. destruct (Rtotal_order x l) as [L|[->|L]].
    + replace (pdf x k l s) with (Fin 0) by (start; veval; auto). constructor. left. apply Rdiv_pos; auto. apply f_pos; auto.
    + replace (pdf l k l s) with (Fin 0) by (start; veval; auto). constructor. left. apply Rdiv_pos; auto. apply f_pos; auto.
    + rewrite (proj1 (pdf_fin _ L)). constructor. apply Rmult_le_compat_r; auto. apply f_max; auto. apply z_pos; auto.
  - exists l. split; [start; veval; f_equal; ring|]. destruct H as [H|H].
    + replace (pdf l k l s) with PInf by (start; veval; auto). intros x. constructor.
      destruct (Rtotal_order x l) as [L|[->|L]].
      * replace (pdf x k l s) with (Fin 0) by (start; veval; auto). constructor.
      * replace (pdf l k l s) with PInf by (start; veval; auto). constructor.
      * rewrite (proj1 (pdf_fin _ L)). constructor.
    + replace (pdf l k l s) with (Fin (1 / s)) by (start; veval; auto). intros x.
      destruct (Rtotal_order x l) as [L|[->|L]].
      * replace (pdf x k l s) with (Fin 0) by (start; veval; auto). constructor. left. apply Rdiv_pos; lra.
      * replace (pdf l k l s) with (Fin (1 / s)) by (start; veval; auto). constructor. lra.
      * rewrite (proj1 (pdf_fin _ L)). constructor. apply Rmult_le_compat_r; auto. apply f_dec; auto; [lra|apply z_pos; auto].
Qed.
Lemma nll_ok xs : (forall x, In x xs -> l < x) -> nll (map Fin xs) k l s = vneg (loglik (fun x => logpdf x k l s) xs).
Proof.
  intros H. unfold nll, validate_params. vif. unfold loglik. rewrite map_map.
  rewrite cany_false; [reflexivity|]. intros a I. apply in_map_iff in I. destruct I as [x [<- I]].
  pose proof (H x I). ccond.
Qed.
Lemma nll_bad xs : (exists x, In x xs /\ x <= l) -> nll (map Fin xs) k l s = Exc ValueError.
Proof.
  intros [x [I H]]. unfold nll, validate_params. vif.
  replace (cany (fun t => (t <=? l)%V) (map Fin xs)) with (CB true); [reflexivity|]. symmetry.
  induction xs as [|y ys IH]; [destruct I|]. cbn [map cany]. destruct (Rle_lt_dec y l) as [J|J].
  - replace (y <=? l)%V with (CB true) by (symmetry; ccond). reflexivity.
  - replace (y <=? l)%V with (CB false) by (symmetry; ccond). destruct I as [->|I]; [lra|]. apply IH; auto.
Qed.
Lemma PDFI x : inside l p_infty x -> pdf (Fin x) k l s = Fin (f k ((x - l) / s) / s).
Proof. intros [H _]. apply pdf_fin. auto. Qed.
Notation LSM lem := (lem (Finite 0) p_infty (F k) (f k) (Q k) (ST k K) l s (fun x => pdf x k l s) (Finite l) p_infty S lo_eq (eq_refl p_infty) PDFI).
Notation W := (wM k).
Lemma MOM N : forall n, (n <= N)%nat -> integrates_to (fun z => z ^ n * f k z) 0 p_infty (W n).
Proof. intros n _. apply w_mom. auto. Qed.
Lemma vgk n : vgamma (1 + Fin n / Fin k)%V = Fin (Gamma (1 + n / k)) \/ n < 0.
Proof.
  destruct (Rlt_le_dec n 0) as [H|H]; [right; auto|left]. assert (0 <= n / k) by (apply Rdiv_nonneg; auto). rewrite vdiv_Fin by lra. change (1 + Fin (n / k))%V with (Fin (1 + n / k)). apply vgam. lra.
Qed.
Lemma vg1 n : 0 <= n -> vgamma (1 + Fin n / Fin k)%V = Fin (Gamma (1 + n / k)).
Proof. intros H. destruct (vgk n); auto. lra. Qed.
Lemma W1 : W 1 = Gamma (1 + 1 / k). Proof. reflexivity. Qed.
Lemma W2 : W 2 = Gamma (1 + 2 / k). Proof. reflexivity. Qed.
Lemma W3 : W 3 = Gamma (1 + 3 / k). Proof. unfold wM. do 3 f_equal. simpl. ring. Qed.
Lemma W4 : W 4 = Gamma (1 + 4 / k). Proof. unfold wM. do 3 f_equal. simpl. ring. Qed.
Lemma Wv : 0 < mvar W.
Proof. apply (mvar_pos _ _ _ _ _ W (ST k K)); apply w_mom; auto. Qed.
Lemma mean_ok : mean_is (fun x => pdf x k l s) l p_infty (mean vgamma k l s).
Proof. apply (LSM lsm_mean W 1%nat (MOM 1)); [lia|]. unfold mean, validate_params. rewrite vg1, <- W1 by lra. veval. reflexivity. Qed.
Lemma var_ok : var_is (fun x => pdf x k l s) l p_infty (mean vgamma k l s) (var vgamma k l s).
Proof.
  apply (LSM lsm_var W 2%nat (MOM 2)); [lia| |]; unfold mean, var, validate_params; cbv zeta; rewrite ?vg1, <- ?W1, <- ?W2 by lra; veval; reflexivity.
Qed.
Lemma skew_ok : skewness_is (fun x => pdf x k l s) l p_infty (skewness vgamma k l s).
Proof.
  pose proof Wv as V. apply (LSM lsm_skewness W 3%nat (MOM 3)); [lia|auto|]. unfold skewness, validate_params. cbv zeta. rewrite !vg1, <- W1, <- W2, <- W3 by lra.
  assert (P : 0 < W 2 - W 1 ^ 2) by exact V. assert (SP : 0 < sqrt (mvar W)) by (apply sqrt_lt_R0; auto).
  assert (PW : Rpower (mvar W) (3 / 2) = mvar W * sqrt (mvar W)) by (replace (3 / 2) with (1 + / 2) by field; rewrite Rpower_plus, Rpower_1, Rpower_sqrt by auto; auto).
  assert (0 < Rpower (W 2 - W 1 ^ 2) (3 / 2)) by apply Rpower_pos. veval. fold (mvar W). rewrite PW. reflexivity.
Qed.
Lemma kurt_ok : kurtosis_is (fun x => pdf x k l s) l p_infty (kurtosis vgamma k l s).
Proof.
  pose proof Wv as V. apply (LSM lsm_kurtosis W 4%nat (MOM 4)); [lia|auto|]. unfold kurtosis, validate_params. cbv zeta. rewrite !vg1, <- W1, <- W2, <- W3, <- W4 by lra.
  assert (P : 0 < W 2 - W 1 ^ 2) by exact V. assert (0 < (W 2 - W 1 ^ 2) ^ 2) by (apply pow_lt; auto). veval. f_equal. unfold mcen4, mvar. field; lra.
Qed.
Lemma ent_ok g : euler_constant g -> entropy_is (fun x => pdf x k l s) l p_infty (entropy g k l s).
Proof.
  intros G. apply euler_eq in G. apply (LSM ls_entropy_is _ (- ln k - (k - 1) * (digamma 1 / k) + 1)); [apply w_ent; auto|].
  unfold entropy, validate_params. rewrite G. veval. f_equal. field. lra.
Qed.
Lemma std_mom n : standard_noncentral_moment vgamma n (Fin k) = Fin (W n).
Proof.
  unfold standard_noncentral_moment. destruct n as [|n]; [simpl; unfold wM; simpl; unfold Rdiv; rewrite Rmult_0_l, Rplus_0_r, Gamma_1; reflexivity|]. change (Nat.eqb (Datatypes.S n) 0) with false. cbv iota. apply vg1, pos_INR.
Qed.
Lemma moment_ok n : moment_is (fun x => pdf x k l s) l p_infty n (noncentral_moment vgamma n k l s).
Proof.
  apply (LSM lsm_moment W n (MOM n)); [lia|]. unfold noncentral_moment, validate_params. destruct n as [|n].
  - simpl Nat.eqb. veval. f_equal. unfold lsM. cbn [nsum Nat.add]. unfold wM, Binomial.C. simpl. unfold Rdiv. rewrite Rmult_0_l, Rplus_0_r, Gamma_1. field.
  - change (Nat.eqb (Datatypes.S n) 0) with false. set (N := Datatypes.S n) in *. cbv iota.
    rewrite (vfsum_seq _ (fun i => Binomial.C N i * l ^ (N - i) * s ^ i * W i)); [veval; reflexivity|]. intros i _. rewrite std_mom. veval. reflexivity.
Qed.
End P.
Lemma loc_scale k : 0 < k -> loc_scale_law (fun x => pdf x k) (fun x => cdf x k) (fun x => sf x k)
  (fun p => invcdf p k) (fun p => invsf p k) 0 p_infty.
Proof.
  intros K. apply (loc_scale_from_cert (fun x => pdf x k) (fun x => logpdf x k) (fun x => cdf x k) (fun x => sf x k)
    (fun p => invcdf p k) (fun p => invsf p k) 0 p_infty (F k) (f k) (Q k)).
  intros l s S. rewrite <- lo_eq. apply CERT; auto.
Qed.
Lemma vparams_bad {A} `{CanRaise A} (k l s : val) (c : A) : isnum k -> isnum s -> nonpositive k \/ nonpositive s ->
  validate_params k l s c = raise ValueError.
Proof.
  intros N1 N2 B. change (validate_positive k (validate_positive s c) = raise ValueError).
  destruct B as [B|B]; [apply vp_bad; auto|apply vp_pass; auto; apply vp_bad; auto].
Qed.
Lemma bad_params g e (k l s : val) : isnum k -> isnum s -> nonpositive k \/ nonpositive s ->
  support k l s = Err ValueError /\
  always_ValueError [ fun x => pdf x k l s; fun x => logpdf x k l s; fun x => cdf x k l s; fun x => sf x k l s;
    fun p => invcdf p k l s; fun p => invsf p k l s; fun _ => mode k l s; fun _ => mean g k l s; fun _ => var g k l s;
    fun _ => skewness g k l s; fun _ => kurtosis g k l s; fun _ => entropy e k l s;
    fun x => nll [x] k l s ].
Proof.
  intros N1 N2 B. unfold support, pdf, logpdf, cdf, sf, invcdf, invsf, mode, mean, var, skewness, kurtosis, entropy, nll.
  split; [|all_ve; intros x Hx]; rewrite ?vparams_bad by auto; try reflexivity; apply vpp_pass; auto.
Qed.
(** Given the shape, the scale estimate is the global optimum. *)
Lemma mle_scale_opt solve1 solve2 xs (k l : R) : xs <> [] -> 0 < k -> (forall x, In x xs -> l < x) ->
  exists s, mle solve1 solve2 (map Fin xs) (Some (Fin k)) (Some (Fin l)) None = Ok (Fin k, Fin l, Fin s) /\
  minimises (fun s => 0 < s) (fun s => nll (map Fin xs) (Fin k) (Fin l) (Fin s)) s.
Proof.
  intros N K H. set (ys := map (fun x => x - l) xs).
  assert (NY : ys <> []) by (destruct xs; [congruence|discriminate]).
  assert (YP : forall y, In y ys -> 0 < y).
  { intros y I. apply in_map_iff in I. destruct I as [x [<- I]]. pose proof (H x I). lra. }
  pose proof (length_pos xs N) as LN.
  set (A := rsum (map (fun x => Rpower (x - l) k) xs)).
  assert (AP : 0 < A) by (apply rsum_pos; auto; intros; apply Rpower_pos).
  set (sh := Rpower (A / INR (length xs)) (1 / k)).
  assert (SP : 0 < sh) by apply Rpower_pos.
  assert (AN : 0 < A / INR (length xs)) by (apply Rdiv_pos; auto).
  exists sh. split.
  - unfold mle. rewrite cany_false.
    + vif. change (cif (CB false) (Err ValueError : res (val*val*val)) ?e) with e. vif. cbn [cif].
      replace (map (fun t : val => (t - l)%V) (map Fin xs)) with (map Fin ys).
      * change (@None (list val)) with (wt None). rewrite pmean_pm; auto.
        -- unfold power_mean. destruct (Req_EM_T k 0) as [E|E]; [lra|].
           rewrite avg_none by auto. unfold ys. rewrite map_map, map_length. reflexivity.
        -- apply good_none; auto.
      * unfold ys. rewrite !map_map. apply map_ext. intros; reflexivity.
    + intros a I. apply in_map_iff in I. destruct I as [x [<- I]]. pose proof (H x I). ccond.
  - assert (NL : forall s : R, 0 < s -> nll (map Fin xs) k l s = Fin ((INR (length xs) * ln (Rpower s k) + A / Rpower s k)
        + rsum (map (fun x => - (ln k + (k - 1) * ln (x - l))) xs))).
    { intros s S. rewrite nll_ok by auto.
      rewrite (loglik_fin _ (fun x => ((ln k + (k - 1) * ln (x - l)) + - ln (Rpower s k)) - Rpower (x - l) k / Rpower s k)).
      - change (vneg (Fin ?x)) with (Fin (- x)). f_equal.
        rewrite rsum_minus, rsum_div, rsum_plus, rsum_const. fold A.
        rewrite (rsum_ext (fun x => - (ln k + (k - 1) * ln (x - l))) (fun x => (-1) * (ln k + (k - 1) * ln (x - l)))) by (intros; ring).
        rewrite rsum_scal. pose proof (Rpower_pos s k). unfold rsum, sum. field. lra.
      - intros x I. pose proof (H x I) as HX. rewrite (proj2 (pdf_fin k l s K S x HX)). f_equal.
        pose proof (z_pos l s S x HX) as Z. rewrite ln_div by (auto; apply f_pos; auto).
        unfold f. pose proof (Rpower_pos ((x - l) / s) (k-1)). pose proof (exp_pos (- Rpower ((x - l) / s) k)).
        rewrite !ln_mult, ln_exp, !ln_Rpower; auto using Rmult_lt_0_compat.
        replace (Rpower ((x - l) / s) k) with (Rpower (x - l) k / Rpower s k).
        + rewrite ln_div by lra. ring.
        + unfold Rpower. rewrite <- exp_minus. f_equal. rewrite ln_div by lra. ring. }
    split; auto. eexists. split; [apply NL; auto|]. intros s S. eexists. split; [apply NL; auto|].
    apply Rplus_le_compat_r. unfold sh. rewrite Rpower_inv by lra.
    replace (A / (A / INR (length xs))) with (INR (length xs)) by (field; lra).
    apply scale_opt; auto. apply Rpower_pos.
Qed.
