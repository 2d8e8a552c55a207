(** Proofs about M_weibull_max: the mirror image of M_weibull_min. *)
From Coq Require Import Reals Lra Lia List.
From Coquelicot Require Import Coquelicot.
From Verif Require Import Values VTac Spec RLib DistLib DistLS PLib M_common M_weibull_common SpecStat SpecEst LLib P_basic P_basic2 P_est.
From Verif Require Import SFun MomLib LSMom DiscLib GammaLib GamLib EulerLib SpecEuler VarPos WeibLib M_sfun.
From Verif Require Import M_weibull_max.
From Verif Require M_weibull_min P_weibull_min.
Import ListNotations.
Local Open Scope R_scope.
Set Bullet Behavior "Strict Subproofs".
Notation F := P_weibull_min.F.
Notation f := P_weibull_min.f.
Notation Q := P_weibull_min.Q.

Ltac start := unfold pdf, logpdf, cdf, sf, invcdf, invsf, support, mode,
  M_weibull_min.pdf, M_weibull_min.logpdf, M_weibull_min.cdf, M_weibull_min.sf, M_weibull_min.invcdf, M_weibull_min.invsf,
  M_weibull_min.mode, validate_params, validate_p.

Section P.
Variables k l s : R.
Hypothesis K : 0 < k.
Hypothesis S : 0 < s.
Lemma zneg x : (- x - - l) / s = - ((x - l) / s). Proof. field. lra. Qed.
Lemma z_neg x : x < l -> (x - l) / s < 0. Proof. intros. apply Rdiv_neg; lra. Qed.
Lemma refl_pdf (x : R) : pdf x k l s = M_weibull_min.pdf (- x)%R k (- l)%R s /\
  logpdf x k l s = M_weibull_min.logpdf (- x)%R k (- l)%R s.
Proof.
  destruct (Rtotal_order x l) as [H|[->|H]].
  - pose proof (z_neg x H). start. veval. rewrite zneg. veval. replace (- x - - l) with (- x + l) by ring. auto.
  - destruct (Rtotal_order k 1) as [H|[H|H]]; start; veval; auto.
  - start. veval. auto.
Qed.
Lemma refl_cdf x : ext x -> cdf x k l s = M_weibull_min.sf (vneg x) k (- l)%R s /\
  sf x k l s = M_weibull_min.cdf (vneg x) k (- l)%R s.
Proof.
  intros X. destruct X as [x| |].
  - destruct (Rlt_le_dec x l) as [H|H].
    + pose proof (z_neg x H). start. veval. rewrite zneg. veval. auto.
    + start. veval. auto.
  - start. veval. auto.
  - start. veval. auto.
Qed.
Lemma refl_inv p : 0 <= p <= 1 -> invcdf p k l s = vneg (M_weibull_min.invsf p k (- l)%R s) /\
  invsf p k l s = vneg (M_weibull_min.invcdf p k (- l)%R s).
Proof.
  assert (IK : 0 < 1 / k) by (apply Rdiv_pos; lra).
  assert (L : - ln (1 - 0) = 0) by (replace (1 - 0) with 1 by ring; rewrite ln_1; ring).
  assert (L1 : - ln 1 = 0) by (rewrite ln_1; ring).
  intros [H1 H2]. destruct (Req_dec p 0) as [->|N0]; [|destruct (Req_dec p 1) as [->|N1]].
  - start. veval. rewrite ?L. veval. split; auto; f_equal; ring.
  - start. veval. rewrite ?L1. veval. split; auto; f_equal; ring.
  - pose proof (ln_neg p ltac:(lra)). pose proof (ln_neg (1 - p) ltac:(lra)). start. veval. split; f_equal; ring.
Qed.
Lemma refl_mode : mode k l s = vneg (M_weibull_min.mode k (- l)%R s).
Proof.
  start. destruct (Rlt_le_dec 1 k).
  - assert (0 < (k - 1) / k) by (apply Rdiv_pos; lra). veval. f_equal. ring.
  - veval. f_equal. ring.
Qed.
Lemma CERT : cert (fun x => pdf x k l s) (fun x => logpdf x k l s) (fun x => cdf x k l s) (fun x => sf x k l s)
  (fun p => invcdf p k l s) (fun p => invsf p k l s) m_infty l (fun x => 1 - F k ((- x - - l) / s))
  (fun x => f k ((- x - - l) / s) / s) (fun p => - (- l + s * Q k (1 - p))).
Proof.
  replace (Finite l) with (Rbar_opp (- l)) by (simpl; f_equal; ring).
  apply (cert_reflect (fun x => pdf x k l s) (fun x => logpdf x k l s) (fun x => cdf x k l s) (fun x => sf x k l s)
  (fun p => invcdf p k l s) (fun p => invsf p k l s) (P_weibull_min.CERT k (- l)%R s K S)).
  - exact refl_pdf.
  - exact refl_cdf.
  - intros p H. apply refl_inv. lra.
Qed.
Lemma log_all (x : R) : log_of (fun x => pdf x k l s) (fun x => logpdf x k l s) x.
Proof.
  unfold log_of. destruct (refl_pdf x) as [-> ->]. exact (P_weibull_min.log_all k (- l)%R s K S (- x)).
Qed.
Lemma ends : rejects_bad_p (fun p => invcdf p k l s) /\ rejects_bad_p (fun p => invsf p k l s) /\
  at_ends (fun p => invcdf p k l s) NInf l /\ at_ends (fun p => invsf p k l s) l NInf.
Proof.
  destruct (P_weibull_min.ends k (- l)%R s K S) as [_ [_ [E1 E2]]].
  split; [|split].
  - split; [intros p [H|H]|split]; start; veval; reflexivity.
  - split; [intros p [H|H]|split]; start; veval; reflexivity.
  - unfold at_ends in *. destruct E1 as [A0 A1], E2 as [B0 B1].
    split; split.
    + etransitivity; [exact (proj1 (refl_inv 0 ltac:(lra)))|]. etransitivity; [exact (f_equal vneg B0)|]. reflexivity.
    + etransitivity; [exact (proj1 (refl_inv 1 ltac:(lra)))|]. etransitivity; [exact (f_equal vneg B1)|]. simpl. f_equal; ring.
    + etransitivity; [exact (proj2 (refl_inv 0 ltac:(lra)))|]. etransitivity; [exact (f_equal vneg A0)|]. simpl. f_equal; ring.
    + etransitivity; [exact (proj2 (refl_inv 1 ltac:(lra)))|]. etransitivity; [exact (f_equal vneg A1)|]. reflexivity.
Qed.
Lemma mode_ok : is_mode_ext (fun x => pdf x k l s) (mode k l s).
Proof.
  destruct (P_weibull_min.mode_ok k (- l)%R s K S) as [m [E H]]. exists (- m). split.
  - rewrite refl_mode, E. reflexivity.
  - intros x. rewrite (proj1 (refl_pdf x)), (proj1 (refl_pdf (- m))), Ropp_involutive. apply H.
Qed.
Lemma nll_ok xs : (forall x, In x xs -> x < l) -> nll (map Fin xs) k l s = vneg (loglik (fun x => logpdf x k l s) xs).
Proof.
  intros H. unfold nll, validate_params. vif. unfold loglik. rewrite map_map.
  rewrite cany_false; [reflexivity|]. intros a I. apply in_map_iff in I. destruct I as [x [<- I]].
  pose proof (H x I). ccond.
Qed.
Lemma nll_bad xs : (exists x, In x xs /\ l <= x) -> nll (map Fin xs) k l s = Exc ValueError.
Proof.
  intros [x [I H]]. unfold nll, validate_params. vif.
  replace (cany (fun t => (t >=? l)%V) (map Fin xs)) with (CB true); [reflexivity|]. symmetry.
  induction xs as [|y ys IH]; [destruct I|]. cbn [map cany]. destruct (Rle_lt_dec l y) as [J|J].
  - replace (y >=? l)%V with (CB true) by (symmetry; ccond). reflexivity.
  - replace (y >=? l)%V with (CB false) by (symmetry; ccond). destruct I as [->|I]; [lra|]. apply IH; auto.
Qed.
Lemma refl_nll xs : (forall x, In x xs -> x < l) ->
  nll (map Fin xs) k l s = M_weibull_min.nll (map Fin (map Ropp xs)) k (- l)%R s.
Proof.
  intros H. rewrite nll_ok by auto. rewrite P_weibull_min.nll_ok; auto.
  - unfold loglik. rewrite map_map. f_equal. f_equal. apply map_ext. intros x. apply refl_pdf.
  - intros y I. apply in_map_iff in I. destruct I as [x [<- I]]. pose proof (H x I). lra.
Qed.
Definition rF (z : R) := 1 - F k (- z).
Definition rf (z : R) := f k (- z).
Definition rQ (p : R) := - Q k (1 - p).
Lemma rST : std m_infty 0 rF rf rQ.
Proof.
  pose proof (P_weibull_min.ST k K) as [[LT B D P] C QQ]. constructor; [constructor|..].
  - exact I.
  - intros z H. unfold rF. specialize (B (- z)). assert (inside 0 p_infty (- z)) by (destruct H as [_ H]; split; simpl in *; auto; lra). specialize (B H0). lra.
  - intros z H. assert (Z : inside 0 p_infty (- z)) by (destruct H as [_ H]; split; simpl in *; auto; lra). unfold rF, rf.
    evar_last; [apply (is_derive_minus (fun _ => 1) (fun z => F k (- z))); [apply is_derive_const|apply (is_derive_comp (F k) Ropp); [apply D; auto|apply (is_derive_opp (fun x : R => x)); apply is_derive_id]]|].
    unfold scal, minus, plus, opp, one, zero; simpl; unfold mult; simpl. ring.
  - intros z H. apply P. destruct H as [_ H]; split; simpl in *; auto; lra.
  - intros z H. unfold rf. apply (continuous_comp Ropp (f k)); [apply (continuous_opp (fun x : R => x)); apply continuous_id|]. apply C. destruct H as [_ H]; split; simpl in *; auto; lra.
  - intros p H. unfold rQ, rF. destruct (QQ (1 - p) ltac:(lra)) as [[Q1 _] Q2]. simpl in Q1. split; [split; simpl; auto; lra|]. rewrite Ropp_involutive, Q2. ring.
Qed.
Lemma hi_eq : Finite l = ls l s 0. Proof. simpl. f_equal. ring. Qed.
Lemma PDFI x : inside m_infty l x -> pdf (Fin x) k l s = Fin (rf ((x - l) / s) / s).
Proof.
  intros [_ H]. simpl in H. rewrite (proj1 (refl_pdf x)). rewrite (proj1 (P_weibull_min.pdf_fin k (- l) s K S (- x) ltac:(lra))). rewrite zneg. reflexivity.
Qed.
Notation LSM lem := (lem m_infty (Finite 0) rF rf rQ rST l s (fun x => pdf x k l s) m_infty (Finite l) S (eq_refl m_infty) hi_eq PDFI).
Definition W (n : nat) := (-1) ^ n * wM k n.
Lemma r_int g v : (forall y, 0 < y -> continuous g y) -> integrates_to g 0 p_infty v -> integrates_to (fun x => g (- x)) m_infty 0 v.
Proof. intros C G. replace (Finite 0) with (Rbar_opp 0) by (simpl; f_equal; ring). apply (integrates_refl 0 p_infty g v I); auto. intros y [H _]. apply C. auto. Qed.
Lemma MOM N : forall n, (n <= N)%nat -> integrates_to (fun z => z ^ n * rf z) m_infty 0 (W n).
Proof.
  intros n _. unfold W. apply (integrates_ext m_infty 0 I (fun z => (-1) ^ n * ((- z) ^ n * rf z))).
  - intros z _. replace (z ^ n) with ((-1) ^ n * (- z) ^ n) by (rewrite <- Rpow_mult_distr; f_equal; ring). ring.
  - apply integrates_scal. apply (r_int (fun z => z ^ n * f k z)); [|apply w_mom; auto].
    intros y Y. apply (continuous_mult (fun y => y ^ n) (f k)); [apply ex_derive_cont; auto_derive; auto|apply w_cont; auto].
Qed.
Lemma vgk n : vgamma (1 + Fin n / Fin k)%V = Fin (Gamma (1 + n / k)) \/ n < 0.
Proof.
  destruct (Rlt_le_dec n 0) as [H|H]; [right; auto|left]. assert (0 <= n / k) by (apply Rdiv_nonneg; auto). rewrite vdiv_Fin by lra. change (1 + Fin (n / k))%V with (Fin (1 + n / k)). apply vgam. lra.
Qed.
Lemma vg1 n : 0 <= n -> vgamma (1 + Fin n / Fin k)%V = Fin (Gamma (1 + n / k)).
Proof. intros H. destruct (vgk n); auto. lra. Qed.
Lemma W1 : W 1 = - Gamma (1 + 1 / k). Proof. unfold W, wM. simpl INR. ring. Qed.
Lemma W2 : W 2 = Gamma (1 + 2 / k). Proof. unfold W, wM. simpl INR. replace (1 + 1) with 2 by ring. ring. Qed.
Lemma W3 : W 3 = - Gamma (1 + 3 / k). Proof. unfold W, wM. simpl INR. replace (1 + 1 + 1) with 3 by ring. ring. Qed.
Lemma W4 : W 4 = Gamma (1 + 4 / k). Proof. unfold W, wM. simpl INR. replace (1 + 1 + 1 + 1) with 4 by ring. ring. Qed.
Lemma Wv : 0 < mvar W.
Proof. apply (mvar_pos _ _ _ _ _ W rST); apply (MOM 2); lia. Qed.
Lemma mean_ok : mean_is (fun x => pdf x k l s) m_infty l (mean vgamma k l s).
Proof. apply (LSM lsm_mean W 1%nat (MOM 1)); [lia|]. unfold mean, validate_params. rewrite vg1 by lra. rewrite W1. veval. f_equal. ring. Qed.
Lemma var_ok : var_is (fun x => pdf x k l s) m_infty l (mean vgamma k l s) (var vgamma k l s).
Proof.
  apply (LSM lsm_var W 2%nat (MOM 2)); [lia| |]; unfold mean, var, validate_params; cbv zeta; rewrite ?vg1 by lra; unfold mvar; rewrite ?W1, ?W2; veval; f_equal; ring.
Qed.
Lemma skew_ok : skewness_is (fun x => pdf x k l s) m_infty l (skewness vgamma k l s).
Proof.
  pose proof Wv as V. apply (LSM lsm_skewness W 3%nat (MOM 3)); [lia|auto|]. unfold skewness, validate_params. cbv zeta. rewrite !vg1 by lra. replace (Gamma (1 + 1 / k)) with (- W 1) by (rewrite W1; ring). replace (Gamma (1 + 3 / k)) with (- W 3) by (rewrite W3; ring). rewrite <- W2.
  assert (P : 0 < W 2 - (- W 1) ^ 2) by (unfold mvar in V; replace ((- W 1) ^ 2) with (W 1 ^ 2) by ring; auto). assert (SP : 0 < sqrt (mvar W)) by (apply sqrt_lt_R0; auto).
  assert (PW : Rpower (mvar W) (3 / 2) = mvar W * sqrt (mvar W)) by (replace (3 / 2) with (1 + / 2) by field; rewrite Rpower_plus, Rpower_1, Rpower_sqrt by auto; auto).
  assert (0 < Rpower (W 2 - (- W 1) ^ 2) (3 / 2)) by apply Rpower_pos. veval. f_equal. replace (Rpower (W 2 - (- W 1) ^ 2) (3 / 2)) with (mvar W * sqrt (mvar W)) by (rewrite <- PW; f_equal; unfold mvar; ring). unfold Rdiv. f_equal. unfold mcen3. ring.
Qed.
Lemma kurt_ok : kurtosis_is (fun x => pdf x k l s) m_infty l (kurtosis vgamma k l s).
Proof.
  pose proof Wv as V. apply (LSM lsm_kurtosis W 4%nat (MOM 4)); [lia|auto|]. unfold kurtosis, validate_params. cbv zeta. rewrite !vg1 by lra. replace (Gamma (1 + 1 / k)) with (- W 1) by (rewrite W1; ring). replace (Gamma (1 + 3 / k)) with (- W 3) by (rewrite W3; ring). rewrite <- W2, <- W4.
  assert (P : 0 < W 2 - (- W 1) ^ 2) by (unfold mvar in V; replace ((- W 1) ^ 2) with (W 1 ^ 2) by ring; auto). assert (0 < (W 2 - (- W 1) ^ 2) ^ 2) by (apply pow_lt; auto). veval. f_equal. unfold mcen4, mvar. replace ((- W 1) ^ 2) with (W 1 ^ 2) in * by ring. field; lra.
Qed.
Lemma ent_ok g : euler_constant g -> entropy_is (fun x => pdf x k l s) m_infty l (entropy g k l s).
Proof.
  intros G. apply euler_eq in G. apply (LSM ls_entropy_is _ (- ln k - (k - 1) * (digamma 1 / k) + 1)); [apply (r_int (fun z => - (f k z * ln (f k z)))); [|apply w_ent; auto]; intros y Y; apply ex_derive_cont; pose proof (P_weibull_min.f_pos k K y) as FP; unfold P_weibull_min.f, Rpower in *; auto_derive; repeat split; auto|].
  unfold entropy, validate_params. rewrite G. veval. f_equal. field. lra.
Qed.
Lemma pm n : (-1) ^ Nat.modulo n 2 = (-1) ^ n.
Proof. rewrite (Nat.div_mod n 2) at 2 by lia. rewrite pow_add, pow_mult. replace ((-1) ^ 2) with 1 by ring. rewrite pow1. ring. Qed.
Lemma W0 : W 0 = 1. Proof. unfold W, wM. simpl. unfold Rdiv. rewrite Rmult_0_l, Rplus_0_r, Gamma_1. ring. Qed.
Lemma std_mom n : standard_noncentral_moment vgamma n (Fin k) = Fin (W n).
Proof.
  unfold standard_noncentral_moment. destruct n as [|n]; [simpl Nat.eqb; rewrite W0; auto|]. change (Nat.eqb (Datatypes.S n) 0) with false. cbv iota. rewrite vg1 by apply pos_INR.
  unfold W. rewrite <- pm. set (m := Nat.modulo (Datatypes.S n) 2). clearbody m. veval. reflexivity.
Qed.
Lemma moment_ok n : moment_is (fun x => pdf x k l s) m_infty l n (noncentral_moment vgamma n k l s).
Proof.
  apply (LSM lsm_moment W n (MOM n)); [lia|]. unfold noncentral_moment, validate_params. destruct n as [|n].
  - simpl Nat.eqb. veval. f_equal. unfold lsM. cbn [nsum Nat.add]. rewrite W0. unfold Binomial.C. simpl. field.
  - change (Nat.eqb (Datatypes.S n) 0) with false. set (N := Datatypes.S n) in *. cbv iota.
    rewrite (vfsum_seq _ (fun i => Binomial.C N i * l ^ (N - i) * s ^ i * W i)); [veval; reflexivity|]. intros i _. rewrite std_mom. veval. reflexivity.
Qed.
End P.
Lemma mle_scale_opt solve1 solve2 xs (k l : R) : xs <> [] -> 0 < k -> (forall x, In x xs -> x < l) ->
  exists s, mle solve1 solve2 (map Fin xs) (Some (Fin k)) (Some (Fin l)) None = Ok (Fin k, Fin l, Fin s) /\
  minimises (fun s => 0 < s) (fun s => nll (map Fin xs) (Fin k) (Fin l) (Fin s)) s.
Proof.
  intros N K H.
  assert (N' : map Ropp xs <> []) by (destruct xs; [congruence|discriminate]).
  assert (H' : forall x, In x (map Ropp xs) -> - l < x).
  { intros y I. apply in_map_iff in I. destruct I as [x [<- I]]. pose proof (H x I). lra. }
  destruct (P_weibull_min.mle_scale_opt solve1 solve2 (map Ropp xs) k (- l) N' K H') as [s [E [SP [m [M1 M2]]]]].
  exists s. split.
  - unfold mle, M_weibull_min.mle in *.
    rewrite cany_false in E by (intros a I; apply in_map_iff in I; destruct I as [x [<- I]]; pose proof (H' x I); ccond).
    rewrite cany_false by (intros a I; apply in_map_iff in I; destruct I as [x [<- I]]; pose proof (H x I); ccond).
    revert E. cbv zeta.
    replace (map (fun t : val => (t - Fin (- l))%V) (map Fin (map Ropp xs))) with
        (map (fun t : val => (- t + Fin l)%V) (map Fin xs)).
    + vif. cbn [cif]. vif. cbn [cif].
        destruct (M_basic.pmean (map (fun t : val => (- t + Fin l)%V) (map Fin xs)) (Fin k) None); cbn [bindv];
        intros E; inversion E; auto.
    + rewrite !map_map. apply map_ext. intros x. simpl. f_equal. ring.
  - split; auto. exists m. split.
    + rewrite refl_nll by auto. auto.
    + intros b B. destruct (M2 b B) as [r [R1 R2]]. exists r. rewrite refl_nll by auto. auto.
Qed.
Lemma loc_scale k : 0 < k -> loc_scale_law (fun x => pdf x k) (fun x => cdf x k) (fun x => sf x k)
  (fun p => invcdf p k) (fun p => invsf p k) m_infty 0.
Proof.
  intros K l s S. destruct (P_weibull_min.loc_scale k K (- l) s S) as [A [B C]].
  assert (Z : forall z, - (l + s * z) = - l + s * - z) by (intros; ring). split; [|split].
  - intros z. rewrite !(proj1 (refl_cdf k _ s K S _ (ext_fin _))), !(proj2 (refl_cdf k _ s K S _ (ext_fin _))).
    rewrite (proj1 (refl_cdf k 0 1 K ltac:(lra) (Fin z) (ext_fin _))), (proj2 (refl_cdf k 0 1 K ltac:(lra) (Fin z) (ext_fin _))).
    cbn [vneg]. rewrite Z, Ropp_0. destruct (A (- z)) as [A1 A2]. auto.
  - intros z [_ H]. simpl in H. destruct (B (- z)) as [d [D1 D2]]; [split; simpl; auto; lra|].
    exists d. rewrite (proj1 (refl_pdf k 0 1 K ltac:(lra) z)), (proj1 (refl_pdf k l s K S _)), Z, Ropp_0. auto.
  - intros p H. destruct (C p H) as [q [r [C1 [C2 [C3 C4]]]]]. exists (- r), (- q).
    rewrite (proj1 (refl_inv k 0 1 K ltac:(lra) p ltac:(lra))), (proj2 (refl_inv k 0 1 K ltac:(lra) p ltac:(lra))),
     (proj1 (refl_inv k l s K S p ltac:(lra))), (proj2 (refl_inv k l s K S p ltac:(lra))), Ropp_0.
    cbv beta in *. rewrite C1, C2, C3, C4. cbn [vneg]. repeat split; f_equal; ring.
Qed.
Lemma bad_params g e (k l s : val) : isnum k -> isnum s -> nonpositive k \/ nonpositive s ->
  support k l s = Err ValueError /\
  always_ValueError [ fun x => pdf x k l s; fun x => logpdf x k l s; fun x => cdf x k l s; fun x => sf x k l s;
    fun p => invcdf p k l s; fun p => invsf p k l s; fun _ => mode k l s; fun _ => mean g k l s; fun _ => var g k l s;
    fun _ => skewness g k l s; fun _ => kurtosis g k l s; fun _ => entropy e k l s;
    fun x => nll [x] k l s ].
Proof.
  intros N1 N2 B. unfold support, pdf, logpdf, cdf, sf, invcdf, invsf, mode, mean, var, skewness, kurtosis, entropy, nll.
  split; [|all_ve; intros x Hx]; rewrite ?P_weibull_min.vparams_bad by auto; try reflexivity; apply vpp_pass; auto.
Qed.
(** Moments mirror. *)
Lemma refl_mean g (k l s : R) : 0 < k -> 0 < s -> (forall x : R, 0 < x -> exists y : R, g (Fin x) = Fin y) ->
  mean g k l s = vneg (M_weibull_min.mean g k (- l)%R s) /\ var g k l s = M_weibull_min.var g k (- l)%R s.
Proof.
  intros K S G. unfold mean, var, M_weibull_min.mean, M_weibull_min.var, validate_params. veval.
  destruct (G (1 + 1 / k)) as [y E]. { assert (0 < 1 / k) by (apply Rdiv_pos; lra). lra. }
  rewrite E. veval. split; auto. f_equal. ring.
Qed.
