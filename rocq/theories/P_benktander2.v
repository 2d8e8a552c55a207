(** Proofs about M_benktander2. *)
From Coq Require Import Reals Lra Lia List.
From Coq Require Ranalysis5.
From Coquelicot Require Import Coquelicot.
From Verif Require Import Values VTac Spec RLib DistLib DistLS LimLib MomLib PLib XLib PatchLib LambertLib SFun2 M_common M_sfun2 SpecStat SpecEst LLib.
From Verif Require Import M_benktander2.
Import ListNotations.
Local Open Scope R_scope.
Set Bullet Behavior "Strict Subproofs".

Section Std.
Variables a b : R.
Hypothesis A : 0 < a.
Hypothesis B : 0 < b.
Hypothesis B1 : b <= 1.
Definition X (z : R) := (b - 1) * z + - (a / b * (exp (b * z) - 1)).
Definition h (z : R) := a * exp (b * z) - b + 1.
Definition F (x : R) := 1 - exp (X (ln x)).
Definition fz (z : R) := h z * exp (X z) * exp (- z).
Definition f (x : R) := fz (ln x).
Definition Qz (p : R) : R :=
  if Req_EM_T b 1 then ln (1 - ln (1 - p) / a)
  else / b * ln (LambertW (a / (1 - b) * exp (a / (1 - b)) * exp (- b / (1 - b) * ln (1 - p))) / (a / (1 - b))).
Definition Q (p : R) := exp (Qz p).
Lemma h_pos z : 0 < h z. Proof. unfold h. pose proof (exp_pos (b * z)). nra. Qed.
Lemma X_der z : is_derive X z (- h z).
Proof. unfold X, h. auto_derive; auto. field. lra. Qed.
Lemma X_0 : X 0 = 0. Proof. unfold X. rewrite !Rmult_0_r, exp_0. ring. Qed.
Lemma X_decr u v : u < v -> X v < X u.
Proof.
  intros UV. cut (- X u < - X v); [lra|]. apply (smono_closed (fun z => - X z) h u v UV).
  - intros z _. split; [|apply h_pos]. evar_last; [apply (is_derive_opp X); apply X_der|unfold opp; simpl; ring].
  - apply ex_derive_cont. unfold X. auto_derive. auto.
  - apply ex_derive_cont. unfold X. auto_derive. auto.
Qed.
Lemma X_neg z : 0 < z -> X z < 0. Proof. intros Z. rewrite <- X_0. apply X_decr; auto. Qed.
Lemma X_onto y : y < 0 -> exists z, 0 < z /\ X z = y.
Proof.
  intros Y. set (r := 1 - y * b / a). assert (R1 : 1 < r) by (unfold r; assert (0 < - (y * b / a)) by (unfold Rdiv; rewrite Ropp_mult_distr_l; apply Rdiv_pos; auto; nra); lra).
  pose proof (ln_pos r R1) as LP. assert (ZP : 0 < ln r / b) by (apply Rdiv_pos; auto).
  assert (E1 : X (ln r / b) <= y).
  { unfold X. replace (b * (ln r / b)) with (ln r) by (field; lra). rewrite exp_ln by lra. replace (a / b * (r - 1)) with (- y) by (unfold r; field; lra). nra. }
  destruct E1 as [E1|E1]; [|exists (ln r / b); auto].
  destruct (Ranalysis5.IVT_interv (fun z => y - X z) 0 (ln r / b)) as [z [Z E]]; auto.
  - intros z _. apply continuity_pt_filterlim. apply (ex_derive_continuous (V := R_NormedModule) (fun z => y - X z)). unfold X. auto_derive; auto.
  - rewrite X_0. lra.
  - lra.
  - exists z. split; [|lra]. destruct (Req_dec z 0) as [->|]; [rewrite X_0 in E; lra|lra].
Qed.
Lemma w_eq p z : 0 < z -> X z = ln (1 - p) -> b < 1 -> let c := a / (1 - b) in
  c * exp c * exp (- b / (1 - b) * ln (1 - p)) = c * exp (b * z) * exp (c * exp (b * z)) /\ 0 < c * exp (b * z).
Proof.
  intros Z E BB c. assert (C : 0 < c) by (apply Rdiv_pos; lra). pose proof (exp_pos (b * z)). split; [|apply Rmult_lt_0_compat; auto].
  rewrite !Rmult_assoc, <- !exp_plus. f_equal. f_equal. rewrite <- E. unfold X, c. field. lra.
Qed.
Lemma Q_eq p z : 0 < p < 1 -> 0 < z -> X z = ln (1 - p) -> Qz p = z.
Proof.
  intros P Z E. unfold Qz. destruct (Req_EM_T b 1) as [E1|N].
  - assert (Y : 1 - ln (1 - p) / a = exp z).
    { rewrite <- E. unfold X. rewrite E1, Rmult_1_l. field. lra. }
    rewrite Y, ln_exp. auto.
  - assert (BB : b < 1) by lra. destruct (w_eq p z Z E BB) as [W1 W2]. rewrite W1, LambertW_eq by lra.
    assert (0 < a / (1 - b)) by (apply Rdiv_pos; lra). replace (a / (1 - b) * exp (b * z) / (a / (1 - b))) with (exp (b * z)) by (field; lra). rewrite ln_exp. field. lra.
Qed.
Lemma chain (H : R -> R) (d x : R) : 1 <= x -> is_derive H (ln x) d -> is_derive (fun t => H (ln t)) x (d / x).
Proof.
  intros XX D. evar_last; [apply (is_derive_comp H ln); [exact D|apply is_derive_Reals; apply derivable_pt_lim_ln; lra]|].
  unfold scal; simpl; unfold mult; simpl. field. lra.
Qed.
Lemma inv_x x : 1 <= x -> exp (- ln x) = / x. Proof. intros XX. rewrite exp_Ropp, exp_ln by lra. auto. Qed.
Lemma F_der x : 1 <= x -> is_derive F x (f x).
Proof.
  intros XX. unfold F. evar_last; [apply (is_derive_minus (fun _ => 1) (fun x => exp (X (ln x)))); [apply is_derive_const|]|].
  - apply (chain (fun z => exp (X z)) (- h (ln x) * exp (X (ln x)))); auto. apply (is_derive_comp exp X); [apply is_derive_exp|apply X_der].
  - unfold minus, plus, opp, zero; simpl. unfold f, fz. rewrite inv_x by auto. field. lra.
Qed.
Lemma f_der x : 1 <= x -> ex_derive f x.
Proof. intros XX. unfold f, fz, h, X. auto_derive. repeat split; lra. Qed.
Lemma f_pos x : 0 < f x.
Proof. unfold f, fz. repeat apply Rmult_lt_0_compat; try apply exp_pos. apply h_pos. Qed.
Lemma SM : smooth 1 p_infty F f.
Proof.
  constructor; simpl; auto.
  - intros x [H _]. simpl in H. unfold F. pose proof (exp_pos (X (ln x))). pose proof (exp_lt_1 _ (X_neg _ (ln_pos x H))). lra.
  - intros x [H _]. simpl in H. apply F_der. lra.
  - intros x _. apply f_pos.
Qed.
Lemma QU : quantile 1 p_infty F Q.
Proof.
  intros p P. destruct (X_onto (ln (1 - p))) as [z [Z E]]; [apply ln_neg; lra|]. unfold Q. rewrite (Q_eq p z P Z E).
  split; [split; simpl; auto; apply exp_gt_1; auto|]. unfold F. rewrite ln_exp, E, exp_ln by lra. ring.
Qed.
Lemma fz_max z : 0 <= z -> fz z <= fz 0.
Proof.
  intros Z. apply (anti_closed fz (fun z => exp (X z) * exp (- z) * (a * b * exp (b * z) - h z * (1 + h z)))); auto.
  - intros y Y. split.
    + evar_last.
      * apply (is_derive_mult (fun z => h z * exp (X z)) (fun z => exp (- z))); [apply (is_derive_mult h (fun z => exp (X z)))|auto_derive; auto|intros; apply Rmult_comm].
        -- unfold h. auto_derive; auto.
        -- apply (is_derive_comp exp X); [apply is_derive_exp|apply X_der; auto].
        -- intros; apply Rmult_comm.
      * unfold plus, mult, scal; simpl; unfold mult; simpl. unfold h. ring.
    + pose proof (exp_pos (X y)). pose proof (exp_pos (- y)). pose proof (h_pos y). pose proof (exp_pos (b * y)).
      assert (a * b * exp (b * y) - h y * (1 + h y) <= 0).
      { assert (0 < a * exp (b * y)) by (apply Rmult_lt_0_compat; auto). unfold h. set (y0 := a * exp (b * y)) in *. replace (a * b * exp (b * y)) with (b * y0) by (unfold y0; ring). nra. }
      assert (0 < exp (X y) * exp (- y)) by (apply Rmult_lt_0_compat; auto). nra.
  - apply ex_derive_cont. unfold fz, h, X. auto_derive. auto.
  - apply ex_derive_cont. unfold fz, h, X. auto_derive. auto.
Qed.
Definition E1 (z : R) := exp (- (a / b * (exp (b * z) - 1))).
Definition A1 (z : R) := - (exp (b * z) * E1 z) - / a * E1 z.
Lemma lim_A1 : filterlim (fun x => A1 (ln x)) (Rbar_locally p_infty) (locally 0).
Proof.
  pose proof (near_hi_filter p_infty) as FF. assert (K : 0 < a / b) by (apply Rdiv_pos; auto).
  assert (L : filterlim (fun x => a / b * exp (b * ln x)) (Rbar_locally p_infty) (Rbar_locally p_infty)).
  { apply (filterlim_comp _ _ _ ln (fun z => a / b * exp (b * z)) _ (Rbar_locally p_infty)); [apply pinf_ln|].
    intros P [M HM]. exists (M / a). intros z Z. apply HM. pose proof (exp_ineq (b * z)) as EI.
    apply (Rmult_lt_compat_l a) in Z; auto. replace (a * (M / a)) with M in Z by (field; lra).
    assert (a * z = a / b * (b * z)) by (field; lra). assert (a / b * (b * z) < a / b * exp (b * z)) by (apply Rmult_lt_compat_l; lra). lra. }
  apply (flim_eq _ (fun x => - (exp (a / b) * (b / a)) * ((a / b * exp (b * ln x)) * exp (- (a / b * exp (b * ln x)))) - / a * exp (a / b) * exp (- (a / b * exp (b * ln x))))).
  - apply filter_forall. intros x. unfold A1, E1. replace (- (a / b * (exp (b * ln x) - 1))) with (a / b + - (a / b * exp (b * ln x))) by ring. rewrite exp_plus. field. lra.
  - replace 0 with (- (exp (a / b) * (b / a)) * 0 - / a * exp (a / b) * 0) by ring. apply flim_minus; auto; apply flim_scal; auto.
    + apply (filterlim_comp _ _ _ (fun x => a / b * exp (b * ln x)) (fun w => w * exp (- w)) _ _ _ L lim_x_exp).
    + apply (filterlim_comp _ _ _ (fun x => a / b * exp (b * ln x)) (fun w => exp (- w)) _ _ _ L lim_exp).
Qed.
Lemma m1_ok : integrates_to (fun x => x * f x) 1 p_infty (1 + 1 / a).
Proof.
  replace (1 + 1 / a) with (0 - A1 (ln 1)) by (unfold A1, E1; rewrite ln_1, !Rmult_0_r, exp_0; replace (- (a / b * (1 - 1))) with 0 by ring; rewrite exp_0; field; lra).
  apply (mk_integral (fun x => x * f x) (fun x => A1 (ln x))); simpl; auto.
  - intros x [H _]. simpl in H. evar_last; [apply (chain A1 (h (ln x) * exp (b * ln x) * E1 (ln x))); [lra|unfold A1, E1, h; auto_derive; auto; unfold Rminus; field; lra]|].
    unfold f, fz. assert (E : exp (X (ln x)) = exp (b * ln x) * E1 (ln x) * exp (- ln x)) by (unfold E1, X; rewrite <- !exp_plus; f_equal; ring).
    rewrite E, inv_x by lra. field. lra.
  - intros x [H _]. simpl in H. apply (ex_derive_continuous (V := R_NormedModule) (fun x => x * f x)). apply (ex_derive_mult (fun x => x) f); [auto_derive; auto|apply f_der; lra].
  - apply (flim_right (fun x => A1 (ln x)) 1). apply (ex_derive_continuous (V := R_NormedModule) (fun x => A1 (ln x))). unfold A1, E1. auto_derive. repeat split; lra.
  - apply lim_A1.
Qed.
End Std.

Section P.
Variables a b : R.
Hypothesis A : 0 < a.
Hypothesis B : 0 < b.
Hypothesis B1 : b <= 1.
Lemma vld {T} `{CanRaise T} (k : T) : validate (Fin a) (Fin b) k = k.
Proof. unfold validate. veval. reflexivity. Qed.
Lemma vals (x : R) : 1 <= x -> cdf x a b = Fin (F a b x) /\ sf x a b = Fin (1 - F a b x) /\ pdf x a b = Fin (f a b x) /\ logpdf x a b = Fin (ln (f a b x)).
Proof.
  intros XX. pose proof (h_pos a b A B1 (ln x)) as HP. unfold f at 2, fz at 1. rewrite !ln_mult, !ln_exp by (repeat apply Rmult_lt_0_compat; auto; apply exp_pos).
  unfold cdf, sf, pdf, logpdf. rewrite !vld. unfold vpowm1, F, f, fz. unfold X, h in *.
  assert (LP : 0 < 1 + (a * exp (b * ln x) - b)) by lra.
  replace (vpow (Fin x) (Fin b)) with (Fin (exp (b * ln x))) by (symmetry; veval; reflexivity).
  veval. unfold Rpower. repeat split; f_equal.
  - replace (a / b * - (exp (b * ln x) - 1)) with (- (a / b * (exp (b * ln x) - 1))) by ring. ring.
  - replace (a / b * - (exp (b * ln x) - 1)) with (- (a / b * (exp (b * ln x) - 1))) by ring. rewrite exp_plus. ring.
  - rewrite exp_plus. replace (a / b * - (exp (b * ln x) - 1)) with (- (a / b * (exp (b * ln x) - 1))) by ring.
    assert (E : exp ((b - 2) * ln x) = exp ((b - 1) * ln x) * exp (- ln x)) by (rewrite <- exp_plus; f_equal; ring). rewrite E. ring.
  - replace (1 + (a * exp (b * ln x) - b)) with (a * exp (b * ln x) - b + 1) by ring. ring.
Qed.
Lemma out (x : R) : x < 1 -> pdf x a b = Fin 0 /\ logpdf x a b = NInf /\ cdf x a b = Fin 0 /\ sf x a b = Fin 1.
Proof. intros XX. unfold pdf, logpdf, cdf, sf. rewrite !vld. veval. auto. Qed.
Lemma F_1 : F a b 1 = 0. Proof. unfold F. rewrite ln_1, X_0, exp_0. ring. Qed.
Lemma inv_gen (p : R) : 0 < p < 1 -> invsf (Fin (1 - p)) a b = Fin (Q a b p) /\ invcdf (Fin p) a b = Fin (Q a b p).
Proof.
  intros P. unfold invsf, invcdf, validate_p. rewrite !vld. destruct (X_onto a b A B B1 (ln (1 - p))) as [z [Z E]]; [apply ln_neg; lra|].
  unfold Q. rewrite (Q_eq a b A B B1 p z P Z E). destruct (Req_dec b 1) as [E1|N].
  - rewrite E1 in *. assert (Y : 1 - ln (1 - p) / a = exp z) by (rewrite <- E; unfold X; rewrite Rmult_1_l; field; lra). veval. rewrite Y. auto.
  - assert (BB : b < 1) by lra. destruct (w_eq a b A B p z Z E BB) as [W1 W2]. assert (C : 0 < a / (1 - b)) by (apply Rdiv_pos; lra).
    assert (K : vlambertw (Fin (a / (1 - b) * exp (a / (1 - b)) * exp (- b / (1 - b) * ln (1 - p)))) = Fin (a / (1 - b) * exp (b * z))) by (rewrite W1; apply vlambertw_eq; lra).
    assert (R : Rpower (exp (b * z)) (1 / b) = exp z) by (unfold Rpower; rewrite ln_exp; f_equal; field; lra). pose proof (exp_pos (b * z)).
    assert (DV : a / (1 - b) * exp (b * z) / (a / (1 - b)) = exp (b * z)) by (field; lra).
    veval. unfold Rpower at 1 2. rewrite K. veval. rewrite DV. veval. rewrite R. auto.
Qed.
Lemma CERT : cert (fun x => pdf x a b) (fun x => logpdf x a b) (patch (fun x => cdf x a b) (Fin 1)) (patch (fun x => sf x a b) (Fin 0))
  (fun p => invcdf p a b) (fun p => invsf p a b) 1 p_infty (F a b) (f a b) (Q a b).
Proof.
  constructor.
  - constructor.
    + intros x [XX _]. simpl in XX. unfold patch. pose proof (vals x ltac:(lra)). tauto.
    + intros x XX. simpl in XX. unfold patch. destruct XX as [XX| ->]; [apply out; auto|]. destruct (vals 1 ltac:(lra)) as [E1 [E2 _]]. rewrite E1, E2, F_1. split; f_equal; ring.
    + intros x [].
    + unfold patch, cdf, sf. rewrite !vld. veval. auto.
    + auto.
  - apply SM; auto.
  - intros x [XX _]. simpl in XX. apply ex_derive_cont. apply f_der; auto. lra.
  - apply QU; auto.
  - intros x [XX _]. simpl in XX. pose proof (vals x ltac:(lra)). tauto.
  - intros x [XX|[]]. simpl in XX. split; apply out; auto.
  - intros p P. destruct (inv_gen p P) as [_ E1]. destruct (inv_gen (1 - p) ltac:(lra)) as [E2 _]. replace (1 - (1 - p)) with p in E2 by ring. auto.
Qed.
Lemma compl x : ext x -> x <> PInf \/ b < 1 -> exists c, 0 <= c <= 1 /\ cdf x a b = Fin c /\ sf x a b = Fin (1 - c).
Proof.
  intros E D. destruct (ext_inf_dec x) as [->|N]; [|apply (patch_compl CERT); auto]. destruct D as [D|D]; [congruence|].
  exists 1. split; [lra|]. unfold cdf, sf. rewrite !vld. unfold vpowm1. assert (0 < a / b) by (apply Rdiv_pos; auto). veval. unfold scale_inf. veval. split; f_equal; ring.
Qed.
Lemma at_inf : b = 1 -> cdf PInf a b = NaN /\ sf PInf a b = NaN.
Proof. intros E. unfold cdf, sf. rewrite !vld. unfold vpowm1. rewrite E. assert (0 < a / 1) by (apply Rdiv_pos; lra). veval. unfold scale_inf. veval. replace (1 - 1) with 0 by ring. unfold vpow. rewrite (Reqb_true 0 0), (Rltb_false 0 0) by lra. auto. Qed.
Lemma mono : (forall x y, ext_le x y -> y <> PInf -> exists u v, cdf x a b = Fin u /\ cdf y a b = Fin v /\ u <= v) /\
  (forall x, ext_le x (Fin 1) -> cdf x a b = Fin 0) /\ filterlim (fun t => toR (cdf (Fin t) a b)) (Rbar_locally p_infty) (locally 1) /\ support a b = Ok (Fin 1, PInf).
Proof. split; [apply (patch_mono CERT)|]. split; [apply (patch_low CERT)|]. split; [apply (patch_lim CERT)|]. unfold support. rewrite vld. auto. Qed.
Lemma density : density_of (fun x => cdf x a b) (fun x => pdf x a b) 1 p_infty.
Proof. exact (cert_density CERT). Qed.
Lemma mass : total_mass_one (fun x => pdf x a b) 1 p_infty.
Proof. exact (cert_total_mass CERT). Qed.
Lemma inv_cdf : inverse_of (fun x => cdf x a b) (fun p => invcdf p a b) 1 p_infty.
Proof. exact (cert_inverse CERT). Qed.
Lemma inv_sf : inverse_of (fun x => sf x a b) (fun p => invsf p a b) 1 p_infty.
Proof. exact (cert_inverse_sf CERT). Qed.
Lemma log_all (x : R) : log_of (fun x => pdf x a b) (fun x => logpdf x a b) x.
Proof.
  revert x. apply (cert_log_ends CERT); intros x E; [|discriminate]. injection E as E; subst x.
  left. exists (f a b 1). pose proof (f_pos a b A B1 1). pose proof (vals 1 ltac:(lra)). tauto.
Qed.
Lemma ends : rejects_bad_p (fun p => invcdf p a b) /\ rejects_bad_p (fun p => invsf p a b) /\
  invcdf (Fin 0) a b = Fin 1 /\ invsf (Fin 1) a b = Fin 1 /\
  (b = 1 \/ (forall k : positive, 2 * b / (1 - b) <> IZR (Zpos k)) -> invcdf (Fin 1) a b = PInf /\ invsf (Fin 0) a b = PInf).
Proof.
  split; [|split].
  - split; [intros p [H|H]|split]; unfold invcdf, validate_p, validate; veval; reflexivity.
  - split; [intros p [H|H]|split]; unfold invsf, validate_p, validate; veval; reflexivity.
  - unfold invcdf, invsf, validate_p. rewrite !vld. destruct (Req_dec b 1) as [E|N].
    + rewrite E. veval. rewrite Rminus_0_r, ln_1. unfold scale_inf. veval. repeat split; f_equal; field; lra.
    + assert (C : 0 < a / (1 - b)) by (apply Rdiv_pos; lra).
      assert (K : vlambertw (Fin (a / (1 - b) * exp (a / (1 - b)) * 1)) = Fin (a / (1 - b))) by (rewrite Rmult_1_r; apply vlambertw_eq; lra).
      assert (DV : a / (1 - b) / (a / (1 - b)) = 1) by (field; lra).
      split; [|split].
      * veval. rewrite Rminus_0_r, Rpower_1_l, K. veval. rewrite DV. veval. rewrite Rpower_1_l. auto.
      * veval. rewrite Rpower_1_l, K. veval. rewrite DV. veval. rewrite Rpower_1_l. auto.
      * intros [E|H]; [congruence|]. assert (BN : - b / (1 - b) < 0) by (apply Rdiv_neg; lra).
        assert (V : vpow (Fin 0) (Fin (- b / (1 - b))) = PInf).
        { unfold vpow. unfold Rltb, Reqb. destruct (Rlt_dec 0 0); [lra|]. destruct (Req_EM_T 0 0); [|lra].
          destruct (Req_EM_T (- b / (1 - b)) 0); [lra|]. destruct (Rlt_dec 0 (- b / (1 - b))); [lra|].
          destruct (is_intb (2 * (- b / (1 - b)))) eqn:I; auto. exfalso. unfold is_intb in I. destruct (Reqb_spec (2 * (- b / (1 - b))) (IZR (Int_part (2 * (- b / (1 - b)))))) as [[I' _]|[_ I']]; [|congruence]. clear I. revert I'. generalize (Int_part (2 * (- b / (1 - b)))). intros z I.
          assert (Z : (z < 0)%Z) by (apply lt_IZR; lra). destruct z as [|k|k]; try lia. apply (H k). replace (IZR (Z.pos k)) with (- IZR (Z.neg k)) by (rewrite <- opp_IZR; auto). rewrite <- I. field. lra. }
        assert (CE : 0 < a / (1 - b) * exp (a / (1 - b))) by (apply Rmult_lt_0_compat; auto; apply exp_pos).
        assert (BI : 0 < 1 / b) by (apply Rdiv_pos; lra).
        split; veval; [replace (1 - 1) with 0 by ring|]; rewrite V; veval; unfold scale_inf; veval; unfold vlambertw; veval; unfold scale_inf; veval; reflexivity.
Qed.
Lemma ends_hi : (exists k : positive, 2 * b / (1 - b) = IZR (Zpos k)) -> b < 1 -> invcdf (Fin 1) a b = Exc ZeroDivisionError /\ invsf (Fin 0) a b = Exc ZeroDivisionError.
Proof.
  intros [k K] L. assert (BN : - b / (1 - b) < 0) by (apply Rdiv_neg; lra). 
  assert (V : vpow (Fin 0) (Fin (- b / (1 - b))) = Exc ZeroDivisionError).
  { unfold vpow. unfold Rltb, Reqb. destruct (Rlt_dec 0 0); [lra|]. destruct (Req_EM_T 0 0); [|lra].
    destruct (Req_EM_T (- b / (1 - b)) 0); [lra|]. destruct (Rlt_dec 0 (- b / (1 - b))); [lra|].
    replace (2 * (- b / (1 - b))) with (IZR (Z.neg k)); [rewrite is_intb_IZR; auto|]. change (Z.neg k) with (- Z.pos k)%Z. rewrite opp_IZR, <- K. field. lra. }
  unfold invcdf, invsf, validate_p. rewrite !vld. split; veval; [replace (1 - 1) with 0 by ring|]; rewrite V; veval; reflexivity.
Qed.
Lemma mode_ok : is_mode (fun x => pdf x a b) (mode a b).
Proof.
  assert (MX : forall x, 1 <= x -> f a b x <= f a b 1).
  { intros x XX. unfold f. rewrite ln_1. apply fz_max; auto. destruct XX as [XX| <-]; [left; apply ln_pos; auto|rewrite ln_1; lra]. }
  exists 1, (f a b 1). split; auto. pose proof (vals 1 ltac:(lra)) as V1. split; [tauto|]. intros x. destruct (Rlt_le_dec x 1) as [L|L].
  - exists 0. split; [apply out; auto|]. left. apply f_pos; auto.
  - exists (f a b x). pose proof (vals x L) as V. split; [tauto|auto].
Qed.
Definition MM (n : nat) : R := match n with O => 1 | _ => 1 + 1 / a end.
Lemma PDF x : inside 1 p_infty x -> pdf (Fin x) a b = Fin (f a b x).
Proof. intros [H _]. simpl in H. pose proof (vals x ltac:(lra)). tauto. Qed.
Lemma MM_ok n : (n <= 1)%nat -> integrates_to (fun x => x ^ n * f a b x) 1 p_infty (MM n).
Proof.
  intros N. assert (LT : Rbar_lt 1 p_infty) by exact I. destruct n as [|[|]]; [| |lia].
  - apply (integrates_ext 1 p_infty LT (f a b)); [intros; simpl; ring|].
    apply (integrates_ext 1 p_infty LT (fun t => toR (pdf (Fin t) a b))); [|apply mass]. intros x XX. rewrite PDF; auto.
  - apply (integrates_ext 1 p_infty LT (fun x => x * f a b x)); [intros; simpl; ring|]. apply m1_ok; auto.
Qed.
Lemma mean_ok : mean_is (fun x => pdf x a b) 1 p_infty (mean a b).
Proof.
  apply (raw_mean_is 1 p_infty (fun x => pdf x a b) (f a b) MM 1 I PDF MM_ok); [lia|]. unfold mean. rewrite vld. veval. reflexivity.
Qed.
Lemma nll_ok xs : (forall x, In x xs -> 1 <= x) -> nll (map Fin xs) a b = vneg (loglik (fun x => logpdf x a b) xs).
Proof.
  intros H. unfold nll. rewrite vld, vxb_pass.
  - unfold loglik. rewrite map_map. reflexivity.
  - intros x I. split; simpl; auto.
Qed.
Lemma nll_bad xs : (exists x, In x xs /\ x < 1) -> nll (map Fin xs) a b = Exc ValueError.
Proof. intros H. unfold nll. rewrite vxb_low; auto. Qed.
End P.
Lemma bad_params (a b : val) : isnum a -> isnum b -> nonpositive a \/ nonpositive b \/ (exists y : R, b = Fin y /\ 1 < y) ->
  support a b = Err ValueError /\
  always_ValueError [ fun x => pdf x a b; fun x => logpdf x a b; fun x => cdf x a b; fun x => sf x a b;
    fun p => invcdf p a b; fun p => invsf p a b; fun _ => mean a b ].
Proof.
  intros N1 N2 D. assert (V : forall (T : Type) (CR : CanRaise T) (k : T), validate a b k = raise ValueError).
  { intros T CR k. unfold validate. destruct D as [D|D].
    - exact (vp_bad a _ D).
    - apply (vp_pass a _ N1). destruct D as [D|[y [-> D]]]; [inversion D; subst; try reflexivity|]; veval; reflexivity. }
  unfold support, pdf, logpdf, cdf, sf, invcdf, invsf, mean. split; [apply V|]. all_ve; intros x Hx; try (apply vpp_pass; auto); apply V.
Qed.
Lemma mode_bad (a b : val) : mode a b = Fin 1. Proof. reflexivity. Qed.
