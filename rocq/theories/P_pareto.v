(** Proofs about M_pareto. *)
From Coq Require Import Reals Lra List.
From Coquelicot Require Import Coquelicot.
From Verif Require Import Values VTac Spec SpecStat SpecEst RLib DistLib DistLS LimLib MomLib PLib LLib XLib P_est M_common M_fun M_pareto.
Import ListNotations.
Local Open Scope R_scope.
Set Bullet Behavior "Strict Subproofs".

Section Std.
Variables b : R.
Hypothesis Hb : 0 < b.
Definition F (z : R) := 1 - Rpower z (- b).
Definition f (z : R) := b * Rpower z (- b - 1).
Definition Q (p : R) := Rpower (1 - p) (-1 / b).
Lemma f_pos z : 0 < f z.
Proof. unfold f. apply Rmult_lt_0_compat; [auto|apply Rpower_pos]. Qed.
Lemma ST : std 1 p_infty F f Q.
Proof.
  constructor.
  - constructor; simpl; auto.
    + intros z [H _]. simpl in H. unfold F. pose proof (Rpower_pos z (- b)). pose proof (Rpower_lt_1_neg z (-b) H ltac:(lra)). lra.
    + intros z [H _]. simpl in H. unfold F, f. evar_last.
      * apply (is_derive_minus (fun _ => 1) (fun z => Rpower z (-b))); [apply is_derive_const|]. apply is_derive_Rpower. lra.
      * unfold minus, plus, opp, zero; simpl. ring.
    + intros z _. apply f_pos.
  - intros z [H _]. simpl in H. apply ex_derive_cont. unfold f, Rpower. auto_derive. lra.
  - intros p H. unfold Q. split; [split; simpl; auto|].
    + apply Rpower_gt_1_neg; [lra|]. apply Rdiv_neg; lra.
    + unfold F. rewrite Rpower_mult. replace (-1 / b * - b) with 1 by (field; lra). rewrite Rpower_1 by lra. ring.
Qed.
(** Antiderivative of z^n f z. *)
Lemma mom_ok (n : nat) : INR n < b -> integrates_to (fun z => z ^ n * f z) 1 p_infty (b / (b - INR n)).
Proof.
  intros H. set (k := INR n - b). assert (K : k < 0) by (unfold k; lra). set (G := fun z => b / k * Rpower z k).
  replace (b / (b - INR n)) with (b / k * 0 - G 1).
  - apply (mk_integral _ G); simpl; auto.
    + intros z [Z _]. simpl in Z. evar_last.
      * apply (is_derive_scal (fun z => Rpower z k)). apply is_derive_Rpower. lra.
      * unfold f. rewrite <- (Rpower_pow n z) by lra. replace (k - 1) with (INR n + (- b - 1)) by (unfold k; ring).
        rewrite Rpower_plus. field. lra.
    + intros z [Z _]. simpl in Z. apply ex_derive_cont. unfold f, Rpower. auto_derive. lra.
    + apply flim_right. apply ex_derive_cont. unfold G, Rpower. auto_derive. lra.
    + apply flim_scal; try apply Rbar_locally_filter. apply lim_Rpower_neg. lra.
  - unfold G. rewrite Rpower_1_l. unfold k. field. lra.
Qed.
Lemma m1_ok : 1 < b -> integrates_to (fun z => z * f z) 1 p_infty (b / (b - 1)).
Proof.
  intros H. apply (integrates_ext 1 p_infty I (fun z => z ^ 1 * f z)); [intros; ring|].
  apply (mom_ok 1). simpl. lra.
Qed.
Lemma m2_ok : 2 < b -> integrates_to (fun z => z ^ 2 * f z) 1 p_infty (b / (b - 2)).
Proof. intros H. replace 2 with (INR 2) at 2 by (simpl; lra). apply (mom_ok 2). simpl. lra. Qed.
(** Entropy: -f ln f = - ln b f + (b+1) ln z f. *)
Lemma ent_ok : integrates_to (fun z => - (f z * ln (f z))) 1 p_infty (1 + 1 / b - ln b).
Proof.
  set (G := fun z => (ln b - (b + 1) / b) * Rpower z (- b) + - (b + 1) * (Rpower z (- b) * ln z)).
  replace (1 + 1 / b - ln b) with (0 - G 1).
  - apply (mk_integral _ G); simpl; auto.
    + intros z [Z _]. simpl in Z. unfold f, G, Rpower. auto_derive; [lra|].
      rewrite !ln_mult, !ln_exp by (auto; apply exp_pos).
      replace ((- b - 1) * ln z) with (- b * ln z + - ln z) by ring. rewrite exp_plus, (exp_Ropp (ln z)), exp_ln by lra. field. lra.
    + intros z [Z _]. simpl in Z. apply ex_derive_cont. unfold f, Rpower. auto_derive. pose proof (exp_pos ((- b - 1) * ln z)). assert (0 < z) by lra.
      assert (0 < b * exp ((- b - 1) * ln z)) by nra. auto.
    + apply flim_right. apply ex_derive_cont. unfold G, Rpower. auto_derive. lra.
    + unfold G. pose proof (lim_Rpower_neg (- b) ltac:(lra)). pose proof (lim_Rpower_ln_inf (- b) ltac:(lra)). limv.
  - unfold G. rewrite Rpower_1_l, ln_1. field. lra.
Qed.
End Std.
Ltac start := unfold pdf, logpdf, cdf, sf, invcdf, invsf, support, mean, var, entropy, validate, validate_positive, validate_p.

Section P.
Variables b l s : R.
Hypothesis Hb : 0 < b.
Hypothesis Hs : 0 < s.
Lemma z_gt x : l + s < x -> 1 < (x - l) / s. Proof. intros. apply div_gt_1; lra. Qed.
Lemma z_ge x : l + s <= x -> 0 < (x - l) / s. Proof. intros. apply Rdiv_pos; lra. Qed.
Lemma z_gt' x : 1 < (x - l) / s -> l + s < x.
Proof. intros. assert (1 * s < (x - l) / s * s) by nra. unfold Rdiv in H0. rewrite Rmult_assoc, Rinv_l in H0 by lra. lra. Qed.
Lemma lo_eq : Finite (l + s) = ls l s 1. Proof. simpl. f_equal. ring. Qed.
Lemma pdf_fin (x : R) : l + s <= x -> pdf x b l s = Fin (f b ((x - l) / s) / s) /\ logpdf x b l s = Fin (ln (f b ((x - l) / s) / s)).
Proof.
  intros H. pose proof (z_ge x H) as Z. assert (0 < x - l) by lra. split.
  - start. veval. reflexivity.
  - start. veval. f_equal. rewrite ln_div by (auto; apply f_pos; auto).
    unfold f. pose proof (Rpower_pos ((x - l) / s) (- b - 1)).
    rewrite !ln_mult, !ln_Rpower, ln_div by lra. ring.
Qed.
Lemma cdf_fin (x : R) : l + s <= x -> cdf x b l s = Fin (F b ((x - l) / s)) /\ sf x b l s = Fin (1 - F b ((x - l) / s)).
Proof.
  intros H. pose proof (z_ge x H) as Z. start. veval. unfold F. split; f_equal; ring.
Qed.
Lemma CERT : cert (fun x => pdf x b l s) (fun x => logpdf x b l s) (fun x => cdf x b l s) (fun x => sf x b l s)
  (fun p => invcdf p b l s) (fun p => invsf p b l s) (l + s) p_infty (fun x => F b ((x - l) / s))
  (fun x => f b ((x - l) / s) / s) (fun p => l + s * Q b p).
Proof.
  apply (ls_cert 1 p_infty (F b) (f b) (Q b) (ST b Hb) l s Hs); auto using lo_eq.
  - constructor.
    + intros x [H _]. simpl in H. apply cdf_fin; lra.
    + intros x H. simpl in H. destruct (Req_EM_T x (l + s)) as [->|N]; [|start; veval; auto].
      destruct (cdf_fin (l + s) ltac:(lra)) as [-> ->]. replace ((l + s - l) / s) with 1 by (field; lra).
      unfold F. rewrite Rpower_1_l. split; f_equal; ring.
    + intros x [].
    + start. veval. auto.
    + start. veval. split; f_equal; lra.
  - intros x [H _]. simpl in H. apply pdf_fin. left. apply z_gt'; auto.
  - intros x [H|[]]. simpl in H. start. veval. auto.
  - intros p H. unfold Q, Rpower. start. unfold inv_powm1, xlog1py. assert (1 / - b <> 0) by (intros E; assert (1 / - b * - b = 1) by (field; lra); nra).
    veval. split; f_equal; f_equal; f_equal; f_equal.
    + replace (1 + - p) with (1 - p) by ring. field. lra.
    + replace (1 - (1 - p)) with p by ring. reflexivity.
Qed.
Lemma log_all (x : R) : log_of (fun x => pdf x b l s) (fun x => logpdf x b l s) x.
Proof.
  revert x. apply (cert_log_ends CERT); intros x E; [|discriminate]. injection E as E; subst x.
  left. destruct (pdf_fin (l + s) ltac:(lra)) as [-> ->]. eexists. split; [|split; reflexivity].
  apply Rdiv_pos; auto. apply f_pos; auto.
Qed.
Lemma ends_part : rejects_bad_p (fun p => invcdf p b l s) /\ rejects_bad_p (fun p => invsf p b l s) /\
  invcdf (Fin 0) b l s = Fin (l + s) /\ invsf (Fin 1) b l s = Fin (l + s).
Proof.
  split; [|split; [|split]].
  - split; [intros p [H|H]|split]; start; veval; reflexivity.
  - split; [intros p [H|H]|split]; start; veval; reflexivity.
  - start. unfold inv_powm1, xlog1py. assert (1 / - b <> 0) by (intros E; assert (1 / - b * - b = 1) by (field; lra); nra).
    veval. replace (1 - 0) with 1 by ring. rewrite ln_1, Rmult_0_r, exp_0. f_equal. ring.
  - start. veval. rewrite Rpower_1_l. f_equal. ring.
Qed.
Lemma ends_hi : invcdf (Fin 1) b l s = Exc ValueError.
Proof. start. unfold inv_powm1. veval. reflexivity. Qed.
Lemma pdf_in x : inside (l + s) p_infty x -> pdf x b l s = Fin (f b ((x - l) / s) / s).
Proof. intros [H _]. simpl in H. apply pdf_fin. lra. Qed.
Lemma mean_ok : 1 < b -> mean_is (fun x => pdf x b l s) (l + s) p_infty (mean b l s).
Proof.
  intros B. apply (ls_mean_is 1 p_infty (F b) (f b) (Q b) (ST b Hb) l s (fun x => pdf x b l s) (l + s) p_infty Hs lo_eq eq_refl pdf_in
    (mean b l s) (b / (b - 1)) (m1_ok b B)). start. veval. f_equal. field. lra.
Qed.
Lemma var_ok : 2 < b -> var_is (fun x => pdf x b l s) (l + s) p_infty (mean b l s) (var b l s).
Proof.
  intros B. apply (ls_var_is 1 p_infty (F b) (f b) (Q b) (ST b Hb) l s (fun x => pdf x b l s) (l + s) p_infty Hs lo_eq eq_refl pdf_in
    (mean b l s) (var b l s) (b / (b - 1)) (b / (b - 2)) (m1_ok b ltac:(lra)) (m2_ok b B)).
  - start. veval. f_equal. field. lra.
  - assert (0 < (b - 1) ^ 2) by nra. start. veval. f_equal. field. lra.
Qed.
Lemma entropy_ok : entropy_is (fun x => pdf x b l s) (l + s) p_infty (entropy b l s).
Proof.
  apply (ls_entropy_is 1 p_infty (F b) (f b) (Q b) (ST b Hb) l s (fun x => pdf x b l s) (l + s) p_infty Hs lo_eq eq_refl pdf_in
    (entropy b l s) (1 + 1 / b - ln b) (ent_ok b Hb)).
  assert (0 < s / b) by (apply Rdiv_pos; auto). start. veval. f_equal. rewrite ln_div by auto. ring.
Qed.
Lemma nll_ok xs : (forall x, In x xs -> l + s <= x) ->
  nll (map Fin xs) b l s = vneg (loglik (fun x => logpdf x b l s) xs).
Proof.
  intros H. unfold nll, validate, validate_positive. vif. change (vadd (Fin l) (Fin s)) with (Fin (l + s)). rewrite vxb_pass.
  - unfold loglik. rewrite map_map. reflexivity.
  - intros x I. pose proof (H x I). simpl. auto.
Qed.
Lemma nll_bad xs : (exists x, In x xs /\ x < l + s) -> nll (map Fin xs) b l s = Exc ValueError.
Proof. intros H. unfold nll, validate, validate_positive. vif. change (vadd (Fin l) (Fin s)) with (Fin (l + s)). rewrite vxb_low; auto. Qed.
Lemma nll_fin xs : (forall x, In x xs -> l + s <= x) ->
  nll (map Fin xs) b l s = Fin (INR (length xs) * ln (/ b) + (b + 1) * rsum (map (fun x => ln (x - l)) xs) - INR (length xs) * (b * ln s)).
Proof.
  intros H. rewrite nll_ok by auto. rewrite (loglik_fin _ (fun x => (ln b + b * ln s) - (b + 1) * ln (x - l))).
  - change (vneg (Fin ?x)) with (Fin (- x)). f_equal. rewrite rsum_minus, rsum_const, rsum_scal, ln_Rinv by auto. ring.
  - intros x I. pose proof (H x I). assert (0 < x - l) by lra. start. veval. f_equal. ring.
Qed.
End P.
Lemma ends_hi2 (b l s : R) : 0 < b -> 0 < s -> (exists k : positive, b = 2 / IZR (Zpos k)) -> invsf (Fin 0) b l s = Exc ZeroDivisionError.
Proof.
  intros Hb Hs [k0 K0]. pose proof (is_intb_half b k0 K0) as T. assert (N : -1 / b < 0) by (apply Rdiv_neg; lra).
  assert (V : vpow (Fin 0) (Fin (-1 / b)) = Exc ZeroDivisionError).
  { unfold vpow. unfold Rltb, Reqb. destruct (Rlt_dec 0 0); [lra|]. destruct (Req_EM_T 0 0); [|lra].
    destruct (Req_EM_T (-1 / b) 0); [lra|]. destruct (Rlt_dec 0 (-1 / b)); [lra|]. rewrite T. auto. }
  unfold invsf, validate, validate_positive, validate_p. veval. rewrite V. veval. auto.
Qed.
Lemma loc_scale (b : R) : 0 < b ->
  loc_scale_law (fun x l s => pdf x b l s) (fun x l s => cdf x b l s) (fun x l s => sf x b l s)
    (fun p l s => invcdf p b l s) (fun p l s => invsf p b l s) 1 p_infty.
Proof.
  intros Hb. apply (loc_scale_from_cert _ (fun x l s => logpdf x b l s) _ _ _ _ 1 p_infty (F b) (f b) (Q b)).
  intros l s S. rewrite <- lo_eq. apply CERT; auto.
Qed.
Lemma bad_params b l s : isnum b -> isnum s -> nonpositive b \/ nonpositive s ->
  support b l s = Err ValueError /\
  always_ValueError [ fun x => pdf x b l s; fun x => logpdf x b l s; fun x => cdf x b l s; fun x => sf x b l s;
    fun p => invcdf p b l s; fun p => invsf p b l s; fun _ => mean b l s; fun _ => var b l s; fun _ => entropy b l s ] /\
  forall xs, nll xs b l s = Exc ValueError.
Proof.
  intros N1 N2 H.
  assert (G : forall A (CR : CanRaise A) (k : A), validate b l s k = raise ValueError).
  { intros A CR k. unfold validate. destruct H as [H|H].
    - apply vp_bad; auto.
    - apply vp_pass; auto. apply vp_bad; auto. }
  unfold support, pdf, logpdf, cdf, sf, invcdf, invsf, mean, var, entropy, nll.
  split; [apply G|]. split; [all_ve; intros x Hx; apply G|]. intros; apply G.
Qed.

(** Maximum likelihood. *)
(** The best shape for given location and scale. *)
Lemma shape_opt xs l s b : xs <> [] -> 0 < s -> 0 < b -> 0 < rsum (map (fun x => ln (x - l)) xs) - INR (length xs) * ln s ->
  let n := INR (length xs) in let T := rsum (map (fun x => ln (x - l)) xs) - n * ln s in
  n * ln (/ (n / T)) + (n / T + 1) * rsum (map (fun x => ln (x - l)) xs) - n * (n / T * ln s)
  <= n * ln (/ b) + (b + 1) * rsum (map (fun x => ln (x - l)) xs) - n * (b * ln s).
Proof.
  intros N S B TP n T. fold n in TP. fold T in TP. pose proof (length_pos xs N) as LN. fold n in LN.
  pose proof (scale_opt n T (/ b) LN TP (Rinv_0_lt_compat _ B)) as O.
  replace (/ (n / T)) with (T / n) by (field; lra).
  replace (T / / b) with (T * b) in O by (field; lra).
  set (U := rsum (map (fun x => ln (x - l)) xs)) in *.
  assert (E : (n / T + 1) * U - n * (n / T * ln s) = n + U).
  { replace ((n / T + 1) * U - n * (n / T * ln s)) with (n / T * T + U) by (unfold T; ring). field. lra. }
  replace (n * ln (/ b) + (b + 1) * U - n * (b * ln s)) with (n * ln (/ b) + T * b + U) by (unfold T; ring). lra.
Qed.
Lemma T_pos xs l s : xs <> [] -> 0 < s -> (forall x, In x xs -> l + s <= x) -> (exists x, In x xs /\ l + s < x) ->
  0 < rsum (map (fun x => ln (x - l)) xs) - INR (length xs) * ln s.
Proof.
  intros N S H [y [I Y]]. rewrite <- rsum_const. rewrite <- rsum_minus.
  assert (G : forall x, In x xs -> 0 <= ln (x - l) - ln s).
  { intros x J. pose proof (H x J). pose proof (ln_le_compat s (x - l) S ltac:(lra)). lra. }
  destruct (Rle_lt_or_eq_dec 0 _ (rsum_nonneg _ xs G)) as [P|Z]; auto. exfalso.
  symmetry in Z. pose proof (rsum_nonneg_0 _ xs G Z y I) as E. cbv beta in E.
  assert (ln s < ln (y - l)) by (apply ln_increasing; lra). lra.
Qed.
Lemma mle_loc_given (solve1 : val -> val -> val) (solve2 : val * val) xs l : (forall x, In x xs -> l < x) -> ~ constant xs ->
  exists b s, mle solve1 solve2 (map Fin xs) None (Some (Fin l)) None = Ok (Fin b, Fin l, Fin s) /\
  minimises (fun p : R * R => 0 < fst p /\ 0 < snd p /\ forall x, In x xs -> l + snd p <= x)
    (fun p => nll (map Fin xs) (Fin (fst p)) (Fin l) (Fin (snd p))) (b, s).
Proof.
  intros X NC. pose proof (const_nil xs NC) as N. destruct (P_fun.vminl_spec xs N) as [m [E [I L]]].
  pose proof (X m I) as ML. pose proof (length_pos xs N) as LN.
  assert (EX : exists x, In x xs /\ l + (m - l) < x).
  { apply Classical_Prop.NNPP. intros Q. apply NC. intros x y J1 J2.
    assert (G : forall z, In z xs -> z = m).
    { intros z J. pose proof (L z J). destruct (Rlt_le_dec m z); [exfalso; apply Q; exists z; split; auto; lra|lra]. }
    rewrite (G x J1), (G y J2). auto. }
  pose proof (T_pos xs l (m - l) N ltac:(lra) ltac:(intros x J; pose proof (L x J); lra) EX) as TP.
  set (n := INR (length xs)) in *. set (U := rsum (map (fun x => ln (x - l)) xs)) in *.
  set (T := U - n * ln (m - l)) in *.
  exists (n / T), (m - l). split.
  - unfold mle. rewrite vxb_pass by (intros x J; pose proof (X x J); simpl; split; auto; lra). rewrite E. cbn [bindv].
    varith. cbn [bindv]. rewrite map_map. rewrite (vfsum_map _ (fun x => ln (x - l)) xs).
    + fold U. cbn [bindv]. unfold vlen. rewrite map_length. fold n. assert (0 < m - l) by lra.
      assert (0 < U / n - ln (m - l)). { replace (U / n - ln (m - l)) with (T / n) by (unfold T; field; lra). apply Rdiv_pos; auto. }
      veval. cbn [bindv]. replace (1 / (U / n - ln (m - l))) with (n / T) by (unfold T; field; unfold T in TP; split; nra). reflexivity.
    + intros x J. pose proof (X x J). assert (0 < x - l) by lra. veval. auto.
  - split; [simpl; split; [apply Rdiv_pos; auto|split; [lra|intros x J; pose proof (L x J); lra]]|].
    eexists. split. { simpl. apply nll_fin; [apply Rdiv_pos; auto|lra|intros x J; pose proof (L x J); lra]. }
    intros [b s] [B [S H]]. simpl in B, S, H. eexists. split. { simpl. apply nll_fin; auto. }
    fold n. fold U. eapply Rle_trans; [apply (shape_opt xs l (m - l) b); auto; lra|]. fold n. fold U.
    assert (ln s <= ln (m - l)). { apply ln_le_compat; auto. pose proof (H m I). lra. }
    assert (0 < n * b) by nra. nra.
Qed.
Lemma mle_scale_given (solve1 : val -> val -> val) (solve2 : val * val) xs s : 0 < s -> ~ constant xs ->
  exists b l, mle solve1 solve2 (map Fin xs) None None (Some (Fin s)) = Ok (Fin b, Fin l, Fin s) /\
  minimises (fun p : R * R => 0 < fst p /\ forall x, In x xs -> snd p + s <= x)
    (fun p => nll (map Fin xs) (Fin (fst p)) (Fin (snd p)) (Fin s)) (b, l).
Proof.
  intros S NC. pose proof (const_nil xs NC) as N. destruct (P_fun.vminl_spec xs N) as [m [E [I L]]].
  pose proof (length_pos xs N) as LN. set (l := m - s).
  assert (LX : forall x, In x xs -> l + s <= x) by (intros x J; pose proof (L x J); unfold l; lra).
  assert (EX : exists x, In x xs /\ l + s < x).
  { apply Classical_Prop.NNPP. intros Q. apply NC. intros x y J1 J2.
    assert (G : forall z, In z xs -> z = m).
    { intros z J. pose proof (L z J). destruct (Rlt_le_dec m z); [exfalso; apply Q; exists z; split; auto; unfold l; lra|lra]. }
    rewrite (G x J1), (G y J2). auto. }
  pose proof (T_pos xs l s N S LX EX) as TP.
  set (n := INR (length xs)) in *. set (U := rsum (map (fun x => ln (x - l)) xs)) in *.
  set (T := U - n * ln s) in *.
  exists (n / T), l. split.
  - unfold mle, validate, validate_positive. vif. rewrite vxb_pass by (intros x J; simpl; auto). rewrite E. cbn [bindv].
    change (vsub (Fin m) (Fin s)) with (Fin l). cbn [bindv]. rewrite map_map. rewrite (vfsum_map _ (fun x => ln (x - l)) xs).
    + fold U. cbn [bindv]. unfold vlen. rewrite map_length. fold n.
      assert (0 < U / n - ln s). { replace (U / n - ln s) with (T / n) by (unfold T; field; lra). apply Rdiv_pos; auto. }
      veval. cbn [bindv]. replace (1 / (U / n - ln s)) with (n / T) by (unfold T; field; unfold T in TP; split; nra). reflexivity.
    + intros x J. pose proof (LX x J). assert (0 < x - l) by lra. veval. auto.
  - split; [simpl; split; [apply Rdiv_pos; auto|auto]|].
    eexists. split. { simpl. apply nll_fin; [apply Rdiv_pos; auto|lra|auto]. }
    intros [b l'] [B H]. simpl in B, H. eexists. split. { simpl. apply nll_fin; auto. }
    fold n. fold U. eapply Rle_trans; [apply (shape_opt xs l s b); auto|]. fold n. fold U.
    assert (LL : l' <= l) by (pose proof (H m I); unfold l; lra).
    assert (U <= rsum (map (fun x => ln (x - l')) xs)).
    { unfold U. apply rsum_le. intros x J. pose proof (LX x J). apply ln_le_compat; lra. }
    nra.
Qed.
Lemma mle_scale_only (solve1 : val -> val -> val) (solve2 : val * val) xs b l : xs <> [] -> 0 < b -> (forall x, In x xs -> l < x) ->
  exists s, mle solve1 solve2 (map Fin xs) (Some (Fin b)) (Some (Fin l)) None = Ok (Fin b, Fin l, Fin s) /\
  minimises (fun s : R => 0 < s /\ forall x, In x xs -> l + s <= x) (fun s => nll (map Fin xs) (Fin b) (Fin l) (Fin s)) s.
Proof.
  intros N B X. destruct (P_fun.vminl_spec xs N) as [m [E [I L]]]. pose proof (length_pos xs N) as LN. pose proof (X m I).
  exists (m - l). split.
  - unfold mle, validate, validate_positive. vif. rewrite vxb_pass by (intros x J; pose proof (X x J); simpl; split; auto; lra). rewrite E. reflexivity.
  - split; [split; [lra|intros x J; pose proof (L x J); lra]|].
    eexists. split. { apply nll_fin; [auto|lra|intros x J; pose proof (L x J); lra]. }
    intros s [S H']. eexists. split. { apply nll_fin; auto. }
    assert (ln s <= ln (m - l)). { apply ln_le_compat; auto. pose proof (H' m I). lra. } assert (0 < INR (length xs) * b) by nra. nra.
Qed.
Lemma mle_loc_only (solve1 : val -> val -> val) (solve2 : val * val) xs b s : xs <> [] -> 0 < b -> 0 < s ->
  exists l, mle solve1 solve2 (map Fin xs) (Some (Fin b)) None (Some (Fin s)) = Ok (Fin b, Fin l, Fin s) /\
  minimises (fun l : R => forall x, In x xs -> l + s <= x) (fun l => nll (map Fin xs) (Fin b) (Fin l) (Fin s)) l.
Proof.
  intros N B S. destruct (P_fun.vminl_spec xs N) as [m [E [I L]]]. pose proof (length_pos xs N) as LN.
  exists (m - s). split.
  - unfold mle, validate, validate_positive. vif. rewrite E. reflexivity.
  - assert (LX : forall x, In x xs -> m - s + s <= x) by (intros x J; pose proof (L x J); lra).
    split; auto.
    eexists. split. { apply nll_fin; auto. }
    intros l H'. eexists. split. { apply nll_fin; auto. }
    assert (rsum (map (fun x => ln (x - (m - s))) xs) <= rsum (map (fun x => ln (x - l)) xs)).
    { apply rsum_le. intros x J. pose proof (LX x J). pose proof (H' m I). apply ln_le_compat; lra. }
    nra.
Qed.
(** With location and scale given the given location is not used: the result is that of a free location. *)
Lemma mle_ignores_loc (solve1 : val -> val -> val) (solve2 : val * val) xs l s : mle solve1 solve2 xs None (Some l) (Some s) = mle solve1 solve2 xs None None (Some s).
Proof. reflexivity. Qed.
Lemma mle_loc_lost (solve1 : val -> val -> val) (solve2 : val * val) : exists b, mle solve1 solve2 (map Fin [2; 4]) None (Some (Fin 0)) (Some (Fin 1)) = Ok (Fin b, Fin 1, Fin 1).
Proof.
  rewrite mle_ignores_loc.
  destruct (mle_scale_given solve1 solve2 [2; 4] 1 ltac:(lra)) as [b [l [E [[B L] [m [M O]]]]]].
  - intros C. pose proof (C 2 4 ltac:(simpl; auto) ltac:(simpl; auto)). lra.
  - exists b. rewrite E. cbn [fst snd] in *.
    assert (U : l = 1); [|rewrite U; auto].
    destruct (P_fun.vminl_spec [2; 4] ltac:(discriminate)) as [y [E2 [I LY]]].
    pose proof (LY 2 ltac:(simpl; auto)). pose proof (LY 4 ltac:(simpl; auto)).
    assert (y = 2) by (simpl in I; destruct I as [I|[I|[]]]; lra). subst y.
    unfold mle, validate, validate_positive in E. revert E. vif. rewrite vxb_pass by (intros x J; simpl; auto).
    rewrite E2. cbn [bindv]. change (vsub (Fin 2) (Fin 1)) with (Fin (2 - 1)). cbn [bindv].
    intros E. destruct (vfsum _) in E; cbn [bindv] in E; try discriminate.
    all: destruct (vdiv _ _) in E; cbn [bindv] in E; try discriminate; injection E; intros; lra.
Qed.
