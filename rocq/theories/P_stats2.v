(** Proofs about anova_oneway, chisquare and gtest. *)
From Coq Require Import Reals Lra List Bool Arith Lia Psatz Permutation.
From Coquelicot Require Import Coquelicot.
From Verif Require Import Values VTac RLib LLib SpecStat M_fun M_basic M_stats P_fun P_basic P_basic2.
Import ListNotations.
Local Open Scope R_scope.
Set Bullet Behavior "Strict Subproofs".

(** * anova_oneway *)
Definition gdata (gs : list (list R)) : list (list val) := map (map Fin) gs.
Definition gn (gs : list (list R)) := INR (length (concat gs)).
Definition gmu gs := sum (concat gs) / gn gs.
Definition ssb gs := sum (map (fun g => INR (length g) * (mu g - gmu gs)^2) gs).
Definition ssw gs := sum (map ss gs).
Definition Fstat gs := (ssb gs / (INR (length gs) - 1)) / (ssw gs / (gn gs - INR (length gs))).

Lemma sum_concat (gs : list (list R)) : sum (map sum gs) = sum (concat gs).
Proof. induction gs as [|g gs IH]; [reflexivity|]. cbn [map concat]. rewrite rsum_cons, rsum_app, IH. reflexivity. Qed.
Lemma len_concat {A} (gs : list (list A)) : INR (length (concat gs)) = sum (map (fun g => INR (length g)) gs).
Proof. induction gs as [|g gs IH]; [reflexivity|]. cbn [map concat]. rewrite app_length, plus_INR, rsum_cons, IH. reflexivity. Qed.
Lemma concat_gdata gs : length (concat (gdata gs)) = length (concat gs).
Proof. unfold gdata. rewrite <- concat_map, map_length. reflexivity. Qed.

Lemma decomposition gs : (forall g, In g gs -> g <> []) ->
  sum (map (fun g => sum (map (fun x => (x - gmu gs)^2) g)) gs) = ssw gs + ssb gs.
Proof.
  intros N. unfold ssw, ssb. rewrite <- rsum_plus. apply rsum_ext. intros g I.
  rewrite ss_shift_any by auto. reflexivity.
Qed.
Lemma ssw_nonneg gs : 0 <= ssw gs. Proof. apply rsum_nonneg. intros. apply ss_nonneg. Qed.
Lemma ssb_nonneg gs : 0 <= ssb gs.
Proof. apply rsum_nonneg. intros. apply Rmult_le_pos; [apply pos_INR|apply pow2_ge_0]. Qed.
Lemma ssw_pos_size gs : (forall g, In g gs -> g <> []) -> ssw gs <> 0 -> INR (length gs) < gn gs.
Proof.
  intros N S. unfold gn. rewrite len_concat.
  replace (INR (length gs)) with (sum (map (fun _ : list R => 1) gs)) by (rewrite rsum_const; ring).
  destruct (Rle_lt_dec (sum (map (fun g => INR (length g)) gs)) (sum (map (fun _ : list R => 1) gs))) as [H|H]; auto.
  exfalso. apply S.
  assert (Z : forall g, In g gs -> INR (length g) - 1 = 0).
  { apply (rsum_nonneg_0 (fun g => INR (length g) - 1)).
    - intros g I. specialize (N g I). destruct g; [congruence|]. change (length (r :: g)) with (Datatypes.S (length g)).
      rewrite S_INR. pose proof (pos_INR (length g)). lra.
    - apply Rle_antisym; [rewrite rsum_minus; lra|]. apply rsum_nonneg. intros g I. specialize (N g I).
      destruct g; [congruence|]. change (length (r :: g)) with (Datatypes.S (length g)).
      rewrite S_INR. pose proof (pos_INR (length g)). lra. }
  unfold ssw. rewrite (rsum_ext _ (fun _ => 0)); [rewrite rsum_const; ring|].
  intros g I. specialize (Z g I). destruct g as [|x [|y g]].
  - simpl in Z. lra.
  - apply (ss_const x); [discriminate|]. intros z [<-|[]]. reflexivity.
  - change (length (x :: y :: g)) with (Datatypes.S (Datatypes.S (length g))) in Z. rewrite !S_INR in Z. pose proof (pos_INR (length g)). lra.
Qed.

Lemma anova_value f_sf gs : (2 <= length gs)%nat -> (forall g, In g gs -> g <> []) -> ssw gs <> 0 ->
  anova_oneway f_sf (gdata gs)
  = bindv (f_sf (Fin (Fstat gs)) (Fin (INR (length gs) - 1)) (Fin (gn gs - INR (length gs))))
          (fun p => Ok (Fin (Fstat gs), p)).
Proof.
  intros K N S.
  assert (K2 : 2 <= INR (length gs)) by (replace 2 with (INR 2) by (simpl; lra); apply le_INR; auto).
  pose proof (ssw_pos_size gs N S) as GN. pose proof (ssw_nonneg gs) as SN.
  unfold anova_oneway.
  assert (V1 : vlen (concat (gdata gs)) = Fin (gn gs)) by (unfold vlen; rewrite concat_gdata; reflexivity).
  assert (V2 : vlen (gdata gs) = Fin (INR (length gs))) by (unfold vlen, gdata; rewrite map_length; reflexivity).
  rewrite V1, V2. cbv zeta.
  assert (E1 : map vfsum (gdata gs) = map Fin (map sum gs)).
  { unfold gdata. rewrite !map_map. apply map_ext. intros g. apply vfsum_Fin. }
  rewrite E1, vfsum_Fin, sum_concat.
  assert (G0 : 0 < gn gs) by lra.
  rewrite vdiv_Fin by lra. fold (gmu gs). cbn [bindv].
  assert (E2 : vfsum (map (fun group => vfsum (map (fun g => vpown (vsub g (Fin (gmu gs))) 2) group)) (gdata gs))
     = Fin (ssw gs + ssb gs)).
  { rewrite <- decomposition by auto. unfold gdata. rewrite map_map. apply vfsum_map. intros g _.
    rewrite map_map. apply vfsum_map. intros x _. varith. reflexivity. }
  rewrite E2. cbn [bindv].
  assert (E3 : vfsum (map (fun group => vmul (vlen group) (vpown (vsub (mean group None) (Fin (gmu gs))) 2)) (gdata gs))
     = Fin (ssb gs)).
  { unfold gdata. rewrite map_map. apply vfsum_map. intros g I.
    change (@None (list val)) with (wt None). rewrite mean_id by (apply good_none; auto).
    rewrite avg_none, map_id by auto. unfold vlen. rewrite map_length. varith. reflexivity. }
  rewrite E3. cbn [bindv].
  change (vsub (Fin (ssw gs + ssb gs)) (Fin (ssb gs))) with (Fin (ssw gs + ssb gs - ssb gs)).
  replace (ssw gs + ssb gs - ssb gs) with (ssw gs) by ring.
  varith. assert (ssw gs / (gn gs - INR (length gs)) <> 0).
  { apply Rmult_integral_contrapositive_currified; [auto|]. apply Rinv_neq_0_compat. lra. }
  varith. reflexivity.
Qed.
Lemma Fstat_nonneg gs : (2 <= length gs)%nat -> (forall g, In g gs -> g <> []) -> ssw gs <> 0 -> 0 <= Fstat gs.
Proof.
  intros K N S.
  assert (K2 : 2 <= INR (length gs)) by (replace 2 with (INR 2) by (simpl; lra); apply le_INR; auto).
  pose proof (ssw_pos_size gs N S) as GN. pose proof (ssw_nonneg gs) as SN. pose proof (ssb_nonneg gs).
  unfold Fstat. apply Rdiv_nonneg; [apply Rdiv_nonneg; lra|apply Rdiv_pos; lra].
Qed.
Definition gmap (f : R -> R) (gs : list (list R)) := map (map f) gs.
Lemma gmu_affine a b gs : concat gs <> [] -> gmu (gmap (fun x => a * x + b) gs) = a * gmu gs + b.
Proof.
  intros N. unfold gmu, gn, gmap. rewrite <- concat_map. apply mu_affine. auto.
Qed.
Lemma Fstat_affine a b gs : a <> 0 -> (2 <= length gs)%nat -> (forall g, In g gs -> g <> []) -> ssw gs <> 0 ->
  Fstat (gmap (fun x => a * x + b) gs) = Fstat gs.
Proof.
  intros A K N S.
  assert (K2 : 2 <= INR (length gs)) by (replace 2 with (INR 2) by (simpl; lra); apply le_INR; auto).
  pose proof (ssw_pos_size gs N S) as GN.
  assert (NC : concat gs <> []).
  { destruct gs as [|[|x g] gs]; simpl in *; [lia|specialize (N [] (or_introl eq_refl)); congruence|discriminate]. }
  unfold Fstat.
  assert (E1 : ssb (gmap (fun x => a * x + b) gs) = a^2 * ssb gs).
  { unfold ssb. rewrite gmu_affine by auto. unfold gmap. rewrite map_map, <- rsum_scal. apply rsum_ext.
    intros g I. rewrite map_length, mu_affine by auto. ring. }
  assert (E2 : ssw (gmap (fun x => a * x + b) gs) = a^2 * ssw gs).
  { unfold ssw, gmap. rewrite map_map, <- rsum_scal. apply rsum_ext. intros g I. apply ss_affine. auto. }
  assert (E3 : gn (gmap (fun x => a * x + b) gs) = gn gs).
  { unfold gn, gmap. rewrite <- concat_map, map_length. reflexivity. }
  rewrite E1, E2, E3. unfold gmap. rewrite map_length. field. repeat split; auto; lra.
Qed.
Lemma Fstat_perm gs gs' : Permutation gs gs' -> Fstat gs = Fstat gs'.
Proof.
  intros P. unfold Fstat.
  assert (E3 : gn gs = gn gs') by (unfold gn; rewrite !len_concat; apply rsum_map_perm; auto).
  assert (E4 : gmu gs = gmu gs') by (unfold gmu; rewrite E3, <- !sum_concat; f_equal; apply rsum_map_perm; auto).
  assert (E1 : ssb gs = ssb gs') by (unfold ssb; rewrite E4; apply rsum_map_perm; auto).
  assert (E2 : ssw gs = ssw gs') by (unfold ssw; apply rsum_map_perm; auto).
  rewrite E1, E2, E3, (Permutation_length P). reflexivity.
Qed.

(** * chisquare and gtest *)
Section GOF.
Variables (gi : val -> val -> val) (ga : val -> val).
Variables (os es : list R).
Hypothesis L : length os = length es.
Hypothesis E : forall e, In e es -> 0 < e.
Definition chi2stat := sum (map (fun '(o, e) => (o - e)^2 / e) (combine os es)).
Definition gterm (oe : R * R) := let '(o, e) := oe in if Req_EM_T o 0 then 0 else 2 * (o * ln (o / e)).
Definition gstat := sum (map gterm (combine os es)).
Definition tail stat := bindv (vdiv (gi (vdiv (vsub (Fin (INR (length os))) (Fin 1)) (Fin 2)) (vdiv (Fin stat) (Fin 2)))
         (ga (vdiv (vsub (Fin (INR (length os))) (Fin 1)) (Fin 2)))) (fun p : val => Ok (Fin stat, p)).

Lemma almosteq_refl s t : almosteq (Fin s) (Fin s) t = CB true.
Proof.
  unfold almosteq. varith. replace (s - s) with 0 by ring. rewrite Rabs_R0. cconv. rewrite Rleb_true by lra.
  reflexivity.
Qed.
Lemma almosteq_far s t eps : s <> t -> eps * Rmax (Rabs s) (Rabs t) < Rabs (s - t) ->
  almosteq (Fin s) (Fin t) (Fin eps) = CB false.
Proof.
  intros N H. unfold almosteq. varith. cconv. assert (0 < Rabs (s - t)) by (apply Rabs_pos_lt; lra).
  rewrite (Rleb_false (Rabs (s - t)) 0) by auto.
  assert (D : forall d, 0 < d -> d = Rmax (Rabs s) (Rabs t) -> Rleb (Rabs (s - t) / d) eps = false).
  { intros d Dp ->. apply Rleb_false. apply (Rmult_lt_reg_r (Rmax (Rabs s) (Rabs t))); auto.
    unfold Rdiv. rewrite Rmult_assoc, Rinv_l by lra. lra. }
  assert (P : 0 < Rmax (Rabs s) (Rabs t)).
  { destruct (Req_EM_T s 0); [subst; eapply Rlt_le_trans; [|apply Rmax_r]|eapply Rlt_le_trans; [|apply Rmax_l]];
    apply Rabs_pos_lt; lra. }
  destruct (Rltb_spec (Rabs s) (Rabs t)) as [[C ->]|[C ->]].
  - rewrite Rmax_right in * by lra. varith. rewrite D; auto.
  - rewrite Rmax_left in * by lra. varith. rewrite D; auto.
Qed.
Lemma chisq_value tol : sum os = sum es -> chisquare gi ga (map Fin os) (map Fin es) tol = tail chi2stat.
Proof.
  intros S. unfold chisquare. rewrite !vfsum_Fin, S, almosteq_refl. cbn [cnot negb cif].
  rewrite combine_Fin, map_map, (vfsum_map _ (fun '(o, e) => (o - e)^2 / e)).
  - cbn [bindv]. unfold vlen. rewrite map_length. reflexivity.
  - intros [o e] I. apply in_combine_r in I. pose proof (E e I). varith. reflexivity.
Qed.
Lemma gtest_value tol : (forall o, In o os -> 0 <= o) -> sum os = sum es ->
  gtest gi ga (map Fin os) (map Fin es) tol = tail gstat.
Proof.
  intros P S. unfold gtest. rewrite !vfsum_Fin, S, almosteq_refl. cbn [cnot negb cif].
  rewrite combine_Fin, map_map, (vfsum_map _ gterm).
  - cbn [bindv]. unfold vlen. rewrite map_length. reflexivity.
  - intros [o e] I. pose proof (in_combine_l _ _ _ _ I) as Io. apply in_combine_r in I. pose proof (E e I). pose proof (P o Io).
    unfold gterm. destruct (Req_EM_T o 0).
    + subst o. rewrite vdiv_Fin by lra. unfold xlogy. vif. varith. f_equal. ring.
    + rewrite vdiv_Fin by lra. rewrite xlogy_fin' by (apply Rdiv_pos; lra). varith. reflexivity.
Qed.
Lemma gof_bad tol : sum os <> sum es -> tol * Rmax (Rabs (sum os)) (Rabs (sum es)) < Rabs (sum os - sum es) ->
  chisquare gi ga (map Fin os) (map Fin es) (Fin tol) = Err ValueError /\
  gtest gi ga (map Fin os) (map Fin es) (Fin tol) = Err ValueError.
Proof.
  intros S T. unfold chisquare, gtest. rewrite !vfsum_Fin, almosteq_far by auto. split; reflexivity.
Qed.
Lemma chi2_nonneg : 0 <= chi2stat.
Proof.
  apply rsum_nonneg. intros [o e] I. apply in_combine_r in I. apply Rdiv_nonneg; [apply pow2_ge_0|auto].
Qed.
Lemma combine_eq : (forall o e, In (o, e) (combine os es) -> o = e) -> os = es.
Proof.
  clear E. revert es L. induction os as [|o os' IH]; intros [|e es'] L' H; simpl in L'; try lia; auto.
  f_equal; [apply H; simpl; auto|]. apply IH; [lia|]. intros; apply H; simpl; auto.
Qed.
Lemma combine_same (l : list R) o e : In (o, e) (combine l l) -> o = e.
Proof. induction l as [|a l IH]; simpl; [tauto|]. intros [H|H]; [congruence|auto]. Qed.
Lemma chi2_zero : chi2stat = 0 <-> os = es.
Proof.
  split.
  - intros Z. apply combine_eq. intros o e I.
    pose proof (rsum_nonneg_0 (fun oe : R * R => (fst oe - snd oe)^2 / snd oe) (combine os es)) as H.
    assert (Q : (o - e)^2 / e = 0).
    { change ((fun oe : R * R => (fst oe - snd oe)^2 / snd oe) (o, e) = 0).
      apply H; [intros [a b] J; apply in_combine_r in J; apply Rdiv_nonneg; [apply pow2_ge_0|apply E; auto]| |exact I].
      rewrite <- Z. apply rsum_ext. intros [a b] _. reflexivity. }
    pose proof (E e (in_combine_r _ _ _ _ I)).
    assert ((o - e)^2 = 0) by (replace ((o - e)^2) with ((o-e)^2 / e * e) by (field; lra); rewrite Q; ring). nra.
  - intros Heq. unfold chi2stat. rewrite (rsum_ext _ (fun _ => 0)); [rewrite rsum_const; ring|].
    intros [o e] I. rewrite <- Heq in I. rewrite (combine_same _ _ _ I). unfold Rdiv. ring.
Qed.
Hypothesis O : forall o, In o os -> 0 <= o.
Hypothesis S : sum os = sum es.
Lemma ln_strict x : 0 < x -> ln x = x - 1 -> x = 1.
Proof.
  intros X H. destruct (Req_EM_T x 1); auto. exfalso.
  assert (H1 : ln x <> 0). { intros C. apply n. apply ln_inv; [lra|lra|]. rewrite ln_1. auto. }
  pose proof (exp_ineq1 (ln x) H1) as K. rewrite exp_ln in K by auto. lra.
Qed.
Lemma gterm_ge o e : 0 <= o -> 0 < e -> 2 * (o - e) <= gterm (o, e) /\ (gterm (o, e) = 2 * (o - e) -> o = e).
Proof.
  intros Ho He. unfold gterm. destruct (Req_EM_T o 0); [subst; split; intros; lra|].
  assert (Op : 0 < o) by lra. assert (D : 0 < e / o) by (apply Rdiv_pos; auto).
  replace (o / e) with (/ (e / o)) by (field; lra). rewrite ln_Rinv by auto.
  pose proof (ln_ineq (e / o) D). assert (o * (e / o - 1) = e - o) by (field; lra). split; [nra|].
  intros H1. assert (H2 : ln (e / o) = e / o - 1).
  { apply (Rmult_eq_reg_l o); [|lra]. rewrite H0. lra. }
  apply ln_strict in H2; auto. assert (e = e / o * o) by (field; lra). rewrite H3, H2. ring.
Qed.
Lemma diff_zero : sum (map (fun oe : R * R => 2 * (fst oe - snd oe)) (combine os es)) = 0.
Proof.
  rewrite rsum_scal, rsum_minus.
  change (map (fun x : R * R => snd x) (combine os es)) with (map snd (combine os es)).
  rewrite snd_combine by auto.
  assert (F : map fst (combine os es) = os).
  { clear -L. revert es L. induction os as [|a l IH]; intros [|b m] L; simpl in *; try lia; auto. f_equal. apply IH. lia. }
  change (map (fun x : R * R => fst x) (combine os es)) with (map fst (combine os es)). rewrite F. rewrite S. ring.
Qed.
Lemma g_nonneg : 0 <= gstat.
Proof.
  rewrite <- diff_zero. apply rsum_le. intros [o e] I. apply gterm_ge.
  - apply O. apply in_combine_l in I; auto.
  - apply E. apply in_combine_r in I; auto.
Qed.
Lemma g_zero : gstat = 0 <-> os = es.
Proof.
  split.
  - intros Z. apply combine_eq. intros o e I.
    pose proof (rsum_nonneg_0 (fun oe => gterm oe - 2 * (fst oe - snd oe)) (combine os es)) as H.
    assert (Q : gterm (o, e) - 2 * (o - e) = 0).
    { change ((fun oe => gterm oe - 2 * (fst oe - snd oe)) (o, e) = 0). apply H; [| |exact I].
      - intros [a b] J. pose proof (gterm_ge a b (O a (in_combine_l _ _ _ _ J)) (E b (in_combine_r _ _ _ _ J))) as [G _].
        simpl fst. simpl snd. lra.
      - rewrite rsum_minus, diff_zero. fold gstat. lra. }
    apply (gterm_ge o e (O o (in_combine_l _ _ _ _ I)) (E e (in_combine_r _ _ _ _ I))). lra.
  - intros Heq. unfold gstat. rewrite (rsum_ext _ (fun _ => 0)); [rewrite rsum_const; ring|].
    intros [o e] I. pose proof (E e (in_combine_r _ _ _ _ I)). rewrite <- Heq in I. rewrite (combine_same _ _ _ I).
    unfold gterm. destruct (Req_EM_T e 0); auto. replace (e / e) with 1 by (field; lra). rewrite ln_1. ring.
Qed.
End GOF.
