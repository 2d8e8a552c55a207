(** The model of the means and variances, evaluated. *)
From Coq Require Import Reals Lra List Bool Arith Lia Psatz Permutation.
From Coquelicot Require Import Coquelicot.
From Verif Require Import Values VTac RLib LLib SpecStat M_fun M_basic P_fun P_basic.
Import ListNotations.
Local Open Scope R_scope.
Set Bullet Behavior "Strict Subproofs".

Lemma avg_none f xs : xs <> [] -> avg f (weighted xs None) = sum (map f xs) / INR (length xs).
Proof.
  intros N. unfold avg. simpl. rewrite !map_map. simpl. rewrite rsum_const.
  rewrite (rsum_ext _ f) by (intros; ring). f_equal. ring.
Qed.

Lemma mean_avg xs ow f g :
  xs <> [] -> match ow with None => True | Some w => length w = length xs /\ sum w <> 0 end ->
  (forall x, In x xs -> g (Fin x) = Fin (f x)) ->
  mean (map g (map Fin xs)) (wt ow) = Fin (avg f (weighted xs ow)).
Proof.
  intros N G H. pose proof (length_pos xs N) as LP. destruct ow as [w|]; unfold wt, option_map.
  - destruct G as [L S]. unfold mean. rewrite !map_length, L, Nat.eqb_refl. simpl negb.
    rewrite vfsum_Fin. vif. cbv iota.
    assert (E : vfsum (map (fun '(t, w) => vmul t w) (combine (map g (map Fin xs)) (map Fin w)))
              = Fin (sum (map (fun '(x, w) => f x * w) (combine xs w)))).
    { rewrite map_map, combine_map_l, map_map, combine_map_r, map_map.
      apply vfsum_map. intros [x v] I. rewrite H by (apply in_combine_l in I; auto). reflexivity. }
    rewrite E. varith. unfold avg. simpl. rewrite snd_combine by auto. reflexivity.
  - rewrite avg_none by auto. unfold mean, vlen. rewrite !map_length.
    rewrite map_map, (vfsum_map _ f) by auto. veval. reflexivity.
Qed.
Lemma good_mean xs ow : good_weights xs ow ->
  xs <> [] /\ match ow with None => True | Some w => length w = length xs /\ sum w <> 0 end.
Proof. intros [N G]. split; auto. destruct ow; auto. destruct G as [A [B C]]. split; auto. lra. Qed.

Lemma mean_id xs ow : good_weights xs ow -> mean (map Fin xs) (wt ow) = Fin (avg (fun x => x) (weighted xs ow)).
Proof.
  intros G. destruct (good_mean _ _ G) as [N H].
  rewrite <- (mean_avg xs ow (fun x => x) (fun v => v)); auto. rewrite map_id. reflexivity.
Qed.

Section Data.
Variables (xs : list R) (ow : option (list R)).
Hypothesis G : good_weights xs ow.
Notation l := (weighted xs ow).
Let W := fun x w => datum_w xs ow x w G.
Let T := tot_pos xs ow G.

Lemma mean_bounds lo hi : (forall x, In x xs -> lo <= x <= hi) ->
  exists m, mean (map Fin xs) (wt ow) = Fin m /\ lo <= m <= hi.
Proof.
  intros B. eexists; split; [apply mean_id; auto|].
  split; [rewrite <- (avg_const l T lo) at 1|rewrite <- (avg_const l T hi)];
  apply avg_le; auto; intros x w I; apply B; apply datum_in in I; auto.
Qed.

Hypothesis P : forall x, In x xs -> 0 < x.
Let Pl x w (I : In (x, w) l) : 0 < x := P x (datum_in _ _ _ _ I).

Lemma cany_false {A} (f : A -> cond) (k : list A) : (forall a, In a k -> f a = CB false) -> cany f k = CB false.
Proof.
  induction k as [|a k IH]; intros H; simpl; auto. rewrite H by (simpl; auto). simpl. apply IH.
  intros; apply H; simpl; auto.
Qed.
Ltac cnone := apply cany_false; intros a Ia; apply in_map_iff in Ia; destruct Ia as [x [<- Ix]];
   pose proof (P x Ix); cconv; repeat (vdec1; cconv); reflexivity.

Lemma gmean_pm : gmean (map Fin xs) (wt ow) = Fin (power_mean 0 l).
Proof.
  destruct (good_mean _ _ G) as [N H]. pose proof T as T'.
  unfold power_mean. destruct (Req_EM_T 0 0); [|congruence].
  assert (C1 : cany (fun t => clt t (Fin 0)) (map Fin xs) = CB false) by cnone.
  assert (C2 : cany (fun t => ceq t (Fin 0)) (map Fin xs) = CB false) by cnone.
  unfold gmean. rewrite C1. cbn [cif].
  destruct ow as [w|] eqn:E; simpl wt.
  - cbv iota. rewrite vfsum_Fin. destruct H as [L S].
    vif. rewrite combine_Fin, map_map.
    rewrite (vfsum_map _ (fun '(x, v) => ln x * v)).
    + varith. unfold avg. simpl weighted. rewrite snd_combine by auto. reflexivity.
    + intros [x v] I. rewrite xlogy_fin' by (apply in_combine_l in I; auto). f_equal. ring.
  - cbv iota. rewrite C2. cbn [cif].
    pose proof (mean_avg xs None ln vlog N I) as M. simpl wt in M. rewrite M by (intros; apply vlog_Fin; auto).
    reflexivity.
Qed.

Lemma mean_pm : mean (map Fin xs) (wt ow) = Fin (power_mean 1 l).
Proof.
  rewrite mean_id by auto. f_equal. unfold power_mean. destruct (Req_EM_T 1 0); [lra|].
  rewrite (avg_ext l (fun x => Rpower x 1) (fun x => x)).
  - replace (1 / 1) with 1 by field. rewrite Rpower_1; auto. apply avg_pos; auto.
  - intros x w I. apply Rpower_1. eauto.
Qed.

Lemma hmean_pm : hmean (map Fin xs) (wt ow) = Fin (power_mean (-1) l).
Proof.
  destruct (good_mean _ _ G) as [N H].
  assert (C1 : cany (fun t => cnot (cor (cgt t (Fin 0)) (clt t (Fin 0)))) (map Fin xs) = CB false) by cnone.
  unfold hmean. rewrite C1. cbn [cif].
  rewrite (mean_avg xs ow (fun x => 1 / x)).
  - cbn [bindv].
    assert (A : 0 < avg (fun x => 1 / x) l).
    { apply avg_pos; auto. intros x w I. apply Rdiv_pos; [lra|eauto]. }
    vif. varith. f_equal. unfold power_mean. destruct (Req_EM_T (-1) 0); [lra|].
    rewrite (avg_ext l (fun x => Rpower x (-1)) (fun x => 1 / x)).
    + replace (1 / -1) with (- (1)) by field. rewrite Rpower_Ropp, Rpower_1 by auto. field. lra.
    + intros x w I. pose proof (Pl x w I). replace (-1) with (- (1)) by ring.
      rewrite Rpower_Ropp, Rpower_1 by auto. field. lra.
  - auto.
  - auto.
  - intros x I. pose proof (P x I). veval. reflexivity.
Qed.

Lemma pmean_pm p : pmean (map Fin xs) (Fin p) (wt ow) = Fin (power_mean p l).
Proof.
  unfold pmean. destruct (Req_EM_T p 0) as [->|N0]; [vif; apply gmean_pm|].
  destruct (Req_EM_T p 1) as [->|N1]; [vif; apply mean_pm|].
  destruct (Req_EM_T p (-1)) as [->|N2]; [vif; apply hmean_pm|].
  vif. destruct (good_mean _ _ G) as [N H].
  rewrite (mean_avg xs ow (fun x => Rpower x p)); auto.
  - assert (A : 0 < avg (fun x => Rpower x p) l) by (apply avg_pos; auto; intros; apply Rpower_pos).
    varith. unfold power_mean. destruct (Req_EM_T p 0); [congruence|]. reflexivity.
  - intros x I. apply vpow_Fin; auto.
Qed.
Lemma pmean_inf : (exists m, pmean (map Fin xs) PInf (wt ow) = Fin m /\ is_max m xs) /\
  (exists m, pmean (map Fin xs) NInf (wt ow) = Fin m /\ is_min m xs).
Proof.
  destruct (good_mean _ _ G) as [N _]. split.
  - destruct (vmaxl_spec xs N) as [m [E [I L]]]. exists m. split; [|split; auto].
    unfold pmean. vif. exact E.
  - destruct (vminl_spec xs N) as [m [E [I L]]]. exists m. split; [|split; auto].
    unfold pmean. vif. exact E.
Qed.

Lemma ordering : exists h g m, hmean (map Fin xs) (wt ow) = Fin h /\ gmean (map Fin xs) (wt ow) = Fin g /\
  mean (map Fin xs) (wt ow) = Fin m /\ 0 < h /\ h <= g /\ g <= m /\
  forall lo hi, (forall x, In x xs -> lo <= x <= hi) -> lo <= h /\ m <= hi.
Proof.
  exists (power_mean (-1) l), (power_mean 0 l), (power_mean 1 l).
  split; [apply hmean_pm|]. split; [apply gmean_pm|]. split; [apply mean_pm|].
  split; [apply (pm_pos l)|].
  split; [apply (pm_mono l W T Pl); lra|]. split; [apply (pm_mono l W T Pl); lra|].
  intros lo hi B. destruct (good_mean _ _ G) as [N _].
  destruct (vminl_spec xs N) as [m [E [I L]]].
  assert (B' : forall x w, In (x, w) l -> m <= x <= hi).
  { intros x w J. apply datum_in in J. split; [auto|apply B; auto]. }
  pose proof (P m I) as MP. pose proof (B m I).
  split.
  - pose proof (pm_bounds l W T Pl m hi (-1) MP B'). unfold pm in *. lra.
  - pose proof (pm_bounds l W T Pl m hi 1 MP B'). unfold pm in *. lra.
Qed.

Lemma pmean_mono p q : p <= q -> exists a b, pmean (map Fin xs) (Fin p) (wt ow) = Fin a /\
  pmean (map Fin xs) (Fin q) (wt ow) = Fin b /\ a <= b.
Proof.
  intros H. do 2 eexists. split; [apply pmean_pm|]. split; [apply pmean_pm|].
  apply (pm_mono l W T Pl); auto.
Qed.
Lemma pmean_bounds p lo hi : is_min lo xs -> is_max hi xs ->
  exists a, pmean (map Fin xs) (Fin p) (wt ow) = Fin a /\ lo <= a <= hi.
Proof.
  intros [I1 L1] [I2 L2]. eexists; split; [apply pmean_pm|].
  apply (pm_bounds l W T Pl lo hi p); auto. intros x w J. apply datum_in in J. split; auto.
Qed.

(** lehmer *)
Lemma lehmer_formula p : p <> 1/2 ->
  lehmer_mean (map Fin xs) (Fin p) (wt ow)
  = Fin (avg (fun x => Rpower x p) l / avg (fun x => Rpower x (p - 1)) l).
Proof.
  intros Nh.
  assert (C1 : cany (fun t => cle t (Fin 0)) (map Fin xs) = CB false) by cnone.
  unfold lehmer_mean. rewrite C1. cbn [cif].
  destruct (Req_EM_T p 0) as [->|N0].
  { vif. rewrite hmean_pm. f_equal. unfold power_mean. destruct (Req_EM_T (-1) 0); [lra|].
    rewrite (avg_ext l (fun x => Rpower x 0) (fun _ => 1)) by (intros; apply Rpower_O; eauto).
    rewrite avg_const by exact T. replace (0 - 1) with (-1) by ring.
    replace (1 / -1) with (- (1)) by field.
    assert (A : 0 < avg (fun x => Rpower x (-1)) l) by (apply avg_pos; auto; intros; apply Rpower_pos).
    rewrite Rpower_Ropp, Rpower_1 by auto. field. lra. }
  destruct (Req_EM_T p 1) as [->|N1].
  { vif. rewrite mean_id by auto. f_equal.
    rewrite (avg_ext l (fun x => Rpower x 1) (fun x => x)) by (intros; apply Rpower_1; eauto).
    replace (1 - 1) with 0 by ring.
    rewrite (avg_ext l (fun x => Rpower x 0) (fun _ => 1)) by (intros; apply Rpower_O; eauto).
    rewrite avg_const by exact T. field. }
  vif. destruct (good_mean _ _ G) as [N H].
  rewrite (mean_avg xs ow (fun x => Rpower x p)); auto; [|intros x I; apply vpow_Fin; auto].
  rewrite (mean_avg xs ow (fun x => Rpower x (p - 1))); auto;
    [|intros x I; change (vsub (Fin p) (Fin 1)) with (Fin (p - 1)); apply vpow_Fin; auto].
  assert (A : 0 < avg (fun x => Rpower x (p - 1)) l) by (apply avg_pos; auto; intros; apply Rpower_pos).
  varith. reflexivity.
Qed.
Lemma lehmer_half : lehmer_mean (map Fin xs) (Fin (1/2)) (wt ow) = Fin (exp (avg ln l)).
Proof.
  assert (C1 : cany (fun t => cle t (Fin 0)) (map Fin xs) = CB false) by cnone.
  unfold lehmer_mean. rewrite C1. cbn [cif]. vif. rewrite gmean_pm.
  unfold power_mean. destruct (Req_EM_T 0 0); [|congruence]. reflexivity.
Qed.
End Data.

Lemma cons_nnil {A} (a : A) l : a :: l <> []. Proof. discriminate. Qed.
Lemma good_none xs : xs <> [] -> good_weights xs None. Proof. split; auto. Qed.

(** With two equally weighted values the special case p = 1/2 is right ... *)
Lemma lehmer_half_two a b : 0 < a -> 0 < b ->
  lehmer_mean [Fin a; Fin b] (Fin (1/2)) None
  = Fin ((Rpower a (1/2) + Rpower b (1/2)) / (Rpower a (1/2 - 1) + Rpower b (1/2 - 1))).
Proof.
  intros Ha Hb.
  pose proof (lehmer_half [a; b] None (good_none _ (@cons_nnil _ _ _))) as E.
  change (lehmer_mean [Fin a; Fin b] (Fin (1/2)) None) with (lehmer_mean (map Fin [a; b]) (Fin (1/2)) (wt None)).
  rewrite E by (intros x [<-|[<-|[]]]; auto). f_equal.
  rewrite avg_none by discriminate. simpl.
  replace (1/2 - 1) with (- (1/2)) by field. rewrite !Rpower_Ropp.
  pose proof (Rpower_pos a (1/2)). pose proof (Rpower_pos b (1/2)).
  replace ((Rpower a (1/2) + Rpower b (1/2)) / (/ Rpower a (1/2) + / Rpower b (1/2)))
    with (Rpower a (1/2) * Rpower b (1/2)) by (field; repeat split; lra).
  unfold Rpower. rewrite <- exp_plus. f_equal. field.
Qed.
(** ... with three it is not. *)
Lemma lehmer_half_wrong : exists m, lehmer_mean [Fin 1; Fin 1; Fin 4] (Fin (1/2)) None = Fin m /\
  m <> sum (map (fun x => Rpower x (1/2)) [1; 1; 4]) / sum (map (fun x => Rpower x (1/2 - 1)) [1; 1; 4]).
Proof.
  pose proof (lehmer_half [1; 1; 4] None (good_none _ (@cons_nnil _ _ _))) as E.
  change (lehmer_mean [Fin 1; Fin 1; Fin 4] (Fin (1/2)) None) with (lehmer_mean (map Fin [1; 1; 4]) (Fin (1/2)) (wt None)).
  eexists. split; [apply E; intros x [<-|[<-|[<-|[]]]]; lra|].
  rewrite avg_none by discriminate. simpl.
  assert (R4 : Rpower 4 (1/2) = 2).
  { replace (1/2) with (/2) by field. rewrite Rpower_sqrt by lra.
    replace 4 with (2 * 2) by ring. apply sqrt_square. lra. }
  replace (1/2 - 1) with (- (1/2)) by field. rewrite !Rpower_Ropp, R4, !Rpower_1_l, ln_1.
  intros C.
  assert (K : exp (ln 4) = 4) by (apply exp_ln; lra).
  assert (K3 : exp ((0 + (0 + (ln 4 + 0))) / (1 + 1 + 1)) ^ 3 = 4).
  { rewrite <- Rpower_pow by apply exp_pos. unfold Rpower. rewrite ln_exp. rewrite <- K at 2. f_equal. simpl. field. }
  rewrite C in K3. field_simplify in K3. lra.
Qed.

(** * mean: equivariance, repetition, errors *)
Lemma mean_affine xs ow a b : good_weights xs ow -> exists m, mean (map Fin xs) (wt ow) = Fin m /\
  mean (map Fin (map (fun x => a * x + b) xs)) (wt ow) = Fin (a * m + b).
Proof.
  intros G. destruct (good_mean _ _ G) as [N H]. eexists. split; [apply mean_id; auto|].
  rewrite <- (avg_lin _ (tot_pos _ _ G)).
  rewrite <- (mean_avg xs ow (fun x => a * x + b) (fun v => vadd (vmul (Fin a) v) (Fin b))); auto.
  rewrite !map_map. reflexivity.
Qed.
Lemma sum_repeat v n : sum (repeat v n) = v * INR n.
Proof. induction n as [|n IH]; [simpl; ring|]. cbn [repeat]. rewrite rsum_cons, IH, S_INR. ring. Qed.
Definition repeated (xs : list R) (ns : list nat) : list R :=
  concat (map (fun '(x, n) => repeat x n) (combine xs ns)).
Lemma mean_repeat xs ns : length ns = length xs -> repeated xs ns <> [] ->
  mean (map Fin xs) (Some (map Fin (map INR ns))) = mean (map Fin (repeated xs ns)) None.
Proof.
  intros L N.
  assert (S : forall k : list (R * nat), sum (concat (map (fun '(x, n) => repeat x n) k))
            = sum (map (fun '(x, n) => x * INR n) k) /\
            INR (length (concat (map (fun '(x, n) => repeat x n) k))) = sum (map (fun '(x, n) => INR n) k)).
  { induction k as [|[x n] k [IH1 IH2]]; [split; reflexivity|]. simpl concat. split.
    - rewrite rsum_app, sum_repeat. simpl map. rewrite rsum_cons, IH1. reflexivity.
    - rewrite app_length, repeat_length, plus_INR, IH2. reflexivity. }
  destruct (S (combine xs ns)) as [S1 S2].
  assert (SW : sum (map INR ns) = sum (map (fun '(x, n) => INR n) (combine xs ns))).
  { rewrite <- (snd_combine xs ns) at 1 by auto. rewrite map_map. apply rsum_ext. intros [x n] _. reflexivity. }
  assert (P : 0 < sum (map INR ns)).
  { rewrite SW, <- S2. apply length_pos. exact N. }
  assert (Nx : xs <> []) by (intros ->; apply N; reflexivity).
  pose proof (mean_avg xs (Some (map INR ns)) (fun x => x) (fun v => v) Nx) as M. rewrite map_id in M.
  simpl wt in M. rewrite M; [|rewrite map_length; split; [auto|lra]|auto].
  pose proof (mean_avg (repeated xs ns) None (fun x => x) (fun v => v) N I) as M'. rewrite map_id in M'.
  simpl wt in M'. rewrite M' by auto. f_equal. rewrite avg_none, map_id by auto.
  unfold avg. simpl weighted. rewrite snd_combine by (rewrite map_length; auto).
  unfold repeated. rewrite S1, S2, SW. f_equal.
  rewrite combine_map_r, map_map. apply rsum_ext. intros [x n] _. reflexivity.
Qed.
Lemma mean_errors : (forall x w, length w <> length x -> mean x (Some w) = Exc ValueError) /\
  mean [] None = Exc ZeroDivisionError /\
  (forall xs ws, length ws = length xs -> sum ws = 0 ->
     mean (map Fin xs) (Some (map Fin ws)) = Exc ZeroDivisionError).
Proof.
  split; [|split].
  - intros x w H. unfold mean. apply Nat.eqb_neq in H. rewrite H. reflexivity.
  - unfold mean, vlen. simpl. rewrite Reqb_true by auto. reflexivity.
  - intros xs ws L S. unfold mean. rewrite !map_length, L, Nat.eqb_refl. simpl negb. cbv iota.
    rewrite vfsum_Fin, S. vif. reflexivity.
Qed.

(** * Variance *)
Definition mu (xs : list R) := sum xs / INR (length xs).
Definition ss (xs : list R) := sum (map (fun x => (x - mu xs)^2) xs).

Lemma var_fin xs d : xs <> [] -> d <> INR (length xs) ->
  var (map Fin xs) (Fin d) = Fin (ss xs / (INR (length xs) - d)).
Proof.
  intros N D. pose proof (length_pos xs N). unfold var, vlen. rewrite map_length, vfsum_Fin.
  veval. rewrite map_map. 
  change (bindv (Fin (sum xs / INR (length xs)))) with (fun f : val -> val => f (Fin (sum xs / INR (length xs)))).
  cbv beta.
  rewrite (vfsum_map _ (fun x => (x - mu xs)^2)).
  - assert (INR (length xs) - d <> 0) by lra. veval. reflexivity.
  - intros x _. veval. reflexivity.
Qed.
Lemma ss_nonneg xs : 0 <= ss xs.
Proof. apply rsum_nonneg. intros. apply pow2_ge_0. Qed.
Lemma ss_zero xs : ss xs = 0 -> forall x y, In x xs -> In y xs -> x = y.
Proof.
  intros E x y Hx Hy.
  pose proof (rsum_nonneg_0 (fun x => (x - mu xs)^2) xs ltac:(intros; apply pow2_ge_0) E) as Z.
  pose proof (Z x Hx). pose proof (Z y Hy). simpl in *.
  assert (x - mu xs = 0) by nra. assert (y - mu xs = 0) by nra. lra.
Qed.
Lemma sum_const_list c xs : (forall x, In x xs -> x = c) -> sum xs = INR (length xs) * c.
Proof.
  intros H. rewrite <- rsum_const, <- (map_id xs) at 1. apply rsum_ext. auto.
Qed.
Lemma mu_const c xs : xs <> [] -> (forall x, In x xs -> x = c) -> mu xs = c.
Proof.
  intros N H. unfold mu. rewrite (sum_const_list c) by auto. field. pose proof (length_pos xs N). lra.
Qed.
Lemma ss_const c xs : xs <> [] -> (forall x, In x xs -> x = c) -> ss xs = 0.
Proof.
  intros N H. unfold ss. rewrite (mu_const c) by auto.
  rewrite (rsum_ext _ (fun _ => 0)); [rewrite rsum_const; ring|]. intros x Hx. rewrite (H x Hx). ring.
Qed.
Lemma mu_affine a b xs : xs <> [] -> mu (map (fun x => a * x + b) xs) = a * mu xs + b.
Proof.
  intros N. pose proof (length_pos xs N). unfold mu. rewrite map_length, rsum_plus, rsum_scal, rsum_const, map_id.
  field. lra.
Qed.
Lemma ss_affine a b xs : xs <> [] -> ss (map (fun x => a * x + b) xs) = a^2 * ss xs.
Proof.
  intros N. unfold ss. rewrite mu_affine, map_map, <- rsum_scal by auto. apply rsum_ext. intros; ring.
Qed.
Lemma ss_moments xs : xs <> [] -> ss xs = sum (map (fun x => x^2) xs) - INR (length xs) * (mu xs)^2.
Proof.
  intros N. pose proof (length_pos xs N). unfold ss.
  rewrite (rsum_ext _ (fun x => (x^2 + (- 2 * mu xs) * x) + (mu xs)^2)) by (intros; ring).
  rewrite !rsum_plus, rsum_scal, rsum_const, map_id.
  replace (sum xs) with (INR (length xs) * mu xs) by (unfold mu; field; lra). ring.
Qed.
Lemma ss_shift_any xs c : xs <> [] -> sum (map (fun x => (x - c)^2) xs) = ss xs + INR (length xs) * (mu xs - c)^2.
Proof.
  intros N. pose proof (length_pos xs N). rewrite ss_moments by auto.
  rewrite (rsum_ext _ (fun x => (x^2 + (- 2 * c) * x) + c^2)) by (intros; ring).
  rewrite !rsum_plus, rsum_scal, rsum_const, map_id.
  replace (sum xs) with (INR (length xs) * mu xs) by (unfold mu; field; lra). ring.
Qed.
Lemma var_errors : (forall d, var [] d = Exc ZeroDivisionError) /\
  forall xs, xs <> [] -> var (map Fin xs) (Fin (INR (length xs))) = Exc ZeroDivisionError.
Proof.
  split.
  - intros d. unfold var, vlen. simpl. rewrite Reqb_true by auto. reflexivity.
  - intros xs N. pose proof (length_pos xs N). unfold var, vlen. rewrite map_length, vfsum_Fin. veval.
    change (bindv (Fin (sum xs / INR (length xs)))) with (fun f : val -> val => f (Fin (sum xs / INR (length xs)))).
    cbv beta. rewrite map_map, (vfsum_map _ (fun x => (x - mu xs)^2)) by (intros x _; veval; reflexivity).
    veval. replace (INR (length xs) - INR (length xs)) with 0 by ring. apply vdiv_0.
Qed.

Lemma var_laws xs d : xs <> [] -> d < INR (length xs) ->
  exists v, var (map Fin xs) (Fin d) = Fin v /\ 0 <= v /\
    (v = 0 <-> forall x y, In x xs -> In y xs -> x = y) /\
    std (map Fin xs) (Fin d) = Fin (sqrt v) /\ (sqrt v)^2 = v /\
    (forall a b, var (map Fin (map (fun x => a * x + b) xs)) (Fin d) = Fin (a^2 * v)).
Proof.
  intros N D. pose proof (length_pos xs N). pose proof (ss_nonneg xs) as S.
  assert (V : 0 <= ss xs / (INR (length xs) - d)) by (apply Rdiv_nonneg; lra).
  exists (ss xs / (INR (length xs) - d)). split; [apply var_fin; auto; lra|]. split; auto. split; [|split; [|split]].
  - split.
    + intros E. apply ss_zero.
      assert (ss xs = ss xs / (INR (length xs) - d) * (INR (length xs) - d)) by (field; lra). rewrite H0, E. ring.
    + intros C. destruct xs as [|x xs]; [congruence|].
      rewrite (ss_const x (x :: xs)); [unfold Rdiv; ring|auto|]. intros y Hy. apply C; simpl; auto.
  - unfold std. rewrite var_fin by (auto; lra). rewrite vsqrt_Fin by auto. reflexivity.
  - simpl. rewrite Rmult_1_r. apply sqrt_sqrt. auto.
  - intros a b. rewrite var_fin.
    + rewrite map_length, ss_affine by auto. f_equal. field. lra.
    + destruct xs; [congruence|discriminate].
    + rewrite map_length. lra.
Qed.
Lemma var_moments xs : xs <> [] -> exists v m m2, var (map Fin xs) (Fin 0) = Fin v /\
  mean (map Fin xs) None = Fin m /\ mean (map Fin (map (fun x => x^2) xs)) None = Fin m2 /\ v = m2 - m^2.
Proof.
  intros N. pose proof (length_pos xs N).
  exists (ss xs / (INR (length xs) - 0)), (mu xs), (sum (map (fun x => x^2) xs) / INR (length xs)).
  split; [apply var_fin; auto; lra|]. split; [|split].
  - change (@None (list val)) with (wt None). rewrite (mean_id xs None) by (apply good_none; auto). rewrite avg_none, map_id by auto. reflexivity.
  - change (@None (list val)) with (wt None). rewrite (mean_id _ None) by (apply good_none; destruct xs; [congruence|discriminate]).
    rewrite avg_none, map_id, map_length by (destruct xs; [congruence|discriminate]). reflexivity.
  - rewrite ss_moments by auto. field. lra.
Qed.

(** * Statements used by the property files *)
Lemma gmean_zero xs : xs <> [] -> (forall x, In x xs -> 0 <= x) -> In 0 xs -> gmean (map Fin xs) None = Fin 0.
Proof.
  intros N P Z. unfold gmean.
  rewrite cany_false.
  - cbn [cif]. assert (C : cany (fun t => ceq t (Fin 0)) (map Fin xs) = CB true).
    { clear N P. induction xs as [|x xs IH]; [destruct Z|]. simpl. unfold ceq, cmp, eqb.
      destruct (Reqb_spec x 0) as [[E ->]|[E ->]]; [reflexivity|]. simpl. apply IH. destruct Z; [congruence|auto]. }
    rewrite C. reflexivity.
  - intros a Ia. apply in_map_iff in Ia. destruct Ia as [x [<- Ix]]. pose proof (P x Ix).
    cconv. rewrite Rltb_false by lra. reflexivity.
Qed.
Lemma constant_means xs ow c p : good_weights xs ow -> 0 < c -> (forall x, In x xs -> x = c) ->
  mean (map Fin xs) (wt ow) = Fin c /\ gmean (map Fin xs) (wt ow) = Fin c /\
  hmean (map Fin xs) (wt ow) = Fin c /\ pmean (map Fin xs) (Fin p) (wt ow) = Fin c.
Proof.
  intros G C E.
  assert (P : forall x, In x xs -> 0 < x) by (intros x H; rewrite (E x H); auto).
  assert (B : forall q, power_mean q (weighted xs ow) = c).
  { intros q. assert (D : forall x w, In (x, w) (weighted xs ow) -> c <= x <= c).
    { intros x w I. apply datum_in in I. rewrite (E x I). lra. }
    pose proof (pm_bounds (weighted xs ow) (fun x w => datum_w xs ow x w G) (tot_pos xs ow G)
      (fun x w I => P x (datum_in _ _ _ _ I)) c c q C D). unfold pm in *. lra. }
  rewrite mean_pm, gmean_pm, hmean_pm, pmean_pm, !B by auto. auto.
Qed.
Lemma pmean_homogeneous xs ow p c : good_weights xs ow -> (forall x, In x xs -> 0 < x) -> 0 < c ->
  exists m, pmean (map Fin xs) (Fin p) (wt ow) = Fin m /\
    pmean (map Fin (map (fun x => c * x) xs)) (Fin p) (wt ow) = Fin (c * m).
Proof.
  intros G P C. exists (power_mean p (weighted xs ow)). split; [apply pmean_pm; auto|].
  assert (G' : good_weights (map (fun x => c * x) xs) ow).
  { destruct G as [N G]. split; [destruct xs; [congruence|discriminate]|]. rewrite map_length. auto. }
  rewrite pmean_pm; auto.
  - f_equal.
    assert (E : weighted (map (fun x => c * x) xs) ow = map (fun '(x, w) => (c * x, w)) (weighted xs ow)).
    { destruct ow as [w|]; simpl; [rewrite combine_map_l|rewrite !map_map]; auto. }
    assert (A : forall f, avg f (weighted (map (fun x => c * x) xs) ow) = avg (fun x => f (c * x)) (weighted xs ow)).
    { intros f. unfold avg. rewrite E, !map_map. f_equal; f_equal; apply map_ext; intros [x w]; reflexivity. }
    pose proof (tot_pos xs ow G) as T.
    unfold power_mean. rewrite !A. destruct (Req_EM_T p 0).
    + rewrite (avg_ext _ (fun x => ln (c * x)) (fun x => 1 * ln x + ln c)).
      * rewrite avg_lin by auto. rewrite Rmult_1_l, exp_plus, exp_ln by auto. ring.
      * intros x w I. rewrite ln_mult; auto; [ring|]. apply P. apply datum_in in I. auto.
    + rewrite (avg_ext _ (fun x => Rpower (c * x) p) (fun x => Rpower c p * Rpower x p + 0)).
      * rewrite avg_lin by auto. rewrite Rplus_0_r, <- Rpower_mult_distr.
        -- f_equal. rewrite Rpower_mult. replace (p * (1 / p)) with 1 by (field; auto). apply Rpower_1; auto.
        -- apply Rpower_pos.
        -- apply avg_pos; [intros x w I; apply (datum_w xs ow x w G); auto|exact T|intros; apply Rpower_pos].
      * intros x w I. rewrite Rplus_0_r. rewrite Rpower_mult_distr; auto. apply P. apply datum_in in I; auto.
  - intros x I. apply in_map_iff in I. destruct I as [y [<- Iy]]. pose proof (P y Iy). nra.
Qed.
Lemma lehmer_sums xs p : xs <> [] -> (forall x, In x xs -> 0 < x) -> p <> 1/2 ->
  lehmer_mean (map Fin xs) (Fin p) None
  = Fin (sum (map (fun x => Rpower x p) xs) / sum (map (fun x => Rpower x (p - 1)) xs)).
Proof.
  intros N P H. change (@None (list val)) with (wt None).
  rewrite lehmer_formula by (auto using good_none). f_equal. rewrite !avg_none by auto.
  pose proof (length_pos xs N).
  assert (0 < sum (map (fun x => Rpower x (p - 1)) xs)) by (apply rsum_pos; auto; intros; apply Rpower_pos).
  field. lra.
Qed.
Lemma lehmer_inf xs ow : xs <> [] -> (forall x, In x xs -> 0 < x) ->
  (exists m, lehmer_mean (map Fin xs) PInf ow = Fin m /\ is_max m xs) /\
  (exists m, lehmer_mean (map Fin xs) NInf ow = Fin m /\ is_min m xs).
Proof.
  intros N P.
  assert (C1 : cany (fun t => cle t (Fin 0)) (map Fin xs) = CB false).
  { apply cany_false; intros a Ia; apply in_map_iff in Ia; destruct Ia as [x [<- Ix]];
    pose proof (P x Ix); cconv. rewrite Rleb_false by auto. reflexivity. }
  unfold lehmer_mean. rewrite C1. cbn [cif]. split.
  - destruct (vmaxl_spec xs N) as [m [E [I L]]]. exists m. split; [|split; auto]. vif. exact E.
  - destruct (vminl_spec xs N) as [m [E [I L]]]. exists m. split; [|split; auto]. vif. exact E.
Qed.
Lemma lehmer_bad xs p ow : (exists x, In x xs /\ x <= 0) -> lehmer_mean (map Fin xs) p ow = Exc ValueError.
Proof.
  intros [x [I L]]. unfold lehmer_mean.
  assert (C : cany (fun t => cle t (Fin 0)) (map Fin xs) = CB true).
  { induction xs as [|y xs IH]; [destruct I|]. simpl. unfold cle, cmp, leb.
    destruct (Rleb_spec y 0) as [[E ->]|[E ->]]; [reflexivity|]. simpl. apply IH. destruct I; [subst; lra|auto]. }
  rewrite C. reflexivity.
Qed.
Lemma variation_scale xs d : xs <> [] -> d < INR (length xs) -> 0 < mu xs -> forall c, 0 < c ->
  variation (map Fin (map (fun x => c * x) xs)) (Fin d) = variation (map Fin xs) (Fin d).
Proof.
  intros N D M c C. pose proof (length_pos xs N) as LP. pose proof (ss_nonneg xs).
  assert (EV : forall ys, ys <> [] -> length ys = length xs -> 0 < mu ys ->
     variation (map Fin ys) (Fin d) = Fin (sqrt (ss ys / (INR (length xs) - d)) / mu ys)).
  { intros ys Ny Ly My. pose proof (ss_nonneg ys).
    unfold variation, std. rewrite var_fin by (auto; rewrite ?Ly; lra).
    rewrite Ly, vsqrt_Fin by (apply Rdiv_nonneg; lra). cbn [bindv].
    change (@None (list val)) with (wt None). rewrite mean_id by (apply good_none; auto).
    rewrite avg_none, map_id by auto. fold (mu ys). cbn [bindv]. veval. reflexivity. }
  assert (E1 : mu (map (fun x => c * x) xs) = c * mu xs).
  { rewrite (map_ext _ (fun x => c * x + 0)) by (intros; ring). rewrite mu_affine by auto. ring. }
  assert (E2 : ss (map (fun x => c * x) xs) = c ^ 2 * ss xs).
  { rewrite (map_ext _ (fun x => c * x + 0)) by (intros; ring). apply ss_affine. auto. }
  rewrite !EV; auto.
  - f_equal. rewrite E1, E2.
    replace (c^2 * ss xs / (INR (length xs) - d)) with (c^2 * (ss xs / (INR (length xs) - d))) by (field; lra).
    rewrite sqrt_mult_alt by (apply pow2_ge_0). rewrite sqrt_pow2 by lra. field. lra.
  - destruct xs; [congruence|discriminate].
  - apply map_length.
  - rewrite E1. apply Rmult_lt_0_compat; auto.
Qed.
