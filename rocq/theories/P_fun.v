(** Proofs about the elementary functions and the power transforms. *)
From Coq Require Import Reals Lra List Bool Lia.
From Coquelicot Require Import Coquelicot.
From Verif Require Import Values VTac Spec RLib LLib M_fun M_stats.
Import ListNotations.
Local Open Scope R_scope.
Set Bullet Behavior "Strict Subproofs".

(** * xlogy *)
Lemma xlogy_nan x y : isnum x -> isnum y -> x = NaN \/ y = NaN -> xlogy x y = NaN /\ xlog1py x y = NaN.
Proof.
  intros Nx Ny [->| ->]; [|destruct Nx as [? []|]]; split; unfold xlogy, xlog1py; try reflexivity;
  destruct Ny as [? []|]; reflexivity.
Qed.
Lemma xlogy_zero y : isnum y -> y <> NaN -> xlogy (Fin 0) y = Fin 0 /\ xlog1py (Fin 0) y = Fin 0.
Proof.
  intros [? []|] N; [ | | | congruence]; split; unfold xlogy, xlog1py; vif; reflexivity.
Qed.
Lemma xlogy_fin x y : x <> 0 -> 0 < y -> xlogy (Fin x) (Fin y) = Fin (x * ln y).
Proof. intros. unfold xlogy. veval. reflexivity. Qed.
Lemma xlogy_fin' x y : 0 < y -> xlogy (Fin x) (Fin y) = Fin (x * ln y).
Proof.
  intros. destruct (Req_EM_T x 0) as [->|N].
  - rewrite (proj1 (xlogy_zero (Fin y) ltac:(repeat constructor) ltac:(discriminate))). f_equal. ring.
  - apply xlogy_fin; auto.
Qed.
Lemma xlogy_log0 x : (0 < x -> xlogy (Fin x) (Fin 0) = NInf) /\ (x < 0 -> xlogy (Fin x) (Fin 0) = PInf).
Proof. split; intros; unfold xlogy; veval; reflexivity. Qed.
Lemma xlogy_inf x : (0 < x -> xlogy (Fin x) PInf = PInf) /\ (x < 0 -> xlogy (Fin x) PInf = NInf).
Proof. split; intros; unfold xlogy; veval; reflexivity. Qed.
Lemma visnan_1p y : isnum y -> visnan (vadd (Fin 1) y) = visnan y.
Proof. intros [? []|]; reflexivity. Qed.
Lemma xlog1py_xlogy x y : isnum x -> isnum y -> xlog1py x y = xlogy x (vadd (Fin 1) y).
Proof.
  intros Nx Ny. unfold xlog1py, xlogy, vlog1p. rewrite visnan_1p by auto. reflexivity.
Qed.
Lemma xlog1py_fin x y : -1 < y -> xlog1py (Fin x) (Fin y) = Fin (x * ln (1 + y)).
Proof.
  intros. rewrite xlog1py_xlogy by (repeat constructor).
  change (vadd (Fin 1) (Fin y)) with (Fin (1 + y)). apply xlogy_fin'. lra.
Qed.

(** * Powers *)
Lemma pow1pm1_fin x y : -1 < x -> pow1pm1 (Fin x) (Fin y) = Fin (Rpower (1 + x) y - 1).
Proof. intros. unfold pow1pm1. rewrite xlog1py_fin by auto. reflexivity. Qed.
Lemma inv_pow1pm1_fin t y : -1 < t -> y <> 0 -> inv_pow1pm1 (Fin t) (Fin y) = Fin (Rpower (1 + t) (1 / y) - 1).
Proof. intros. unfold inv_pow1pm1. vif. varith. rewrite xlog1py_fin by auto. reflexivity. Qed.
Lemma inv_powm1_fin t y : -1 < t -> y <> 0 -> inv_powm1 (Fin t) (Fin y) = Fin (Rpower (1 + t) (1 / y)).
Proof. intros. unfold inv_powm1. vif. varith. rewrite xlog1py_fin by auto. reflexivity. Qed.

Lemma Rpower_inv x y : 0 < x -> y <> 0 -> Rpower (Rpower x y) (1 / y) = x.
Proof. intros. rewrite Rpower_mult. replace (y * (1 / y)) with 1 by (field; auto). apply Rpower_1; auto. Qed.
Lemma Rpower_inv' x y : 0 < x -> y <> 0 -> Rpower (Rpower x (1 / y)) y = x.
Proof. intros. rewrite Rpower_mult. replace (1 / y * y) with 1 by (field; auto). apply Rpower_1; auto. Qed.

Lemma inv_pow1pm1_left x y : -1 < x -> y <> 0 ->
  exists t, pow1pm1 (Fin x) (Fin y) = Fin t /\ inv_pow1pm1 (Fin t) (Fin y) = Fin x.
Proof.
  intros Hx Hy. exists (Rpower (1 + x) y - 1). split; [apply pow1pm1_fin; auto|].
  pose proof (Rpower_pos (1 + x) y). rewrite inv_pow1pm1_fin by (auto; lra).
  replace (1 + (Rpower (1 + x) y - 1)) with (Rpower (1 + x) y) by ring.
  rewrite Rpower_inv by (auto; lra). f_equal. ring.
Qed.
Lemma inv_pow1pm1_right t y : -1 < t -> y <> 0 ->
  exists x, inv_pow1pm1 (Fin t) (Fin y) = Fin x /\ -1 < x /\ pow1pm1 (Fin x) (Fin y) = Fin t.
Proof.
  intros Ht Hy. pose proof (Rpower_pos (1 + t) (1 / y)). eexists. split; [apply inv_pow1pm1_fin; auto|].
  split; [lra|]. rewrite pow1pm1_fin by lra.
  replace (1 + (Rpower (1 + t) (1 / y) - 1)) with (Rpower (1 + t) (1 / y)) by ring.
  rewrite Rpower_inv' by (auto; lra). f_equal. ring.
Qed.
Lemma inv_powm1_left x y : 0 < x -> y <> 0 ->
  exists t, vpowm1 (Fin x) (Fin y) = Fin t /\ inv_powm1 (Fin t) (Fin y) = Fin x.
Proof.
  intros Hx Hy. exists (Rpower x y - 1). split; [veval; reflexivity|].
  pose proof (Rpower_pos x y). rewrite inv_powm1_fin by (auto; lra).
  replace (1 + (Rpower x y - 1)) with (Rpower x y) by ring. rewrite Rpower_inv; auto.
Qed.
Lemma inv_powm1_right t y : -1 < t -> y <> 0 ->
  exists x, inv_powm1 (Fin t) (Fin y) = Fin x /\ 0 < x /\ vpowm1 (Fin x) (Fin y) = Fin t.
Proof.
  intros Ht Hy. pose proof (Rpower_pos (1 + t) (1 / y)). eexists. split; [apply inv_powm1_fin; auto|].
  split; [lra|]. veval. rewrite Rpower_inv' by (auto; lra). f_equal. ring.
Qed.
Lemma inv_errors t y :
  (inv_powm1 (Fin t) (Fin y) = Exc ValueError <-> y = 0 \/ t <= -1) /\
  (inv_pow1pm1 (Fin t) (Fin y) = Exc ValueError <-> y = 0 \/ t <= -1).
Proof.
  split; split; intros H.
  - destruct (Req_EM_T y 0); auto. destruct (Rle_dec t (-1)); auto.
    rewrite inv_powm1_fin in H by (auto; lra). discriminate.
  - unfold inv_powm1. destruct H as [H|H]; vcases; reflexivity.
  - destruct (Req_EM_T y 0); auto. destruct (Rle_dec t (-1)); auto.
    rewrite inv_pow1pm1_fin in H by (auto; lra). discriminate.
  - unfold inv_pow1pm1. destruct H as [H|H]; vcases; reflexivity.
Qed.

(** * logsumexp *)
Lemma max_spec l : forall a, exists m, fold_left vmax2 (map Fin l) (Fin a) = Fin m /\
  In m (a :: l) /\ forall x, In x (a :: l) -> x <= m.
Proof.
  induction l as [|b l IH]; intros a; cbn [map fold_left].
  - exists a. split; auto. split; [simpl; auto|]. intros x [->|[]]. lra.
  - unfold vmax2 at 2. destruct (Rlt_le_dec a b) as [H|H].
    + vif. destruct (IH b) as [m [E [I L]]]. exists m. split; auto. split.
      * right. exact I.
      * intros x [<-|Hx]; [|apply L; auto]. specialize (L b ltac:(simpl; auto)). lra.
    + vif. destruct (IH a) as [m [E [I L]]]. exists m. split; auto. split.
      * destruct I as [->|I]; simpl; auto.
      * intros x [<-|[<-|Hx]].
        -- apply L. simpl; auto.
        -- specialize (L a ltac:(simpl; auto)). lra.
        -- apply L. simpl; auto.
Qed.
Lemma vmaxl_spec l : l <> [] -> exists m, vmaxl (map Fin l) = Fin m /\ In m l /\ forall x, In x l -> x <= m.
Proof. destruct l as [|a l]; [congruence|]. intros _. apply max_spec. Qed.
Lemma min_spec l : forall a, exists m, fold_left vmin2 (map Fin l) (Fin a) = Fin m /\
  In m (a :: l) /\ forall x, In x (a :: l) -> m <= x.
Proof.
  induction l as [|b l IH]; intros a; cbn [map fold_left].
  - exists a. split; auto. split; [simpl; auto|]. intros x [->|[]]. lra.
  - unfold vmin2 at 2. destruct (Rlt_le_dec b a) as [H|H].
    + vif. destruct (IH b) as [m [E [I L]]]. exists m. split; auto. split.
      * right. exact I.
      * intros x [<-|Hx]; [|apply L; auto]. specialize (L b ltac:(simpl; auto)). lra.
    + vif. destruct (IH a) as [m [E [I L]]]. exists m. split; auto. split.
      * destruct I as [->|I]; simpl; auto.
      * intros x [<-|[<-|Hx]].
        -- apply L. simpl; auto.
        -- specialize (L a ltac:(simpl; auto)). lra.
        -- apply L. simpl; auto.
Qed.
Lemma vminl_spec l : l <> [] -> exists m, vminl (map Fin l) = Fin m /\ In m l /\ forall x, In x l -> m <= x.
Proof. destruct l as [|a l]; [congruence|]. intros _. apply min_spec. Qed.

Lemma logsumexp_plain l : l <> [] ->
  logsumexp (map Fin l) None = Fin (ln (rsum (map exp l))).
Proof.
  intros N. destruct (vmaxl_spec l N) as [m [E [I L]]]. unfold logsumexp. rewrite E. cbn [bindv].
  rewrite map_map, (vfsum_map _ (fun t => exp (t - m))) by reflexivity.
  assert (P : 0 < rsum (map (fun t => exp (t - m)) l)) by (apply rsum_pos; auto; intros; apply exp_pos).
  rewrite vlog_Fin by auto. varith. f_equal.
  assert (Eq : rsum (map exp l) = exp m * rsum (map (fun t => exp (t - m)) l)).
  { rewrite <- rsum_scal. apply rsum_ext. intros x _. rewrite <- exp_plus. f_equal. ring. }
  rewrite Eq, ln_mult, ln_exp by (auto; apply exp_pos). ring.
Qed.
Lemma combine_map_r {A B C} (f : B -> C) (l : list A) : forall l', combine l (map f l') = map (fun '(a, b) => (a, f b)) (combine l l').
Proof. induction l as [|a l IH]; intros [|b l']; simpl; auto. f_equal. apply IH. Qed.
Lemma combine_map_l {A B C} (f : A -> C) (l : list A) : forall l' : list B, combine (map f l) l' = map (fun '(a, b) => (f a, b)) (combine l l').
Proof. induction l as [|a l IH]; intros [|b l']; simpl; auto. f_equal. apply IH. Qed.
Lemma combine_Fin (l l' : list R) : combine (map Fin l) (map Fin l') = map (fun '(a, b) => (Fin a, Fin b)) (combine l l').
Proof. rewrite combine_map_l, combine_map_r, map_map. apply map_ext. intros [a b]. reflexivity. Qed.
Lemma logsumexp_weighted l w : l <> [] ->
  0 < rsum (map (fun '(w, x) => w * exp x) (combine w l)) ->
  logsumexp (map Fin l) (Some (map Fin w)) = Fin (ln (rsum (map (fun '(w, x) => w * exp x) (combine w l)))).
Proof.
  intros N P. destruct (vmaxl_spec l N) as [m [E [I L]]]. unfold logsumexp. rewrite E. cbn [bindv].
  rewrite map_map.
  change (map (fun x : R => vexp (vsub (Fin x) (Fin m))) l) with (map (fun x : R => Fin (exp (x + - m))) l).
  rewrite <- (map_map (fun x => exp (x + - m)) Fin), combine_Fin, map_map, combine_map_r, map_map.
  rewrite (vfsum_map _ (fun '(w, x) => w * exp (x - m))) by (intros [a b] _; reflexivity).
  assert (Eq : rsum (map (fun '(w, x) => w * exp x) (combine w l))
     = exp m * rsum (map (fun '(w, x) => w * exp (x - m)) (combine w l))).
  { rewrite <- rsum_scal. apply rsum_ext. intros [a b] _.
    replace (exp b) with (exp m * exp (b - m)); [ring|]. rewrite <- exp_plus. f_equal. ring. }
  pose proof (exp_pos m).
  assert (P' : 0 < rsum (map (fun '(w, x) => w * exp (x - m)) (combine w l))) by (rewrite Eq in P; nra).
  rewrite vlog_Fin by auto. varith. f_equal. rewrite Eq, ln_mult, ln_exp by auto. ring.
Qed.
Lemma logsumexp_args l : l <> [] ->
  List.Forall (fun v => exists r, v = Fin r /\ r <= 0) (logsumexp_exp_args (map Fin l)).
Proof.
  intros N. destruct (vmaxl_spec l N) as [m [E [I L]]]. unfold logsumexp_exp_args. rewrite E, map_map.
  apply List.Forall_forall. intros v Hv. apply in_map_iff in Hv. destruct Hv as [x [<- Hx]].
  exists (x - m). split; [reflexivity|]. specialize (L x Hx). lra.
Qed.
Lemma logsumexp_shift l c : l <> [] -> exists s, logsumexp (map Fin l) None = Fin s /\
  logsumexp (map Fin (map (fun x => x + c) l)) None = Fin (s + c).
Proof.
  intros N. eexists. split; [apply logsumexp_plain; auto|].
  rewrite logsumexp_plain by (destruct l; [congruence|discriminate]). f_equal.
  rewrite map_map.
  assert (Eq : rsum (map (fun x => exp (x + c)) l) = exp c * rsum (map exp l)).
  { rewrite <- rsum_scal. apply rsum_ext. intros x _. rewrite <- exp_plus. f_equal. ring. }
  rewrite Eq, ln_mult, ln_exp; [ring|apply exp_pos|apply rsum_pos; auto; intros; apply exp_pos].
Qed.
Lemma logsumexp_bounds l : l <> [] -> exists s m, logsumexp (map Fin l) None = Fin s /\
  In m l /\ (forall x, In x l -> x <= m) /\ m <= s <= m + ln (INR (length l)).
Proof.
  intros N. destruct (vmaxl_spec l N) as [m [E [I L]]].
  eexists _, m. split; [apply logsumexp_plain; auto|]. split; auto. split; auto.
  pose proof (length_pos l N) as LP.
  assert (lo : exp m <= rsum (map exp l)).
  { clear - I. induction l as [|a l IH]; [destruct I|]. simpl.
    pose proof (rsum_nonneg exp l ltac:(intros; left; apply exp_pos)).
    destruct I as [->|I]; [lra|]. specialize (IH I). pose proof (exp_pos a). lra. }
  assert (hi : rsum (map exp l) <= INR (length l) * exp m).
  { rewrite <- rsum_const. apply rsum_le. intros x Hx. apply exp_le_compat. auto. }
  pose proof (exp_pos m). split.
  - rewrite <- (ln_exp m) at 1. apply ln_le_compat; auto.
  - apply Rle_trans with (ln (INR (length l) * exp m)).
    + apply ln_le_compat; lra.
    + rewrite ln_mult, ln_exp by auto. lra.
Qed.

(** * Box-Cox *)
Lemma boxcox_fin x l : 0 < x -> boxcox (Fin x) (Fin l) =
  Fin (if Req_EM_T l 0 then ln x else (Rpower x l - 1) / l).
Proof.
  intros. unfold boxcox. destruct (Req_EM_T l 0) as [->|N]; veval; reflexivity.
Qed.
Lemma boxcox1p_boxcox x l : -1 < x -> boxcox1p (Fin x) (Fin l) = boxcox (Fin (1 + x)) (Fin l).
Proof.
  intros. rewrite boxcox_fin by lra. unfold boxcox1p. destruct (Req_EM_T l 0) as [->|N].
  - veval; reflexivity.
  - vif. rewrite pow1pm1_fin by auto. veval. reflexivity.
Qed.
Lemma boxcox_inv x l : 0 < x -> exists y, boxcox (Fin x) (Fin l) = Fin y /\ inv_boxcox (Fin y) (Fin l) = Fin x.
Proof.
  intros H. rewrite boxcox_fin by auto. eexists; split; [reflexivity|].
  unfold inv_boxcox. destruct (Req_EM_T l 0) as [->|N].
  - veval. rewrite exp_ln; auto.
  - pose proof (Rpower_pos x l). vif. varith.
    replace (l * ((Rpower x l - 1) / l)) with (Rpower x l - 1) by (field; auto).
    rewrite inv_powm1_fin by (auto; lra).
    replace (1 + (Rpower x l - 1)) with (Rpower x l) by ring. rewrite Rpower_inv; auto.
Qed.
Lemma inv_boxcox_inv y l : - 1 < l * y -> exists x, inv_boxcox (Fin y) (Fin l) = Fin x /\ 0 < x /\
  boxcox (Fin x) (Fin l) = Fin y.
Proof.
  intros H. unfold inv_boxcox. destruct (Req_EM_T l 0) as [->|N].
  - exists (exp y). pose proof (exp_pos y). split; [veval; reflexivity|]. split; auto.
    rewrite boxcox_fin by auto. destruct (Req_EM_T 0 0); [|congruence]. rewrite ln_exp. reflexivity.
  - exists (Rpower (1 + l * y) (1 / l)). pose proof (Rpower_pos (1 + l * y) (1 / l)).
    split; [vif; varith; apply inv_powm1_fin; auto|]. split; auto.
    rewrite boxcox_fin by auto. destruct (Req_EM_T l 0); [congruence|].
    rewrite Rpower_inv' by (auto; lra). f_equal. field. auto.
Qed.
Lemma inv_boxcox_bad y l : l * y <= -1 -> inv_boxcox (Fin y) (Fin l) = Exc ValueError
  /\ inv_boxcox1p (Fin y) (Fin l) = Exc ValueError.
Proof.
  intros H. assert (l <> 0) by (intros ->; lra). unfold inv_boxcox, inv_boxcox1p, inv_powm1, inv_pow1pm1. split.
  - veval. reflexivity.
  - veval. reflexivity.
Qed.
Lemma inv_boxcox1p_inv_boxcox y l : inv_boxcox1p (Fin y) (Fin l) = vsub (inv_boxcox (Fin y) (Fin l)) (Fin 1).
Proof.
  unfold inv_boxcox1p, inv_boxcox. destruct (Req_EM_T l 0) as [->|N].
  - veval. reflexivity.
  - vif. varith. destruct (Rle_dec (l * y) (-1)) as [H|H].
    + unfold inv_pow1pm1, inv_powm1. veval. reflexivity.
    + rewrite inv_pow1pm1_fin, inv_powm1_fin by (auto; lra). veval. reflexivity.
Qed.

Lemma Rpower_lt_neg x y l : 0 < x -> x < y -> l < 0 -> Rpower y l < Rpower x l.
Proof.
  intros. unfold Rpower. apply exp_increasing. pose proof (ln_increasing x y). nra.
Qed.
Lemma Rpower_lt_pos x y l : 0 < x -> x < y -> 0 < l -> Rpower x l < Rpower y l.
Proof.
  intros. unfold Rpower. apply exp_increasing. pose proof (ln_increasing x y). nra.
Qed.
Definition bc (l x : R) := if Req_EM_T l 0 then ln x else (Rpower x l - 1) / l.
Lemma bc_incr l x y : 0 < x -> x < y -> bc l x < bc l y.
Proof.
  intros H1 H2. unfold bc. destruct (Req_EM_T l 0) as [->|N]; [apply ln_increasing; auto|].
  destruct (Rlt_dec 0 l) as [P|P].
  - pose proof (Rpower_lt_pos x y l H1 H2 P). apply Rmult_lt_compat_r; [apply Rinv_0_lt_compat; auto|lra].
  - pose proof (Rpower_lt_neg x y l H1 H2 ltac:(lra)).
    unfold Rdiv. assert (/ l < 0) by (apply Rinv_lt_0_compat; lra). nra.
Qed.
Lemma bc_1 l : bc l 1 = 0.
Proof. unfold bc. destruct (Req_EM_T l 0); [apply ln_1|]. rewrite Rpower_1_l. field. auto. Qed.
Lemma boxcox_incr x y l : 0 < x -> x < y -> exists a b, boxcox (Fin x) (Fin l) = Fin a /\
  boxcox (Fin y) (Fin l) = Fin b /\ a < b.
Proof.
  intros H1 H2. rewrite !boxcox_fin by lra. do 2 eexists. do 2 (split; [reflexivity|]).
  apply bc_incr; auto.
Qed.

(** * Yeo-Johnson *)
Definition yj (l x : R) := if Rle_dec 0 x then bc l (1 + x) else - bc (2 - l) (1 - x).
Lemma yj_fin x l : yeojohnson (Fin x) (Fin l) = Fin (yj l x).
Proof.
  unfold yeojohnson, yj, bc. destruct (Rle_dec 0 x).
  - destruct (Req_EM_T l 0) as [->|N].
    + veval. reflexivity.
    + vif. rewrite pow1pm1_fin by lra. veval. reflexivity.
  - destruct (Req_EM_T (2 - l) 0) as [E|N].
    + assert (l = 2) by lra. subst l. veval. do 3 f_equal; lra.
    + assert (l <> 2) by lra. vif. varith. rewrite pow1pm1_fin by lra. veval.
      do 2 f_equal. change (1 + - x) with (1 - x). field. lra.
Qed.
Lemma yj_sign l x : (0 < x -> 0 < yj l x) /\ (x = 0 -> yj l x = 0) /\ (x < 0 -> yj l x < 0).
Proof.
  unfold yj. repeat split; intros H; destruct (Rle_dec 0 x); try lra.
  - pose proof (bc_incr l 1 (1 + x) ltac:(lra) ltac:(lra)). rewrite bc_1 in *. lra.
  - subst x. rewrite Rplus_0_r. apply bc_1.
  - pose proof (bc_incr (2 - l) 1 (1 - x) ltac:(lra) ltac:(lra)). rewrite bc_1 in *. lra.
Qed.
Lemma yj_incr l x y : x < y -> yj l x < yj l y.
Proof.
  intros H. destruct (Rle_dec 0 x) as [Px|Px].
  - unfold yj. destruct (Rle_dec 0 x), (Rle_dec 0 y); try lra. apply bc_incr; lra.
  - destruct (Rle_dec 0 y) as [Py|Py].
    + pose proof (proj2 (proj2 (yj_sign l x)) ltac:(lra)).
      destruct Py as [Py|Py].
      * pose proof (proj1 (yj_sign l y) Py). lra.
      * rewrite (proj1 (proj2 (yj_sign l y)) ltac:(lra)). lra.
    + unfold yj. destruct (Rle_dec 0 x), (Rle_dec 0 y); try lra.
      apply Ropp_lt_contravar. apply bc_incr; lra.
Qed.
Lemma yj_reflect l x : yj (2 - l) (- x) = - yj l x.
Proof.
  unfold yj. destruct (Rle_dec 0 (- x)), (Rle_dec 0 x); try lra.
  - assert (x = 0) by lra. subst x. replace (1 + - 0) with 1 by ring. rewrite Rplus_0_r, !bc_1. lra.
  - rewrite Ropp_involutive. reflexivity.
  - replace (2 - (2 - l)) with l by ring. replace (1 - - x) with (1 + x) by ring. reflexivity.
Qed.
Lemma bc_inv_arg l x : 0 < x -> -1 < l * bc l x.
Proof.
  intros. unfold bc. destruct (Req_EM_T l 0) as [->|N]; [lra|].
  replace (l * ((Rpower x l - 1) / l)) with (Rpower x l - 1) by (field; auto).
  pose proof (Rpower_pos x l). lra.
Qed.
Lemma bc_inverse l x : 0 < x -> l <> 0 -> Rpower (1 + l * bc l x) (1 / l) = x.
Proof.
  intros. unfold bc. destruct (Req_EM_T l 0); [congruence|].
  replace (1 + l * ((Rpower x l - 1) / l)) with (Rpower x l) by (field; auto). apply Rpower_inv; auto.
Qed.
Lemma yj_inv x l : exists y, yeojohnson (Fin x) (Fin l) = Fin y /\ inv_yeojohnson (Fin y) (Fin l) = Fin x.
Proof.
  exists (yj l x). split; [apply yj_fin|]. unfold inv_yeojohnson.
  destruct (Rle_dec 0 x) as [P|P].
  - assert (0 <= yj l x).
    { destruct P as [P|P]; [left; apply yj_sign; auto|]. rewrite (proj1 (proj2 (yj_sign l x))); lra. }
    vif1. assert (Y : yj l x = bc l (1 + x)) by (unfold yj; destruct (Rle_dec 0 x); lra).
    destruct (Req_EM_T l 0) as [->|N].
    + rewrite Y. vif. unfold bc. destruct (Req_EM_T 0 0); [|congruence]. varith. rewrite exp_ln by lra. f_equal. ring.
    + vif. varith. rewrite Y. pose proof (bc_inv_arg l (1 + x) ltac:(lra)).
      rewrite inv_pow1pm1_fin by auto. rewrite bc_inverse by (auto; lra). f_equal. ring.
  - assert (yj l x < 0) by (apply yj_sign; lra). vif1.
    assert (Y : yj l x = - bc (2 - l) (1 - x)) by (unfold yj; destruct (Rle_dec 0 x); lra).
    destruct (Req_EM_T (2 - l) 0) as [E|N].
    + assert (l = 2) by lra. subst l. rewrite Y. vif. unfold bc. destruct (Req_EM_T (2 - 2) 0); [|lra].
      varith. rewrite Ropp_involutive, exp_ln by lra. f_equal. ring.
    + assert (l <> 2) by lra. vif. varith. rewrite Y.
      pose proof (bc_inv_arg (2 - l) (1 - x) ltac:(lra)).
      replace (- (2 - l) * - bc (2 - l) (1 - x)) with ((2 - l) * bc (2 - l) (1 - x)) by ring.
      rewrite inv_pow1pm1_fin by auto. rewrite bc_inverse by (auto; lra). varith. f_equal. ring.
Qed.
