(** Proofs about M_odds_ratio. *)
From Coq Require Import Reals Lra Lia List ZArith Arith Bool String QArith Qreals.
From Coquelicot Require Import Coquelicot.
From Verif Require Import Values VTac Spec SpecStat SpecDisc SpecRoot RootLib LLib XLib PLib DiscLib TiltLib M_common M_sfun M_bracket M_odds_ratio.
From Verif Require M_fnch P_fnch M_hypergeometric P_hypergeometric M_fisher.
Import ListNotations.
Local Open Scope R_scope.
Set Bullet Behavior "Strict Subproofs".

(** The search of [_solve]. *)
Section Solve.
Variables (f : val -> val) (g : R -> R).
Hypothesis FG : forall t, 0 < t -> f (Fin t) = Fin (g t).
Lemma gtF t : 0 < t -> cgt (f (Fin t)) (Fin 0) = CB (Rltb 0 (g t)). Proof. intros H. rewrite FG by auto. reflexivity. Qed.
Lemma ltF t : 0 < t -> clt (f (Fin t)) (Fin 0) = CB (Rltb (g t) 0). Proof. intros H. rewrite FG by auto. reflexivity. Qed.
Lemma down k : forall t, 0 < t -> g (t / 2 ^ k) <= 0 ->
  exists t', 0 < t' /\ g t' <= 0 /\ (t' = t \/ 0 < g (2 * t')) /\
    forall fuel, (k < fuel)%nat -> while fuel (fun nc => cgt (f nc) (Fin 0)) (fun nc => vdiv nc (Fin 2)) (Fin t) = Ok (Fin t').
Proof.
  induction k as [|k IH]; intros t T G.
  - exists t. simpl in G. replace (t / 1) with t in G by field. split; auto. split; auto. split; auto. intros [|fuel] Hf; [lia|]. cbn [while]. rewrite gtF, Rltb_false by auto. reflexivity.
  - destruct (Rle_lt_dec (g t) 0) as [L|L].
    + exists t. split; auto. split; auto. split; auto. intros [|fuel] Hf; [lia|]. cbn [while]. rewrite gtF, Rltb_false by auto. reflexivity.
    + destruct (IH (t / 2)) as [t' [A [B [C D]]]]; [lra| |].
      { replace (t / 2 / 2 ^ k) with (t / 2 ^ S k); auto. simpl. field. apply pow_nonzero. lra. }
      exists t'. split; auto. split; auto. split.
      * right. destruct C as [->|C]; auto. replace (2 * (t / 2)) with t by field. auto.
      * intros [|fuel] Hf; [lia|]. cbn [while]. rewrite gtF, Rltb_true by auto. rewrite vdiv_Fin by lra. apply D. lia.
Qed.
Lemma up k : forall t, 0 < t -> 0 <= g (t * 2 ^ k) ->
  exists t', 0 < t' /\ 0 <= g t' /\ (t' = t \/ g (t' / 2) < 0) /\
    forall fuel, (k < fuel)%nat -> while fuel (fun nc => clt (f nc) (Fin 0)) (fun nc => vmul nc (Fin 2)) (Fin t) = Ok (Fin t').
Proof.
  induction k as [|k IH]; intros t T G.
  - exists t. simpl in G. rewrite Rmult_1_r in G. split; auto. split; auto. split; auto. intros [|fuel] Hf; [lia|]. cbn [while]. rewrite ltF, Rltb_false by auto. reflexivity.
  - destruct (Rle_lt_dec 0 (g t)) as [L|L].
    + exists t. split; auto. split; auto. split; auto. intros [|fuel] Hf; [lia|]. cbn [while]. rewrite ltF, Rltb_false by auto. reflexivity.
    + destruct (IH (t * 2)) as [t' [A [B [C D]]]]; [lra| |].
      { replace (t * 2 * 2 ^ k) with (t * 2 ^ S k); auto. simpl. ring. }
      exists t'. split; auto. split; auto. split.
      * right. destruct C as [->|C]; auto. replace (t * 2 / 2) with t by field. auto.
      * intros [|fuel] Hf; [lia|]. cbn [while]. rewrite ltF, Rltb_true by auto. apply D. lia.
Qed.
Hypothesis INC : forall s t, 0 < s -> s <= t -> g s <= g t.
Hypothesis CONT : forall t, 0 < t -> continuity_pt g t.
Variable fr : (val -> val) -> val * val -> val.
Hypothesis FR : bracket_solver fr.
Lemma root_in a b : 0 < a -> a <= b -> g a <= 0 -> 0 <= g b -> exists r, fr f (Fin a, Fin b) = Fin r /\ 0 < r /\ g r = 0.
Proof.
  intros A L GA GB. destruct (FR f g a b) as [r [X [Y Z]]]; auto.
  - intros x Hx. apply FG. lra.
  - intros x Hx. apply CONT. lra.
  - exists r. split; auto. split; auto. lra.
Qed.
Lemma pow_big x : exists k, x <= 2 ^ k.
Proof.
  destruct (Rle_lt_dec x 1) as [L|L]; [exists 0%nat; simpl; lra|]. destruct (Pow_x_infinity 2 ltac:(rewrite Rabs_pos_eq; lra) x) as [k H]. exists k. specialize (H k ltac:(lia)). rewrite Rabs_pos_eq in H by (left; apply pow_lt; lra). lra.
Qed.
Lemma solve_ok : (exists t, 0 < t /\ g t <= 0) -> (exists t, 0 < t /\ 0 <= g t) ->
  exists r n, 0 < r /\ g r = 0 /\ forall fuel, (n <= fuel)%nat -> solve fr fuel f = Fin r.
Proof.
  intros [t0 [T0 G0]] [t1 [T1 G1]]. destruct (Rtotal_order (g 1) 0) as [L|[L|L]].
  - destruct (pow_big t1) as [k Hk]. destruct (up k 2) as [t' [A [B [C D]]]]; [lra|apply (Rle_trans _ (g t1)); auto; apply INC; auto; nra|].
    destruct (root_in (t' / 2) t') as [r [R1 [R2 R3]]]; [lra|lra| |auto|].
    { destruct C as [->|C]; [replace (2 / 2) with 1 by field|]; lra. }
    exists r, (S k). split; auto. split; auto. intros fuel Hf. unfold solve. rewrite FG by lra. cbn [bindv]. 
    change (ceq (Fin (g 1)) (Fin 0)) with (CB (Reqb (g 1) 0)). rewrite Reqb_false by lra. change (cgt (Fin (g 1)) (Fin 0)) with (CB (Rltb 0 (g 1))). rewrite Rltb_false by lra. cbn [cif].
    cbn [vmul]. replace (1 * 2) with 2 by ring. rewrite D by lia. cbn [bind]. rewrite vdiv_Fin by lra. cbn [of_res]. auto.
  - exists 1, 0%nat. split; [lra|]. split; auto. intros fuel _. unfold solve. rewrite FG by lra. cbn [bindv]. change (ceq (Fin (g 1)) (Fin 0)) with (CB (Reqb (g 1) 0)). rewrite Reqb_true by lra. reflexivity.
  - destruct (pow_big (1 / t0)) as [k Hk]. destruct (down k (1 / 2)) as [t' [A [B [C D]]]]; [lra| |].
    { apply (Rle_trans _ (g t0)); auto. pose proof (pow_lt 2 k ltac:(lra)). apply INC; [apply Rdiv_lt_0_compat; lra|]. apply Rle_div_l; auto. apply (Rmult_le_reg_l (/ t0)); [apply Rinv_0_lt_compat; auto|].
      rewrite <- Rmult_assoc, Rinv_l, Rmult_1_l by lra. unfold Rdiv in Hk. assert (0 < / t0) by (apply Rinv_0_lt_compat; auto). lra. }
    destruct (root_in t' (2 * t')) as [r [R1 [R2 R3]]]; [lra|lra|auto| |].
    { destruct C as [->|C]; [replace (2 * (1 / 2)) with 1 by field|]; lra. }
    exists r, (S k). split; auto. split; auto. intros fuel Hf. unfold solve. rewrite FG by lra. cbn [bindv].
    change (ceq (Fin (g 1)) (Fin 0)) with (CB (Reqb (g 1) 0)). rewrite Reqb_false by lra. change (cgt (Fin (g 1)) (Fin 0)) with (CB (Rltb 0 (g 1))). rewrite Rltb_true by lra. cbn [cif].
    rewrite vdiv_Fin by lra. rewrite D by lia. cbn [bind vmul of_res]. auto.
Qed.
Lemma solve_never_down fuel : (forall t, 0 < t -> 0 < g t) -> solve fr fuel f = Exc NonTermination.
Proof.
  intros P. unfold solve. rewrite FG by lra. cbn [bindv]. pose proof (P 1 ltac:(lra)).
  change (ceq (Fin (g 1)) (Fin 0)) with (CB (Reqb (g 1) 0)). rewrite Reqb_false by lra. change (cgt (Fin (g 1)) (Fin 0)) with (CB (Rltb 0 (g 1))). rewrite Rltb_true by lra. cbn [cif].
  rewrite vdiv_Fin by lra. assert (W : forall n t, 0 < t -> while n (fun nc => cgt (f nc) (Fin 0)) (fun nc => vdiv nc (Fin 2)) (Fin t) = Err NonTermination).
  { induction n as [|n IH]; intros t T; [reflexivity|]. cbn [while]. rewrite gtF, Rltb_true by auto. rewrite vdiv_Fin by lra. apply IH. lra. }
  rewrite W by lra. reflexivity.
Qed.
Lemma solve_never_up fuel : (forall t, 0 < t -> g t < 0) -> solve fr fuel f = Exc NonTermination.
Proof.
  intros P. unfold solve. rewrite FG by lra. cbn [bindv]. pose proof (P 1 ltac:(lra)).
  change (ceq (Fin (g 1)) (Fin 0)) with (CB (Reqb (g 1) 0)). rewrite Reqb_false by lra. change (cgt (Fin (g 1)) (Fin 0)) with (CB (Rltb 0 (g 1))). rewrite Rltb_false by lra. cbn [cif].
  cbn [vmul]. assert (W : forall n t, 0 < t -> while n (fun nc => clt (f nc) (Fin 0)) (fun nc => vmul nc (Fin 2)) (Fin t) = Err NonTermination).
  { induction n as [|n IH]; intros t T; [reflexivity|]. cbn [while]. rewrite ltF, Rltb_true by auto. cbn [vmul]. apply IH. lra. }
  rewrite W by lra. reflexivity.
Qed.
End Solve.

Lemma pinf_ge (h : R -> R) (v u : R) : filterlim h (Rbar_locally p_infty) (locally v) -> u < v -> exists t, 0 < t /\ u < h t.
Proof.
  intros L H. assert (P : Rbar_locally p_infty (fun t => u < h t)). { apply L. exists (mkposreal (v - u) ltac:(lra)). intros y Hy. apply Rabs_def2 in Hy. simpl in Hy. unfold minus, plus, opp in Hy. simpl in Hy. lra. }
  destruct P as [M P]. exists (Rmax 1 (M + 1)). pose proof (Rmax_l 1 (M + 1)). pose proof (Rmax_r 1 (M + 1)). split; [lra|]. apply P. lra.
Qed.
Lemma zero_le (h : R -> R) (v u : R) : filterlim h (at_right 0) (locally v) -> v < u -> exists t, 0 < t /\ h t < u.
Proof.
  intros L H. assert (P : at_right 0 (fun t => h t < u)). { apply (L (fun y => y < u)). exists (mkposreal (u - v) ltac:(lra)). intros y Hy. apply Rabs_def2 in Hy. simpl in Hy. unfold minus, plus, opp in Hy. simpl in Hy. lra. }
  destruct P as [[e E] P]. exists (e / 2). split; [lra|]. apply P; [|lra]. apply Rabs_def1; simpl; unfold minus, plus, opp; simpl; lra.
Qed.

(** Fisher's noncentral hypergeometric distribution as a function of the odds ratio. *)
Section Nc.
Variables N K n : nat.
Hypotheses (HK : (K <= N)%nat) (Hn : (n <= N)%nat).
Notation lo := (P_fnch.nlo N K n). Notation hi := (P_fnch.nhi K n). Notation w := (P_fnch.w N K n).
Notation vN := (Fin (INR N)). Notation vK := (Fin (INR K)). Notation vn := (Fin (INR n)).
Definition S_ (k : nat) (t : R) := tsf w (S n) k t.
Definition mu (t : R) := tmean w (S n) t.
Lemma lo_hi : (lo <= hi)%nat. Proof. apply P_fnch.LH; auto. Qed.
Lemma hi_n : (hi <= n)%nat. Proof. pose proof (P_fnch.HM N K n HK Hn). lia. Qed.
Lemma mean_mu t : 0 < t -> M_fnch.mean (Fin t) vN vK vn = Fin (mu t).
Proof. intros T. apply P_fnch.mean_tilt; auto. Qed.
Lemma cdf_low t k : 0 < t -> (k <= n)%nat -> M_fnch.cdf (Fin (INR k)) (Fin t) vN vK vn = Fin (low w (S k) t / TiltLib.tot w (S n) t) /\
  M_fnch.sf (Fin (INR k)) (Fin t) vN vK vn = Fin (1 - low w (S k) t / TiltLib.tot w (S n) t).
Proof.
  intros T H. destruct (P_fnch.cdf_ok N K n t HK Hn T (Z.of_nat k)) as [A B]. rewrite INR_IZR_INZ, A, B.
  assert (E : sum_upto (at_int (fun k0 => M_fnch.pmf k0 (Fin t) vN vK vn)) (Range (Z.max 0 (Z.of_nat n - Z.of_nat (N - K))) (Z.min (Z.of_nat n) (Z.of_nat K) + 1)) (Z.of_nat k) = low w (S k) t / TiltLib.tot w (S n) t); [|rewrite E; auto].
  pose proof (P_fnch.bounds N K n HK Hn) as BD. unfold sum_upto. change (Z.max 0 (Z.of_nat n - Z.of_nat (N - K)))%Z with (P_hypergeometric.lo N K n). change (Z.min (Z.of_nat n) (Z.of_nat K))%Z with (P_hypergeometric.hi K n).
  rewrite P_fnch.zsum_at by (auto; lia). rewrite P_fnch.zsum_q. unfold Rdiv. f_equal. unfold low.
  destruct (Z_lt_le_dec (Z.of_nat k + 1) (P_hypergeometric.lo N K n)) as [L|L].
  - unfold zsum, zrange. rewrite Z.min_l by lia. replace (Z.to_nat (Z.of_nat k + 1 - P_hypergeometric.lo N K n)) with 0%nat by lia. simpl map. symmetry. rewrite nsum_0; [reflexivity|]. intros i I. rewrite P_fnch.w_0 by (unfold P_fnch.nlo; lia). ring.
  - rewrite <- (zsum_widen _ (P_hypergeometric.lo N K n) (Z.min (Z.of_nat k + 1) (P_hypergeometric.hi K n + 1)) 0 (Z.of_nat k + 1)) by (lia || (intros i Hi; rewrite P_fnch.w_0 by (auto; unfold P_fnch.nlo, P_fnch.nhi; lia); ring)).
    rewrite zsum_0. replace (Z.to_nat (Z.of_nat k + 1)) with (S k) by lia. apply nsum_ext. intros i I. rewrite Nat2Z.id. reflexivity.
Qed.
Lemma S_low k t : 0 < t -> (k <= n)%nat -> low w (S k) t / TiltLib.tot w (S n) t = 1 - S_ k t.
Proof. intros T H. symmetry. apply (tsf_low w (S n) (P_fnch.w_nn N K n HK Hn) lo hi lo_hi (P_fnch.HM N K n HK Hn) (P_fnch.CL N K n HK Hn)); auto. lia. Qed.
Lemma cdf_S t k : 0 < t -> (k <= n)%nat -> M_fnch.cdf (Fin (INR k)) (Fin t) vN vK vn = Fin (1 - S_ k t).
Proof. intros T H. rewrite (proj1 (cdf_low t k T H)), S_low by auto. reflexivity. Qed.
Lemma sf_S t k : 0 < t -> (k <= n)%nat -> M_fnch.sf (Fin (INR k)) (Fin t) vN vK vn = Fin (S_ k t).
Proof. intros T H. rewrite (proj2 (cdf_low t k T H)), S_low by auto. f_equal. ring. Qed.
Lemma cont_pt h t : continuous h t -> continuity_pt h t.
Proof. intros H. apply continuity_pt_filterlim. exact H. Qed.
Lemma S_cont k t : 0 < t -> continuity_pt (S_ k) t.
Proof. intros T. apply cont_pt. apply (tsf_cont w (S n) (P_fnch.w_nn N K n HK Hn) lo hi lo_hi (P_fnch.HM N K n HK Hn) (P_fnch.CL N K n HK Hn)); auto. Qed.
Lemma mu_cont t : 0 < t -> continuity_pt mu t.
Proof. intros T. apply cont_pt. apply (tmean_cont w (S n) (P_fnch.w_nn N K n HK Hn) lo hi lo_hi (P_fnch.HM N K n HK Hn) (P_fnch.CL N K n HK Hn)); auto. Qed.
Lemma S_lt k s t : 0 < s -> s < t -> (lo <= k < hi)%nat -> S_ k s < S_ k t.
Proof. apply (tsf_lt w (S n) (P_fnch.w_nn N K n HK Hn) lo hi lo_hi (P_fnch.HM N K n HK Hn) (P_fnch.CL N K n HK Hn) (P_fnch.CH N K n HK Hn)). Qed.
Lemma S_le k s t : 0 < s -> s <= t -> (lo <= k < hi)%nat -> S_ k s <= S_ k t.
Proof. intros A B H. destruct (Req_dec s t) as [->|]; [lra|]. left. apply S_lt; auto. lra. Qed.
Lemma mu_lt s t : 0 < s -> s < t -> (lo < hi)%nat -> mu s < mu t.
Proof. apply (tmean_lt w (S n) (P_fnch.w_nn N K n HK Hn) lo hi lo_hi (P_fnch.HM N K n HK Hn) (P_fnch.CL N K n HK Hn) (P_fnch.CH N K n HK Hn) (P_fnch.ZL N K n HK Hn) (P_fnch.ZH N K n HK Hn)). Qed.
Lemma S_01 k t : 0 < t -> (lo <= k < hi)%nat -> 0 < S_ k t < 1.
Proof.
  intros T H. pose proof hi_n.
  pose proof (tsf_range w (S n) (P_fnch.w_nn N K n HK Hn) lo hi lo_hi (P_fnch.HM N K n HK Hn) (P_fnch.CL N K n HK Hn) k (t / 2) ltac:(lra) ltac:(lia)) as A.
  pose proof (tsf_range w (S n) (P_fnch.w_nn N K n HK Hn) lo hi lo_hi (P_fnch.HM N K n HK Hn) (P_fnch.CL N K n HK Hn) k (2 * t) ltac:(lra) ltac:(lia)) as B.
  pose proof (S_lt k (t / 2) t ltac:(lra) ltac:(lra) H). pose proof (S_lt k t (2 * t) ltac:(lra) ltac:(lra) H). unfold S_ in *. lra.
Qed.
Lemma S_big k u : (lo <= k < hi)%nat -> u < 1 -> exists t, 0 < t /\ u < S_ k t.
Proof.
  intros H U. apply (pinf_ge _ 1); auto. apply (tsf_hi w (S n) (P_fnch.w_nn N K n HK Hn) lo hi lo_hi (P_fnch.HM N K n HK Hn) (P_fnch.CL N K n HK Hn) (P_fnch.CH N K n HK Hn) (P_fnch.ZL N K n HK Hn)). lia.
Qed.
Lemma S_small k u : (lo <= k < hi)%nat -> 0 < u -> exists t, 0 < t /\ S_ k t < u.
Proof.
  intros H U. pose proof hi_n. apply (zero_le _ 0); auto. apply (tsf_lo w (S n) (P_fnch.w_nn N K n HK Hn) lo hi lo_hi (P_fnch.HM N K n HK Hn) (P_fnch.CL N K n HK Hn) (P_fnch.CH N K n HK Hn) (P_fnch.ZH N K n HK Hn)); lia.
Qed.
Lemma mu_big u : u < INR hi -> exists t, 0 < t /\ u < mu t.
Proof. intros U. apply (pinf_ge _ (INR hi)); auto. apply (tmean_hi w (S n) (P_fnch.w_nn N K n HK Hn) lo hi lo_hi (P_fnch.HM N K n HK Hn) (P_fnch.CL N K n HK Hn) (P_fnch.CH N K n HK Hn) (P_fnch.ZL N K n HK Hn) (P_fnch.ZH N K n HK Hn)). Qed.
Lemma mu_small u : INR lo < u -> exists t, 0 < t /\ mu t < u.
Proof. intros U. apply (zero_le _ (INR lo)); auto. apply (tmean_lo w (S n) (P_fnch.w_nn N K n HK Hn) lo hi lo_hi (P_fnch.HM N K n HK Hn) (P_fnch.CL N K n HK Hn) (P_fnch.CH N K n HK Hn) (P_fnch.ZL N K n HK Hn) (P_fnch.ZH N K n HK Hn)). Qed.

Variable fr : (val -> val) -> val * val -> val.
Hypothesis FR : bracket_solver fr.
Lemma mean_inverse x : (lo < x < hi)%nat -> exists r k, 0 < r /\ mu r = INR x /\
  forall fuel, (k <= fuel)%nat -> nc_hypergeom_mean_inverse fr fuel (Fin (INR x)) vN vK vn = Fin r.
Proof.
  intros H. destruct (solve_ok (fun nc => vsub (M_fnch.mean nc vN vK vn) (Fin (INR x))) (fun t => mu t - INR x)) with (fr := fr) as [r [k [A [B C]]]]; auto.
  - intros t T. rewrite mean_mu by auto. reflexivity.
  - intros s t A B. destruct (Req_dec s t) as [->|]; [lra|]. pose proof (mu_lt s t A ltac:(lra) ltac:(lia)). lra.
  - intros t T. apply (continuity_pt_minus mu (fun _ => INR x)); [apply mu_cont; auto|apply continuity_pt_const; intros ? ?; reflexivity].
  - destruct (mu_small (INR x)) as [t [T U]]; [apply lt_INR; lia|]. exists t. split; auto. lra.
  - destruct (mu_big (INR x)) as [t [T U]]; [apply lt_INR; lia|]. exists t. split; auto. lra.
  - exists r, k. split; auto. split; [lra|exact C].
Qed.
Lemma upper_root x al : (lo <= x < hi)%nat -> 0 < al < 1 -> exists r k, 0 < r /\ S_ x r = 1 - al /\
  forall fuel, (k <= fuel)%nat -> solve fr fuel (fun nc => vadd (vneg (M_fnch.cdf (Fin (INR x)) nc vN vK vn)) (Fin al)) = Fin r.
Proof.
  intros H AL. pose proof hi_n. destruct (solve_ok (fun nc => vadd (vneg (M_fnch.cdf (Fin (INR x)) nc vN vK vn)) (Fin al)) (fun t => S_ x t - (1 - al))) with (fr := fr) as [r [k [A [B C]]]]; auto.
  - intros t T. rewrite cdf_S by (auto; lia). cbn [vneg vadd]. f_equal. ring.
  - intros s t A B. pose proof (S_le x s t A B H). lra.
  - intros t T. apply (continuity_pt_minus (S_ x) (fun _ => 1 - al)); [apply S_cont; auto|apply continuity_pt_const; intros ? ?; reflexivity].
  - destruct (S_small x (1 - al)) as [t [T U]]; auto; [lra|]. exists t. split; auto. lra.
  - destruct (S_big x (1 - al)) as [t [T U]]; auto; [lra|]. exists t. split; auto. lra.
  - exists r, k. split; auto. split; [lra|exact C].
Qed.
Lemma lower_root x al : (lo <= x < hi)%nat -> 0 < al < 1 -> exists r k, 0 < r /\ S_ x r = al /\
  forall fuel, (k <= fuel)%nat -> solve fr fuel (fun nc => vsub (M_fnch.sf (Fin (INR x)) nc vN vK vn) (Fin al)) = Fin r.
Proof.
  intros H AL. pose proof hi_n. destruct (solve_ok (fun nc => vsub (M_fnch.sf (Fin (INR x)) nc vN vK vn) (Fin al)) (fun t => S_ x t - al)) with (fr := fr) as [r [k [A [B C]]]]; auto.
  - intros t T. rewrite sf_S by (auto; lia). reflexivity.
  - intros s t A B. pose proof (S_le x s t A B H). lra.
  - intros t T. apply (continuity_pt_minus (S_ x) (fun _ => al)); [apply S_cont; auto|apply continuity_pt_const; intros ? ?; reflexivity].
  - destruct (S_small x al) as [t [T U]]; auto; [lra|]. exists t. split; auto. lra.
  - destruct (S_big x al) as [t [T U]]; auto; [lra|]. exists t. split; auto. lra.
  - exists r, k. split; auto. split; [lra|exact C].
Qed.
(** The conditional maximum likelihood estimate. *)
Lemma mle x r s : (lo <= x <= hi)%nat -> 0 < r -> 0 < s -> mu r = INR x ->
  w x * s ^ x / TiltLib.tot w (S n) s <= w x * r ^ x / TiltLib.tot w (S n) r.
Proof.
  intros H R0 S0 MU. set (u := ln (s / r)). assert (P0 : 0 < s / r) by (apply Rdiv_lt_0_compat; auto).
  assert (TS : 0 < TiltLib.tot w (S n) s) by (apply (tot_pos w (S n) (P_fnch.w_nn N K n HK Hn) lo hi lo_hi (P_fnch.HM N K n HK Hn) (P_fnch.CL N K n HK Hn)); auto).
  assert (TR : 0 < TiltLib.tot w (S n) r) by (apply (tot_pos w (S n) (P_fnch.w_nn N K n HK Hn) lo hi lo_hi (P_fnch.HM N K n HK Hn) (P_fnch.CL N K n HK Hn)); auto).
  assert (J : (s / r) ^ x * TiltLib.tot w (S n) r <= TiltLib.tot w (S n) s).
  { assert (E : (s / r) ^ x * TiltLib.tot w (S n) r = nsum (fun i => (s / r) ^ x * (w i * r ^ i * (1 + (INR i - INR x) * u))) (S n)).
    { rewrite nsum_scal. f_equal. transitivity (nsum (fun i => w i * r ^ i) (S n) + u * (nsum (fun i => INR i * (w i * r ^ i)) (S n) - INR x * nsum (fun i => w i * r ^ i) (S n))).
      - unfold mu, tmean in MU. unfold TiltLib.tot, low in *. assert (nsum (fun i => INR i * (w i * r ^ i)) (S n) = INR x * nsum (fun i => w i * r ^ i) (S n)) as -> by (rewrite <- MU; field; lra). ring.
      - rewrite <- (nsum_scal (INR x) (fun i => w i * r ^ i)). unfold Rminus. 
        transitivity (nsum (fun i => w i * r ^ i) (S n) + nsum (fun i => u * (INR i * (w i * r ^ i) + (-1) * (INR x * (w i * r ^ i)))) (S n)).
        + rewrite (nsum_scal u), nsum_plus, (nsum_scal (-1)). ring.
        + rewrite <- nsum_plus. apply nsum_ext. intros i I. ring. }
    rewrite E. unfold TiltLib.tot, low. apply nsum_le. intros i I.
    assert (E2 : w i * s ^ i = (s / r) ^ x * (w i * r ^ i * exp ((INR i - INR x) * u))).
    { assert (exp ((INR i - INR x) * u) = (s / r) ^ i / (s / r) ^ x) as ->.
      { unfold Rminus. rewrite Rmult_plus_distr_r, exp_plus. replace (- INR x * u) with (- (INR x * u)) by ring. rewrite exp_Ropp. change (exp (INR i * u)) with (Rpower (s / r) (INR i)). change (exp (INR x * u)) with (Rpower (s / r) (INR x)). rewrite !Rpower_pow by auto. reflexivity. }
      assert ((s / r) ^ x <> 0) by (apply pow_nonzero; lra). replace (s ^ i) with (r ^ i * (s / r) ^ i) by (rewrite <- Rpow_mult_distr; f_equal; field; lra). field. auto. }
    rewrite E2. apply Rmult_le_compat_l; [left; apply pow_lt; auto|]. apply Rmult_le_compat_l; [apply Rmult_le_pos; [apply P_fnch.w_nn; auto|left; apply pow_lt; auto]|]. apply exp_ineq1_le. }
  assert (WX : 0 < w x) by (apply P_fnch.w_pos; auto; lia). unfold Rdiv. rewrite !Rmult_assoc. apply Rmult_le_compat_l; [lra|].
  change (s ^ x / TiltLib.tot w (S n) s <= r ^ x / TiltLib.tot w (S n) r). apply Rle_div_l; auto. unfold Rdiv. rewrite Rmult_assoc, (Rmult_comm (/ _)), <- Rmult_assoc. apply Rle_div_r; auto.
  apply (Rmult_le_compat_l (r ^ x)) in J; [|left; apply pow_lt; auto]. rewrite <- Rmult_assoc, <- Rpow_mult_distr in J. replace (r * (s / r)) with s in J by (field; lra). lra.
Qed.
End Nc.
