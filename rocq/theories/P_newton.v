(** The Newton iteration for a unimodal density, started at the mode. *)
From Coq Require Import Reals Lra Lia List ZArith.
From Coquelicot Require Import Coquelicot.
From Verif Require Import Values VTac Spec RLib DistLib SpecNewton M_newton.
Local Open Scope R_scope.
Set Bullet Behavior "Strict Subproofs".

Lemma eps_pos prec : 0 < powerRZ 2 (4 - prec).
Proof. apply powerRZ_lt. lra. Qed.
Lemma almosteq_iff prec (x y : R) : exists b, almosteq prec (Fin x) (Fin y) = CB b /\ (b = true <-> almost_equal prec x y).
Proof.
  unfold almosteq, almost_equal. pose proof (eps_pos prec) as E. set (e := powerRZ 2 (4 - prec)) in *. clearbody e.
  change (vsub (Fin x) (Fin y)) with (Fin (x - y)). cbv zeta. change (vabs (Fin (x - y))) with (Fin (Rabs (x - y))).
  change (cle (Fin (Rabs (x - y))) (Fin e)) with (CB (Rleb (Rabs (x - y)) e)).
  destruct (Rleb_spec (Rabs (x - y)) e) as [[L ->]|[L ->]]; cbn [cor].
  - exists true. tauto.
  - change (vabs (Fin x)) with (Fin (Rabs x)). change (vabs (Fin y)) with (Fin (Rabs y)).
    assert (M : vmax2 (Fin (Rabs x)) (Fin (Rabs y)) = Fin (Rmax (Rabs x) (Rabs y))).
    { unfold vmax2. change (cgt (Fin (Rabs y)) (Fin (Rabs x))) with (CB (Rltb (Rabs x) (Rabs y))).
      destruct (Rltb_spec (Rabs x) (Rabs y)) as [[H ->]|[H ->]]; cbn [cif].
      - rewrite Rmax_right; auto; lra.
      - rewrite Rmax_left; auto; lra. }
    rewrite M. set (mx := Rmax (Rabs x) (Rabs y)).
    assert (P : 0 < mx).
    { pose proof (Rmax_l (Rabs x) (Rabs y)). pose proof (Rmax_r (Rabs x) (Rabs y)). fold mx in H, H0.
      pose proof (Rabs_pos x). pose proof (Rabs_pos y). destruct (Req_dec mx 0) as [Z|Z]; [|lra].
      assert (x = 0) by (destruct (Req_dec x 0); auto; pose proof (Rabs_pos_lt x H3); lra).
      assert (y = 0) by (destruct (Req_dec y 0); auto; pose proof (Rabs_pos_lt y H4); lra).
      subst. rewrite Rminus_0_r, Rabs_R0 in L. lra. }
    rewrite vdiv_Fin by lra. change (cle (Fin (Rabs (x - y) / mx)) (Fin e)) with (CB (Rleb (Rabs (x - y) / mx) e)).
    eexists. split; [reflexivity|].
    assert (Q : Rabs (x - y) / mx * mx = Rabs (x - y)) by (field; lra).
    destruct (Rleb_spec (Rabs (x - y) / mx) e) as [[H ->]|[H ->]].
    + split; auto. intros _. right. nra.
    + split; [discriminate|]. intros [A|A]; [lra|nra].
Qed.

Section N.
Variables (F f : R -> R) (lo M q p : R).
Hypothesis DER : forall x, lo < x -> is_derive F x (f x).
Hypothesis POS : forall x, lo < x -> 0 < f x.
Hypothesis UP : forall x y, lo < x -> x <= y -> y <= M -> f x <= f y.
Hypothesis DOWN : forall x y, M <= x -> x <= y -> f y <= f x.
Hypothesis HM : lo < M.
Hypothesis Hq : lo < q.
Hypothesis Fq : F q = p.
Let s x := x + (p - F x) / f x.
Lemma mvt a b : lo < a -> a <= b -> exists c, a <= c <= b /\ F b - F a = f c * (b - a).
Proof.
  intros A B. destruct (MVT_gen F a b f) as [c [C E]].
  - rewrite Rmin_left, Rmax_right by lra. intros x H. apply DER. lra.
  - rewrite Rmin_left, Rmax_right by lra. intros x H. apply continuity_pt_filterlim. apply ex_derive_cont.
    eexists. apply DER. lra.
  - rewrite Rmin_left, Rmax_right in C by lra. exists c. auto.
Qed.
Lemma s_down x : q <= x <= M -> q <= s x <= x.
Proof.
  intros H. destruct (mvt q x Hq) as [c [C E]]; [lra|]. pose proof (POS x ltac:(lra)). pose proof (POS c ltac:(lra)).
  pose proof (UP c x ltac:(lra) ltac:(lra) ltac:(lra)). unfold s.
  assert (G : (p - F x) / f x * f x = p - F x) by (field; lra). set (d := (p - F x) / f x) in *. clearbody d.
  rewrite <- Fq in G. split.
  - assert (- d <= x - q); [|lra]. apply (Rmult_le_reg_r (f x)); auto. nra.
  - assert (d <= 0); [|lra]. apply (Rmult_le_reg_r (f x)); auto. nra.
Qed.
Lemma s_up x : M <= x <= q -> x <= s x <= q.
Proof.
  intros H. destruct (mvt x q ltac:(lra)) as [c [C E]]; [lra|]. pose proof (POS x ltac:(lra)). pose proof (POS c ltac:(lra)).
  pose proof (DOWN x c ltac:(lra) ltac:(lra)). unfold s.
  assert (G : (p - F x) / f x * f x = p - F x) by (field; lra). set (d := (p - F x) / f x) in *. clearbody d.
  rewrite <- Fq in G. split.
  - assert (0 <= d); [|lra]. apply (Rmult_le_reg_r (f x)); auto. nra.
  - assert (d <= q - x); [|lra]. apply (Rmult_le_reg_r (f x)); auto. nra.
Qed.
Fixpoint it (n : nat) : R := match n with O => M | S n => s (it n) end.
Lemma it_side : (q <= M /\ forall n, q <= it n <= M /\ q <= it (S n) <= it n) \/ (M <= q /\ forall n, M <= it n <= q /\ it n <= it (S n) <= q).
Proof.
  destruct (Rle_dec q M) as [H|H]; [left|right]; (split; [lra|]).
  - induction n as [|n [A B]]; [split; [simpl; lra|apply s_down; simpl; lra]|].
    split; [lra|]. apply s_down. lra.
  - induction n as [|n [A B]]; [split; [simpl; lra|apply s_up; simpl; lra]|].
    split; [lra|]. apply s_up. lra.
Qed.
Lemma it_lo n : lo < it n.
Proof. destruct it_side as [[A B]|[A B]]; pose proof (B n); lra. Qed.
Lemma it_eq n : f (it n) * (it (S n) - it n) = p - F (it n).
Proof. simpl. unfold s. pose proof (POS _ (it_lo n)). field. lra. Qed.
Lemma f_max x : lo < x -> f x <= f M.
Proof. intros H. destruct (Rle_dec x M); [apply UP|apply DOWN]; lra. Qed.
Lemma F_incr x y : lo < x -> x < y -> F x < F y.
Proof. intros A B. destruct (mvt x y A) as [c [C E]]; [lra|]. pose proof (POS c ltac:(lra)). nra. Qed.
(** a bounded monotone sequence of iterates converges, and its limit solves F x = p. *)
Lemma it_lim : is_lim_seq it q.
Proof.
  assert (EX : exists l, lo < l /\ is_lim_seq it l).
  { destruct it_side as [[A B]|[A B]].
    - destruct (ex_finite_lim_seq_decr it q) as [l Hl]; [intros n; apply B|intros n; pose proof (B n); lra|].
      exists l. split; auto. assert (Rbar_le q l); [|simpl in *; lra].
      apply (is_lim_seq_le (fun _ => q) it); auto; [intros n; pose proof (B n); lra|apply is_lim_seq_const].
    - destruct (ex_finite_lim_seq_incr it q) as [l Hl]; [intros n; apply B|intros n; pose proof (B n); lra|].
      exists l. split; auto. assert (Rbar_le M l); [|simpl in *; lra].
      apply (is_lim_seq_le (fun _ => M) it); auto; [intros n; pose proof (B n); lra|apply is_lim_seq_const]. }
  destruct EX as [l [Ll Hl]]. assert (E : F l = p).
  { assert (L1 : is_lim_seq (fun n => p - F (it n)) (p - F l)).
    { apply (is_lim_seq_minus _ _ p (F l)); [apply is_lim_seq_const| |reflexivity].
      apply (is_lim_seq_continuous F it l); auto. apply continuity_pt_filterlim, ex_derive_cont. eexists. apply DER. auto. }
    assert (L2 : is_lim_seq (fun n => p - F (it n)) 0).
    { assert (D : is_lim_seq (fun n => it (S n) - it n) 0).
      { replace (Finite 0) with (Finite (l - l)) by (f_equal; ring).
        apply (is_lim_seq_minus _ _ l l); [apply (is_lim_seq_incr_1 it); auto|auto|reflexivity]. }
      assert (D1 : is_lim_seq (fun n => f M * Rabs (it (S n) - it n)) 0).
      { replace (Finite 0) with (Rbar_mult (f M) (Rbar_abs 0)) by (simpl; f_equal; rewrite Rabs_R0; ring).
        apply (is_lim_seq_scal_l _ (f M)). apply (is_lim_seq_abs _ 0). auto. }
      apply is_lim_seq_abs_0. apply (is_lim_seq_le_le (fun _ => 0) _ (fun n => f M * Rabs (it (S n) - it n))); auto; [|apply is_lim_seq_const].
      intros n. split; [apply Rabs_pos|]. rewrite <- it_eq, Rabs_mult. pose proof (POS _ (it_lo n)). pose proof (f_max _ (it_lo n)).
      rewrite (Rabs_pos_eq (f (it n))) by lra. apply Rmult_le_compat_r; auto. apply Rabs_pos. }
    pose proof (is_lim_seq_unique _ _ L1). pose proof (is_lim_seq_unique _ _ L2). rewrite H in H0. injection H0. lra. }
  replace q with l; auto. destruct (Rtotal_order l q) as [H|[H|H]]; auto; [pose proof (F_incr l q Ll H)|pose proof (F_incr q l Hq H)]; lra.
Qed.
Lemma it_close prec : exists k, almost_equal prec (it (S k)) (it k) /\ forall j, (j < k)%nat -> ~ almost_equal prec (it (S j)) (it j).
Proof.
  assert (D : is_lim_seq (fun n => it (S n) - it n) 0).
  { replace (Finite 0) with (Finite (q - q)) by (f_equal; ring).
    apply (is_lim_seq_minus _ _ q q); [apply (is_lim_seq_incr_1 it)| |reflexivity]; apply it_lim. }
  apply is_lim_seq_spec in D. destruct (D (mkposreal _ (eps_pos prec))) as [N HN].
  assert (X : almost_equal prec (it (S N)) (it N)).
  { left. pose proof (HN N ltac:(lia)). simpl in H. rewrite Rminus_0_r in H. simpl. lra. }
  clear HN D. revert X. induction N as [N IH] using lt_wf_ind. intros X.
  destruct (Classical_Prop.classic (exists j, (j < N)%nat /\ almost_equal prec (it (S j)) (it j))) as [[j [J A]]|A].
  - apply (IH j J A).
  - exists N. split; auto. intros j J B. apply A. eauto.
Qed.
Lemma newton_run prec (step : val -> val) : (forall x, lo < x -> step (Fin x) = Fin (s x)) ->
  forall k, almost_equal prec (it (S k)) (it k) -> (forall j, (j < k)%nat -> ~ almost_equal prec (it (S j)) (it j)) ->
  forall fuel, (k < fuel)%nat -> newton prec fuel step (Fin M) = Fin (it (S k)).
Proof.
  intros ST k A B. assert (G : forall i fuel, (i <= k)%nat -> (k - i < fuel)%nat -> newton prec fuel step (Fin (it i)) = Fin (it (S k))).
  { intros i fuel. revert i. induction fuel as [|n IH]; intros i I L; [lia|]. cbn [newton]. cbv zeta.
    rewrite ST by apply it_lo. change (s (it i)) with (it (S i)).
    destruct (almosteq_iff prec (it (S i)) (it i)) as [b [-> Hb]]. destruct (PeanoNat.Nat.eq_dec i k) as [->|Hi].
    - apply Hb in A. subst b. reflexivity.
    - destruct b.
      + exfalso. apply (B i); [lia|]. apply Hb. auto.
      + cbn [cif bindv]. apply (IH (S i)); lia. }
  intros fuel L. apply (G 0%nat); lia.
Qed.
End N.

Lemma newton_cert {pdf logpdf cdf sf invcdf invsf : val -> val} {lo : R} {F f Q : R -> R} :
  cert pdf logpdf cdf sf invcdf invsf lo p_infty F f Q ->
  forall M, lo < M -> (forall x y, lo < x -> x <= y -> y <= M -> f x <= f y) -> (forall x y, M <= x -> x <= y -> f y <= f x) ->
  forall p prec (step : val -> val) (result : nat -> val), 0 < p < 1 ->
  (forall x d, lo < x -> cdf (Fin x) = Fin (F x) -> sf (Fin x) = Fin (1 - F x) -> pdf (Fin x) = Fin d -> 0 < d -> step (Fin x) = Fin (x + (p - F x) / d)) ->
  (forall fuel, result fuel = newton prec fuel step (Fin M)) ->
  newton_monotone cdf pdf lo M p prec result.
Proof.
  intros C M HM UP DOWN p prec step result Hp STEP RES.
  assert (IN : forall x, lo < x -> inside lo p_infty x) by (intros x H; split; simpl; auto).
  pose proof (ce_smooth _ _ _ _ _ _ _ _ _ _ _ C) as SM.
  assert (DER : forall x, lo < x -> is_derive F x (f x)) by (intros; apply (sm_der _ _ _ _ SM); auto).
  assert (POS : forall x, lo < x -> 0 < f x) by (intros; apply (sm_pos _ _ _ _ SM); auto).
  destruct (ce_quant _ _ _ _ _ _ _ _ _ _ _ C p Hp) as [[Hq _] Fq]. simpl in Hq. set (q := Q p) in *.
  assert (CV : forall x, lo < x -> cdf (Fin x) = Fin (F x) /\ sf (Fin x) = Fin (1 - F x)).
  { intros x H. apply (co_in _ _ _ _ _ (ce_core _ _ _ _ _ _ _ _ _ _ _ C)). auto. }
  assert (PV : forall x, lo < x -> pdf (Fin x) = Fin (f x)) by (intros; apply (ce_pdf _ _ _ _ _ _ _ _ _ _ _ C); auto).
  destruct (it_close F f lo M q p DER POS UP DOWN HM Hq Fq prec) as [k [K1 K2]].
  pose proof (it_lo F f lo M q p DER POS UP DOWN HM Hq Fq) as LO.
  assert (ST : forall x, lo < x -> step (Fin x) = Fin (x + (p - F x) / f x)).
  { intros x Hx. destruct (CV x Hx). apply STEP; auto. }
  exists q, (it F f M p), k. split; [auto|]. split; [destruct (CV q Hq) as [-> _]; congruence|].
    split; [|split; [|split; [|split; [|split; [|split]]]]]; auto.
  - split; [reflexivity|]. intros n. exists (F (it F f M p n)), (f (it F f M p n)). specialize (LO n).
      split; [apply CV; auto|]. split; [apply PV; auto|]. split; [apply POS; auto|].
      apply (it_eq F f lo M q p DER POS UP DOWN HM Hq Fq).
  - destruct (it_side F f lo M q p DER POS UP DOWN HM Hq Fq) as [[_ B]|[_ B]]; [left|right]; intros n; apply B.
  - apply (it_lim F f lo M q p DER POS UP DOWN HM Hq Fq).
  - intros fuel HF. rewrite RES. apply (newton_run F f lo M q p DER POS UP DOWN HM Hq Fq prec step ST k); auto.
Qed.
