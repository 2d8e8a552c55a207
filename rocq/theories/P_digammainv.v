(** Proofs about M_digammainv. *)
From Coq Require Import Reals Lra Lia.
From Coquelicot Require Import Coquelicot.
From Verif Require Import Values VTac Spec RLib SpecRoot SpecInv SFun GammaLib GammaLib2 GammaLib3 GammaLib4 M_sfun M_digammainv.
Local Open Scope R_scope.
Set Bullet Behavior "Strict Subproofs".

Lemma digamma_cont x : 0 < x -> continuity_pt digamma x.
Proof. intros H. apply continuity_pt_filterlim. apply (ex_derive_continuous (V := R_NormedModule)). apply digamma_ex; auto. Qed.
Lemma harmonic_low n : ln (INR n + 1) + digamma 1 <= digamma (1 + INR n).
Proof.
  induction n as [|n IH].
  - simpl. rewrite Rplus_0_r, Rplus_0_l, ln_1. lra.
  - rewrite S_INR. replace (1 + (INR n + 1)) with (1 + INR n + 1) by ring. pose proof (pos_INR n). rewrite digamma_succ by lra.
    assert (ln (INR n + 1 + 1) - ln (INR n + 1) <= / (1 + INR n)); [|lra].
    rewrite <- ln_div by lra. assert (0 < (INR n + 1 + 1) / (INR n + 1)) by (apply Rdiv_pos; lra). pose proof (ln_ineq _ H0).
    replace ((INR n + 1 + 1) / (INR n + 1) - 1) with (/ (1 + INR n)) in H1 by (field; lra). lra.
Qed.
Lemma above y : exists x, 0 < x /\ y < digamma x.
Proof.
  destruct (nfloor_ex (exp (y - digamma 1))) as [n [_ N]]; [left; apply exp_pos|].
  exists (1 + INR n). pose proof (pos_INR n). split; [lra|]. pose proof (harmonic_low n).
  assert (y - digamma 1 < ln (INR n + 1)); [|lra]. rewrite <- (ln_exp (y - digamma 1)). apply ln_increasing; [apply exp_pos|lra].
Qed.
Lemma below y : exists x, 0 < x /\ digamma x < y.
Proof.
  set (d := Rmax 1 (digamma 2 - y + 1)). assert (1 <= d) by apply Rmax_l. assert (digamma 2 - y + 1 <= d) by apply Rmax_r.
  assert (ID : 0 < / d <= 1) by (split; [apply Rinv_0_lt_compat; lra|rewrite <- Rinv_1; apply Rinv_le_contravar; lra]).
  exists (/ d). split; [lra|]. pose proof (digamma_succ (/ d) ltac:(lra)) as E. rewrite Rinv_inv in E.
  assert (digamma (/ d + 1) <= digamma 2). { destruct (Req_dec (/ d + 1) 2) as [->|N]; [lra|]. left. apply digamma_incr; lra. }
  lra.
Qed.
Lemma onto y : exists x, 0 < x /\ digamma x = y.
Proof.
  destruct (above y) as [b [B B']], (below y) as [a [A A']].
  assert (L : a < b). { destruct (Rtotal_order a b) as [L|[->|L]]; [auto|lra|]. apply digamma_incr in L; lra. }
  destruct (Ranalysis5.IVT_interv (fun x => digamma x - y) a b) as [x [X E]]; try lra.
  - intros z Z1 Z2. apply continuity_pt_minus; [apply digamma_cont; lra|apply continuity_pt_const; intros ? ?; reflexivity].
  - exists x. split; lra.
Qed.
(** 0 < ln x - digamma x < 1/x, and ln - digamma maps (0, inf) onto itself. *)
Lemma lndig_bounds x : 0 < x -> 0 < ln x - digamma x < / x.
Proof.
  intros X. destruct (MVT_gen loggamma x (x + 1) digamma) as [c [[C1 C2] E]].
  - intros z [Z _]. rewrite Rmin_left in Z by lra. apply loggamma_digamma. lra.
  - intros z [Z _]. rewrite Rmin_left in Z by lra. apply continuity_pt_filterlim. apply (ex_derive_continuous (V := R_NormedModule)). exists (digamma z). apply loggamma_digamma. lra.
  - rewrite Rmin_left in C1 by lra. rewrite Rmax_right in C2 by lra.
    assert (L : loggamma (x + 1) - loggamma x = ln x).
    { unfold loggamma. pose proof (Gamma_pos x X). rewrite Gamma_succ by auto. rewrite ln_mult by auto. ring. }
    rewrite L in E. replace (x + 1 - x) with 1 in E by ring. pose proof (lndig_decr x (x + 1) X ltac:(lra)) as D.
    pose proof (digamma_succ x X) as S1.
    assert (A : forall u v, 0 < u -> u <= v -> digamma u <= digamma v). { intros u v U [V| ->]; [left; apply digamma_incr; auto|lra]. }
    pose proof (A x c X C1). pose proof (A c (x + 1) ltac:(lra) C2).
    assert (NX : forall u, 0 < u -> 0 <= ln u - digamma u).
    { intros u U. clear - U A. destruct (MVT_gen loggamma u (u + 1) digamma) as [c [[C1 C2] E]].
      - intros z [Z _]. rewrite Rmin_left in Z by lra. apply loggamma_digamma. lra.
      - intros z [Z _]. rewrite Rmin_left in Z by lra. apply continuity_pt_filterlim. apply (ex_derive_continuous (V := R_NormedModule)). exists (digamma z). apply loggamma_digamma. lra.
      - rewrite Rmin_left in C1 by lra. assert (L : loggamma (u + 1) - loggamma u = ln u).
        { unfold loggamma. pose proof (Gamma_pos u U). rewrite Gamma_succ by auto. rewrite ln_mult by auto. ring. }
        rewrite L in E. pose proof (A u c U C1). lra. }
    pose proof (NX (x + 1) ltac:(lra)). assert (LL : ln x < ln (x + 1)) by (apply ln_increasing; lra).
    split; [lra|]. destruct C2 as [C2|C2]; [pose proof (digamma_incr c (x + 1) ltac:(lra) C2); lra|].
    exfalso. (* digamma cannot be constant on [x, x+1] *)
    subst c. pose proof (digamma_incr x (x + 1) X ltac:(lra)) as DI.
    pose proof (loggamma_tangent (x + 1) (x + 1/2) ltac:(lra) ltac:(lra)) as T1.
    pose proof (loggamma_tangent (x + 1/2) x ltac:(lra) ltac:(lra)) as T2.
    pose proof (digamma_incr (x + 1/2) (x + 1) ltac:(lra) ltac:(lra)). nra.
Qed.
Lemma lndig_onto y : 0 < y -> exists x, 0 < x /\ ln x - digamma x = y.
Proof.
  intros Y.
  assert (B : exists b, 0 < b /\ ln b - digamma b < y).
  { exists (/ y). assert (0 < / y) by (apply Rinv_0_lt_compat; auto). split; auto. pose proof (lndig_bounds (/ y) H) as [_ L]. rewrite Rinv_inv in L. lra. }
  assert (A : exists a, 0 < a /\ y < ln a - digamma a).
  { set (t := Rmax 2 (2 * (y + digamma 2 + 1)) ). assert (2 <= t) by apply Rmax_l. assert (2 * (y + digamma 2 + 1) <= t) by apply Rmax_r.
    assert (ID : 0 < / t <= 1 / 2). { split; [apply Rinv_0_lt_compat; lra|]. replace (1/2) with (/ 2) by field. apply Rinv_le_contravar; lra. }
    exists (/ t * / t). assert (P : 0 < / t * / t <= 1). { split; [nra|nra]. } split; [lra|].
    pose proof (digamma_succ (/ t * / t) ltac:(lra)) as E. assert (E2 : / (/ t * / t) = t * t) by (field; lra). rewrite E2 in E.
    assert (digamma (/ t * / t + 1) <= digamma 2). { destruct (Req_dec (/ t * / t + 1) 2) as [->|N]; [lra|]. left. apply digamma_incr; lra. }
    assert (ln (/ t * / t) = - 2 * ln t). { rewrite ln_mult, ln_Rinv by lra. ring. }
    assert (ln t <= t - 1) by (apply ln_ineq; lra). nra. }
  destruct B as [b [B B']], A as [a [A A']].
  assert (L : a < b). { destruct (Rtotal_order a b) as [L|[->|L]]; [auto|lra|]. apply lndig_decr in L; lra. }
  destruct (Ranalysis5.IVT_interv (fun x => y - (ln x - digamma x)) a b) as [x [X E]]; try lra.
  - intros z Z1 Z2. apply continuity_pt_minus; [apply continuity_pt_const; intros ? ?; reflexivity|].
    apply continuity_pt_minus; [apply derivable_continuous_pt; exists (/ z); apply derivable_pt_lim_ln; lra|apply digamma_cont; lra].
  - exists x. split; lra.
Qed.
Lemma digammainv_sound euler fr y x : checked_solver fr -> digammainv euler fr (Fin y) = Fin x -> 0 < x /\ digamma x = y.
Proof.
  intros CS. unfold digammainv. destruct (cif _ _ _) as [x0| | | |]; try (intros; discriminate); cbn [bindv]; intros E; apply CS in E;
    unfold vdigamma in E; destruct (Rltb_spec 0 x) as [[P Q]|[P Q]]; rewrite Q in E; try discriminate; injection E as E; split; auto; lra.
Qed.
