(** All moments of a location-scale family from those of the standard member. *)
From Coq Require Import Reals Lra Lia List.
From Coquelicot Require Import Coquelicot.
From Verif Require Import Values VTac Spec RLib DistLib DistLS MomLib LLib DiscLib SpecLS.
Import ListNotations.
Local Open Scope R_scope.
Set Bullet Behavior "Strict Subproofs".

Lemma vfsum_seq (f : nat -> val) (g : nat -> R) n : (forall i, (i < n)%nat -> f i = Fin (g i)) ->
  vfsum (map f (seq 0 n)) = Fin (nsum g n).
Proof.
  intros H. rewrite (vfsum_map f g); [|intros i I; apply in_seq in I; apply H; lia].
  f_equal. change rsum with SpecStat.sum. apply sum_seq.
Qed.
Lemma integrates_nsum lo hi (LT : Rbar_lt lo hi) (g : nat -> R -> R) (v : nat -> R) n :
  (forall i, (i < n)%nat -> integrates_to (g i) lo hi (v i)) -> (0 < n)%nat ->
  integrates_to (fun x => nsum (fun i => g i x) n) lo hi (nsum v n).
Proof.
  intros H P. induction n as [|n IH]; [lia|]. destruct n as [|n].
  - simpl. apply (integrates_ext lo hi LT (g 0%nat)); [intros; ring|]. rewrite Rplus_0_l. apply H; lia.
  - change (nsum v (S (S n))) with (nsum v (S n) + v (S n)).
    apply (integrates_ext lo hi LT (fun x => nsum (fun i => g i x) (S n) + g (S n) x)); [intros; reflexivity|].
    apply integrates_plus; [apply IH; [intros; apply H|]; lia|apply H; lia].
Qed.
Lemma binom_C x y n : (x + y) ^ n = nsum (fun i => Binomial.C n i * x ^ i * y ^ (n - i)) (S n).
Proof. rewrite nsum_sum_n, sum_n_Reals. apply binomial. Qed.

Section Mom.
Variables (lo hi : Rbar) (F f Q : R -> R).
Hypothesis ST : std lo hi F f Q.
Variables (l s : R) (pdf : val -> val) (lo' hi' : Rbar).
Hypothesis S : 0 < s.
Hypothesis ELO : lo' = ls l s lo.
Hypothesis EHI : hi' = ls l s hi.
Hypothesis PDF : forall x, inside lo' hi' x -> pdf (Fin x) = Fin (f ((x - l) / s) / s).
Variables (M : nat -> R) (N : nat).
Hypothesis MOM : forall n, (n <= N)%nat -> integrates_to (fun z => z ^ n * f z) lo hi (M n).
Let LT : Rbar_lt lo hi := sm_lt _ _ _ _ (st_smooth _ _ _ _ _ ST).
Definition lsM (n : nat) := nsum (fun i => Binomial.C n i * l ^ (n - i) * s ^ i * M i) (n + 1).
Lemma lsm_moment n m : (n <= N)%nat -> m = Fin (lsM n) -> moment_is pdf lo' hi' n m.
Proof.
  intros H ->. eexists; split; [reflexivity|].
  apply (ls_expect lo hi F f Q ST l s pdf lo' hi' S ELO EHI PDF (fun z => (s * z + l) ^ n)).
  - unfold lsM. replace (n + 1)%nat with (Datatypes.S n) by lia.
    apply (integrates_ext lo hi LT (fun z => nsum (fun i => (Binomial.C n i * l ^ (n - i) * s ^ i) * (z ^ i * f z)) (Datatypes.S n))).
    + intros z _. rewrite binom_C. rewrite Rmult_comm, <- nsum_scal. apply nsum_ext. intros i I. rewrite Rpow_mult_distr. ring.
    + apply (integrates_nsum lo hi LT (fun i z => (Binomial.C n i * l ^ (n - i) * s ^ i) * (z ^ i * f z)) (fun i => (Binomial.C n i * l ^ (n - i) * s ^ i) * M i)); [|lia].
      intros i I. apply integrates_scal. apply MOM. lia.
  - intros x. f_equal. field. lra.
Qed.
Lemma lsm_M0 : (0 <= N)%nat -> M 0%nat = 1.
Proof.
  intros H. apply (integrates_unique lo hi LT f); [|apply (std_mass lo hi LT F f Q ST)].
  apply (integrates_ext lo hi LT (fun z => z ^ 0 * f z)); [intros; ring|]. apply MOM; lia.
Qed.
Lemma lsm_mean m : (1 <= N)%nat -> m = Fin (l + s * M 1%nat) -> mean_is pdf lo' hi' m.
Proof.
  intros H E. apply (ls_mean_is lo hi F f Q ST l s pdf lo' hi' S ELO EHI PDF m (M 1%nat)); auto.
  apply (integrates_ext lo hi LT (fun z => z ^ 1 * f z)); [intros; ring|]. apply MOM; lia.
Qed.
Lemma lsm_var m v : (2 <= N)%nat -> m = Fin (l + s * M 1%nat) -> v = Fin (s ^ 2 * mvar M) -> var_is pdf lo' hi' m v.
Proof.
  intros H E1 E2. apply (ls_var_is lo hi F f Q ST l s pdf lo' hi' S ELO EHI PDF m v (M 1%nat) (M 2%nat)); auto.
  apply (integrates_ext lo hi LT (fun z => z ^ 1 * f z)); [intros; ring|]. apply MOM; lia.
Qed.
Lemma lsm_central n c : integrates_to (fun z => (z - M 1%nat) ^ n * f z) lo hi c -> central_is pdf lo' hi' n (l + s * M 1%nat) (s ^ n * c).
Proof.
  intros I. apply (ls_expect lo hi F f Q ST l s pdf lo' hi' S ELO EHI PDF (fun z => s ^ n * (z - M 1%nat) ^ n)).
  - apply (integrates_ext lo hi LT (fun z => s ^ n * ((z - M 1%nat) ^ n * f z))); [intros; ring|]. apply integrates_scal; auto.
  - intros x. rewrite <- Rpow_mult_distr. f_equal. field. lra.
Qed.
Let fpdf (v : val) : val := match v with Fin x => Fin (f x) | _ => NaN end.
Lemma lsm_mean_int : (1 <= N)%nat -> integrates_to (fun t => t * toR (pdf (Fin t))) lo' hi' (l + s * M 1%nat).
Proof. intros H. destruct (lsm_mean _ H eq_refl) as [r [E I]]. injection E as ->. exact I. Qed.
Lemma lsm_skewness k : (3 <= N)%nat -> 0 < mvar M -> k = Fin (mcen3 M / (mvar M * sqrt (mvar M))) -> skewness_is pdf lo' hi' k.
Proof.
  intros H V ->. assert (M0 := lsm_M0 ltac:(lia)).
  pose proof (raw_central2 lo hi fpdf f M N LT (fun x _ => eq_refl) MOM M0 ltac:(lia)) as C2.
  pose proof (raw_central3 lo hi fpdf f M N LT (fun x _ => eq_refl) MOM M0 ltac:(lia)) as C3.
  exists (l + s * M 1%nat), (s ^ 2 * mvar M), (s ^ 3 * mcen3 M). pose proof (pow_lt s 2 S).
  split; [apply lsm_mean_int; lia|]. split; [nra|]. split; [apply lsm_central; exact C2|]. split; [apply lsm_central; exact C3|].
  f_equal. rewrite sqrt_mult, sqrt_pow2 by lra. assert (0 < sqrt (mvar M)) by (apply sqrt_lt_R0; auto). field. lra.
Qed.
Lemma lsm_kurtosis k : (4 <= N)%nat -> 0 < mvar M -> k = Fin (mcen4 M / mvar M ^ 2 - 3) -> kurtosis_is pdf lo' hi' k.
Proof.
  intros H V ->. assert (M0 := lsm_M0 ltac:(lia)).
  pose proof (raw_central2 lo hi fpdf f M N LT (fun x _ => eq_refl) MOM M0 ltac:(lia)) as C2.
  pose proof (raw_central4 lo hi fpdf f M N LT (fun x _ => eq_refl) MOM M0 ltac:(lia)) as C4.
  exists (l + s * M 1%nat), (s ^ 2 * mvar M), (s ^ 4 * mcen4 M). pose proof (pow_lt s 2 S).
  split; [apply lsm_mean_int; lia|]. split; [nra|]. split; [apply lsm_central; exact C2|]. split; [apply lsm_central; exact C4|].
  f_equal. field. lra.
Qed.
End Mom.

(** Exact inverses, standing in for those that the code computes numerically. *)
Definition ideal_cdf (Q : R -> R) (v l s : val) : val :=
  match v, l, s with Fin p, Fin l, Fin s => Fin (l + s * Q p) | _, _, _ => v end.
Definition ideal_sf (Q : R -> R) (v l s : val) : val :=
  match v, l, s with Fin p, Fin l, Fin s => Fin (l + s * Q (1 - p)) | _, _, _ => v end.
Lemma loc_scale3_from_cert (pdf logpdf cdf sf : val -> val -> val -> val) lo hi F f Q :
  (forall l s, 0 < s -> cert (fun x => pdf x (Fin l) (Fin s)) (fun x => logpdf x (Fin l) (Fin s))
     (fun x => cdf x (Fin l) (Fin s)) (fun x => sf x (Fin l) (Fin s)) (fun p => ideal_cdf Q p (Fin l) (Fin s))
     (fun p => ideal_sf Q p (Fin l) (Fin s)) (ls l s lo) (ls l s hi)
     (fun x => F ((x - l) / s)) (fun x => f ((x - l) / s) / s) (fun p => l + s * Q p)) ->
  loc_scale_law3 pdf cdf sf lo hi.
Proof.
  intros H l s HS. destruct (loc_scale_from_cert pdf logpdf cdf sf (ideal_cdf Q) (ideal_sf Q) lo hi F f Q H l s HS) as [A [B _]]. auto.
Qed.
