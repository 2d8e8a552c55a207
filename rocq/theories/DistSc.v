(** Scale families: laws of the standard member carried to every scale. *)
From Coq Require Import Reals Lra List FunctionalExtensionality.
From Coquelicot Require Import Coquelicot.
From Verif Require Import Values VTac Spec RLib DistLib DistLS LimLib MomLib.
Local Open Scope R_scope.
Set Bullet Behavior "Strict Subproofs".

Definition sc (s : R) (b : Rbar) : Rbar :=
  match b with Finite r => Finite (s * r) | p_infty => p_infty | m_infty => m_infty end.
Lemma sc_ls s b : sc s b = ls 0 s b.
Proof. destruct b; simpl; auto. f_equal. ring. Qed.
Lemma z0 s (G : R -> R) : (fun x => G (x / s)) = (fun x => G ((x - 0) / s)).
Proof. apply functional_extensionality. intros x. rewrite Rminus_0_r. reflexivity. Qed.

Section Sc.
Variables (lo hi : Rbar) (F f Q : R -> R).
Hypothesis ST : std lo hi F f Q.
Variables (s : R).
Hypothesis S : 0 < s.
Lemma sc_cert pdf logpdf cdf sf invcdf invsf lo' hi' : lo' = sc s lo -> hi' = sc s hi ->
  core cdf sf lo' hi' (fun x => F (x / s)) ->
  (forall x, inside lo hi (x / s) -> pdf (Fin x) = Fin (f (x / s) / s) /\ logpdf (Fin x) = Fin (ln (f (x / s) / s))) ->
  (forall x : R, Rbar_lt x lo' \/ Rbar_lt hi' x -> pdf (Fin x) = Fin 0 /\ logpdf (Fin x) = NInf) ->
  (forall p, 0 < p < 1 -> invcdf (Fin p) = Fin (s * Q p) /\ invsf (Fin p) = Fin (s * Q (1 - p))) ->
  cert pdf logpdf cdf sf invcdf invsf lo' hi' (fun x => F (x / s)) (fun x => f (x / s) / s) (fun p => s * Q p).
Proof.
  intros EL EH CO P O I. rewrite (z0 s F), (z0 s (fun z => f z / s)).
  replace (fun p => s * Q p) with (fun p => 0 + s * Q p) by (apply functional_extensionality; intros; ring).
  apply (ls_cert lo hi F f Q ST 0 s S); auto.
  - rewrite EL. apply sc_ls.
  - rewrite EH. apply sc_ls.
  - rewrite <- (z0 s F). auto.
  - intros x H. replace ((x - 0) / s) with (x / s) in * by (rewrite Rminus_0_r; auto). auto.
  - intros p H. rewrite !Rplus_0_l. auto.
Qed.
Variable pdf : val -> val.
Variables lo' hi' : Rbar.
Hypothesis ELO : lo' = sc s lo.
Hypothesis EHI : hi' = sc s hi.
Hypothesis PDF : forall x, inside lo' hi' x -> pdf (Fin x) = Fin (f (x / s) / s).
Lemma PDF' x : inside lo' hi' x -> pdf (Fin x) = Fin (f ((x - 0) / s) / s).
Proof. rewrite Rminus_0_r. auto. Qed.
Lemma sc_mean_is m m1 : integrates_to (fun z => z * f z) lo hi m1 -> m = Fin (s * m1) -> mean_is pdf lo' hi' m.
Proof.
  intros I E. apply (ls_mean_is lo hi F f Q ST 0 s pdf lo' hi' S (eq_trans ELO (sc_ls _ _)) (eq_trans EHI (sc_ls _ _)) PDF' m m1 I).
  rewrite E. f_equal. ring.
Qed.
Lemma sc_var_is m v m1 m2 : integrates_to (fun z => z * f z) lo hi m1 -> integrates_to (fun z => z ^ 2 * f z) lo hi m2 ->
  m = Fin (s * m1) -> v = Fin (s ^ 2 * (m2 - m1 ^ 2)) -> var_is pdf lo' hi' m v.
Proof.
  intros I1 I2 E V. apply (ls_var_is lo hi F f Q ST 0 s pdf lo' hi' S (eq_trans ELO (sc_ls _ _)) (eq_trans EHI (sc_ls _ _)) PDF' m v m1 m2 I1 I2); auto.
  rewrite E. f_equal. ring.
Qed.
Lemma sc_entropy_is e h : integrates_to (fun z => - (f z * ln (f z))) lo hi h -> e = Fin (ln s + h) -> entropy_is pdf lo' hi' e.
Proof. intros I E. apply (ls_entropy_is lo hi F f Q ST 0 s pdf lo' hi' S (eq_trans ELO (sc_ls _ _)) (eq_trans EHI (sc_ls _ _)) PDF' e h I E). Qed.
End Sc.

Lemma scale_from_cert (pdf logpdf cdf sf invcdf invsf : val -> val -> val) lo hi F f Q :
  (forall s, 0 < s -> cert (fun x => pdf x (Fin s)) (fun x => logpdf x (Fin s))
     (fun x => cdf x (Fin s)) (fun x => sf x (Fin s)) (fun p => invcdf p (Fin s))
     (fun p => invsf p (Fin s)) (sc s lo) (sc s hi)
     (fun x => F (x / s)) (fun x => f (x / s) / s) (fun p => s * Q p)) ->
  scale_law pdf cdf sf invcdf invsf lo hi.
Proof.
  intros C s S.
  pose proof (loc_scale_from_cert (fun x _ s => pdf x s) (fun x _ s => logpdf x s) (fun x _ s => cdf x s)
    (fun x _ s => sf x s) (fun x _ s => invcdf x s) (fun x _ s => invsf x s)) as L.
  pose proof (C s S) as C1. pose proof (C 1 Rlt_0_1) as C0.
  assert (Z : forall z, s * z / s = z) by (intros; field; lra).
  assert (Z0 : forall z, z / 1 = z) by (intros; field).
  assert (IN : forall z, inside lo hi z -> inside (sc s lo) (sc s hi) (s * z)).
  { intros z [A B]. split; [destruct lo|destruct hi]; simpl in *; auto; nra. }
  assert (IN0 : forall z, inside lo hi z -> inside (sc 1 lo) (sc 1 hi) z).
  { intros z [A B]. split; [destruct lo|destruct hi]; simpl in *; auto; nra. }
  split; [|split].
  - intros z. destruct (Rbar_trichotomy lo hi z) as [H|[H|H]].
    + assert (H1 : Rbar_le (Finite (s * z)) (sc s lo)) by (destruct lo; simpl in *; auto; nra).
      assert (H0 : Rbar_le (Finite z) (sc 1 lo)) by (destruct lo; simpl in *; auto; lra).
      destruct (co_below _ _ _ _ _ (ce_core _ _ _ _ _ _ _ _ _ _ _ C1) _ H1) as [-> ->].
      destruct (co_below _ _ _ _ _ (ce_core _ _ _ _ _ _ _ _ _ _ _ C0) _ H0) as [-> ->]. auto.
    + destruct (co_in _ _ _ _ _ (ce_core _ _ _ _ _ _ _ _ _ _ _ C1) _ (IN z H)) as [-> ->].
      destruct (co_in _ _ _ _ _ (ce_core _ _ _ _ _ _ _ _ _ _ _ C0) _ (IN0 z H)) as [-> ->].
      rewrite Z, Z0. auto.
    + assert (H1 : Rbar_le (sc s hi) (Finite (s * z))) by (destruct hi; simpl in *; auto; nra).
      assert (H0 : Rbar_le (sc 1 hi) (Finite z)) by (destruct hi; simpl in *; auto; lra).
      destruct (co_above _ _ _ _ _ (ce_core _ _ _ _ _ _ _ _ _ _ _ C1) _ H1) as [-> ->].
      destruct (co_above _ _ _ _ _ (ce_core _ _ _ _ _ _ _ _ _ _ _ C0) _ H0) as [-> ->]. auto.
  - intros z H. exists (f z). destruct (ce_pdf _ _ _ _ _ _ _ _ _ _ _ C1 _ (IN z H)) as [-> _].
    destruct (ce_pdf _ _ _ _ _ _ _ _ _ _ _ C0 _ (IN0 z H)) as [-> _]. rewrite Z, !Z0. auto.
  - intros p H. exists (Q p), (Q (1 - p)).
    destruct (ce_inv _ _ _ _ _ _ _ _ _ _ _ C1 _ H) as [-> ->].
    destruct (ce_inv _ _ _ _ _ _ _ _ _ _ _ C0 _ H) as [-> ->]. repeat split; f_equal; ring.
Qed.
