(** Location-scale likelihoods that are convex in (1/scale, loc/scale): a stationary point is the
    global minimum. *)
From Coq Require Import Reals Lra List.
From Coquelicot Require Import Coquelicot.
From Verif Require Import Values Spec RLib DistLib LimLib LLib.
Import ListNotations.
Local Open Scope R_scope.

Section Conv.
Variables phi dphi : R -> R.
Hypothesis TAN : forall u u0, phi u0 + dphi u0 * (u - u0) <= phi u.
Variable xs : list R.
Let n := INR (length xs).
Definition obj (l s : R) := n * ln s + rsum (map (fun x => phi ((x - l) / s)) xs).
Definition eqn_l (l s : R) := rsum (map (fun x => dphi ((x - l) / s)) xs).
Definition eqn_s (l s : R) := rsum (map (fun x => (x - l) / s * dphi ((x - l) / s)) xs).
Lemma obj_tan l0 s0 l s : 0 < s0 -> 0 < s ->
  n * ln s + rsum (map (fun x => phi ((x - l0) / s0)) xs) + (s0 / s - 1) * eqn_s l0 s0 + (l0 - l) / s * eqn_l l0 s0 <= obj l s.
Proof.
  intros S0 S. unfold obj, eqn_s, eqn_l. rewrite <- !rsum_scal. 
  assert (L : rsum (map (fun x => phi ((x - l0) / s0) + ((s0 / s - 1) * ((x - l0) / s0 * dphi ((x - l0) / s0)) + (l0 - l) / s * dphi ((x - l0) / s0))) xs)
    <= rsum (map (fun x => phi ((x - l) / s)) xs)).
  { apply rsum_le. intros x _. eapply Rle_trans; [|apply (TAN _ ((x - l0) / s0))]. right.
    replace ((x - l) / s - (x - l0) / s0) with ((s0 / s - 1) * ((x - l0) / s0) + (l0 - l) / s) by (field; lra). ring. }
  rewrite rsum_plus, (rsum_plus (fun x => (s0 / s - 1) * ((x - l0) / s0 * dphi ((x - l0) / s0)))) in L. lra.
Qed.
Lemma ln_ratio s0 s : 0 < s0 -> 0 < s -> ln s0 <= ln s + (s0 / s - 1).
Proof.
  intros S0 S. pose proof (ln_ineq (s0 / s) ltac:(apply Rdiv_pos; auto)) as L. rewrite ln_div in L by auto. lra.
Qed.
Lemma n_nonneg : 0 <= n. Proof. apply pos_INR. Qed.
Lemma opt_both l0 s0 l s : 0 < s0 -> 0 < s -> eqn_l l0 s0 = 0 -> eqn_s l0 s0 = n -> obj l0 s0 <= obj l s.
Proof.
  intros S0 S E1 E2. pose proof (obj_tan l0 s0 l s S0 S) as L. rewrite E1, E2 in L. pose proof (ln_ratio s0 s S0 S). pose proof n_nonneg.
  unfold obj at 1. nra.
Qed.
Lemma opt_scale l0 s0 s : 0 < s0 -> 0 < s -> eqn_s l0 s0 = n -> obj l0 s0 <= obj l0 s.
Proof.
  intros S0 S E2. pose proof (obj_tan l0 s0 l0 s S0 S) as L. rewrite E2 in L. pose proof (ln_ratio s0 s S0 S). pose proof n_nonneg.
  replace ((l0 - l0) / s) with 0 in L by (field; lra). unfold obj at 1. nra.
Qed.
Lemma opt_loc l0 l s : 0 < s -> eqn_l l0 s = 0 -> obj l0 s <= obj l s.
Proof.
  intros S E1. pose proof (obj_tan l0 s l s S S) as L. rewrite E1 in L. replace (s / s - 1) with 0 in L by (field; lra). unfold obj at 1. lra.
Qed.
End Conv.
(** Convexity from a nondecreasing derivative. *)
Lemma tangent (phi dphi : R -> R) : (forall u, is_derive phi u (dphi u)) -> (forall u v, u <= v -> dphi u <= dphi v) ->
  forall u u0, phi u0 + dphi u0 * (u - u0) <= phi u.
Proof.
  intros D M u u0. destruct (MVT_gen phi u0 u dphi) as [c [C E]].
  - intros; apply D.
  - intros x _. apply continuity_pt_filterlim. apply (ex_derive_continuous (V := R_NormedModule)). exists (dphi x). apply D.
  - unfold Rmin, Rmax in C. destruct (Rle_dec u0 u).
    + pose proof (M u0 c ltac:(lra)). nra.
    + pose proof (M c u0 ltac:(lra)). nra.
Qed.
