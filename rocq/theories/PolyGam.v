(** The derivatives of trigamma in terms of the integrals of ln^n t t^(a-1) e^(-t). *)
From Coq Require Import Reals Lra.
From Coquelicot Require Import Coquelicot.
From Verif Require Import RLib SFun GammaLib GammaLib2 GammaLib3 GammaLib4 M_loggamma.
Local Open Scope R_scope.
Set Bullet Behavior "Strict Subproofs".

Lemma near_pos a : 0 < a -> locally a (fun t => 0 < t).
Proof.
  intros Ha. exists (mkposreal a Ha). intros y Hy. unfold ball in Hy; simpl in Hy; unfold AbsRing_ball, abs, minus, plus, opp in Hy; simpl in Hy.
  apply Rabs_def2 in Hy. lra.
Qed.
Definition e1 a := (Lg 2 a * Gamma a - Lg 1 a * Lg 1 a) / Gamma a ^ 2.
Definition e2 a := Lg 3 a / Gamma a - 3 * Lg 1 a * Lg 2 a / Gamma a ^ 2 + 2 * Lg 1 a ^ 3 / Gamma a ^ 3.
Definition e3 a := Lg 4 a / Gamma a - 4 * Lg 1 a * Lg 3 a / Gamma a ^ 2 - 3 * Lg 2 a ^ 2 / Gamma a ^ 2 + 12 * Lg 1 a ^ 2 * Lg 2 a / Gamma a ^ 3 - 6 * Lg 1 a ^ 4 / Gamma a ^ 4.
Lemma e1_der a : 0 < a -> is_derive e1 a (e2 a).
Proof.
  intros A. pose proof (Gamma_pos a A) as G. pose proof (Gamma_der a A) as D0. pose proof (Lg_der 1 a A) as D1. pose proof (Lg_der 2 a A) as D2.
  unfold e1, e2. set (l1 := Lg 1) in *. set (l2 := Lg 2) in *. set (l3 := Lg 3) in *. set (g := Gamma) in *. clearbody l1 l2 l3 g.
  auto_derive.
  - assert (0 < g a * (g a * 1)) by (apply Rmult_lt_0_compat; lra). repeat split; try (eexists; eassumption). lra.
  - change (Derive (fun x => g x) a) with (Derive g a). change (Derive (fun x => l1 x) a) with (Derive l1 a). change (Derive (fun x => l2 x) a) with (Derive l2 a).
    rewrite (is_derive_unique _ _ _ D0), (is_derive_unique _ _ _ D1), (is_derive_unique _ _ _ D2). field. lra.
Qed.
Lemma e2_der a : 0 < a -> is_derive e2 a (e3 a).
Proof.
  intros A. pose proof (Gamma_pos a A) as G. pose proof (Gamma_der a A) as D0. pose proof (Lg_der 1 a A) as D1. pose proof (Lg_der 2 a A) as D2. pose proof (Lg_der 3 a A) as D3.
  unfold e2, e3. set (l1 := Lg 1) in *. set (l2 := Lg 2) in *. set (l3 := Lg 3) in *. set (l4 := Lg 4) in *. set (g := Gamma) in *. clearbody l1 l2 l3 l4 g.
  auto_derive.
  - assert (0 < g a * (g a * 1)) by (apply Rmult_lt_0_compat; lra). assert (0 < g a * (g a * (g a * 1))) by (apply Rmult_lt_0_compat; lra). repeat split; try (eexists; eassumption); lra.
  - change (Derive (fun x => g x) a) with (Derive g a). change (Derive (fun x => l1 x) a) with (Derive l1 a). change (Derive (fun x => l2 x) a) with (Derive l2 a). change (Derive (fun x => l3 x) a) with (Derive l3 a).
    rewrite (is_derive_unique _ _ _ D0), (is_derive_unique _ _ _ D1), (is_derive_unique _ _ _ D2), (is_derive_unique _ _ _ D3). field. lra.
Qed.
Lemma psi2_eq a : 0 < a -> psi2 a = e2 a.
Proof.
  intros A. unfold psi2. apply is_derive_unique. apply (is_derive_ext_loc e1); [|apply e1_der; auto].
  generalize (near_pos a A). apply filter_imp. intros t T. symmetry. apply trigamma_eq. auto.
Qed.
Lemma psi3_eq a : 0 < a -> psi3 a = e3 a.
Proof.
  intros A. unfold psi3. apply is_derive_unique. apply (is_derive_ext_loc e2); [|apply e2_der; auto].
  generalize (near_pos a A). apply filter_imp. intros t T. symmetry. apply psi2_eq. auto.
Qed.
