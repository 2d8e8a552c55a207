(** Lemmas about the shared validators. *)
From Coq Require Import Reals Lra List Bool ZArith.
From Verif Require Import Values VTac Spec M_common.
Local Open Scope R_scope.
Set Bullet Behavior "Strict Subproofs".

Lemma vp_bad {A} `{CanRaise A} v (k : A) : nonpositive v -> validate_positive v k = raise ValueError.
Proof.
  intros N. unfold validate_positive.
  inversion N as [x y Hxy|y Hy|x Hx]; subst; vif; reflexivity.
Qed.
Lemma vp_pass {A} `{CanRaise A} v (k : A) : isnum v -> k = raise ValueError ->
  validate_positive v k = raise ValueError.
Proof.
  intros N ->. unfold validate_positive. destruct N as [? []|]; vcases; reflexivity.
Qed.
Lemma vls_bad {A} `{CanRaise A} l v (k : A) : nonpositive v -> validate_loc_scale l v k = raise ValueError.
Proof.
  intros N. unfold validate_loc_scale.
  inversion N as [x y Hxy|y Hy|x Hx]; subst; vif; reflexivity.
Qed.
Lemma vls_pass {A} `{CanRaise A} l v (k : A) : isnum v -> k = raise ValueError ->
  validate_loc_scale l v k = raise ValueError.
Proof.
  intros N ->. unfold validate_loc_scale. destruct N as [? []|]; vcases; reflexivity.
Qed.
Lemma vpp_pass {A} `{CanRaise A} p (k : A) : isnum p -> k = raise ValueError ->
  validate_p p k = raise ValueError.
Proof.
  intros N ->. unfold validate_p. destruct N as [? []|]; vcases; reflexivity.
Qed.
Lemma vpp_bad {A} `{CanRaise A} p (k : A) : p < 0 \/ 1 < p -> validate_p (Fin p) k = raise ValueError.
Proof. unfold validate_p. intros [H'|H']; vif; reflexivity. Qed.
Lemma vpp_pinf {A} `{CanRaise A} (k : A) : validate_p PInf k = raise ValueError.
Proof. unfold validate_p. vif; reflexivity. Qed.
Lemma vpp_ninf {A} `{CanRaise A} (k : A) : validate_p NInf k = raise ValueError.
Proof. unfold validate_p. vif; reflexivity. Qed.
