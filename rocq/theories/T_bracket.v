(** C24: the bracket searches used by the numeric inverses. *)
From Coq Require Import Reals Lra ZArith.
From Coquelicot Require Import Coquelicot.
From Verif Require Import Values VTac SpecBracket M_bracket.
From Verif Require P_bracket.
Local Open Scope R_scope.

(** For every function that is monotone, in either direction, on a closed interval with finite or infinite
    ends, whose values at the two ends lie strictly on opposite sides of p, and (for an infinite end) which
    gets past p at a finite point already: for every number of refinement steps, with enough fuel the search
    returns one and the same finite interval, which brackets the solution and, if the function is
    continuous, contains one. *)
Theorem C24_find_bracket : forall (func : val -> val) (f : R -> R) (p pa pb : R) (a b : val) (inc : bool) (nbisect : option nat),
  (forall x, within a b x -> func (Fin x) = Fin (f x)) -> monotone inc a b f ->
  func a = Fin pa -> func b = Fin pb -> before inc pa p -> before inc p pb ->
  (exists u, within a b u /\ before inc (f u) p) -> (exists v, within a b v /\ before inc p (f v)) ->
  exists x0 x1 N, (forall fuel, (N < fuel)%nat -> find_bracket fuel func (Fin p) a b nbisect = Ok (Fin x0, Fin x1)) /\
    brackets inc f p a b x0 x1 /\
    ((forall x, continuous f x) -> exists x, x0 <= x <= x1 /\ f x = p).
Proof. exact P_bracket.find_bracket_ok. Qed.
Print Assumptions C24_find_bracket.
(** An instance: the arctangent on the whole line, p = 3/2. *)
Definition vatan_ext (v : val) : val :=
  match v with Fin x => Fin (atan x) | PInf => Fin (PI / 2) | NInf => Fin (- (PI / 2)) | v => v end.
Lemma atan_mono a b : monotone true a b atan.
Proof. intros x y _ _ [L| ->]; [left; now apply atan_increasing|lra]. Qed.
Lemma atan_up : exists v, within NInf PInf v /\ before true (3/2) (atan v).
Proof.
  exists (tan ((3/2 + PI/2) / 2)). split; [split; exact I|]. unfold before.
  pose proof PI2_3_2 as H. rewrite atan_tan by (split; lra). lra.
Qed.
Lemma atan_dn : exists v, within NInf PInf v /\ before true (atan v) (3/2).
Proof. exists 0. split; [split; exact I|]. unfold before. rewrite atan_0. lra. Qed.
Example C24_find_bracket_instance := C24_find_bracket vatan_ext atan (3/2) (- (PI/2)) (PI/2) NInf PInf true None
  (fun x _ => eq_refl) (atan_mono _ _) eq_refl eq_refl
  ltac:(pose proof PI2_3_2; unfold before; lra) ltac:(pose proof PI2_3_2; unfold before; lra)
  atan_dn atan_up.
(** A decreasing instance on [0, inf): 1/(1+x), p = 1/10. *)
Definition vrec_ext (v : val) : val :=
  match v with Fin x => Fin (/ (1 + x)) | PInf => Fin 0 | v => v end.
Lemma rec_mono : monotone false (Fin 0) PInf (fun x => / (1 + x)).
Proof. intros x y [H _] _ L. apply Rinv_le_contravar; lra. Qed.
Lemma rec_dn : exists v, within (Fin 0) PInf v /\ before false (/ (1 + v)) (1/10).
Proof. exists 0. split; [split; [lra|exact I]|]. unfold before. lra. Qed.
Lemma rec_up : exists v, within (Fin 0) PInf v /\ before false (1/10) (/ (1 + v)).
Proof. exists 19. split; [split; [lra|exact I]|]. unfold before. lra. Qed.
Example C24_find_bracket_instance2 := C24_find_bracket vrec_ext (fun x => / (1 + x)) (1/10) 1 0 (Fin 0) PInf false (Some 3%nat)
  (fun x _ => eq_refl) rec_mono ltac:(cbn; f_equal; field) eq_refl
  ltac:(unfold before; lra) ltac:(unfold before; lra)
  rec_dn rec_up.

(** On a finite interval n refinement steps shrink the bracket by 2^n. *)
Theorem C24_find_bracket_width : forall (func : val -> val) (f : R -> R) (p a b : R) (inc : bool) (n : nat),
  (forall x, a <= x <= b -> func (Fin x) = Fin (f x)) -> monotone inc (Fin a) (Fin b) f ->
  a < b -> before inc (f a) p -> before inc p (f b) ->
  exists x0 x1, (forall fuel, find_bracket fuel func (Fin p) (Fin a) (Fin b) (Some n) = Ok (Fin x0, Fin x1)) /\ x1 - x0 <= (b - a) / 2 ^ n.
Proof. exact P_bracket.find_bracket_width. Qed.
Print Assumptions C24_find_bracket_width.
Example C24_find_bracket_width_instance := C24_find_bracket_width (fun v => vmul v v) (fun x => x * x) 2 1 2 true 5
  (fun _ _ => eq_refl) (fun x y H K L => ltac:(destruct H, K; nra)) ltac:(lra) ltac:(unfold before; lra) ltac:(unfold before; lra).

(** When the function is exactly p at an end, the search returns that end twice. *)
Theorem C24_find_bracket_ends : forall (fuel : nat) (func : val -> val) (p pb : R) (a b : val) (nbisect : option nat),
  (func a = Fin p -> find_bracket fuel func (Fin p) a b nbisect = Ok (a, a)) /\
  (func a = Fin pb -> pb <> p -> func b = Fin p -> find_bracket fuel func (Fin p) a b nbisect = Ok (b, b)).
Proof. exact P_bracket.find_bracket_ends. Qed.
Print Assumptions C24_find_bracket_ends.
Example C24_find_bracket_ends_instance := proj1 (C24_find_bracket_ends 0 vrec_ext 1 0 (Fin 0) PInf None) ltac:(cbn; f_equal; field).

(** The search by expansion on the whole line (weaker hypotheses: p may be attained only at the edge of a
    flat piece). *)
Theorem C24_expansion_neginf_inf : forall (func : val -> val) (f : R -> R) (p : R) (inc : bool),
  (forall x, func (Fin x) = Fin (f x)) -> monotone inc NInf PInf f ->
  (exists u, ~ before inc p (f u)) -> (exists v, ~ before inc (f v) p) ->
  exists x0 x1 N, (forall fuel, (N < fuel)%nat -> find_bracket_neginf_inf fuel func (Fin p) (if inc then 1 else -1)%Z = Ok (Fin x0, Fin x1)) /\
    x0 <= x1 /\ ~ before inc p (f x0) /\ ~ before inc (f x1) p /\ (x0 = x1 -> f x0 = p) /\
    ((forall x, continuous f x) -> exists x, x0 <= x <= x1 /\ f x = p).
Proof. exact P_bracket.neginf_inf_ok. Qed.
Print Assumptions C24_expansion_neginf_inf.
Lemma atan_dn2 : exists u, ~ before true (-1/3) (atan u).
Proof. exists (tan (-1)). pose proof PI2_3_2. unfold before. rewrite atan_tan by (split; lra). lra. Qed.
Lemma atan_up2 : exists u, ~ before true (atan u) (-1/3).
Proof. exists 0. unfold before. rewrite atan_0. lra. Qed.
Example C24_expansion_neginf_inf_instance := C24_expansion_neginf_inf vatan_ext atan (-1/3) true
  (fun x => eq_refl) (atan_mono _ _)
  atan_dn2 atan_up2.

(** The search by expansion on (0, inf). *)
Theorem C24_expansion_0_inf : forall (func : val -> val) (f : R -> R) (p : R) (inc : bool),
  (forall x, 0 < x -> func (Fin x) = Fin (f x)) -> (forall x y, 0 < x <= y -> if inc then f x <= f y else f y <= f x) ->
  (exists u, 0 < u /\ ~ before inc p (f u)) -> (exists v, 0 < v /\ ~ before inc (f v) p) ->
  exists x0 x1 N, (forall fuel, (N < fuel)%nat -> find_bracket_0_inf fuel func (Fin p) (if inc then 1 else -1)%Z = Ok (Fin x0, Fin x1)) /\
    0 < x0 <= x1 /\ ~ before inc p (f x0) /\ ~ before inc (f x1) p /\ (x0 = x1 -> f x0 = p) /\
    ((forall x, continuous f x) -> exists x, x0 <= x <= x1 /\ f x = p).
Proof. exact P_bracket.zero_inf_ok. Qed.
Print Assumptions C24_expansion_0_inf.
Lemma rec_dn2 : exists u, 0 < u /\ ~ before false (1/10) (/ (1 + u)).
Proof. exists 1. unfold before. split; lra. Qed.
Lemma rec_up2 : exists u, 0 < u /\ ~ before false (/ (1 + u)) (1/10).
Proof. exists 99. unfold before. split; lra. Qed.
Example C24_expansion_0_inf_instance := C24_expansion_0_inf vrec_ext (fun x => / (1 + x)) (1/10) false
  (fun x _ => eq_refl) (fun x y H => Rinv_le_contravar (1 + x) (1 + y) ltac:(lra) ltac:(lra))
  rec_dn2 rec_up2.

(** A direction other than 1 or -1 is rejected. *)
Theorem C24_direction : forall (fuel : nat) (func : val -> val) (p : val) (direction : Z), direction <> 1%Z -> direction <> (-1)%Z ->
  find_bracket_neginf_inf fuel func p direction = Err ValueError /\ find_bracket_0_inf fuel func p direction = Err ValueError.
Proof. exact P_bracket.direction_bad. Qed.
Print Assumptions C24_direction.
Example C24_direction_instance := C24_direction 0 vatan_ext (Fin 0) 2%Z ltac:(discriminate) ltac:(discriminate).

(** The generic inverter solves func(x) = p with every root finder that, given an interval that contains a
    root, returns
    a root of [func(k) - p] in it. *)
Theorem C24_generic_inv : forall (findroot : (val -> val) -> val * val -> val) (func : val -> val) (f : R -> R) (p : R) (inc : bool),
  (forall x, 0 < x -> func (Fin x) = Fin (f x)) -> (forall x y, 0 < x <= y -> if inc then f x <= f y else f y <= f x) ->
  (exists u, 0 < u /\ ~ before inc p (f u)) -> (exists v, 0 < v /\ ~ before inc (f v) p) -> (forall x, continuous f x) ->
  (forall l h, 0 < l <= h -> (exists x, l <= x <= h /\ f x - p = 0) ->
      exists x, l <= x <= h /\ findroot (fun k => vsub (func k) (Fin p)) (Fin l, Fin h) = Fin x /\ f x - p = 0) ->
  exists x N, 0 < x /\ f x = p /\ forall fuel, (N < fuel)%nat -> generic_inv fuel findroot func (Fin p) (if inc then 1 else -1)%Z = Fin x.
Proof. exact P_bracket.generic_inv_ok. Qed.
Print Assumptions C24_generic_inv.
(** The arctangent inverted at 1, with a root finder that knows the answer. *)
Lemma atan_dn3 : exists u, 0 < u /\ ~ before true 1 (atan u).
Proof. exists (tan (1/2)). pose proof PI2_3_2. split; [apply tan_gt_0; lra|]. unfold before. rewrite atan_tan by (split; lra). lra. Qed.
Lemma atan_up3 : exists u, 0 < u /\ ~ before true (atan u) 1.
Proof. exists (tan (5/4)). pose proof PI2_3_2. split; [apply tan_gt_0; lra|]. unfold before. rewrite atan_tan by (split; lra). lra. Qed.
Lemma atan_root : forall l h, 0 < l <= h -> (exists x, l <= x <= h /\ atan x - 1 = 0) ->
  exists x, l <= x <= h /\ (fun (_ : val -> val) (_ : val * val) => Fin (tan 1)) (fun k => vsub (vatan_ext k) (Fin 1)) (Fin l, Fin h) = Fin x /\ atan x - 1 = 0.
Proof.
  intros l h _ (x & Hx & E). exists x. split; [exact Hx|]. split; [|exact E]. f_equal.
  replace 1 with (atan x) by lra. apply tan_atan.
Qed.
Example C24_generic_inv_instance := C24_generic_inv (fun _ _ => Fin (tan 1)) vatan_ext atan 1 true
  (fun x _ => eq_refl) (fun x y H => atan_mono NInf PInf x y (conj I I) (conj I I) (proj2 H))
  atan_dn3 atan_up3
  (fun x => proj1 (continuity_pt_filterlim atan x) (derivable_continuous_pt atan x (derivable_pt_atan x))) atan_root.
