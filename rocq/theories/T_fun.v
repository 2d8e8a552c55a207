(** C16-C20: Box-Cox, Yeo-Johnson, xlogy, powers, logsumexp. *)
From Coq Require Import Reals Lra List.
From Verif Require Import Values Spec VTac M_fun M_stats.
From Verif Require P_fun.
Import ListNotations.
Local Open Scope R_scope.

(** ** C16 *)
Theorem C16_boxcox_roundtrip : forall x l, 0 < x ->
  exists y, boxcox (Fin x) (Fin l) = Fin y /\ inv_boxcox (Fin y) (Fin l) = Fin x.
Proof. exact P_fun.boxcox_inv. Qed.
Print Assumptions C16_boxcox_roundtrip.
Theorem C16_inv_boxcox_roundtrip : forall y l, -1 < l * y ->
  exists x, inv_boxcox (Fin y) (Fin l) = Fin x /\ 0 < x /\ boxcox (Fin x) (Fin l) = Fin y.
Proof. exact P_fun.inv_boxcox_inv. Qed.
Print Assumptions C16_inv_boxcox_roundtrip.
(** The value is the documented one. *)
Theorem C16_boxcox_value : forall x l, 0 < x ->
  (l = 0 -> boxcox (Fin x) (Fin l) = Fin (ln x)) /\
  (l <> 0 -> boxcox (Fin x) (Fin l) = Fin ((Rpower x l - 1) / l)).
Proof.
  exact (fun x l H => conj
    (fun E => eq_trans (P_fun.boxcox_fin x l H) (match Req_EM_T l 0 as s return
       Fin (if s then ln x else (Rpower x l - 1) / l) = Fin (ln x) with
       | left _ => eq_refl | right n => False_ind _ (n E) end))
    (fun N => eq_trans (P_fun.boxcox_fin x l H) (match Req_EM_T l 0 as s return
       Fin (if s then ln x else (Rpower x l - 1) / l) = Fin ((Rpower x l - 1) / l) with
       | left e => False_ind _ (N e) | right n => eq_refl end))).
Qed.
Print Assumptions C16_boxcox_value.
Theorem C16_boxcox1p : forall x l, -1 < x -> boxcox1p (Fin x) (Fin l) = boxcox (Fin (1 + x)) (Fin l).
Proof. exact P_fun.boxcox1p_boxcox. Qed.
Print Assumptions C16_boxcox1p.
Theorem C16_inv_boxcox1p : forall y l,
  inv_boxcox1p (Fin y) (Fin l) = vsub (inv_boxcox (Fin y) (Fin l)) (Fin 1).
Proof. exact P_fun.inv_boxcox1p_inv_boxcox. Qed.
Print Assumptions C16_inv_boxcox1p.
Theorem C16_boxcox_increasing : forall x y l, 0 < x -> x < y ->
  exists a b, boxcox (Fin x) (Fin l) = Fin a /\ boxcox (Fin y) (Fin l) = Fin b /\ a < b.
Proof. exact P_fun.boxcox_incr. Qed.
Print Assumptions C16_boxcox_increasing.
Theorem C16_out_of_range : forall y l, l * y <= -1 ->
  inv_boxcox (Fin y) (Fin l) = Exc ValueError /\ inv_boxcox1p (Fin y) (Fin l) = Exc ValueError.
Proof. exact P_fun.inv_boxcox_bad. Qed.
Print Assumptions C16_out_of_range.
Example C16_instance : 0 < 3 /\ -1 < (-2) * (-1/3) /\ (-2) * 1 <= -1. Proof. lra. Qed.

(** ** C17 *)
Theorem C17_roundtrip : forall x l,
  exists y, yeojohnson (Fin x) (Fin l) = Fin y /\ inv_yeojohnson (Fin y) (Fin l) = Fin x.
Proof. exact P_fun.yj_inv. Qed.
Print Assumptions C17_roundtrip.
Theorem C17_sign : forall x l, exists y, yeojohnson (Fin x) (Fin l) = Fin y /\
  (0 < x -> 0 < y) /\ (x = 0 -> y = 0) /\ (x < 0 -> y < 0).
Proof. exact (fun x l => ex_intro _ _ (conj (P_fun.yj_fin x l) (P_fun.yj_sign l x))). Qed.
Print Assumptions C17_sign.
Theorem C17_increasing : forall x x' l, x < x' ->
  exists y y', yeojohnson (Fin x) (Fin l) = Fin y /\ yeojohnson (Fin x') (Fin l) = Fin y' /\ y < y'.
Proof.
  exact (fun x x' l H => ex_intro _ _ (ex_intro _ _ (conj (P_fun.yj_fin x l)
    (conj (P_fun.yj_fin x' l) (P_fun.yj_incr l x x' H))))).
Qed.
Print Assumptions C17_increasing.
Theorem C17_reflection : forall x l, exists y,
  yeojohnson (Fin x) (Fin l) = Fin y /\ yeojohnson (Fin (- x)) (Fin (2 - l)) = Fin (- y).
Proof.
  exact (fun x l => ex_intro _ _ (conj (P_fun.yj_fin x l)
    (eq_trans (P_fun.yj_fin (- x) (2 - l)) (f_equal Fin (P_fun.yj_reflect l x))))).
Qed.
Print Assumptions C17_reflection.
Example C17_instance : yeojohnson (Fin (-1)) (Fin 3) = Fin (- (1/2)).
Proof.
  rewrite P_fun.yj_fin. unfold P_fun.yj, P_fun.bc. destruct (Rle_dec 0 (-1)); [lra|].
  destruct (Req_EM_T (2 - 3) 0); [lra|]. f_equal. replace (1 - -1) with 2 by ring.
  replace (2 - 3) with (- (1)) by ring. rewrite Rpower_Ropp, Rpower_1 by lra. field.
Qed.

(** ** C18 *)
Theorem C18_nan : forall x y, isnum x -> isnum y -> x = NaN \/ y = NaN ->
  xlogy x y = NaN /\ xlog1py x y = NaN.
Proof. exact P_fun.xlogy_nan. Qed.
Print Assumptions C18_nan.
Theorem C18_zero : forall y, isnum y -> y <> NaN -> xlogy (Fin 0) y = Fin 0 /\ xlog1py (Fin 0) y = Fin 0.
Proof. exact P_fun.xlogy_zero. Qed.
Print Assumptions C18_zero.
Theorem C18_finite : forall x y, 0 < y -> xlogy (Fin x) (Fin y) = Fin (x * ln y).
Proof. exact P_fun.xlogy_fin'. Qed.
Print Assumptions C18_finite.
Theorem C18_limits : forall x,
  (0 < x -> xlogy (Fin x) (Fin 0) = NInf /\ xlogy (Fin x) PInf = PInf) /\
  (x < 0 -> xlogy (Fin x) (Fin 0) = PInf /\ xlogy (Fin x) PInf = NInf).
Proof.
  exact (fun x => conj
    (fun H => conj (proj1 (P_fun.xlogy_log0 x) H) (proj1 (P_fun.xlogy_inf x) H))
    (fun H => conj (proj2 (P_fun.xlogy_log0 x) H) (proj2 (P_fun.xlogy_inf x) H))).
Qed.
Print Assumptions C18_limits.
Theorem C18_xlog1py : forall x y, isnum x -> isnum y -> xlog1py x y = xlogy x (vadd (Fin 1) y).
Proof. exact P_fun.xlog1py_xlogy. Qed.
Print Assumptions C18_xlog1py.
Example C18_instance : xlogy (Fin 0) NInf = Fin 0 /\ xlogy (Fin 0) (Fin (-3)) = Fin 0.
Proof. split; apply C18_zero; try discriminate; repeat constructor. Qed.

(** ** C19 *)
Theorem C19_pow1pm1 : forall x y, -1 < x -> pow1pm1 (Fin x) (Fin y) = Fin (Rpower (1 + x) y - 1).
Proof. exact P_fun.pow1pm1_fin. Qed.
Print Assumptions C19_pow1pm1.
Theorem C19_inverse_left : forall x y, y <> 0 ->
  (-1 < x -> exists t, pow1pm1 (Fin x) (Fin y) = Fin t /\ inv_pow1pm1 (Fin t) (Fin y) = Fin x) /\
  (0 < x -> exists t, vpowm1 (Fin x) (Fin y) = Fin t /\ inv_powm1 (Fin t) (Fin y) = Fin x).
Proof.
  exact (fun x y N => conj (fun H => P_fun.inv_pow1pm1_left x y H N) (fun H => P_fun.inv_powm1_left x y H N)).
Qed.
Print Assumptions C19_inverse_left.
Theorem C19_inverse_right : forall t y, -1 < t -> y <> 0 ->
  (exists x, inv_pow1pm1 (Fin t) (Fin y) = Fin x /\ -1 < x /\ pow1pm1 (Fin x) (Fin y) = Fin t) /\
  (exists x, inv_powm1 (Fin t) (Fin y) = Fin x /\ 0 < x /\ vpowm1 (Fin x) (Fin y) = Fin t).
Proof.
  exact (fun t y H N => conj (P_fun.inv_pow1pm1_right t y H N) (P_fun.inv_powm1_right t y H N)).
Qed.
Print Assumptions C19_inverse_right.
Theorem C19_errors : forall t y,
  (inv_powm1 (Fin t) (Fin y) = Exc ValueError <-> y = 0 \/ t <= -1) /\
  (inv_pow1pm1 (Fin t) (Fin y) = Exc ValueError <-> y = 0 \/ t <= -1).
Proof. exact P_fun.inv_errors. Qed.
Print Assumptions C19_errors.
Example C19_instance : inv_powm1 (Fin 3) (Fin 0) = Exc ValueError.
Proof. apply C19_errors. auto. Qed.

(** ** C20 *)
Theorem C20_logsumexp : forall l, l <> [] ->
  logsumexp (map Fin l) None = Fin (ln (fold_right Rplus 0 (map exp l))).
Proof. exact P_fun.logsumexp_plain. Qed.
Print Assumptions C20_logsumexp.
Theorem C20_weighted : forall l w, l <> [] ->
  0 < fold_right Rplus 0 (map (fun '(w, x) => w * exp x) (combine w l)) ->
  logsumexp (map Fin l) (Some (map Fin w))
  = Fin (ln (fold_right Rplus 0 (map (fun '(w, x) => w * exp x) (combine w l)))).
Proof. exact P_fun.logsumexp_weighted. Qed.
Print Assumptions C20_weighted.
Theorem C20_shift : forall l c, l <> [] -> exists s, logsumexp (map Fin l) None = Fin s /\
  logsumexp (map Fin (map (fun x => x + c) l)) None = Fin (s + c).
Proof. exact P_fun.logsumexp_shift. Qed.
Print Assumptions C20_shift.
Theorem C20_bounds : forall l, l <> [] -> exists s m, logsumexp (map Fin l) None = Fin s /\
  In m l /\ (forall x, In x l -> x <= m) /\ m <= s <= m + ln (INR (length l)).
Proof. exact P_fun.logsumexp_bounds. Qed.
Print Assumptions C20_bounds.
(** The arguments of [exp] (line 46) are never positive. *)
Theorem C20_no_overflow : forall l, l <> [] ->
  List.Forall (fun v => exists r, v = Fin r /\ r <= 0) (logsumexp_exp_args (map Fin l)).
Proof. exact P_fun.logsumexp_args. Qed.
Print Assumptions C20_no_overflow.
Theorem C20_empty : forall w, logsumexp [] w = Exc ValueError.
Proof. exact (fun _ => eq_refl). Qed.
Print Assumptions C20_empty.
Example C20_instance : [1; -2; 3] <> [] /\ 0 < fold_right Rplus 0 (map (fun '(w, x) => w * exp x) (combine [1; 2; 0] [1; -2; 3])).
Proof. split; [discriminate|]. simpl. pose proof (exp_pos 1). pose proof (exp_pos (-2)). lra. Qed.
