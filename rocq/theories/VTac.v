(** Tactics and lemmas for evaluating the model on finite values. *)
From Coq Require Import Reals Lra List Bool ZArith.
From Verif Require Import Values Spec.
Local Open Scope R_scope.

Lemma Rltb_true x y : x < y -> Rltb x y = true.
Proof. unfold Rltb; destruct (Rlt_dec x y); [reflexivity | contradiction]. Qed.
Lemma Rltb_false x y : y <= x -> Rltb x y = false.
Proof. unfold Rltb; destruct (Rlt_dec x y); [lra | reflexivity]. Qed.
Lemma Rleb_true x y : x <= y -> Rleb x y = true.
Proof. unfold Rleb; destruct (Rle_dec x y); [reflexivity | contradiction]. Qed.
Lemma Rleb_false x y : y < x -> Rleb x y = false.
Proof. unfold Rleb; destruct (Rle_dec x y); [lra | reflexivity]. Qed.
Lemma Reqb_true x y : x = y -> Reqb x y = true.
Proof. unfold Reqb; destruct (Req_EM_T x y); [reflexivity | contradiction]. Qed.
Lemma Reqb_false x y : x <> y -> Reqb x y = false.
Proof. unfold Reqb; destruct (Req_EM_T x y); [contradiction | reflexivity]. Qed.
Lemma Reqb_false_lt x y : x < y -> Reqb x y = false.
Proof. intros; apply Reqb_false; lra. Qed.
Lemma Reqb_false_gt x y : y < x -> Reqb x y = false.
Proof. intros; apply Reqb_false; lra. Qed.

Lemma Rltb_spec x y : (x < y /\ Rltb x y = true) \/ (y <= x /\ Rltb x y = false).
Proof. unfold Rltb; destruct (Rlt_dec x y); [left|right]; split; auto; lra. Qed.
Lemma Rleb_spec x y : (x <= y /\ Rleb x y = true) \/ (y < x /\ Rleb x y = false).
Proof. unfold Rleb; destruct (Rle_dec x y); [left|right]; split; auto; lra. Qed.
Lemma Reqb_spec x y : (x = y /\ Reqb x y = true) \/ (x <> y /\ Reqb x y = false).
Proof. unfold Reqb; destruct (Req_EM_T x y); [left|right]; split; auto. Qed.


(** Rewriting rules for the partial operations. *)
Lemma vdiv_Fin x y : y <> 0 -> vdiv (Fin x) (Fin y) = Fin (x / y).
Proof. intros H. simpl. rewrite Reqb_false by auto. reflexivity. Qed.
Lemma vdiv_Fin_pos x y : 0 < y -> vdiv (Fin x) (Fin y) = Fin (x / y).
Proof. intros. apply vdiv_Fin; lra. Qed.
Lemma vdiv_Fin_neg x y : y < 0 -> vdiv (Fin x) (Fin y) = Fin (x / y).
Proof. intros. apply vdiv_Fin; lra. Qed.
Lemma vdiv_0 x : vdiv (Fin x) (Fin 0) = Exc ZeroDivisionError.
Proof. simpl. rewrite Reqb_true by auto. reflexivity. Qed.
Lemma vdiv_PInf_pos y : 0 < y -> vdiv PInf (Fin y) = PInf.
Proof. intros H. simpl. unfold scale_inf. rewrite Reqb_false, Rltb_true by lra. reflexivity. Qed.
Lemma vdiv_NInf_pos y : 0 < y -> vdiv NInf (Fin y) = NInf.
Proof. intros H. simpl. unfold scale_inf. rewrite Reqb_false, Rltb_true by lra. reflexivity. Qed.
Lemma vdiv_PInf_neg y : y < 0 -> vdiv PInf (Fin y) = NInf.
Proof. intros H. simpl. unfold scale_inf. rewrite Reqb_false, Rltb_false by lra. reflexivity. Qed.
Lemma vdiv_NInf_neg y : y < 0 -> vdiv NInf (Fin y) = PInf.
Proof. intros H. simpl. unfold scale_inf. rewrite Reqb_false, Rltb_false by lra. reflexivity. Qed.
Lemma vlog_Fin x : 0 < x -> vlog (Fin x) = Fin (ln x).
Proof. intros H. simpl. rewrite Rltb_true by auto. reflexivity. Qed.
Lemma vlog_0 : vlog (Fin 0) = NInf.
Proof. simpl. rewrite Rltb_false, Reqb_true by lra. reflexivity. Qed.
Lemma vlog_0' x : x = 0 -> vlog (Fin x) = NInf.
Proof. intros ->. apply vlog_0. Qed.
Lemma vlog_neg x : x < 0 -> vlog (Fin x) = Exc NonReal.
Proof. intros H. simpl. rewrite Rltb_false, Reqb_false by lra. reflexivity. Qed.
Lemma vsqrt_Fin x : 0 <= x -> vsqrt (Fin x) = Fin (sqrt x).
Proof. intros H. simpl. rewrite Rltb_false by auto. reflexivity. Qed.
Lemma vpow_Fin x y : 0 < x -> vpow (Fin x) (Fin y) = Fin (Rpower x y).
Proof. intros H. simpl. rewrite Rltb_true by auto. reflexivity. Qed.
Lemma vpow_0_pos y : 0 < y -> vpow (Fin 0) (Fin y) = Fin 0.
Proof. intros H. simpl. rewrite Rltb_false, Reqb_true, Reqb_false, Rltb_true by lra. reflexivity. Qed.
Lemma vpow_0_0 : vpow (Fin 0) (Fin 0) = Fin 1.
Proof. simpl. rewrite Rltb_false, !Reqb_true by lra. reflexivity. Qed.
Lemma vpow_0_pos' x y : x = 0 -> 0 < y -> vpow (Fin x) (Fin y) = Fin 0.
Proof. intros ->. apply vpow_0_pos. Qed.
Lemma vpow_0_0' x y : x = 0 -> y = 0 -> vpow (Fin x) (Fin y) = Fin 1.
Proof. intros -> ->. apply vpow_0_0. Qed.
Lemma vpow_PInf_pos y : 0 < y -> vpow PInf (Fin y) = PInf.
Proof. intros H. simpl. rewrite Rltb_true by lra. reflexivity. Qed.
Lemma vpow_PInf_neg y : y < 0 -> vpow PInf (Fin y) = Fin 0.
Proof. intros H. simpl. rewrite Rltb_false, Reqb_false by lra. reflexivity. Qed.
Lemma vpown_Fin x n : vpown (Fin x) n = Fin (x ^ n).
Proof.
  destruct n as [|n]; [reflexivity|]. induction n as [|n IH].
  - simpl. f_equal. ring.
  - change (vmul (Fin x) (vpown (Fin x) (S n)) = Fin (x ^ S (S n))). rewrite IH. reflexivity.
Qed.
Lemma scale_inf_pos x v : 0 < x -> scale_inf x v = v.
Proof. intros. unfold scale_inf. rewrite Reqb_false, Rltb_true by lra. reflexivity. Qed.
Lemma scale_inf_neg x v : x < 0 -> scale_inf x v = vneg v.
Proof. intros. unfold scale_inf. rewrite Reqb_false, Rltb_false by lra. reflexivity. Qed.
Lemma scale_inf_0 v : scale_inf 0 v = NaN.
Proof. intros. unfold scale_inf. rewrite Reqb_true by lra. reflexivity. Qed.
Lemma scale_inf_0' x v : x = 0 -> scale_inf x v = NaN.
Proof. intros ->. apply scale_inf_0. Qed.
Lemma vatanh_Fin x : -1 < x < 1 -> vatanh (Fin x) = Fin (/2 * ln ((1 + x) / (1 - x))).
Proof. intros. simpl. rewrite Rltb_false, Reqb_false, Rltb_true by lra. reflexivity. Qed.
Lemma vsign_pos x : 0 < x -> vsign (Fin x) = Fin 1.
Proof. intros. simpl. rewrite Rltb_true by auto. reflexivity. Qed.
Lemma vsign_neg x : x < 0 -> vsign (Fin x) = Fin (-1).
Proof. intros. simpl. rewrite Rltb_false, Rltb_true by lra. reflexivity. Qed.
Lemma vsign_0 : vsign (Fin 0) = Fin 0.
Proof. simpl. rewrite !Rltb_false by lra. reflexivity. Qed.

Ltac side := first [ assumption | lra ].

(** Arithmetic on known arguments, innermost first. *)
Ltac vconv t := let t' := eval cbv beta iota zeta delta
   [vadd vsub vneg vmul vdiv vexp vexpm1 vlog vsqrt vpow vabs vsign vtanh vsinh vcosh vsin vcos
    vtan vatan vatanh vceil vfloor visnan visinf vpown bindv] in t in
   lazymatch t' with
   | Fin _ => change t with t' | PInf => change t with t' | NInf => change t with t'
   | NaN => change t with t' | Exc _ => change t with t'
   | CB _ => change t with t' | CE _ => change t with t'
   | scale_inf _ _ => change t with t'
   end.
Ltac varith1 :=
  match goal with
  | |- context [vadd (Fin ?x) (Fin (- ?y))] => change (vadd (Fin x) (Fin (- y))) with (Fin (x - y))
  | |- context [vadd (Fin ?x) (Fin ?y)] => change (vadd (Fin x) (Fin y)) with (Fin (x + y))
  | |- context [vsub (Fin ?x) (Fin ?y)] => change (vsub (Fin x) (Fin y)) with (Fin (x - y))
  | |- context [vmul (Fin ?x) (Fin ?y)] => change (vmul (Fin x) (Fin y)) with (Fin (x * y))
  | |- context [vneg (Fin ?x)] => change (vneg (Fin x)) with (Fin (- x))
  | |- context [vneg PInf] => change (vneg PInf) with NInf
  | |- context [vneg NInf] => change (vneg NInf) with PInf
  | |- context [vneg NaN] => change (vneg NaN) with NaN
  | |- context [vexp (Fin ?x)] => change (vexp (Fin x)) with (Fin (exp x))
  | |- context [vexpm1 (Fin ?x)] => change (vexpm1 (Fin x)) with (Fin (exp x - 1))
  | |- context [vabs (Fin ?x)] => change (vabs (Fin x)) with (Fin (Rabs x))
  | |- context [vpown (Fin ?x) ?n] => rewrite (vpown_Fin x n)
  | |- context [vtanh (Fin ?x)] => change (vtanh (Fin x)) with (Fin (tanh x))
  | |- context [vsinh (Fin ?x)] => change (vsinh (Fin x)) with (Fin (sinh x))
  | |- context [vcosh (Fin ?x)] => change (vcosh (Fin x)) with (Fin (cosh x))
  | |- context [vsin (Fin ?x)] => change (vsin (Fin x)) with (Fin (sin x))
  | |- context [vcos (Fin ?x)] => change (vcos (Fin x)) with (Fin (cos x))
  | |- context [vtan (Fin ?x)] => change (vtan (Fin x)) with (Fin (tan x))
  | |- context [vatan (Fin ?x)] => change (vatan (Fin x)) with (Fin (atan x))
  | |- context [vpi] => unfold vpi
  | |- context [vlog1p ?x] => change (vlog1p x) with (vlog (vadd (Fin 1) x))
  | |- context [vpowm1 ?x ?y] => change (vpowm1 x y) with (vsub (vpow x y) (Fin 1))
  | |- context [vexp ?x] => vconv (vexp x)
  | |- context [vexpm1 ?x] => vconv (vexpm1 x)
  | |- context [vadd ?x ?y] => vconv (vadd x y)
  | |- context [vsub ?x ?y] => vconv (vsub x y)
  | |- context [vmul ?x ?y] => vconv (vmul x y)
  | |- context [vdiv ?x ?y] => vconv (vdiv x y)
  | |- context [vpow ?x ?y] => vconv (vpow x y)
  | |- context [vlog ?x] => vconv (vlog x)
  | |- context [vsqrt ?x] => vconv (vsqrt x)
  | |- context [vatan ?x] => vconv (vatan x)
  | |- context [vtanh ?x] => vconv (vtanh x)
  | |- context [vsinh ?x] => vconv (vsinh x)
  | |- context [vcosh ?x] => vconv (vcosh x)
  | |- context [vsin ?x] => vconv (vsin x)
  | |- context [vcos ?x] => vconv (vcos x)
  | |- context [vabs ?x] => vconv (vabs x)
  | |- context [vneg ?x] => vconv (vneg x)
  | |- context [vpown ?x ?n] => vconv (vpown x n)
  | |- context [bindv (Fin ?x) ?f] => change (bindv (Fin x) f) with (f (Fin x)); cbv beta
  | |- context [visnan ?x] => vconv (visnan x)
  | |- context [visinf ?x] => vconv (visinf x)
  end.
Ltac vpart1 :=
  match goal with
  | |- context [vdiv (Fin ?x) (Fin ?y)] =>
      first [rewrite (vdiv_Fin_pos x y) by side | rewrite (vdiv_Fin_neg x y) by side
            | rewrite (vdiv_Fin x y) by side]
  | |- context [vdiv PInf (Fin ?y)] =>
      first [rewrite (vdiv_PInf_pos y) by side | rewrite (vdiv_PInf_neg y) by side]
  | |- context [vdiv NInf (Fin ?y)] =>
      first [rewrite (vdiv_NInf_pos y) by side | rewrite (vdiv_NInf_neg y) by side]
  | |- context [vlog (Fin ?x)] => first [rewrite (vlog_Fin x) by side | rewrite (vlog_0' x) by side | rewrite (vlog_neg x) by side]
  | |- context [vsqrt (Fin ?x)] => rewrite (vsqrt_Fin x) by side
  | |- context [vpow (Fin ?x) (Fin ?y)] =>
      first [rewrite (vpow_Fin x y) by side | rewrite (vpow_0_pos' x y) by side | rewrite (vpow_0_0' x y) by side]
  | |- context [vpow PInf (Fin ?y)] =>
      first [rewrite (vpow_PInf_pos y) by side | rewrite (vpow_PInf_neg y) by side]
  | |- context [scale_inf ?x ?v] =>
      first [rewrite (scale_inf_pos x v) by side; try vconv (vneg v)
            | rewrite (scale_inf_neg x v) by side; vconv (vneg v)
            | rewrite (scale_inf_0' x v) by side]
  | |- context [vatanh (Fin ?x)] => rewrite (vatanh_Fin x) by side
  | |- context [vsign (Fin ?x)] => first [rewrite (vsign_pos x) by side | rewrite (vsign_neg x) by side]
  end.
Ltac varith := repeat first [varith1 | vpart1].

(** Conditions: decide real comparisons when linear arithmetic settles them. *)
Ltac cconv :=
  cbv beta iota zeta delta [cmp clt cle cgt cge ceq cne cor cand cnot ltb leb eqb negb visnan visinf].
Ltac vdec1 :=
  match goal with
  | |- context [Rltb ?a ?b] =>
      first [ rewrite (Rltb_true a b) by side | rewrite (Rltb_false a b) by side ]
  | |- context [Rleb ?a ?b] =>
      first [ rewrite (Rleb_true a b) by side | rewrite (Rleb_false a b) by side ]
  | |- context [Reqb ?a ?b] =>
      first [ rewrite (Reqb_true a b) by side
            | rewrite (Reqb_false_lt a b) by side
            | rewrite (Reqb_false_gt a b) by side
            | rewrite (Reqb_false a b) by side ]
  end.
Ltac vsplit1 :=
  match goal with
  | |- context [Rltb ?a ?b] => destruct (Rltb_spec a b) as [[? ->]|[? ->]]
  | |- context [Rleb ?a ?b] => destruct (Rleb_spec a b) as [[? ->]|[? ->]]
  | |- context [Reqb ?a ?b] => destruct (Reqb_spec a b) as [[? ->]|[? ->]]
  end.
Lemma cif_eq {A} `{CanRaise A} (c d : cond) (t e : A) : c = d -> cif c t e = cif d t e.
Proof. now intros ->. Qed.
(** Resolve the outermost [if]. *)
Ltac ccond := varith; cconv; repeat (vdec1; cconv); reflexivity.
Ltac vif1 :=
  match goal with
  | |- context [@cif ?A ?I ?c ?t ?e] =>
      let H := fresh in
      first
      [ assert (H : c = CB true) by ccond;
        rewrite (cif_eq c (CB true) t e H); clear H; change (@cif A I (CB true) t e) with t
      | assert (H : c = CB false) by ccond;
        rewrite (cif_eq c (CB false) t e H); clear H; change (@cif A I (CB false) t e) with e
      | assert (H : exists x, c = CE x) by (eexists; ccond);
        destruct H as [? H]; rewrite (cif_eq c _ t e H); clear H ]
  end.
Ltac vif := repeat (cbv zeta; vif1); cbv zeta.
Ltac veval := repeat (progress (vif; varith)).
(** Same, splitting when a condition is not settled. *)
Ltac undecided P Q :=
  assert_fails (assert P by side); assert_fails (assert Q by side).
Ltac csplit c :=
  let c' := eval cbv beta iota zeta delta
     [cmp clt cle cgt cge ceq cne cor cand cnot ltb leb eqb negb visnan visinf] in c in
  match c' with
  | context [Rltb ?a ?b] => undecided (a < b) (b <= a); destruct (Rlt_le_dec a b)
  | context [Rleb ?a ?b] => undecided (a <= b) (b < a); destruct (Rle_lt_dec a b)
  | context [Reqb ?a ?b] => undecided (a = b) (a <> b); destruct (Req_EM_T a b)
  end.
Ltac vcase1 :=
  match goal with |- context [cif ?c ?t ?e] => csplit c end.
Ltac vcases := repeat (cbv zeta; first [vif1 | vcase1 | varith1 | vpart1]).

(** Proofs that every function of a list rejects bad parameters. *)
Ltac numcases :=
  repeat match goal with
  | H : isnum _ |- _ => destruct H as [? []|]
  | H : nonpositive _ |- _ => unfold nonpositive in H
  | H : ext_le _ _ |- _ => inversion H; subst; clear H
  | H : ext (Exc _) |- _ => inversion H
  | H : ext NaN |- _ => inversion H
  | H : _ \/ _ |- _ => destruct H
  | H : _ /\ _ |- _ => destruct H
  end.
Ltac all_ve := unfold always_ValueError;
  repeat match goal with |- Forall _ _ => constructor end.
