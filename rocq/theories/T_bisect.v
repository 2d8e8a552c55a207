(** C25: mp_bisect and betaincinv. *)
From Coq Require Import Reals Lra ZArith Lia.
From Verif Require Import Values VTac SpecGrid M_sfun M_bisect.
From Verif Require P_bisect IncLib.
Local Open Scope R_scope.

Lemma rep2 prec : representable prec 2.
Proof. exists 1%Z, 1%Z. split; [apply (Z.pow_gt_1 2); lia|simpl; ring]. Qed.

(** The end points and the sign test, for every function and bracket of representable numbers. *)
Theorem C25_ends_and_signs : forall (fuel : nat) (prec : positive) (func : val -> val) (x0 x1 y0 y1 : R),
  representable prec x0 -> representable prec x1 -> func (Fin x0) = Fin y0 -> func (Fin x1) = Fin y1 ->
  (y0 = 0 -> mp_bisect fuel prec func (Fin x0) (Fin x1) = Fin x0) /\
  (y0 <> 0 -> y1 = 0 -> mp_bisect fuel prec func (Fin x0) (Fin x1) = Fin x1) /\
  (0 < y0 * y1 -> mp_bisect fuel prec func (Fin x0) (Fin x1) = Exc ValueError).
Proof. exact P_bisect.bisect_ends. Qed.
Print Assumptions C25_ends_and_signs.
Example C25_ends_and_signs_instance := proj2 (proj2 (C25_ends_and_signs 0 53 (fun v => v) 1 2 1 2
  (P_bisect.F_1 53) (rep2 53) eq_refl eq_refl)) ltac:(lra).

(** For every precision, every function (continuous or not) that takes nonzero values of opposite sign at
    the ends of a nonnegative bracket, and that keeps its sign close to 0 if the bracket starts there: the
    loop terminates (from some fuel on, always with the same result), inside the bracket, at an exact zero
    or at one of two neighbouring representable numbers between which the function changes sign in the same
    way as over the bracket. *)
Theorem C25_bisect_partial : forall (prec : positive) (func : val -> val) (f : R -> R) (x0 x1 : R),
  (forall x, representable prec x -> x0 <= x <= x1 -> func (Fin x) = Fin (f x)) ->
  representable prec x0 -> representable prec x1 -> 0 <= x0 < x1 -> f x0 * f x1 < 0 ->
  (x0 = 0 -> exists eps, 0 < eps /\ forall x, 0 < x < eps -> 0 < f 0 * f x) ->
  exists r N, (forall fuel, (N < fuel)%nat -> mp_bisect fuel prec func (Fin x0) (Fin x1) = Fin r) /\
    x0 <= r <= x1 /\ representable prec r /\
    (f r = 0 \/ exists l h, x0 <= l /\ h <= x1 /\ neighbours prec l h /\ (r = l \/ r = h) /\ 0 < f l * f x0 /\ 0 < f h * f x1).
Proof. exact P_bisect.bisect_ok. Qed.
Print Assumptions C25_bisect_partial.
Lemma near0 : exists eps, 0 < eps /\ forall x, 0 < x < eps -> 0 < (0 * 0 - 2) * (x * x - 2).
Proof. exists 1. split; [lra|]. intros x H. nra. Qed.
(** An instance: the square root of 2 by bisection of x^2 - 2 on [0, 2] with 53 bits. *)
Example C25_bisect_partial_instance := C25_bisect_partial 53 (fun v => vsub (vmul v v) (Fin 2)) (fun x => x * x - 2) 0 2
  (fun _ _ _ => eq_refl) (P_bisect.F_0 53) (rep2 53)
  ltac:(lra) ltac:(lra) (fun _ => near0).

(** Not for every bracket: bisecting the identity from [-1, 2] never stops, whatever the precision, because
    the exponents are unbounded and the midpoints approach 0 from both sides without reaching it. *)
Theorem C25_bisect_refuted : forall (fuel : nat) (prec : positive),
  mp_bisect fuel prec (fun x => x) (Fin (-1)) (Fin 2) = Exc NonTermination.
Proof. exact P_bisect.bisect_straddling_zero. Qed.
Print Assumptions C25_bisect_refuted.
Example C25_bisect_refuted_instance := C25_bisect_refuted 1000 53.

(** betaincinv(a, b, y, method='bisect') terminates for all a, b > 0 and 0 < y < 1, at every precision, at
    an exact inverse or at one of two neighbouring representable numbers that enclose it. *)
Theorem C25_betaincinv : forall (prec : positive) (findroot : (val -> val) -> val -> val) (a b y : R),
  0 < a -> 0 < b -> 0 < y < 1 ->
  exists r N, (forall fuel, (N < fuel)%nat -> betaincinv fuel prec findroot (Fin a) (Fin b) (Fin y) Bisect false = Fin r) /\
    0 <= r <= 1 /\ representable prec r /\
    (vbetainc_lower (Fin a) (Fin b) (Fin r) = Fin y \/
     exists l h vl vh, neighbours prec l h /\ (r = l \/ r = h) /\ vbetainc_lower (Fin a) (Fin b) (Fin l) = Fin vl /\
       vbetainc_lower (Fin a) (Fin b) (Fin h) = Fin vh /\ vl < y < vh).
Proof. exact P_bisect.betaincinv_lower. Qed.
Print Assumptions C25_betaincinv.
Example C25_betaincinv_instance := C25_betaincinv 100 (fun _ _ => NaN) (1/1000) 2500 (995/1000) ltac:(lra) ltac:(lra) ltac:(lra).
Theorem C25_betaincinv_complement : forall (prec : positive) (findroot : (val -> val) -> val -> val) (a b y : R),
  0 < a -> 0 < b -> 0 < y < 1 ->
  exists r N, (forall fuel, (N < fuel)%nat -> betaincinv fuel prec findroot (Fin a) (Fin b) (Fin y) Bisect true = Fin r) /\
    0 <= r <= 1 /\ representable prec r /\
    (vbetainc_upper (Fin a) (Fin b) (Fin r) = Fin y \/
     exists l h vl vh, neighbours prec l h /\ (r = l \/ r = h) /\ vbetainc_upper (Fin a) (Fin b) (Fin l) = Fin vl /\
       vbetainc_upper (Fin a) (Fin b) (Fin h) = Fin vh /\ vh < y < vl).
Proof. exact P_bisect.betaincinv_upper. Qed.
Print Assumptions C25_betaincinv_complement.
Example C25_betaincinv_complement_instance := C25_betaincinv_complement 100 (fun _ _ => NaN) (1/1000) 2500 (995/1000) ltac:(lra) ltac:(lra) ltac:(lra).

(** The values at and beyond the ends of [0, 1], an unknown method, and a bracket without a sign change. *)
Theorem C25_betaincinv_edges : forall (fuel : nat) (prec : positive) (findroot : (val -> val) -> val -> val) (a b : val) (y : R) (m : method),
  (y < 0 \/ 1 < y -> forall c, betaincinv fuel prec findroot a b (Fin y) m c = NaN) /\
  betaincinv fuel prec findroot a b (Fin 0) m false = Fin 0 /\ betaincinv fuel prec findroot a b (Fin 0) m true = Fin 1 /\
  betaincinv fuel prec findroot a b (Fin 1) m false = Fin 1 /\ betaincinv fuel prec findroot a b (Fin 1) m true = Fin 0.
Proof. exact P_bisect.betaincinv_edges. Qed.
Print Assumptions C25_betaincinv_edges.
Example C25_betaincinv_edges_instance := proj1 (C25_betaincinv_edges 0 53 (fun _ _ => NaN) (Fin 2) (Fin 3) (3/2) Bisect) ltac:(right; lra) true.
Theorem C25_betaincinv_method : forall (fuel : nat) (prec : positive) (findroot : (val -> val) -> val -> val) (a b y : R) (c : bool),
  0 < y < 1 -> betaincinv fuel prec findroot (Fin a) (Fin b) (Fin y) OtherMethod c = Exc ValueError.
Proof. exact P_bisect.betaincinv_method. Qed.
Print Assumptions C25_betaincinv_method.
Example C25_betaincinv_method_instance := C25_betaincinv_method 0 53 (fun _ _ => NaN) 2 3 (1/2) false ltac:(lra).
Theorem C25_betaincinv_bracket : forall (fuel : nat) (prec : positive) (findroot : (val -> val) -> val -> val) (a b y xa xb va vb : R),
  0 < a -> 0 < b -> 0 < y < 1 -> representable prec xa -> representable prec xb ->
  vbetainc_lower (Fin a) (Fin b) (Fin xa) = Fin va -> vbetainc_lower (Fin a) (Fin b) (Fin xb) = Fin vb ->
  (va < y /\ vb < y) \/ (y < va /\ y < vb) ->
  betaincinv fuel prec findroot (Fin a) (Fin b) (Fin y) (BisectFrom (Fin xa) (Fin xb)) false = Exc RuntimeError.
Proof. exact P_bisect.betaincinv_bracket. Qed.
Print Assumptions C25_betaincinv_bracket.
(** An instance: a = b = 1, the bracket [1/2, 1] and y = 1/4. *)
Lemma uniform_half : vbetainc_lower (Fin 1) (Fin 1) (Fin (1/2)) = Fin (1/2).
Proof.
  rewrite P_bisect.low_eval by lra. unfold P_bisect.Ifull. rewrite !Reqb_false by lra. rewrite IncLib.Ireg_1 by lra. now rewrite Rpower_1 by lra.
Qed.
Lemma uniform_one : vbetainc_lower (Fin 1) (Fin 1) (Fin 1) = Fin 1.
Proof. rewrite P_bisect.low_eval by lra. now rewrite P_bisect.If_1. Qed.
Example C25_betaincinv_bracket_instance := C25_betaincinv_bracket 9 53 (fun _ _ => NaN) 1 1 (1/4) (1/2) 1 (1/2) 1
  ltac:(lra) ltac:(lra) ltac:(lra) (P_bisect.F_half 53 1 (P_bisect.F_1 53)) (P_bisect.F_1 53) uniform_half uniform_one ltac:(right; split; lra).
Theorem C25_betaincinv_findroot : forall (fuel : nat) (prec : positive) (findroot : (val -> val) -> val -> val) (a b y r : R) (c : bool),
  0 < y < 1 -> findroot (betainc_func (Fin a) (Fin b) (Fin y) c) (Fin (1/2)) = Fin r ->
  betaincinv fuel prec findroot (Fin a) (Fin b) (Fin y) Findroot c = if Rltb r 0 then Exc RuntimeError else Fin r.
Proof. exact P_bisect.betaincinv_findroot. Qed.
Print Assumptions C25_betaincinv_findroot.
Example C25_betaincinv_findroot_instance := C25_betaincinv_findroot 0 53 (fun _ _ => Fin (1/3)) 2 3 (1/2) (1/3) false ltac:(lra) eq_refl.
