(** Properties of mpsci.distributions.fun2 (generated by tools/mkthm.py). *)
From Coq Require Import Reals Lra List.
From Coquelicot Require Import Coquelicot.
From Verif Require Import Values Spec SpecStat SpecEst VTac TTac DistLib.
From Verif Require Import SpecDisc SpecInt SpecMulti.
From Coq Require Import Lia.
From Verif Require Import SpecFun2 SpecInv.
From Verif Require Import M_fun2.
From Verif Require P_fun2.
Import ListNotations.
Local Open Scope R_scope.

(** C76: the sum of the series, in every branch: z = 0, rho = 0, rho = 1 and the general one. *)
Theorem C76_fun2_series : forall z rho beta,
  0 <= rho -> 0 < beta -> (rho = 1 -> 0 <= z) ->
  exists v, wright_bessel (Fin z) (Fin rho) (Fin beta) = Fin v /\ is_series (wright_term z rho beta) v.
Proof. first [exact P_fun2.wright_ok | intros; apply P_fun2.wright_ok; assumption]. Qed.
Print Assumptions C76_fun2_series.
Example C76_fun2_series_instance := C76_fun2_series  (1/2) 1 2 ltac:(inst) ltac:(inst) (fun _ => ltac:(lra)).

(** C76: rho <= -1 is rejected. *)
Theorem C76_fun2_validate : forall z rho beta,
  rho <= -1 -> wright_bessel z (Fin rho) beta = Exc ValueError.
Proof. first [exact P_fun2.wright_bad | intros; apply P_fun2.wright_bad; assumption]. Qed.
Print Assumptions C76_fun2_validate.
Example C76_fun2_validate_instance := C76_fun2_validate  (Fin 1) (-1) (Fin 1) ltac:(inst).

(** C77: the value is n/x^n times the integral of t^n/(e^t - 1) over (0, x), and lies between x/(e^x - 1) and 1. *)
Theorem C77_fun2_integral : forall x (n : Z),
  (1 <= n)%Z -> 0 < x ->
  exists I, integrates_to (fun t => t ^ Z.to_nat n / (exp t - 1)) 0 x I /\
    debye (Fin x) n = Fin (IZR n / x ^ Z.to_nat n * I) /\
    x / (exp x - 1) < IZR n / x ^ Z.to_nat n * I < 1.
Proof. first [exact P_fun2.debye_ok | intros; apply P_fun2.debye_ok; assumption]. Qed.
Print Assumptions C77_fun2_integral.
Example C77_fun2_integral_instance := C77_fun2_integral  2 3%Z ltac:(lia) ltac:(inst).

(** C77: strictly decreasing on [0, inf). *)
Theorem C77_fun2_decreasing : forall x y (n : Z),
  (1 <= n)%Z -> 0 <= x -> x < y ->
  exists a b, debye (Fin x) n = Fin a /\ debye (Fin y) n = Fin b /\ b < a.
Proof. first [exact P_fun2.debye_dec | intros; apply P_fun2.debye_dec; assumption]. Qed.
Print Assumptions C77_fun2_decreasing.
Example C77_fun2_decreasing_instance := C77_fun2_decreasing  0 2 3%Z ltac:(lia) ltac:(inst) ltac:(inst).

(** C77: the value at 0 is the limit. *)
Theorem C77_fun2_zero : forall (n : Z),
  (1 <= n)%Z -> debye (Fin 0) n = Fin 1 /\
  forall eps, 0 < eps -> exists delta, 0 < delta /\ forall x, 0 < x < delta -> exists d, debye (Fin x) n = Fin d /\ Rabs (d - 1) < eps.
Proof. first [exact P_fun2.debye_0 | intros; apply P_fun2.debye_0; assumption]. Qed.
Print Assumptions C77_fun2_zero.
Example C77_fun2_zero_instance := C77_fun2_zero  3%Z ltac:(lia).

(** C77: the value at infinity. *)
Theorem C77_fun2_inf : forall (n : Z),
  (1 <= n)%Z -> debye PInf n = Fin 0.
Proof. first [exact P_fun2.debye_inf | intros; apply P_fun2.debye_inf; assumption]. Qed.
Print Assumptions C77_fun2_inf.
Example C77_fun2_inf_instance := C77_fun2_inf  3%Z ltac:(lia).

(** C77: n < 1 is rejected. *)
Theorem C77_fun2_validate : forall x (n : Z),
  (n < 1)%Z -> debye x n = Exc ValueError.
Proof. first [exact P_fun2.debye_bad | intros; apply P_fun2.debye_bad; assumption]. Qed.
Print Assumptions C77_fun2_validate.
Example C77_fun2_validate_instance := C77_fun2_validate  (Fin 1) 0%Z ltac:(lia).

(** C78: the value is the probabilists polynomial He_n. *)
Theorem C78_fun2 : forall n x,
  hermite_e n (Fin x) = Fin (He n x).
Proof. first [exact P_fun2.hermite_ok | intros; apply P_fun2.hermite_ok; assumption]. Qed.
Print Assumptions C78_fun2.
Example C78_fun2_instance := C78_fun2  3%nat 2.

(** C79: n = 1, 2, 3: the nodes are the roots of P_n and the rule is exact for polynomials of degree at most 2n - 1. *)
Theorem C79_fun2_exact_partial : forall fr n,
  (1 <= n <= 3)%nat ->
  exists xs ws, roots_legendre fr n = Ok (map Fin xs, map Fin ws) /\ length xs = n /\ length ws = n /\
    (forall x, In x xs -> legendre n x = 0) /\
    forall c, is_RInt (poly c (2 * n - 1)) (-1) 1 (rule xs ws (poly c (2 * n - 1))).
Proof. first [exact P_fun2.legendre_small | intros; apply P_fun2.legendre_small; assumption]. Qed.
Print Assumptions C79_fun2_exact_partial.
Example C79_fun2_exact_partial_instance := C79_fun2_exact_partial  (fun _ _ => NaN) 3%nat ltac:(lia).

(** C79: n >= 4: n nodes, each a root of P_n, symmetric about 0, each with weight 2/((1 - x^2) P_n'(x)^2). *)
Theorem C79_fun2_nodes_partial : forall fr n xs ws,
  checked_solver1 fr -> (4 <= n)%nat -> roots_legendre fr n = Ok (map Fin xs, map Fin ws) ->
  length xs = n /\ (forall x, In x xs -> legendre n x = 0) /\ map Ropp xs = rev xs /\
  ws = map (fun x => 2 / ((1 - x ^ 2) * Derive (legendre n) x ^ 2)) xs.
Proof. first [exact P_fun2.legendre_big | intros; apply P_fun2.legendre_big; assumption]. Qed.
Print Assumptions C79_fun2_nodes_partial.
Example C79_fun2_nodes_partial_instance : exists fr r1 r2 ws, checked_solver1 fr /\ 0 < r2 < r1 /\ roots_legendre fr 4 = Ok (map Fin [- r1; - r2; r2; r1], map Fin ws).
Proof. exact P_fun2.leg4_case. Qed.

(** C80: the three-term recurrence. *)
Theorem C80_fun2_recurrence : forall n z,
  -1 / 2 < n -> 0 < z -> exists a b c,
  spherical_besseli (Fin (n - 1)) (Fin z) = Fin a /\ spherical_besseli (Fin n) (Fin z) = Fin b /\ spherical_besseli (Fin (n + 1)) (Fin z) = Fin c /\
  a - c = (2 * n + 1) / z * b.
Proof. first [exact P_fun2.sph_rec | intros; apply P_fun2.sph_rec; assumption]. Qed.
Print Assumptions C80_fun2_recurrence.
Example C80_fun2_recurrence_instance := C80_fun2_recurrence  2 3 ltac:(inst) ltac:(inst).

(** C80: the values of order 0 and -1, from which the recurrence gives every integer order. *)
Theorem C80_fun2_base : forall z,
  0 < z -> spherical_besseli (Fin 0) (Fin z) = Fin (sinh z / z) /\ spherical_besseli (Fin (-1)) (Fin z) = Fin (cosh z / z).
Proof. first [exact P_fun2.sph_base | intros; apply P_fun2.sph_base; assumption]. Qed.
Print Assumptions C80_fun2_base.
Example C80_fun2_base_instance := C80_fun2_base  3 ltac:(inst).

