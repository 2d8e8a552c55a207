(** C54 and the moments (C43) of the noncentral t distribution. *)
From Coq Require Import Reals Lra Lia List ZArith.
From Coquelicot Require Import Coquelicot.
From Verif Require Import Values Spec SpecStat SFun M_nct.
From Verif Require P_nct GammaLib2.
Import ListNotations.
Local Open Scope R_scope.

(** C54: the k-th list has k + 1 entries, is monic, and exp(x^2/2) times the polynomial is the k-th
    derivative of exp(x^2/2). *)
Theorem C54_nct_poly_coeffs : forall k, length (poly_coeffs k) = S k /\ nth k (poly_coeffs k) 0%Z = 1%Z /\
  forall x, is_derive_n (fun x => exp (x ^ 2 / 2)) k x
    (exp (x ^ 2 / 2) * sum (map (fun i => IZR (nth i (poly_coeffs k) 0%Z) * x ^ i) (seq 0 (S k)))).
Proof. exact P_nct.coeffs_ok. Qed.
Print Assumptions C54_nct_poly_coeffs.
Example C54_nct_poly_coeffs_instance : poly_coeffs 6 = [15; 0; 45; 0; 15; 0; 1]%Z.
Proof. reflexivity. Qed.

(** C43: with Z standard normal and V chi-square with df degrees of freedom, independent, the
    noncentral t variable is (Z + nc)/sqrt(V/df), whose n-th moment is the product of
    E(Z + nc)^n and E(V/df)^(-n/2). *)
Theorem C43_nct_moments : forall n df nc, INR n < df -> 0 < df ->
  exists a b, noncentral_moment n (Fin df) (Fin nc) = Fin (a * b) /\
  integrates_to (fun z => (z + nc) ^ n * (exp (- z ^ 2 / 2) / sqrt (2 * PI))) m_infty p_infty a /\
  integrates_to (fun v => Rpower (v / df) (- INR n / 2) * (Rpower v (df / 2 - 1) * exp (- v / 2) / (Rpower 2 (df / 2) * Gamma (df / 2)))) 0 p_infty b.
Proof. exact P_nct.moment_ok. Qed.
Print Assumptions C43_nct_moments.
Example C43_nct_moments_instance := C43_nct_moments 3 4 (-2) ltac:(simpl; lra) ltac:(lra).
(** The moment does not exist from order df on: nan. *)
Theorem C43_nct_moments_nan : forall n df nc, df <= INR n -> noncentral_moment n (Fin df) (Fin nc) = NaN.
Proof. exact P_nct.moment_nan. Qed.
Print Assumptions C43_nct_moments_nan.
Example C43_nct_moments_nan_instance := C43_nct_moments_nan 3 3 (-2) ltac:(simpl; lra).
(** The mean, for nc > 0 ... *)
Theorem C43_nct_mean_partial : forall df nc, 1 < df -> 0 < nc -> mean (Fin df) (Fin nc) = noncentral_moment 1 (Fin df) (Fin nc).
Proof. exact P_nct.mean_ok. Qed.
Print Assumptions C43_nct_mean_partial.
Example C43_nct_mean_partial_instance := C43_nct_mean_partial 3 2 ltac:(lra) ltac:(lra).
(** ... but for nc < 0 the code takes the logarithm of a negative number and the result is not real. *)
Theorem C43_nct_mean_refuted : forall df nc, nc < 0 -> mean (Fin df) (Fin nc) = Exc NonReal.
Proof. exact P_nct.mean_nonpos. Qed.
Print Assumptions C43_nct_mean_refuted.
Example C43_nct_mean_refuted_instance := C43_nct_mean_refuted 3 (-2) ltac:(lra).
(** The variance, for df > 2, is the second moment less the square of the first. *)
Theorem C43_nct_var : forall df nc, 2 < df -> 0 < nc -> exists m1 m2, mean (Fin df) (Fin nc) = Fin m1 /\
  noncentral_moment 2 (Fin df) (Fin nc) = Fin m2 /\ var (Fin df) (Fin nc) = Fin (m2 - m1 ^ 2).
Proof. exact P_nct.var_ok. Qed.
Print Assumptions C43_nct_var.
Example C43_nct_var_instance := C43_nct_var 3 2 ltac:(lra) ltac:(lra).
