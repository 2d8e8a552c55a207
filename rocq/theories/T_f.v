(** Properties of mpsci.distributions.f (generated by tools/mkthm.py). *)
From Coq Require Import Reals Lra List.
From Coquelicot Require Import Coquelicot.
From Verif Require Import Values Spec SpecStat SpecEst VTac TTac DistLib.
From Verif Require Import SpecInv.
From Verif Require Import SpecNoMom SpecGrid SpecBis.
From Verif Require M_betaprime.
From Verif Require Import M_f.
From Verif Require P_f.
Import ListNotations.
Local Open Scope R_scope.

(** C30: cdf and sf are complementary at every argument but +inf ... *)
Theorem C30_f_partial : forall n d : R, 0 < n -> 0 < d -> forall x,
  ext x -> x <> PInf -> exists c, 0 <= c <= 1 /\ cdf x n d = Fin c /\ sf x n d = Fin (1 - c).
Proof. first [exact P_f.compl | intros; apply P_f.compl; assumption]. Qed.
Print Assumptions C30_f_partial.
Example C30_f_partial_instance := C30_f_partial (3) (5) ltac:(inst) ltac:(inst) (Fin 4) ltac:(constructor) ltac:(discriminate).

(** C30: ... where both are nan. *)
Theorem C30_f_refuted : forall n d : R, 0 < n -> 0 < d -> cdf PInf n d = NaN /\ sf PInf n d = NaN.
Proof. first [exact P_f.at_inf | intros; apply P_f.at_inf; assumption]. Qed.
Print Assumptions C30_f_refuted.
Example C30_f_refuted_instance := C30_f_refuted (3) (5) ltac:(inst) ltac:(inst) .

(** C31: cdf is non-decreasing at every argument but +inf, 0 up to 0, and tends to 1. *)
Theorem C31_f_partial : forall n d : R, 0 < n -> 0 < d -> (forall x y, ext_le x y -> y <> PInf -> exists u v, cdf x n d = Fin u /\ cdf y n d = Fin v /\ u <= v) /\
  (forall x, ext_le x (Fin 0) -> cdf x n d = Fin 0) /\ filterlim (fun t => toR (cdf (Fin t) n d)) (Rbar_locally p_infty) (locally 1) /\ support n d = Ok (Fin 0, PInf).
Proof. first [exact P_f.mono | intros; apply P_f.mono; assumption]. Qed.
Print Assumptions C31_f_partial.
Example C31_f_partial_instance := C31_f_partial (3) (5) ltac:(inst) ltac:(inst) .

(** C32: pdf is the derivative of cdf. *)
Theorem C32_f : forall n d : R, 0 < n -> 0 < d -> density_of (fun x => cdf x n d) (fun x => pdf x n d) 0 p_infty.
Proof. first [exact P_f.density | intros; apply P_f.density; assumption]. Qed.
Print Assumptions C32_f.
Example C32_f_instance := C32_f (3) (5) ltac:(inst) ltac:(inst) .

(** C33: total mass. *)
Theorem C33_f : forall n d : R, 0 < n -> 0 < d -> total_mass_one (fun x => pdf x n d) 0 p_infty.
Proof. first [exact P_f.mass | intros; apply P_f.mass; assumption]. Qed.
Print Assumptions C33_f.
Example C33_f_instance := C33_f (3) (5) ltac:(inst) ltac:(inst) .

(** C34: logpdf is the logarithm of pdf. *)
Theorem C34_f : forall n d : R, 0 < n -> 0 < d -> forall (x : R),
  log_of (fun x => pdf x n d) (fun x => logpdf x n d) x.
Proof. first [exact P_f.log_all | intros; apply P_f.log_all; assumption]. Qed.
Print Assumptions C34_f.
Example C34_f_instance := C34_f (3) (5) ltac:(inst) ltac:(inst) 3.

(** C35: bisection finds a number g next to dfn q/(dfn q + dfd), where q is the exact quantile; the result is the corresponding point, but ZeroDivisionError if g has been rounded to 1.  Missing: the accuracy of the result when q is large. *)
Theorem C35_f_partial : forall n d : R, 0 < n -> 0 < d -> forall prec p,
  0 < p < 1 -> exists q g N, 0 < q /\ cdf (Fin q) n d = Fin p /\ (forall x, cdf (Fin x) n d = Fin p -> x = q) /\
  0 <= g <= 1 /\ next_to prec (n * q / (n * q + d)) g /\ forall fuel, (N < fuel)%nat ->
  (g < 1 -> invcdf fuel prec (Fin p) n d = Fin (d / n * (g / (1 - g)))) /\ (g = 1 -> invcdf fuel prec (Fin p) n d = Exc ZeroDivisionError).
Proof. first [exact P_f.invcdf_ok | intros; apply P_f.invcdf_ok; assumption]. Qed.
Print Assumptions C35_f_partial.
Example C35_f_partial_instance := C35_f_partial (3) (5) ltac:(inst) ltac:(inst) 53%positive (1/3) ltac:(inst).

(** C36: the same for invsf, with g next to dfd/(dfn q + dfd). *)
Theorem C36_f_partial : forall n d : R, 0 < n -> 0 < d -> forall prec p,
  0 < p < 1 -> exists q g N, 0 < q /\ sf (Fin q) n d = Fin p /\ (forall x, sf (Fin x) n d = Fin p -> x = q) /\
  0 <= g <= 1 /\ next_to prec (d / (n * q + d)) g /\ forall fuel, (N < fuel)%nat ->
  (0 < g -> invsf fuel prec (Fin p) n d = Fin (d / n * ((1 - g) / g))) /\ (g = 0 -> invsf fuel prec (Fin p) n d = Exc ZeroDivisionError).
Proof. first [exact P_f.invsf_ok | intros; apply P_f.invsf_ok; assumption]. Qed.
Print Assumptions C36_f_partial.
Example C36_f_partial_instance := C36_f_partial (3) (5) ltac:(inst) ltac:(inst) 53%positive (1/3) ltac:(inst).

(** C37: p outside [0,1] is rejected; invcdf(0) and invsf(1) are 0 ... *)
Theorem C37_f_partial : forall n d : R, 0 < n -> 0 < d -> forall fuel prec,
  rejects_bad_p (fun p => invcdf fuel prec p n d) /\ rejects_bad_p (fun p => invsf fuel prec p n d) /\ invcdf fuel prec 0 n d = Fin 0 /\ invsf fuel prec 1 n d = Fin 0.
Proof. first [exact P_f.ends | intros; apply P_f.ends; assumption]. Qed.
Print Assumptions C37_f_partial.
Example C37_f_partial_instance := C37_f_partial (3) (5) ltac:(inst) ltac:(inst) 100%nat 53%positive.

(** C37: ... but invcdf(1) and invsf(0) raise ZeroDivisionError. *)
Theorem C37_f_refuted : forall n d : R, 0 < n -> 0 < d -> forall fuel prec,
  invcdf fuel prec 1 n d = Exc ZeroDivisionError /\ invsf fuel prec 0 n d = Exc ZeroDivisionError.
Proof. first [exact P_f.ends_bad | intros; apply P_f.ends_bad; assumption]. Qed.
Print Assumptions C37_f_refuted.
Example C37_f_refuted_instance := C37_f_refuted (3) (5) ltac:(inst) ltac:(inst) 100%nat 53%positive.

(** C38: degrees of freedom that are not positive are rejected. *)
Theorem C38_f : forall fuel prec a b,
  isnum a -> isnum b -> nonpositive a \/ nonpositive b ->
  support a b = Err ValueError /\
  always_ValueError [ fun x => pdf x a b; fun x => logpdf x a b; fun x => cdf x a b; fun x => sf x a b;
    fun p => invcdf fuel prec p a b; fun p => invsf fuel prec p a b; fun _ => mean a b; fun _ => mode a b; fun _ => var a b; fun _ => entropy a b ].
Proof. first [exact P_f.bad_params | intros; apply P_f.bad_params; assumption]. Qed.
Print Assumptions C38_f.
Example C38_f_instance := C38_f  100%nat 53%positive (Fin 0) (Fin 1) ltac:(inst) ltac:(inst) ltac:(inst).

(** C39: the mode, for dfn > 2 ... *)
Theorem C39_f_partial : forall n d : R, 0 < n -> 0 < d -> 2 < n -> is_mode (fun x => pdf x n d) (mode n d).
Proof. first [exact P_f.mode_ok | intros; apply P_f.mode_ok; assumption]. Qed.
Print Assumptions C39_f_partial.
Example C39_f_partial_instance := C39_f_partial (3) (5) ltac:(inst) ltac:(inst) ltac:(inst).

(** C39: ... but for dfn <= 2 it is 0, where pdf is 0. *)
Theorem C39_f_refuted : forall n d : R, 0 < n -> 0 < d -> n <= 2 -> mode n d = Fin 0 /\ pdf 0 n d = Fin 0 /\ exists v, pdf 1 n d = Fin v /\ 0 < v.
Proof. first [exact P_f.mode_bad | intros; apply P_f.mode_bad; assumption]. Qed.
Print Assumptions C39_f_refuted.
Example C39_f_refuted_instance : mode 2 5 = Fin 0 /\ pdf 0 2 5 = Fin 0 /\ exists v, pdf 1 2 5 = Fin v /\ 0 < v.
Proof. apply (C39_f_refuted 2 5); lra. Qed.

(** C43: the mean, when it exists ... *)
Theorem C43_f_mean : forall n d : R, 0 < n -> 0 < d -> 2 < d -> mean_is (fun x => pdf x n d) 0 p_infty (mean n d).
Proof. first [exact P_f.mean_ok | intros; apply P_f.mean_ok; assumption]. Qed.
Print Assumptions C43_f_mean.
Example C43_f_mean_instance := C43_f_mean (3) (5) ltac:(inst) ltac:(inst) ltac:(inst).

(** C43: ... and otherwise inf. *)
Theorem C43_f_no_mean : forall n d : R, 0 < n -> 0 < d -> d <= 2 -> mean n d = PInf /\ no_mean (fun x => pdf x n d) 0 p_infty.
Proof. first [exact P_f.no_mean_ok | intros; apply P_f.no_mean_ok; assumption]. Qed.
Print Assumptions C43_f_no_mean.
Example C43_f_no_mean_instance : mean 3 2 = PInf /\ no_mean (fun x => pdf x 3 2) 0 p_infty.
Proof. apply (C43_f_no_mean 3 2); lra. Qed.

(** C43: the variance, when it exists ... *)
Theorem C43_f_var : forall n d : R, 0 < n -> 0 < d -> 4 < d -> var_is (fun x => pdf x n d) 0 p_infty (mean n d) (var n d).
Proof. first [exact P_f.var_ok | intros; apply P_f.var_ok; assumption]. Qed.
Print Assumptions C43_f_var.
Example C43_f_var_instance := C43_f_var (3) (5) ltac:(inst) ltac:(inst) ltac:(inst).

(** C43: ... and otherwise inf. *)
Theorem C43_f_no_var : forall n d : R, 0 < n -> 0 < d -> d <= 4 -> var n d = PInf /\ no_var (fun x => pdf x n d) 0 p_infty.
Proof. first [exact P_f.no_var_ok | intros; apply P_f.no_var_ok; assumption]. Qed.
Print Assumptions C43_f_no_var.
Example C43_f_no_var_instance : var 3 4 = PInf /\ no_var (fun x => pdf x 3 4) 0 p_infty.
Proof. apply (C43_f_no_var 3 4); lra. Qed.

(** C43: entropy. *)
Theorem C43_f_entropy : forall n d : R, 0 < n -> 0 < d -> entropy_is (fun x => pdf x n d) 0 p_infty (entropy n d).
Proof. first [exact P_f.entropy_ok | intros; apply P_f.entropy_ok; assumption]. Qed.
Print Assumptions C43_f_entropy.
Example C43_f_entropy_instance := C43_f_entropy (3) (5) ltac:(inst) ltac:(inst) .

(** C45: F(dfn, dfd) is betaprime(dfn/2, dfd/2) with scale dfd/dfn ... *)
Theorem C45_f_betaprime : forall n d : R, 0 < n -> 0 < d -> forall (x : R),
  (0 < x -> pdf (Fin x) n d = M_betaprime.pdf (Fin x) (Fin (n / 2)) (Fin (d / 2)) (Fin (d / n))) /\
  cdf (Fin x) n d = M_betaprime.cdf (Fin x) (Fin (n / 2)) (Fin (d / 2)) (Fin (d / n)) /\ sf (Fin x) n d = M_betaprime.sf (Fin x) (Fin (n / 2)) (Fin (d / 2)) (Fin (d / n)).
Proof. first [exact P_f.family | intros; apply P_f.family; assumption]. Qed.
Print Assumptions C45_f_betaprime.
Example C45_f_betaprime_instance := C45_f_betaprime (3) (5) ltac:(inst) ltac:(inst) (1/3).

(** C45: ... and if X is F(dfn, dfd) then 1/X is F(dfd, dfn). *)
Theorem C45_f : forall n d : R, 0 < n -> 0 < d -> forall (x : R),
  0 < x -> cdf (Fin (/ x)) d n = sf (Fin x) n d.
Proof. first [exact P_f.recip | intros; apply P_f.recip; assumption]. Qed.
Print Assumptions C45_f.
Example C45_f_instance := C45_f (3) (5) ltac:(inst) ltac:(inst) (1/3) ltac:(inst).

