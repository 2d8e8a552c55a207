(** Properties of mpsci.distributions.betaprime (generated by tools/mkthm.py). *)
From Coq Require Import Reals Lra List.
From Coquelicot Require Import Coquelicot.
From Verif Require Import Values Spec SpecStat SpecEst VTac TTac DistLib.
From Verif Require Import SpecInv.
From Verif Require Import SpecNoMom SpecInv3.
From Verif Require M_beta.
From Verif Require Import M_betaprime.
From Verif Require P_betaprime.
Import ListNotations.
Local Open Scope R_scope.

Theorem C30_betaprime : forall a b s : R, 0 < a -> 0 < b -> 0 < s -> 
  complementary (fun x => M_betaprime.cdf x a b s) (fun x => M_betaprime.sf x a b s).
Proof. exact (fun a b s H0 H1 H2 => cert_complementary (P_betaprime.CERT a b s H0 H1 H2)). Qed.
Print Assumptions C30_betaprime.
Example C30_betaprime_instance : complementary (fun x => M_betaprime.cdf x (2) (5) (3)) (fun x => M_betaprime.sf x (2) (5) (3)).
Proof. exact (C30_betaprime (2) (5) (3) ltac:(side) ltac:(side) ltac:(side)). Qed.

Theorem C31_betaprime : forall a b s : R, 0 < a -> 0 < b -> 0 < s -> 
  nondecreasing (fun x => M_betaprime.cdf x a b s) /\ supported_on (fun x => M_betaprime.cdf x a b s) (Fin (0)) PInf /\
  M_betaprime.support a b s = Ok ((Fin (0)), PInf).
Proof. intros a b s H0 H1 H2. split; [exact (cert_nondecreasing (P_betaprime.CERT a b s H0 H1 H2))|split; [exact (cert_supported (P_betaprime.CERT a b s H0 H1 H2))|unfold M_betaprime.support, M_betaprime.validate_params; supp]]. Qed.
Print Assumptions C31_betaprime.
Example C31_betaprime_instance : nondecreasing (fun x => M_betaprime.cdf x (2) (5) (3)) /\ supported_on (fun x => M_betaprime.cdf x (2) (5) (3)) (Fin (0)) PInf /\
  M_betaprime.support (2) (5) (3) = Ok ((Fin (0)), PInf).
Proof. exact (C31_betaprime (2) (5) (3) ltac:(side) ltac:(side) ltac:(side)). Qed.

Theorem C32_betaprime : forall a b s : R, 0 < a -> 0 < b -> 0 < s -> 
  density_of (fun x => M_betaprime.cdf x a b s) (fun x => M_betaprime.pdf x a b s) 0 p_infty.
Proof. exact (fun a b s H0 H1 H2 => cert_density (P_betaprime.CERT a b s H0 H1 H2)). Qed.
Print Assumptions C32_betaprime.
Example C32_betaprime_instance : density_of (fun x => M_betaprime.cdf x (2) (5) (3)) (fun x => M_betaprime.pdf x (2) (5) (3)) 0 p_infty.
Proof. exact (C32_betaprime (2) (5) (3) ltac:(side) ltac:(side) ltac:(side)). Qed.

Theorem C33_betaprime : forall a b s : R, 0 < a -> 0 < b -> 0 < s -> 
  total_mass_one (fun x => M_betaprime.pdf x a b s) 0 p_infty.
Proof. exact (fun a b s H0 H1 H2 => cert_total_mass (P_betaprime.CERT a b s H0 H1 H2)). Qed.
Print Assumptions C33_betaprime.
Example C33_betaprime_instance : total_mass_one (fun x => M_betaprime.pdf x (2) (5) (3)) 0 p_infty.
Proof. exact (C33_betaprime (2) (5) (3) ltac:(side) ltac:(side) ltac:(side)). Qed.

Theorem C34_betaprime : forall a b s : R, 0 < a -> 0 < b -> 0 < s -> 
  forall x : R, log_of (fun x => M_betaprime.pdf x a b s) (fun x => M_betaprime.logpdf x a b s) (Fin x).
Proof. exact (fun a b s H0 H1 H2 => P_betaprime.log_all a b s H0 H1 H2). Qed.
Print Assumptions C34_betaprime.
Example C34_betaprime_instance : forall x : R, log_of (fun x => M_betaprime.pdf x (2) (5) (3)) (fun x => M_betaprime.logpdf x (2) (5) (3)) (Fin x).
Proof. exact (C34_betaprime (2) (5) (3) ltac:(side) ltac:(side) ltac:(side)). Qed.

(** C35: solved numerically; the bracket and the root finder are specified in SpecInv. *)
Theorem C35_betaprime : forall a b s : R, 0 < a -> 0 < b -> 0 < s -> solves (fun x => cdf x a b s) (fun fr fuel p => invcdf fr fuel p a b s) 0 p_infty.
Proof. first [exact P_betaprime.invcdf_ok | intros; apply P_betaprime.invcdf_ok; assumption]. Qed.
Print Assumptions C35_betaprime.
Example C35_betaprime_instance := C35_betaprime (2) (5) (3) ltac:(inst) ltac:(inst) ltac:(inst) .

(** C36: solved numerically; the bracket and the root finder are specified in SpecInv. *)
Theorem C36_betaprime : forall a b s : R, 0 < a -> 0 < b -> 0 < s -> solves (fun x => sf x a b s) (fun fr fuel p => invsf fr fuel p a b s) 0 p_infty.
Proof. first [exact P_betaprime.invsf_ok | intros; apply P_betaprime.invsf_ok; assumption]. Qed.
Print Assumptions C36_betaprime.
Example C36_betaprime_instance := C36_betaprime (2) (5) (3) ltac:(inst) ltac:(inst) ltac:(inst) .

(** C37: p outside [0,1] is rejected; 0 and 1 go to the ends of the support, except that invsf(0) is wrong: see C58. *)
Theorem C37_betaprime_partial : forall a b s : R, 0 < a -> 0 < b -> 0 < s -> forall fr fuel,
  rejects_bad_p (fun p => invcdf fr fuel p a b s) /\ rejects_bad_p (fun p => invsf fr fuel p a b s) /\
  at_ends (fun p => invcdf fr fuel p a b s) (Fin 0) PInf /\ invsf fr fuel 1 a b s = Fin 0.
Proof. first [exact P_betaprime.ends | intros; apply P_betaprime.ends; assumption]. Qed.
Print Assumptions C37_betaprime_partial.
Example C37_betaprime_partial_instance := C37_betaprime_partial (2) (5) (3) ltac:(inst) ltac:(inst) ltac:(inst) (fun _ _ => NaN) 100%nat.

(** C38: a parameter that is not positive is rejected. *)
Theorem C38_betaprime : forall fr fuel a b s,
  isnum a -> isnum b -> isnum s -> nonpositive a \/ nonpositive b \/ nonpositive s ->
  support a b s = Err ValueError /\
  always_ValueError [ fun x => pdf x a b s; fun x => logpdf x a b s; fun x => cdf x a b s; fun x => sf x a b s;
    fun p => invcdf fr fuel p a b s; fun p => invsf fr fuel p a b s; fun _ => mean a b s; fun _ => mode a b s; fun _ => var a b s;
    fun _ => skewness a b s; fun _ => kurtosis a b s; fun _ => entropy a b s; fun _ => noncentral_moment 2 a b s; fun x => nll [x] a b s ].
Proof. first [exact P_betaprime.bad_params | intros; apply P_betaprime.bad_params; assumption]. Qed.
Print Assumptions C38_betaprime.
Example C38_betaprime_instance := C38_betaprime  (fun _ _ => NaN) 100%nat (Fin 1) (Fin 0) (Fin 1) ltac:(inst) ltac:(inst) ltac:(inst) ltac:(right; left; constructor; lra).

(** C39: the mode; the density may be infinite at 0. *)
Theorem C39_betaprime : forall a b s : R, 0 < a -> 0 < b -> 0 < s -> is_mode_ext (fun x => pdf x a b s) (mode a b s).
Proof. first [exact P_betaprime.mode_ok | intros; apply P_betaprime.mode_ok; assumption]. Qed.
Print Assumptions C39_betaprime.
Example C39_betaprime_instance := C39_betaprime (2) (5) (3) ltac:(inst) ltac:(inst) ltac:(inst) .

(** C43: the mean, when it exists ... *)
Theorem C43_betaprime_mean : forall a b s : R, 0 < a -> 0 < b -> 0 < s -> 1 < b -> mean_is (fun x => pdf x a b s) 0 p_infty (mean a b s).
Proof. first [exact P_betaprime.mean_ok | intros; apply P_betaprime.mean_ok; assumption]. Qed.
Print Assumptions C43_betaprime_mean.
Example C43_betaprime_mean_instance := C43_betaprime_mean (2) (5) (3) ltac:(inst) ltac:(inst) ltac:(inst) ltac:(inst).

(** C43: ... and otherwise it is infinite. *)
Theorem C43_betaprime_no_mean : forall a b s : R, 0 < a -> 0 < b -> 0 < s -> b <= 1 -> mean a b s = PInf /\ no_mean (fun x => pdf x a b s) 0 p_infty.
Proof. first [exact P_betaprime.no_mean_ok | intros; apply P_betaprime.no_mean_ok; assumption]. Qed.
Print Assumptions C43_betaprime_no_mean.
Example C43_betaprime_no_mean_instance : mean 2 1 3 = PInf /\ no_mean (fun x => pdf x 2 1 3) 0 p_infty.
Proof. apply (C43_betaprime_no_mean 2 1 3); lra. Qed.

(** C43: the variance, when it exists ... *)
Theorem C43_betaprime_var : forall a b s : R, 0 < a -> 0 < b -> 0 < s -> 2 < b -> var_is (fun x => pdf x a b s) 0 p_infty (mean a b s) (var a b s).
Proof. first [exact P_betaprime.var_ok | intros; apply P_betaprime.var_ok; assumption]. Qed.
Print Assumptions C43_betaprime_var.
Example C43_betaprime_var_instance := C43_betaprime_var (2) (5) (3) ltac:(inst) ltac:(inst) ltac:(inst) ltac:(inst).

(** C43: ... and otherwise nan. *)
Theorem C43_betaprime_no_var : forall a b s : R, 0 < a -> 0 < b -> 0 < s -> b <= 2 -> var a b s = NaN /\ no_var (fun x => pdf x a b s) 0 p_infty.
Proof. first [exact P_betaprime.no_var_ok | intros; apply P_betaprime.no_var_ok; assumption]. Qed.
Print Assumptions C43_betaprime_no_var.
Example C43_betaprime_no_var_instance : var 2 1 3 = NaN /\ no_var (fun x => pdf x 2 1 3) 0 p_infty.
Proof. apply (C43_betaprime_no_var 2 1 3); lra. Qed.

(** C43: skewness. *)
Theorem C43_betaprime_skewness : forall a b s : R, 0 < a -> 0 < b -> 0 < s -> 3 < b -> skewness_is (fun x => pdf x a b s) 0 p_infty (skewness a b s).
Proof. first [exact P_betaprime.skew_ok | intros; apply P_betaprime.skew_ok; assumption]. Qed.
Print Assumptions C43_betaprime_skewness.
Example C43_betaprime_skewness_instance := C43_betaprime_skewness (2) (5) (3) ltac:(inst) ltac:(inst) ltac:(inst) ltac:(inst).

(** C43: excess kurtosis. *)
Theorem C43_betaprime_kurtosis : forall a b s : R, 0 < a -> 0 < b -> 0 < s -> 4 < b -> kurtosis_is (fun x => pdf x a b s) 0 p_infty (kurtosis a b s).
Proof. first [exact P_betaprime.kurt_ok | intros; apply P_betaprime.kurt_ok; assumption]. Qed.
Print Assumptions C43_betaprime_kurtosis.
Example C43_betaprime_kurtosis_instance := C43_betaprime_kurtosis (2) (5) (3) ltac:(inst) ltac:(inst) ltac:(inst) ltac:(inst).

(** C43: every non-central moment of order less than b; nan for the others. *)
Theorem C43_betaprime_moments : forall a b s : R, 0 < a -> 0 < b -> 0 < s -> forall n,
  (INR n < b -> moment_is (fun x => pdf x a b s) 0 p_infty n (noncentral_moment n a b s)) /\ (b <= INR n -> noncentral_moment n a b s = NaN).
Proof. first [exact P_betaprime.moment_ok | intros; apply P_betaprime.moment_ok; assumption]. Qed.
Print Assumptions C43_betaprime_moments.
Example C43_betaprime_moments_instance := C43_betaprime_moments (2) (5) (3) ltac:(inst) ltac:(inst) ltac:(inst) 3%nat.

(** C43: entropy. *)
Theorem C43_betaprime_entropy : forall a b s : R, 0 < a -> 0 < b -> 0 < s -> entropy_is (fun x => pdf x a b s) 0 p_infty (entropy a b s).
Proof. first [exact P_betaprime.entropy_ok | intros; apply P_betaprime.entropy_ok; assumption]. Qed.
Print Assumptions C43_betaprime_entropy.
Example C43_betaprime_entropy_instance := C43_betaprime_entropy (2) (5) (3) ltac:(inst) ltac:(inst) ltac:(inst) .

(** C45: if T is beta(a, b) then T/(1-T) is betaprime(a, b) ... *)
Theorem C45_betaprime_beta : forall a b (t : R),
  0 < a -> 0 < b -> 0 < t < 1 ->
  cdf (Fin (t / (1 - t))) (Fin a) (Fin b) (Fin 1) = M_beta.cdf (Fin t) (Fin a) (Fin b) /\ sf (Fin (t / (1 - t))) (Fin a) (Fin b) (Fin 1) = M_beta.sf (Fin t) (Fin a) (Fin b).
Proof. first [exact P_betaprime.from_beta | intros; apply P_betaprime.from_beta; assumption]. Qed.
Print Assumptions C45_betaprime_beta.
Example C45_betaprime_beta_instance := C45_betaprime_beta  2 3 (1/3) ltac:(inst) ltac:(inst) ltac:(inst).

(** C45: ... and if X is betaprime(a, b, s) then 1/X is betaprime(b, a, 1/s). *)
Theorem C45_betaprime : forall a b s (x : R),
  0 < a -> 0 < b -> 0 < s -> 0 < x -> cdf (Fin (/ x)) (Fin b) (Fin a) (Fin (/ s)) = sf (Fin x) (Fin a) (Fin b) (Fin s).
Proof. first [exact P_betaprime.recip | intros; apply P_betaprime.recip; assumption]. Qed.
Print Assumptions C45_betaprime.
Example C45_betaprime_instance := C45_betaprime  2 3 4 (1/3) ltac:(inst) ltac:(inst) ltac:(inst) ltac:(inst).

(** C47: b and scale given: a positive a returned minimises nll. *)
Theorem C47_betaprime_a : forall (fr1 : (val -> val) -> val -> val) (fr2 : (val -> val -> val * val) -> val * val -> res (val * val)) (fr3 : (val -> val -> val -> val * val * val) -> val * val * val -> res (val * val * val)) (a0 b0 s0 : option val) xs a b s,
  xs <> [] -> (forall x, In x xs -> 0 < x) -> checked_solver1 fr1 -> 0 < a -> 0 < b -> 0 < s ->
  mle fr1 fr2 fr3 a0 b0 s0 (map Fin xs) None (Some (Fin b)) (Some (Fin s)) = Ok (Fin a, Fin b, Fin s) ->
  minimises (fun a => 0 < a) (fun a => nll (map Fin xs) (Fin a) (Fin b) (Fin s)) a.
Proof. first [exact P_betaprime.c47_a | intros; apply P_betaprime.c47_a; assumption]. Qed.
Print Assumptions C47_betaprime_a.
Example C47_betaprime_a_instance : exists fr1 fr2 fr3 xs, checked_solver1 fr1 /\ checked_solver2 fr2 /\ checked_solver3 fr3 /\ xs <> [] /\ (forall x, In x xs -> 0 < x) /\
  mle fr1 fr2 fr3 None None None (map Fin xs) None (Some (Fin 1)) (Some (Fin 1)) = Ok (Fin 1, Fin 1, Fin 1).
Proof. exact P_betaprime.case_a. Qed.

(** C47: a and scale given: a positive b returned minimises nll. *)
Theorem C47_betaprime_b : forall (fr1 : (val -> val) -> val -> val) (fr2 : (val -> val -> val * val) -> val * val -> res (val * val)) (fr3 : (val -> val -> val -> val * val * val) -> val * val * val -> res (val * val * val)) (a0 b0 s0 : option val) xs a b s,
  xs <> [] -> (forall x, In x xs -> 0 < x) -> checked_solver1 fr1 -> 0 < a -> 0 < b -> 0 < s ->
  mle fr1 fr2 fr3 a0 b0 s0 (map Fin xs) (Some (Fin a)) None (Some (Fin s)) = Ok (Fin a, Fin b, Fin s) ->
  minimises (fun b => 0 < b) (fun b => nll (map Fin xs) (Fin a) (Fin b) (Fin s)) b.
Proof. first [exact P_betaprime.c47_b | intros; apply P_betaprime.c47_b; assumption]. Qed.
Print Assumptions C47_betaprime_b.
Example C47_betaprime_b_instance : exists fr1 fr2 fr3 xs, checked_solver1 fr1 /\ checked_solver2 fr2 /\ checked_solver3 fr3 /\ xs <> [] /\ (forall x, In x xs -> 0 < x) /\
  mle fr1 fr2 fr3 None None None (map Fin xs) (Some (Fin 1)) None (Some (Fin 1)) = Ok (Fin 1, Fin 1, Fin 1).
Proof. exact P_betaprime.case_b. Qed.

(** C47: scale given: a pair of positive numbers returned minimises nll. *)
Theorem C47_betaprime_ab : forall (fr1 : (val -> val) -> val -> val) (fr2 : (val -> val -> val * val) -> val * val -> res (val * val)) (fr3 : (val -> val -> val -> val * val * val) -> val * val * val -> res (val * val * val)) (a0 b0 s0 : option val) xs a b s,
  xs <> [] -> (forall x, In x xs -> 0 < x) -> checked_solver2 fr2 -> 0 < a -> 0 < b -> 0 < s ->
  mle fr1 fr2 fr3 a0 b0 s0 (map Fin xs) None None (Some (Fin s)) = Ok (Fin a, Fin b, Fin s) ->
  minimises (fun '(a, b) => 0 < a /\ 0 < b) (fun '(a, b) => nll (map Fin xs) (Fin a) (Fin b) (Fin s)) (a, b).
Proof. first [exact P_betaprime.c47_ab | intros; apply P_betaprime.c47_ab; assumption]. Qed.
Print Assumptions C47_betaprime_ab.
Example C47_betaprime_ab_instance : exists fr1 fr2 fr3 xs, checked_solver1 fr1 /\ checked_solver2 fr2 /\ checked_solver3 fr3 /\ xs <> [] /\ (forall x, In x xs -> 0 < x) /\
  mle fr1 fr2 fr3 None None None (map Fin xs) None None (Some (Fin 1)) = Ok (Fin 1, Fin 1, Fin 1).
Proof. exact P_betaprime.case_ab. Qed.

(** C47: a and b given: a positive scale returned minimises nll. *)
Theorem C47_betaprime_scale : forall (fr1 : (val -> val) -> val -> val) (fr2 : (val -> val -> val * val) -> val * val -> res (val * val)) (fr3 : (val -> val -> val -> val * val * val) -> val * val * val -> res (val * val * val)) (a0 b0 s0 : option val) xs a b s,
  xs <> [] -> (forall x, In x xs -> 0 < x) -> checked_solver1 fr1 -> 0 < a -> 0 < b -> 0 < s ->
  mle fr1 fr2 fr3 a0 b0 s0 (map Fin xs) (Some (Fin a)) (Some (Fin b)) None = Ok (Fin a, Fin b, Fin s) ->
  minimises (fun s => 0 < s) (fun s => nll (map Fin xs) (Fin a) (Fin b) (Fin s)) s.
Proof. first [exact P_betaprime.c47_s | intros; apply P_betaprime.c47_s; assumption]. Qed.
Print Assumptions C47_betaprime_scale.
Example C47_betaprime_scale_instance : exists fr1 fr2 fr3 xs, checked_solver1 fr1 /\ checked_solver2 fr2 /\ checked_solver3 fr3 /\ xs <> [] /\ (forall x, In x xs -> 0 < x) /\
  mle fr1 fr2 fr3 None None None (map Fin xs) (Some (Fin 1)) (Some (Fin 1)) None = Ok (Fin 1, Fin 1, Fin 1).
Proof. exact P_betaprime.case_s. Qed.

(** C47: a given: the b and the scale returned each minimise nll with the other fixed.  Missing: the joint minimum. *)
Theorem C47_betaprime_b_scale_partial : forall (fr1 : (val -> val) -> val -> val) (fr2 : (val -> val -> val * val) -> val * val -> res (val * val)) (fr3 : (val -> val -> val -> val * val * val) -> val * val * val -> res (val * val * val)) (a0 b0 s0 : option val) xs a b s,
  xs <> [] -> (forall x, In x xs -> 0 < x) -> checked_solver1 fr1 -> 0 < a -> 0 < b -> 0 < s ->
  mle fr1 fr2 fr3 a0 b0 s0 (map Fin xs) (Some (Fin a)) None None = Ok (Fin a, Fin b, Fin s) ->
  minimises (fun b => 0 < b) (fun b => nll (map Fin xs) (Fin a) (Fin b) (Fin s)) b /\
  minimises (fun s => 0 < s) (fun s => nll (map Fin xs) (Fin a) (Fin b) (Fin s)) s.
Proof. first [exact P_betaprime.c47_bs | intros; apply P_betaprime.c47_bs; assumption]. Qed.
Print Assumptions C47_betaprime_b_scale_partial.
Example C47_betaprime_b_scale_partial_instance : exists fr1 fr2 fr3 xs, checked_solver1 fr1 /\ checked_solver2 fr2 /\ checked_solver3 fr3 /\ xs <> [] /\ (forall x, In x xs -> 0 < x) /\
  mle fr1 fr2 fr3 None None None (map Fin xs) (Some (Fin 1)) None None = Ok (Fin 1, Fin 1, Fin 1).
Proof. exact P_betaprime.case_bs. Qed.

(** C47: b given: the a and the scale returned each minimise nll with the other fixed.  Missing: the joint minimum. *)
Theorem C47_betaprime_a_scale_partial : forall (fr1 : (val -> val) -> val -> val) (fr2 : (val -> val -> val * val) -> val * val -> res (val * val)) (fr3 : (val -> val -> val -> val * val * val) -> val * val * val -> res (val * val * val)) (a0 b0 s0 : option val) xs a b s,
  xs <> [] -> (forall x, In x xs -> 0 < x) -> checked_solver1 fr1 -> 0 < a -> 0 < b -> 0 < s ->
  mle fr1 fr2 fr3 a0 b0 s0 (map Fin xs) None (Some (Fin b)) None = Ok (Fin a, Fin b, Fin s) ->
  minimises (fun a => 0 < a) (fun a => nll (map Fin xs) (Fin a) (Fin b) (Fin s)) a /\
  minimises (fun s => 0 < s) (fun s => nll (map Fin xs) (Fin a) (Fin b) (Fin s)) s.
Proof. first [exact P_betaprime.c47_as | intros; apply P_betaprime.c47_as; assumption]. Qed.
Print Assumptions C47_betaprime_a_scale_partial.
Example C47_betaprime_a_scale_partial_instance : exists fr1 fr2 fr3 xs, checked_solver1 fr1 /\ checked_solver2 fr2 /\ checked_solver3 fr3 /\ xs <> [] /\ (forall x, In x xs -> 0 < x) /\
  mle fr1 fr2 fr3 None None None (map Fin xs) None (Some (Fin 1)) None = Ok (Fin 1, Fin 1, Fin 1).
Proof. exact P_betaprime.case_as. Qed.

(** C47: all free: the pair (a, b) minimises nll for the scale returned, and the scale for the a and b returned.  Missing: the joint minimum. *)
Theorem C47_betaprime_all_partial : forall (fr1 : (val -> val) -> val -> val) (fr2 : (val -> val -> val * val) -> val * val -> res (val * val)) (fr3 : (val -> val -> val -> val * val * val) -> val * val * val -> res (val * val * val)) (a0 b0 s0 : option val) xs a b s,
  xs <> [] -> (forall x, In x xs -> 0 < x) -> checked_solver3 fr3 -> 0 < a -> 0 < b -> 0 < s ->
  mle fr1 fr2 fr3 a0 b0 s0 (map Fin xs) None None None = Ok (Fin a, Fin b, Fin s) ->
  minimises (fun '(a, b) => 0 < a /\ 0 < b) (fun '(a, b) => nll (map Fin xs) (Fin a) (Fin b) (Fin s)) (a, b) /\
  minimises (fun s => 0 < s) (fun s => nll (map Fin xs) (Fin a) (Fin b) (Fin s)) s.
Proof. first [exact P_betaprime.c47_abs | intros; apply P_betaprime.c47_abs; assumption]. Qed.
Print Assumptions C47_betaprime_all_partial.
Example C47_betaprime_all_partial_instance : exists fr1 fr2 fr3 xs, checked_solver1 fr1 /\ checked_solver2 fr2 /\ checked_solver3 fr3 /\ xs <> [] /\ (forall x, In x xs -> 0 < x) /\
  mle fr1 fr2 fr3 None None None (map Fin xs) None None None = Ok (Fin 1, Fin 1, Fin 1).
Proof. exact P_betaprime.case_abs. Qed.

(** C47: all given: they are returned. *)
Theorem C47_betaprime_given : forall (fr1 : (val -> val) -> val -> val) (fr2 : (val -> val -> val * val) -> val * val -> res (val * val)) (fr3 : (val -> val -> val -> val * val * val) -> val * val * val -> res (val * val * val)) (a0 b0 s0 : option val) xs a b s,
  xs <> [] -> (forall x, In x xs -> 0 < x) -> 0 < a -> 0 < b -> 0 < s ->
  mle fr1 fr2 fr3 a0 b0 s0 (map Fin xs) (Some (Fin a)) (Some (Fin b)) (Some (Fin s)) = Ok (Fin a, Fin b, Fin s).
Proof. first [exact P_betaprime.c47_given | intros; apply P_betaprime.c47_given; assumption]. Qed.
Print Assumptions C47_betaprime_given.
Example C47_betaprime_given_instance := C47_betaprime_given  (fun _ _ => NaN) (fun _ _ => Err ValueError) (fun _ _ => Err ValueError) None None None [1/3; 1/2] 1 2 3 ltac:(inst) ltac:(inst) ltac:(inst) ltac:(inst) ltac:(inst).

(** C49: nll is minus the sum of logpdf. *)
Theorem C49_betaprime : forall (a b s : R) xs,
  0 < a -> 0 < b -> 0 < s -> (forall x, In x xs -> 0 <= x) -> nll (map Fin xs) a b s = vneg (loglik (fun x => logpdf x a b s) xs).
Proof. first [exact P_betaprime.nll_ok | intros; apply P_betaprime.nll_ok; assumption]. Qed.
Print Assumptions C49_betaprime.
Example C49_betaprime_instance := C49_betaprime  2 3 1 [1/4; 2] ltac:(inst) ltac:(inst) ltac:(inst) ltac:(inst).

(** C49: data outside the support is rejected. *)
Theorem C49_betaprime_outside : forall (a b s : R) xs,
  0 < a -> 0 < b -> 0 < s -> (exists x, In x xs /\ x < 0) -> nll (map Fin xs) a b s = Exc ValueError.
Proof. first [exact P_betaprime.nll_bad | intros; apply P_betaprime.nll_bad; assumption]. Qed.
Print Assumptions C49_betaprime_outside.
Example C49_betaprime_outside_instance := C49_betaprime_outside  2 3 1 [1/4; -1; 1/2] ltac:(inst) ltac:(inst) ltac:(inst) ltac:(inst).

(** C58: invsf(0) is 1, although the support extends to infinity and sf(1) is not 0. *)
Theorem C58_betaprime_refuted : forall a b s : R, 0 < a -> 0 < b -> 0 < s -> forall fr fuel,
  invsf fr fuel 0 a b s = Fin 1 /\ support a b s = Ok (Fin 0, PInf) /\ sf 1 a b s <> Fin 0.
Proof. first [exact P_betaprime.invsf_0 | intros; apply P_betaprime.invsf_0; assumption]. Qed.
Print Assumptions C58_betaprime_refuted.
Example C58_betaprime_refuted_instance := C58_betaprime_refuted (2) (5) (3) ltac:(inst) ltac:(inst) ltac:(inst) (fun _ _ => NaN) 100%nat.

