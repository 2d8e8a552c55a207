(** Properties of mpsci.distributions.loggamma (generated by tools/mkthm.py). *)
From Coq Require Import Reals Lra List.
From Coquelicot Require Import Coquelicot.
From Verif Require Import Values Spec SpecStat SpecEst VTac TTac DistLib.
From Verif Require Import SpecInv.
From Verif Require M_gamma.
From Verif Require Import M_loggamma.
From Verif Require P_loggamma.
Import ListNotations.
Local Open Scope R_scope.

Theorem C30_loggamma : forall k s : R, 0 < k -> 0 < s -> 
  complementary (fun x => M_loggamma.cdf x k s) (fun x => M_loggamma.sf x k s).
Proof. exact (fun k s H0 H1 => cert_complementary (P_loggamma.CERT k s H0 H1)). Qed.
Print Assumptions C30_loggamma.
Example C30_loggamma_instance : complementary (fun x => M_loggamma.cdf x (2) (3)) (fun x => M_loggamma.sf x (2) (3)).
Proof. exact (C30_loggamma (2) (3) ltac:(side) ltac:(side)). Qed.

Theorem C31_loggamma : forall k s : R, 0 < k -> 0 < s -> 
  nondecreasing (fun x => M_loggamma.cdf x k s) /\ supported_on (fun x => M_loggamma.cdf x k s) NInf PInf /\
  M_loggamma.support k s = Ok (NInf, PInf).
Proof. intros k s H0 H1. split; [exact (cert_nondecreasing (P_loggamma.CERT k s H0 H1))|split; [exact (cert_supported (P_loggamma.CERT k s H0 H1))|unfold M_loggamma.support, M_loggamma.validate_k_theta; supp]]. Qed.
Print Assumptions C31_loggamma.
Example C31_loggamma_instance : nondecreasing (fun x => M_loggamma.cdf x (2) (3)) /\ supported_on (fun x => M_loggamma.cdf x (2) (3)) NInf PInf /\
  M_loggamma.support (2) (3) = Ok (NInf, PInf).
Proof. exact (C31_loggamma (2) (3) ltac:(side) ltac:(side)). Qed.

Theorem C32_loggamma : forall k s : R, 0 < k -> 0 < s -> 
  density_of (fun x => M_loggamma.cdf x k s) (fun x => M_loggamma.pdf x k s) m_infty p_infty.
Proof. exact (fun k s H0 H1 => cert_density (P_loggamma.CERT k s H0 H1)). Qed.
Print Assumptions C32_loggamma.
Example C32_loggamma_instance : density_of (fun x => M_loggamma.cdf x (2) (3)) (fun x => M_loggamma.pdf x (2) (3)) m_infty p_infty.
Proof. exact (C32_loggamma (2) (3) ltac:(side) ltac:(side)). Qed.

Theorem C33_loggamma : forall k s : R, 0 < k -> 0 < s -> 
  total_mass_one (fun x => M_loggamma.pdf x k s) m_infty p_infty.
Proof. exact (fun k s H0 H1 => cert_total_mass (P_loggamma.CERT k s H0 H1)). Qed.
Print Assumptions C33_loggamma.
Example C33_loggamma_instance : total_mass_one (fun x => M_loggamma.pdf x (2) (3)) m_infty p_infty.
Proof. exact (C33_loggamma (2) (3) ltac:(side) ltac:(side)). Qed.

Theorem C34_loggamma : forall k s : R, 0 < k -> 0 < s -> 
  forall x : R, log_of (fun x => M_loggamma.pdf x k s) (fun x => M_loggamma.logpdf x k s) (Fin x).
Proof. exact (fun k s H0 H1 => cert_log_ends (P_loggamma.CERT k s H0 H1) (fun x E => ltac:(discriminate E)) (fun x E => ltac:(discriminate E))). Qed.
Print Assumptions C34_loggamma.
Example C34_loggamma_instance : forall x : R, log_of (fun x => M_loggamma.pdf x (2) (3)) (fun x => M_loggamma.logpdf x (2) (3)) (Fin x).
Proof. exact (C34_loggamma (2) (3) ltac:(side) ltac:(side)). Qed.

(** C35: solved numerically; the bracket and the root finder are specified in SpecInv. *)
Theorem C35_loggamma : forall k s : R, 0 < k -> 0 < s -> solves (fun x => cdf x k s) (fun fr fuel p => invcdf fr fuel p k s) m_infty p_infty.
Proof. first [exact P_loggamma.invcdf_ok | intros; apply P_loggamma.invcdf_ok; assumption]. Qed.
Print Assumptions C35_loggamma.
Example C35_loggamma_instance := C35_loggamma (2) (3) ltac:(inst) ltac:(inst) .

(** C36: any number returned is the quantile, whatever checked root finder is used.  Missing: that the root finder, started from a single point, returns. *)
Theorem C36_loggamma_partial : forall k s : R, 0 < k -> 0 < s -> forall p,
  0 < p < 1 -> exists q, sf (Fin q) k s = Fin p /\ (forall x, sf (Fin x) k s = Fin p -> x = q) /\
  forall findroot, checked_solver1 findroot -> forall fuel x, invsf findroot fuel (Fin p) k s = Fin x -> x = q.
Proof. first [exact P_loggamma.invsf_ok | intros; apply P_loggamma.invsf_ok; assumption]. Qed.
Print Assumptions C36_loggamma_partial.
Example C36_loggamma_partial_instance := C36_loggamma_partial (2) (3) ltac:(inst) ltac:(inst) (1/3) ltac:(inst).

(** C37: p outside [0,1] is rejected; 0 and 1 go to the ends of the support. *)
Theorem C37_loggamma : forall k s : R, 0 < k -> 0 < s -> forall fr fr1 fuel,
  rejects_bad_p (fun p => invcdf fr fuel p k s) /\ rejects_bad_p (fun p => invsf fr1 fuel p k s) /\
  at_ends (fun p => invcdf fr fuel p k s) NInf PInf /\ at_ends (fun p => invsf fr1 fuel p k s) PInf NInf.
Proof. first [exact P_loggamma.ends | intros; apply P_loggamma.ends; assumption]. Qed.
Print Assumptions C37_loggamma.
Example C37_loggamma_instance := C37_loggamma (2) (3) ltac:(inst) ltac:(inst) (fun _ _ => NaN) (fun _ _ => NaN) 100%nat.

(** C38: invalid shape or scale is rejected (by the inverses, for 0 < p < 1) ... *)
Theorem C38_loggamma : forall k s,
  isnum k -> isnum s -> nonpositive k \/ nonpositive s ->
  always_ValueError [fun x => pdf x k s; fun x => logpdf x k s; fun x => cdf x k s; fun x => sf x k s; fun _ => mean k s; fun _ => mode k s; fun _ => var k s; fun _ => skewness k s; fun _ => kurtosis k s] /\
  support k s = Err ValueError /\ (forall xs, nll xs k s = Exc ValueError) /\
  (forall fr fr1 fuel p, 0 < p < 1 -> invcdf fr fuel (Fin p) k s = Exc ValueError /\ invsf fr1 fuel (Fin p) k s = Exc ValueError).
Proof. first [exact P_loggamma.bad_params | intros; apply P_loggamma.bad_params; assumption]. Qed.
Print Assumptions C38_loggamma.
Example C38_loggamma_instance := C38_loggamma  (Fin 0) (Fin 1) ltac:(inst) ltac:(inst) ltac:(inst).

(** C38: ... but for p = 0 or 1 the inverses return without looking at the parameters. *)
Theorem C38_loggamma_refuted : forall fr fr1 fuel,
  nonpositive (Fin (-1)) /\ invcdf fr fuel (Fin 0) (Fin (-1)) (Fin 1) = NInf /\ invsf fr1 fuel (Fin 0) (Fin (-1)) (Fin 1) = PInf.
Proof. first [exact P_loggamma.bad_refuted | intros; apply P_loggamma.bad_refuted; assumption]. Qed.
Print Assumptions C38_loggamma_refuted.
Example C38_loggamma_refuted_instance := C38_loggamma_refuted  (fun _ _ => NaN) (fun _ _ => NaN) 100%nat.

(** C39: the mode. *)
Theorem C39_loggamma : forall k s : R, 0 < k -> 0 < s -> is_mode (fun x => pdf x k s) (mode k s).
Proof. first [exact P_loggamma.mode_ok | intros; apply P_loggamma.mode_ok; assumption]. Qed.
Print Assumptions C39_loggamma.
Example C39_loggamma_instance := C39_loggamma (2) (3) ltac:(inst) ltac:(inst) .

(** C43: mean ... *)
Theorem C43_loggamma_mean : forall k s : R, 0 < k -> 0 < s -> mean_is (fun x => pdf x k s) m_infty p_infty (mean k s).
Proof. first [exact P_loggamma.mean_ok | intros; apply P_loggamma.mean_ok; assumption]. Qed.
Print Assumptions C43_loggamma_mean.
Example C43_loggamma_mean_instance := C43_loggamma_mean (2) (3) ltac:(inst) ltac:(inst) .

(** C43: ... variance ... *)
Theorem C43_loggamma_var : forall k s : R, 0 < k -> 0 < s -> var_is (fun x => pdf x k s) m_infty p_infty (mean k s) (var k s).
Proof. first [exact P_loggamma.var_ok | intros; apply P_loggamma.var_ok; assumption]. Qed.
Print Assumptions C43_loggamma_var.
Example C43_loggamma_var_instance := C43_loggamma_var (2) (3) ltac:(inst) ltac:(inst) .

(** C43: ... skewness ... *)
Theorem C43_loggamma_skewness : forall k s : R, 0 < k -> 0 < s -> skewness_is (fun x => pdf x k s) m_infty p_infty (skewness k s).
Proof. first [exact P_loggamma.skewness_ok | intros; apply P_loggamma.skewness_ok; assumption]. Qed.
Print Assumptions C43_loggamma_skewness.
Example C43_loggamma_skewness_instance := C43_loggamma_skewness (2) (3) ltac:(inst) ltac:(inst) .

(** C43: ... and excess kurtosis. *)
Theorem C43_loggamma_kurtosis : forall k s : R, 0 < k -> 0 < s -> kurtosis_is (fun x => pdf x k s) m_infty p_infty (kurtosis k s).
Proof. first [exact P_loggamma.kurtosis_ok | intros; apply P_loggamma.kurtosis_ok; assumption]. Qed.
Print Assumptions C43_loggamma_kurtosis.
Example C43_loggamma_kurtosis_instance := C43_loggamma_kurtosis (2) (3) ltac:(inst) ltac:(inst) .

(** C44: multiplying x and theta by c > 0. *)
Theorem C44_loggamma : forall k s : R, 0 < k -> 0 < s -> forall (c x : R),
  0 < c -> cdf (Fin (c * x)) k (Fin (c * s)) = cdf x k s /\ exists d, pdf x k s = Fin d /\ pdf (Fin (c * x)) k (Fin (c * s)) = Fin (d / c).
Proof. first [exact P_loggamma.scale_ok | intros; apply P_loggamma.scale_ok; assumption]. Qed.
Print Assumptions C44_loggamma.
Example C44_loggamma_instance := C44_loggamma (2) (3) ltac:(inst) ltac:(inst) 2 1 ltac:(inst).

(** C45: the exponential of a loggamma variable is a gamma variable. *)
Theorem C45_loggamma : forall k s : R, 0 < k -> 0 < s -> forall (x : R),
  cdf x k 1 = M_gamma.cdf (Fin (exp x)) k 1 /\ sf x k 1 = M_gamma.sf (Fin (exp x)) k 1.
Proof. first [exact P_loggamma.exp_gamma | intros; apply P_loggamma.exp_gamma; assumption]. Qed.
Print Assumptions C45_loggamma.
Example C45_loggamma_instance := C45_loggamma (2) (3) ltac:(inst) ltac:(inst) (-2).

(** C46: interval_prob is the difference of cdf values for every pair x1 <= x2, infinite ends included ... *)
Theorem C46_loggamma : forall k s : R, 0 < k -> 0 < s -> forall x1 x2,
  ext_le x1 x2 -> exists c d, cdf x1 k s = Fin c /\ cdf x2 k s = Fin d /\ interval_prob x1 x2 k s = Fin (d - c).
Proof. first [exact P_loggamma.interval_ok | intros; apply P_loggamma.interval_ok; assumption]. Qed.
Print Assumptions C46_loggamma.
Example C46_loggamma_instance := C46_loggamma (2) (3) ltac:(inst) ltac:(inst) (Fin (-1)) PInf ltac:(inst).

(** C46: ... and x1 > x2 is rejected. *)
Theorem C46_loggamma_order : forall k s : R, 0 < k -> 0 < s -> forall (x1 x2 : R),
  x2 < x1 -> interval_prob x1 x2 k s = Exc ValueError.
Proof. first [exact P_loggamma.interval_rev | intros; apply P_loggamma.interval_rev; assumption]. Qed.
Print Assumptions C46_loggamma_order.
Example C46_loggamma_order_instance := C46_loggamma_order (2) (3) ltac:(inst) ltac:(inst) 2 1 ltac:(inst).

(** C47: theta given: k minimises nll. *)
Theorem C47_loggamma_shape : forall xs euler fr fr1 fr2 k0 t0 k s,
  xs <> [] -> checked_solver fr -> 0 < s -> mle euler fr fr1 fr2 k0 t0 (map Fin xs) None (Some (Fin s)) = Ok (Fin k, Fin s) ->
  minimises (fun k => 0 < k) (fun k => nll (map Fin xs) (Fin k) (Fin s)) k.
Proof. first [exact P_loggamma.c47_k | intros; apply P_loggamma.c47_k; assumption]. Qed.
Print Assumptions C47_loggamma_shape.
Example C47_loggamma_shape_instance : exists fr k, checked_solver fr /\ 0 < k /\ mle (Fin 1) fr (fun _ _ => NaN) (fun _ _ => Err ValueError) None None (map Fin [-1; 1]) None (Some (Fin 1)) = Ok (Fin k, Fin 1).
Proof. exact P_loggamma.mle_k_case. Qed.

(** C47: k given: a positive theta returned minimises nll. *)
Theorem C47_loggamma_scale : forall xs euler fr fr1 fr2 k0 t0 k s,
  xs <> [] -> checked_solver1 fr1 -> 0 < k -> 0 < s -> mle euler fr fr1 fr2 k0 t0 (map Fin xs) (Some (Fin k)) None = Ok (Fin k, Fin s) ->
  minimises (fun s => 0 < s) (fun s => nll (map Fin xs) (Fin k) (Fin s)) s.
Proof. first [exact P_loggamma.c47_s | intros; apply P_loggamma.c47_s; assumption]. Qed.
Print Assumptions C47_loggamma_scale.
Example C47_loggamma_scale_instance : exists fr1 k, checked_solver1 fr1 /\ 0 < k /\ mle (Fin 1) (fun _ _ => NaN) fr1 (fun _ _ => Err ValueError) None None (map Fin [1]) (Some (Fin k)) None = Ok (Fin k, Fin 1).
Proof. exact P_loggamma.mle_s_case. Qed.

(** C47: both free: nll cannot be lowered by changing one of the two.  Missing: that the pair is a joint minimum. *)
Theorem C47_loggamma_both_partial : forall xs euler fr fr1 fr2 k0 t0 k s,
  xs <> [] -> checked_solver2 fr2 -> 0 < k -> 0 < s -> mle euler fr fr1 fr2 k0 t0 (map Fin xs) None None = Ok (Fin k, Fin s) ->
  minimises (fun k => 0 < k) (fun k => nll (map Fin xs) (Fin k) (Fin s)) k /\ minimises (fun s => 0 < s) (fun s => nll (map Fin xs) (Fin k) (Fin s)) s.
Proof. first [exact P_loggamma.c47_both | intros; apply P_loggamma.c47_both; assumption]. Qed.
Print Assumptions C47_loggamma_both_partial.
Example C47_loggamma_both_partial_instance : exists fr2 k d, checked_solver2 fr2 /\ 0 < k /\ 0 < d /\ mle (Fin 1) (fun _ _ => NaN) (fun _ _ => NaN) fr2 None None (map Fin [- d; d]) None None = Ok (Fin k, Fin 1).
Proof. exact P_loggamma.mle_both_case. Qed.

(** C49: nll is minus the sum of logpdf. *)
Theorem C49_loggamma : forall xs (k s : R),
  0 < k -> 0 < s -> exists L, loglik (fun x => logpdf x k s) xs = Fin L /\ nll (map Fin xs) (Fin k) (Fin s) = Fin (- L).
Proof. first [exact P_loggamma.nll_ok | intros; apply P_loggamma.nll_ok; assumption]. Qed.
Print Assumptions C49_loggamma.
Example C49_loggamma_instance := C49_loggamma  [1; -2; 5] 2 3 ltac:(inst) ltac:(inst).

