(** Properties of mpsci.distributions.tukeylambda (generated by tools/mkthm.py). *)
From Coq Require Import Reals Lra List.
From Coquelicot Require Import Coquelicot.
From Verif Require Import Values Spec SpecStat SpecEst VTac TTac DistLib.
From Verif Require Import SpecDisc SpecInt SpecMulti.
From Verif Require Import SpecRoot M_common.
From Verif Require RootLib M_logistic.
From Verif Require Import M_tukeylambda.
From Verif Require P_tukeylambda.
Import ListNotations.
Local Open Scope R_scope.

(** C30: positive shape; cdf is solved numerically: delta is sqrt(eps), the refinement loop has n + 1 steps. *)
Theorem C30_tukeylambda : forall (fr : (val -> val) -> val * val -> val) (n : nat) (delta lam loc scale : R), bracket_solver fr -> 0 < delta -> 2 <= delta * 2 ^ n -> 0 < lam -> 0 < scale -> complementary (fun x => cdf fr (Datatypes.S n) delta x lam loc scale) (fun x => sf fr (Datatypes.S n) delta x lam loc scale).
Proof. first [exact P_tukeylambda.compl | intros; apply P_tukeylambda.compl; assumption]. Qed.
Print Assumptions C30_tukeylambda.
Example C30_tukeylambda_instance := C30_tukeylambda  RootLib.ref_root 5%nat (1/4) 2 1 3 RootLib.ref_root_ok ltac:(inst) ltac:(inst) ltac:(inst) ltac:(inst) .

(** C31: cdf runs from 0 to 1 over the support (loc - scale/lam, loc + scale/lam). *)
Theorem C31_tukeylambda : forall (fr : (val -> val) -> val * val -> val) (n : nat) (delta lam loc scale : R), bracket_solver fr -> 0 < delta -> 2 <= delta * 2 ^ n -> 0 < lam -> 0 < scale -> nondecreasing (fun x => cdf fr (Datatypes.S n) delta x lam loc scale) /\
  supported_on (fun x => cdf fr (Datatypes.S n) delta x lam loc scale) (Fin (loc - scale / lam)) (Fin (loc + scale / lam)) /\
  support lam loc scale = Ok (Fin (loc - scale / lam), Fin (loc + scale / lam)).
Proof. first [exact P_tukeylambda.supp | intros; apply P_tukeylambda.supp; assumption]. Qed.
Print Assumptions C31_tukeylambda.
Example C31_tukeylambda_instance := C31_tukeylambda  RootLib.ref_root 5%nat (1/4) 2 1 3 RootLib.ref_root_ok ltac:(inst) ltac:(inst) ltac:(inst) ltac:(inst) .

(** C32: pdf is the derivative of the numerically solved cdf. *)
Theorem C32_tukeylambda : forall (fr : (val -> val) -> val * val -> val) (n : nat) (delta lam loc scale : R), bracket_solver fr -> 0 < delta -> 2 <= delta * 2 ^ n -> 0 < lam -> 0 < scale -> density_of (fun x => cdf fr (Datatypes.S n) delta x lam loc scale) (fun x => pdf fr (Datatypes.S n) delta x lam loc scale) (loc - scale / lam) (loc + scale / lam).
Proof. first [exact P_tukeylambda.dens | intros; apply P_tukeylambda.dens; assumption]. Qed.
Print Assumptions C32_tukeylambda.
Example C32_tukeylambda_instance := C32_tukeylambda  RootLib.ref_root 5%nat (1/4) 2 1 3 RootLib.ref_root_ok ltac:(inst) ltac:(inst) ltac:(inst) ltac:(inst) .

(** C33: the density integrates to 1. *)
Theorem C33_tukeylambda : forall (fr : (val -> val) -> val * val -> val) (n : nat) (delta lam loc scale : R), bracket_solver fr -> 0 < delta -> 2 <= delta * 2 ^ n -> 0 < lam -> 0 < scale -> total_mass_one (fun x => pdf fr (Datatypes.S n) delta x lam loc scale) (loc - scale / lam) (loc + scale / lam).
Proof. first [exact P_tukeylambda.mass | intros; apply P_tukeylambda.mass; assumption]. Qed.
Print Assumptions C33_tukeylambda.
Example C33_tukeylambda_instance := C33_tukeylambda  RootLib.ref_root 5%nat (1/4) 2 1 3 RootLib.ref_root_ok ltac:(inst) ltac:(inst) ltac:(inst) ltac:(inst) .

(** C34: logpdf is the logarithm of pdf at every real x. *)
Theorem C34_tukeylambda : forall (fr : (val -> val) -> val * val -> val) (n : nat) (delta lam loc scale : R), bracket_solver fr -> 0 < delta -> 2 <= delta * 2 ^ n -> 0 < lam -> 0 < scale -> forall (x : R),
  log_of (fun x => pdf fr (Datatypes.S n) delta x lam loc scale) (fun x => logpdf fr (Datatypes.S n) delta x lam loc scale) x.
Proof. first [exact P_tukeylambda.log_ok | intros; apply P_tukeylambda.log_ok; assumption]. Qed.
Print Assumptions C34_tukeylambda.
Example C34_tukeylambda_instance := C34_tukeylambda  RootLib.ref_root 5%nat (1/4) 2 1 3 RootLib.ref_root_ok ltac:(inst) ltac:(inst) ltac:(inst) ltac:(inst) 1.

(** C35: invcdf and the numerically solved cdf are inverse to each other. *)
Theorem C35_tukeylambda : forall (fr : (val -> val) -> val * val -> val) (n : nat) (delta lam loc scale : R), bracket_solver fr -> 0 < delta -> 2 <= delta * 2 ^ n -> 0 < lam -> 0 < scale -> inverse_of (fun x => cdf fr (Datatypes.S n) delta x lam loc scale) (fun p => invcdf p lam loc scale) (loc - scale / lam) (loc + scale / lam).
Proof. first [exact P_tukeylambda.inv_ok | intros; apply P_tukeylambda.inv_ok; assumption]. Qed.
Print Assumptions C35_tukeylambda.
Example C35_tukeylambda_instance := C35_tukeylambda  RootLib.ref_root 5%nat (1/4) 2 1 3 RootLib.ref_root_ok ltac:(inst) ltac:(inst) ltac:(inst) ltac:(inst) .

(** C36: invsf and sf are inverse to each other. *)
Theorem C36_tukeylambda : forall (fr : (val -> val) -> val * val -> val) (n : nat) (delta lam loc scale : R), bracket_solver fr -> 0 < delta -> 2 <= delta * 2 ^ n -> 0 < lam -> 0 < scale -> inverse_of (fun x => sf fr (Datatypes.S n) delta x lam loc scale) (fun p => invsf p lam loc scale) (loc - scale / lam) (loc + scale / lam) /\
  (forall p, 0 < p < 1 -> invsf (Fin p) lam loc scale = invcdf (Fin (1 - p)) lam loc scale).
Proof. first [exact P_tukeylambda.invsf_ok | intros; apply P_tukeylambda.invsf_ok; assumption]. Qed.
Print Assumptions C36_tukeylambda.
Example C36_tukeylambda_instance := C36_tukeylambda  RootLib.ref_root 5%nat (1/4) 2 1 3 RootLib.ref_root_ok ltac:(inst) ltac:(inst) ltac:(inst) ltac:(inst) .

(** C43: raw moments of every order, positive shape. *)
Theorem C43_tukeylambda_moment : forall (fr : (val -> val) -> val * val -> val) (n : nat) (delta lam loc scale : R), bracket_solver fr -> 0 < delta -> 2 <= delta * 2 ^ n -> 0 < lam -> 0 < scale -> forall k,
  moment_is (fun x => pdf fr (Datatypes.S n) delta x lam loc scale) (loc - scale / lam) (loc + scale / lam) k (noncentral_moment k lam loc scale).
Proof. first [exact P_tukeylambda.moment_ok | intros; apply P_tukeylambda.moment_ok; assumption]. Qed.
Print Assumptions C43_tukeylambda_moment.
Example C43_tukeylambda_moment_instance := C43_tukeylambda_moment  RootLib.ref_root 5%nat (1/4) 2 1 3 RootLib.ref_root_ok ltac:(inst) ltac:(inst) ltac:(inst) ltac:(inst) 4%nat.

(** C43: mean and variance, positive shape. *)
Theorem C43_tukeylambda : forall (fr : (val -> val) -> val * val -> val) (n : nat) (delta lam loc scale : R), bracket_solver fr -> 0 < delta -> 2 <= delta * 2 ^ n -> 0 < lam -> 0 < scale -> mean_is (fun x => pdf fr (Datatypes.S n) delta x lam loc scale) (loc - scale / lam) (loc + scale / lam) (mean lam loc scale) /\
  var_is (fun x => pdf fr (Datatypes.S n) delta x lam loc scale) (loc - scale / lam) (loc + scale / lam) (mean lam loc scale) (var lam loc scale).
Proof. first [exact P_tukeylambda.mean_var_ok | intros; apply P_tukeylambda.mean_var_ok; assumption]. Qed.
Print Assumptions C43_tukeylambda.
Example C43_tukeylambda_instance := C43_tukeylambda  RootLib.ref_root 5%nat (1/4) 2 1 3 RootLib.ref_root_ok ltac:(inst) ltac:(inst) ltac:(inst) ltac:(inst) .

(** C37: p outside [0,1] is rejected; 0 and 1 go to the ends of the support, for every shape. *)
Theorem C37_tukeylambda : forall (lam loc scale : R),
  0 < scale -> rejects_bad_p (fun p => invcdf p lam loc scale) /\ rejects_bad_p (fun p => invsf p lam loc scale) /\
  (0 < lam -> at_ends (fun p => invcdf p lam loc scale) (Fin (loc - scale / lam)) (Fin (loc + scale / lam)) /\ at_ends (fun p => invsf p lam loc scale) (Fin (loc + scale / lam)) (Fin (loc - scale / lam))) /\
  (lam <= 0 -> at_ends (fun p => invcdf p lam loc scale) NInf PInf /\ at_ends (fun p => invsf p lam loc scale) PInf NInf).
Proof. first [exact P_tukeylambda.ends | intros; apply P_tukeylambda.ends; assumption]. Qed.
Print Assumptions C37_tukeylambda.
Example C37_tukeylambda_instance := C37_tukeylambda  2 1 3 ltac:(inst).

(** C38: a scale that is not positive is rejected by every function. *)
Theorem C38_tukeylambda : forall fr n delta lam loc scale,
  isnum scale -> nonpositive scale ->
  support lam loc scale = Err ValueError /\ noncentral_moment 2 lam loc scale = Exc ValueError /\
  always_ValueError [fun x => pdf fr n delta x lam loc scale; fun x => logpdf fr n delta x lam loc scale; fun x => cdf fr n delta x lam loc scale; fun x => sf fr n delta x lam loc scale;
    fun p => invcdf p lam loc scale; fun p => invsf p lam loc scale; fun _ => mean lam loc scale; fun _ => var lam loc scale].
Proof. first [exact P_tukeylambda.bad_params | intros; apply P_tukeylambda.bad_params; assumption]. Qed.
Print Assumptions C38_tukeylambda.
Example C38_tukeylambda_instance := C38_tukeylambda  (fun _ _ => NaN) 5%nat (Fin 1) (Fin 2) (Fin 0) (Fin 0) ltac:(inst) ltac:(constructor; lra).

(** C35: every shape except 0: at the quantile of p, the solved cdf and sf are p and 1 - p, and pdf is 1 over the derivative of invcdf; for a negative shape p must be more than delta away from 0 and 1, or the tail must be the near one and the shape not too close to 0. *)
Theorem C35_tukeylambda_quantile_partial : forall fr n (delta lam loc scale p : R),
  bracket_solver fr -> 0 < delta -> 2 <= delta * 2 ^ n -> lam <> 0 -> 0 < scale -> 0 < p < 1 ->
  exists x d : R, invcdf p lam loc scale = Fin x /\ invsf (Fin (1 - p)) lam loc scale = Fin x /\
   is_derive (fun u => toR (invcdf (Fin u) lam loc scale)) p d /\ 0 < d /\
   (0 < lam \/ delta < p < 1 - delta \/ (p < 1/2 /\ delta < 2 * Rpower 2 (1 / lam)) -> cdf fr (Datatypes.S n) delta (Fin x) lam loc scale = Fin p /\
      pdf fr (Datatypes.S n) delta (Fin x) lam loc scale = Fin (/ d) /\ logpdf fr (Datatypes.S n) delta (Fin x) lam loc scale = Fin (ln (/ d))) /\
   (0 < lam \/ delta < p < 1 - delta \/ (1/2 < p /\ delta < 2 * Rpower 2 (1 / lam)) -> sf fr (Datatypes.S n) delta (Fin x) lam loc scale = Fin (1 - p)).
Proof. first [exact P_tukeylambda.quant_ok | intros; apply P_tukeylambda.quant_ok; assumption]. Qed.
Print Assumptions C35_tukeylambda_quantile_partial.
Example C35_tukeylambda_quantile_partial_instance := C35_tukeylambda_quantile_partial  RootLib.ref_root 5%nat (1/8) (-1) 1 3 (1/3) RootLib.ref_root_ok ltac:(inst) ltac:(inst) ltac:(inst) ltac:(inst) ltac:(inst).

(** C43: raw moments of every order k with lam k > -1, as integrals of the quantile function. *)
Theorem C43_tukeylambda_quantile : forall (lam loc scale : R) k,
  lam <> 0 -> 0 < scale -> -1 < lam * INR k ->
  exists m, noncentral_moment k lam loc scale = Fin m /\ integrates_to (fun p => toR (invcdf (Fin p) lam loc scale) ^ k) 0 1 m.
Proof. first [exact P_tukeylambda.qmoment_ok | intros; apply P_tukeylambda.qmoment_ok; assumption]. Qed.
Print Assumptions C43_tukeylambda_quantile.
Example C43_tukeylambda_quantile_instance := C43_tukeylambda_quantile  (-(1/4)) 1 3 2%nat ltac:(inst) ltac:(inst) ltac:(simpl; lra).

(** C43: mean for lam > -1 and variance for lam > -1/2, as integrals of the quantile function. *)
Theorem C43_tukeylambda_mean : forall (lam loc scale : R),
  lam <> 0 -> 0 < scale ->
  (-1 < lam -> mean lam loc scale = Fin loc /\ integrates_to (fun p => toR (invcdf (Fin p) lam loc scale)) 0 1 loc) /\
  (-1/2 < lam -> exists v, var lam loc scale = Fin v /\ integrates_to (fun p => (toR (invcdf (Fin p) lam loc scale) - loc) ^ 2) 0 1 v).
Proof. first [exact P_tukeylambda.qmean_var_ok | intros; apply P_tukeylambda.qmean_var_ok; assumption]. Qed.
Print Assumptions C43_tukeylambda_mean.
Example C43_tukeylambda_mean_instance := C43_tukeylambda_mean  (-(1/4)) 1 3 ltac:(inst) ltac:(inst).

(** C44: location and scale, positive shape. *)
Theorem C44_tukeylambda : forall fr n (delta lam : R),
  bracket_solver fr -> 0 < delta -> 2 <= delta * 2 ^ n -> 0 < lam ->
  loc_scale_law (fun x => pdf fr (S n) delta x lam) (fun x => cdf fr (S n) delta x lam) (fun x => sf fr (S n) delta x lam) (fun p => invcdf p lam) (fun p => invsf p lam) (Finite (- (1 / lam))) (Finite (1 / lam)).
Proof. first [exact P_tukeylambda.loc_scale | intros; apply P_tukeylambda.loc_scale; assumption]. Qed.
Print Assumptions C44_tukeylambda.
Example C44_tukeylambda_instance := C44_tukeylambda  RootLib.ref_root 5%nat (1/4) 2 RootLib.ref_root_ok ltac:(inst) ltac:(inst) ltac:(inst).

(** C45: with lam = 0 every function is that of the logistic distribution. *)
Theorem C45_tukeylambda : forall fr n delta (loc scale : R),
  0 < scale ->
  (forall x, ext x -> cdf fr n delta x 0 loc scale = M_logistic.cdf x loc scale /\ sf fr n delta x 0 loc scale = M_logistic.sf x loc scale) /\
  (forall x : R, pdf fr n delta x 0 loc scale = M_logistic.pdf x loc scale /\ logpdf fr n delta x 0 loc scale = M_logistic.logpdf x loc scale) /\
  (forall p, ext p -> invcdf p 0 loc scale = M_logistic.invcdf p loc scale /\ invsf p 0 loc scale = M_logistic.invsf p loc scale) /\
  support 0 loc scale = M_logistic.support loc scale /\ mean 0 loc scale = M_logistic.mean loc scale /\ var 0 loc scale = M_logistic.var loc scale.
Proof. first [exact P_tukeylambda.logistic_ok | intros; apply P_tukeylambda.logistic_ok; assumption]. Qed.
Print Assumptions C45_tukeylambda.
Example C45_tukeylambda_instance := C45_tukeylambda  (fun _ _ => NaN) 5%nat (Fin 1) 1 3 ltac:(inst).

(** C30: with a negative shape, cdf(-inf) and sf(+inf) raise ZeroDivisionError. *)
Theorem C30_tukeylambda_refuted : forall fr n (delta lam loc scale : R),
  lam < 0 -> 0 < scale -> 0 < delta ->
  cdf fr (Datatypes.S n) delta NInf lam loc scale = Exc ZeroDivisionError /\ sf fr (Datatypes.S n) delta PInf lam loc scale = Exc ZeroDivisionError.
Proof. first [exact P_tukeylambda.neg_inf | intros; apply P_tukeylambda.neg_inf; assumption]. Qed.
Print Assumptions C30_tukeylambda_refuted.
Example C30_tukeylambda_refuted_instance := C30_tukeylambda_refuted  (fun _ _ => NaN) 5%nat (1/4) (-1) 1 3 ltac:(inst) ltac:(inst) ltac:(inst).

(** C43: for lam <= -1 the first raw moment is loc although mean is nan. *)
Theorem C43_tukeylambda_first_refuted : forall (lam loc scale : R),
  lam <= -1 -> 0 < scale -> noncentral_moment 1 lam loc scale = Fin loc /\ mean lam loc scale = NaN.
Proof. first [exact P_tukeylambda.mom1_bad | intros; apply P_tukeylambda.mom1_bad; assumption]. Qed.
Print Assumptions C43_tukeylambda_first_refuted.
Example C43_tukeylambda_first_refuted_instance := C43_tukeylambda_first_refuted  (-2) 1 3 ltac:(inst) ltac:(inst).

(** C43: for lam = 0 the second raw moment raises ZeroDivisionError although the variance is finite. *)
Theorem C43_tukeylambda_second_refuted : forall (loc scale : R),
  0 < scale -> noncentral_moment 2 0 loc scale = Exc ZeroDivisionError /\ var 0 loc scale = Fin ((scale * PI) ^ 2 / 3).
Proof. first [exact P_tukeylambda.mom2_bad | intros; apply P_tukeylambda.mom2_bad; assumption]. Qed.
Print Assumptions C43_tukeylambda_second_refuted.
Example C43_tukeylambda_second_refuted_instance := C43_tukeylambda_second_refuted  1 3 ltac:(inst).

