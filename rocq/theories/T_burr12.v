(** Properties of mpsci.distributions.burr12 (generated by tools/mkthm.py). *)
From Coq Require Import Reals Lra List.
From Coquelicot Require Import Coquelicot.
From Verif Require Import Values Spec SpecStat SpecEst VTac TTac DistLib.
From Verif Require Import M_sfun.
From Verif Require Import M_burr12.
From Verif Require P_burr12.
Import ListNotations.
Local Open Scope R_scope.

Theorem C30_burr12 : forall c d s : R, 0 < c -> 0 < d -> 0 < s -> 
  complementary (fun x => M_burr12.cdf x c d s) (fun x => M_burr12.sf x c d s).
Proof. exact (fun c d s H0 H1 H2 => cert_complementary (P_burr12.CERT c d s H0 H1 H2)). Qed.
Print Assumptions C30_burr12.
Example C30_burr12_instance : complementary (fun x => M_burr12.cdf x (3) (1) (2)) (fun x => M_burr12.sf x (3) (1) (2)).
Proof. exact (C30_burr12 (3) (1) (2) ltac:(side) ltac:(side) ltac:(side)). Qed.

Theorem C31_burr12 : forall c d s : R, 0 < c -> 0 < d -> 0 < s -> 
  nondecreasing (fun x => M_burr12.cdf x c d s) /\ supported_on (fun x => M_burr12.cdf x c d s) (Fin (0)) PInf /\
  M_burr12.support c d s = Ok ((Fin (0)), PInf).
Proof. intros c d s H0 H1 H2. split; [exact (cert_nondecreasing (P_burr12.CERT c d s H0 H1 H2))|split; [exact (cert_supported (P_burr12.CERT c d s H0 H1 H2))|unfold M_burr12.support, M_burr12.validate; supp]]. Qed.
Print Assumptions C31_burr12.
Example C31_burr12_instance : nondecreasing (fun x => M_burr12.cdf x (3) (1) (2)) /\ supported_on (fun x => M_burr12.cdf x (3) (1) (2)) (Fin (0)) PInf /\
  M_burr12.support (3) (1) (2) = Ok ((Fin (0)), PInf).
Proof. exact (C31_burr12 (3) (1) (2) ltac:(side) ltac:(side) ltac:(side)). Qed.

Theorem C32_burr12 : forall c d s : R, 0 < c -> 0 < d -> 0 < s -> 
  density_of (fun x => M_burr12.cdf x c d s) (fun x => M_burr12.pdf x c d s) 0 p_infty.
Proof. exact (fun c d s H0 H1 H2 => cert_density (P_burr12.CERT c d s H0 H1 H2)). Qed.
Print Assumptions C32_burr12.
Example C32_burr12_instance : density_of (fun x => M_burr12.cdf x (3) (1) (2)) (fun x => M_burr12.pdf x (3) (1) (2)) 0 p_infty.
Proof. exact (C32_burr12 (3) (1) (2) ltac:(side) ltac:(side) ltac:(side)). Qed.

Theorem C33_burr12 : forall c d s : R, 0 < c -> 0 < d -> 0 < s -> 
  total_mass_one (fun x => M_burr12.pdf x c d s) 0 p_infty.
Proof. exact (fun c d s H0 H1 H2 => cert_total_mass (P_burr12.CERT c d s H0 H1 H2)). Qed.
Print Assumptions C33_burr12.
Example C33_burr12_instance : total_mass_one (fun x => M_burr12.pdf x (3) (1) (2)) 0 p_infty.
Proof. exact (C33_burr12 (3) (1) (2) ltac:(side) ltac:(side) ltac:(side)). Qed.

Theorem C34_burr12 : forall c d s : R, 0 < c -> 0 < d -> 0 < s -> 
  forall x : R, log_of (fun x => M_burr12.pdf x c d s) (fun x => M_burr12.logpdf x c d s) (Fin x).
Proof. exact (fun c d s H0 H1 H2 => P_burr12.log_all c d s H0 H1 H2). Qed.
Print Assumptions C34_burr12.
Example C34_burr12_instance : forall x : R, log_of (fun x => M_burr12.pdf x (3) (1) (2)) (fun x => M_burr12.logpdf x (3) (1) (2)) (Fin x).
Proof. exact (C34_burr12 (3) (1) (2) ltac:(side) ltac:(side) ltac:(side)). Qed.

Theorem C35_burr12 : forall c d s : R, 0 < c -> 0 < d -> 0 < s -> 
  inverse_of (fun x => M_burr12.cdf x c d s) (fun x => M_burr12.invcdf x c d s) 0 p_infty.
Proof. exact (fun c d s H0 H1 H2 => cert_inverse (P_burr12.CERT c d s H0 H1 H2)). Qed.
Print Assumptions C35_burr12.
Example C35_burr12_instance : inverse_of (fun x => M_burr12.cdf x (3) (1) (2)) (fun x => M_burr12.invcdf x (3) (1) (2)) 0 p_infty.
Proof. exact (C35_burr12 (3) (1) (2) ltac:(side) ltac:(side) ltac:(side)). Qed.

Theorem C36_burr12 : forall c d s : R, 0 < c -> 0 < d -> 0 < s -> 
  inverse_of (fun x => M_burr12.sf x c d s) (fun x => M_burr12.invsf x c d s) 0 p_infty /\
  (forall p, 0 < p < 1 -> M_burr12.invsf (Fin p) c d s = M_burr12.invcdf (Fin (1 - p)) c d s).
Proof. exact (fun c d s H0 H1 H2 => conj (cert_inverse_sf (P_burr12.CERT c d s H0 H1 H2)) (cert_invsf_invcdf (P_burr12.CERT c d s H0 H1 H2))). Qed.
Print Assumptions C36_burr12.
Example C36_burr12_instance : inverse_of (fun x => M_burr12.sf x (3) (1) (2)) (fun x => M_burr12.invsf x (3) (1) (2)) 0 p_infty /\
  (forall p, 0 < p < 1 -> M_burr12.invsf (Fin p) (3) (1) (2) = M_burr12.invcdf (Fin (1 - p)) (3) (1) (2)).
Proof. exact (C36_burr12 (3) (1) (2) ltac:(side) ltac:(side) ltac:(side)). Qed.

(** C34: logcdf and logsf are the logarithms of cdf and sf. *)
Theorem C34_burr12_cdf : forall c d s : R, 0 < c -> 0 < d -> 0 < s -> forall (x : R),
  log_of (fun x => cdf x c d s) (fun x => logcdf x c d s) x /\
  log_of (fun x => sf x c d s) (fun x => logsf x c d s) x.
Proof. first [exact P_burr12.log_cdf_sf | intros; apply P_burr12.log_cdf_sf; assumption]. Qed.
Print Assumptions C34_burr12_cdf.
Example C34_burr12_cdf_instance := C34_burr12_cdf (3) (1) (2) ltac:(inst) ltac:(inst) ltac:(inst) 4.

(** C37: p outside [0,1] is rejected and the lower end of [0,1] goes to the lower end of the support ... *)
Theorem C37_burr12_partial : forall c d s : R, 0 < c -> 0 < d -> 0 < s -> rejects_bad_p (fun p => invcdf p c d s) /\ rejects_bad_p (fun p => invsf p c d s) /\
  invcdf (Fin 0) c d s = Fin 0 /\ invsf (Fin 1) c d s = Fin 0.
Proof. first [exact P_burr12.rejects | intros; apply P_burr12.rejects; assumption]. Qed.
Print Assumptions C37_burr12_partial.
Example C37_burr12_partial_instance := C37_burr12_partial (3) (1) (2) ltac:(inst) ltac:(inst) ltac:(inst) .

(** C37: ... but for d = 2, 1, 2/3, 1/2, ... the upper end raises ZeroDivisionError instead of giving +inf. *)
Theorem C37_burr12_refuted : forall c d s : R, 0 < c -> 0 < d -> 0 < s -> (exists k : positive, d = 2 / IZR (Zpos k)) ->
  invcdf (Fin 1) c d s = Exc ZeroDivisionError /\ invsf (Fin 0) c d s = Exc ZeroDivisionError.
Proof. first [exact P_burr12.ends_hi | intros; apply P_burr12.ends_hi; assumption]. Qed.
Print Assumptions C37_burr12_refuted.
Example C37_burr12_refuted_instance := C37_burr12_refuted (3) (1) (2) ltac:(inst) ltac:(inst) ltac:(inst) ltac:(inst).

(** C38: a shape or scale that is not positive is rejected by every function. *)
Theorem C38_burr12 : forall beta c d s,
  isnum c -> isnum d -> isnum s -> nonpositive c \/ nonpositive d \/ nonpositive s ->
  support c d s = Err ValueError /\
  always_ValueError [ fun x => pdf x c d s; fun x => logpdf x c d s; fun x => cdf x c d s; fun x => sf x c d s;
    fun x => logcdf x c d s; fun x => logsf x c d s;
    fun p => invcdf p c d s; fun p => invsf p c d s; fun _ => median c d s; fun _ => mode c d s;
    fun _ => mean beta c d s; fun _ => var beta c d s ] /\ forall xs, nll xs c d s = Exc ValueError.
Proof. first [exact P_burr12.bad_params | intros; apply P_burr12.bad_params; assumption]. Qed.
Print Assumptions C38_burr12.
Example C38_burr12_instance := C38_burr12  (fun u v => v) (Fin 0) (Fin 1) (Fin 1) ltac:(inst) ltac:(inst) ltac:(inst) ltac:(inst).

(** C39: for c > 1 the mode maximises the density. *)
Theorem C39_burr12_partial : forall c d s : R, 0 < c -> 0 < d -> 0 < s -> 1 < c -> is_mode (fun x => pdf x c d s) (mode c d s).
Proof. first [exact P_burr12.mode_ok | intros; apply P_burr12.mode_ok; assumption]. Qed.
Print Assumptions C39_burr12_partial.
Example C39_burr12_partial_instance := C39_burr12_partial (3) (1) (2) ltac:(inst) ltac:(inst) ltac:(inst) ltac:(inst).

(** C39: for c <= 1 the density decreases on the whole support, and the mode returned is its left end although pdf is 0 at that very point. *)
Theorem C39_burr12_low : forall c d s : R, 0 < c -> 0 < d -> 0 < s -> c <= 1 -> mode c d s = Fin 0 /\ pdf (Fin 0) c d s = Fin 0 /\
  forall x y : R, 0 < x < y -> exists fx fy, pdf x c d s = Fin fx /\ pdf y c d s = Fin fy /\ fy <= fx.
Proof. first [exact P_burr12.mode_low | intros; apply P_burr12.mode_low; assumption]. Qed.
Print Assumptions C39_burr12_low.
Example C39_burr12_low_instance := C39_burr12_low   1 1 2 ltac:(inst) ltac:(inst) ltac:(inst) ltac:(inst).

(** C43: the median halves the distribution. *)
Theorem C43_burr12_median : forall c d s : R, 0 < c -> 0 < d -> 0 < s -> median_is (fun x => cdf x c d s) (median c d s).
Proof. first [exact P_burr12.median_ok | intros; apply P_burr12.median_ok; assumption]. Qed.
Print Assumptions C43_burr12_median.
Example C43_burr12_median_instance := C43_burr12_median (3) (1) (2) ltac:(inst) ltac:(inst) ltac:(inst) .

(** C43: for c d > 1 the mean is that of the density ... *)
Theorem C43_burr12_mean : forall c d s : R, 0 < c -> 0 < d -> 0 < s -> 1 < c * d -> mean_is (fun x => pdf x c d s) 0 p_infty (mean vbeta c d s).
Proof. first [exact P_burr12.mean_ok | intros; apply P_burr12.mean_ok; assumption]. Qed.
Print Assumptions C43_burr12_mean.
Example C43_burr12_mean_instance := C43_burr12_mean (3) (1) (2) ltac:(inst) ltac:(inst) ltac:(inst) ltac:(inst).

(** C43: ... and it is nan otherwise. *)
Theorem C43_burr12_mean_nan : forall c d s : R, 0 < c -> 0 < d -> 0 < s -> forall beta,
  c * d <= 1 -> mean beta c d s = NaN.
Proof. first [exact P_burr12.mean_nan | intros; apply P_burr12.mean_nan; assumption]. Qed.
Print Assumptions C43_burr12_mean_nan.
Example C43_burr12_mean_nan_instance := C43_burr12_mean_nan   1 1 2 ltac:(inst) ltac:(inst) ltac:(inst) vbeta ltac:(inst).

(** C43: for c d > 2 the variance is that of the density ... *)
Theorem C43_burr12_var : forall (c d s : R),
  0 < c -> 0 < d -> 0 < s -> 2 < c * d -> var_is (fun x => pdf x c d s) 0 p_infty (mean vbeta c d s) (var vbeta c d s).
Proof. first [exact P_burr12.var_ok | intros; apply P_burr12.var_ok; assumption]. Qed.
Print Assumptions C43_burr12_var.
Example C43_burr12_var_instance := C43_burr12_var   3 1 2 ltac:(inst) ltac:(inst) ltac:(inst) ltac:(inst).

(** C43: ... and it is nan otherwise. *)
Theorem C43_burr12_var_nan : forall (c d s : R) beta,
  0 < c -> 0 < d -> 0 < s -> c * d <= 2 -> var beta c d s = NaN.
Proof. first [exact P_burr12.var_nan | intros; apply P_burr12.var_nan; assumption]. Qed.
Print Assumptions C43_burr12_var_nan.
Example C43_burr12_var_nan_instance := C43_burr12_var_nan   1 1 2 vbeta ltac:(inst) ltac:(inst) ltac:(inst) ltac:(inst).

(** C44: scale. *)
Theorem C44_burr12 : forall (c d : R),
  0 < c -> 0 < d ->
  scale_law (fun x s => pdf x c d s) (fun x s => cdf x c d s) (fun x s => sf x c d s)
    (fun p s => invcdf p c d s) (fun p s => invsf p c d s) 0 p_infty.
Proof. first [exact P_burr12.scale_ok | intros; apply P_burr12.scale_ok; assumption]. Qed.
Print Assumptions C44_burr12.
Example C44_burr12_instance := C44_burr12  1 2 ltac:(inst) ltac:(inst).

(** C47: c and scale given: the returned d minimises nll. *)
Theorem C47_burr12_partial : forall xs (c s : R),
  xs <> [] -> 0 < c -> 0 < s -> (forall x, In x xs -> 0 < x) ->
  exists d, mle_d (map Fin xs) c s = Ok (Fin c, Fin d, Fin s) /\
  minimises (fun d => 0 < d) (fun d => nll (map Fin xs) c (Fin d) s) d.
Proof. first [exact P_burr12.mle_d_opt | intros; apply P_burr12.mle_d_opt; assumption]. Qed.
Print Assumptions C47_burr12_partial.
Example C47_burr12_partial_instance := C47_burr12_partial  [1; 2; 5] 3 2 ltac:(inst) ltac:(inst) ltac:(inst) ltac:(inst).

(** C49: nll is minus the sum of logpdf. *)
Theorem C49_burr12 : forall c d s : R, 0 < c -> 0 < d -> 0 < s -> forall xs,
  (forall x, In x xs -> 0 < x) ->
  nll (map Fin xs) c d s = vneg (loglik (fun x => logpdf x c d s) xs).
Proof. first [exact P_burr12.nll_ok | intros; apply P_burr12.nll_ok; assumption]. Qed.
Print Assumptions C49_burr12.
Example C49_burr12_instance := C49_burr12 (3) (1) (2) ltac:(inst) ltac:(inst) ltac:(inst) [1; 2; 5] ltac:(inst).

(** C49: data outside the support is rejected. *)
Theorem C49_burr12_outside : forall c d s : R, 0 < c -> 0 < d -> 0 < s -> forall xs,
  (exists x, In x xs /\ x <= 0) -> nll (map Fin xs) c d s = Exc ValueError.
Proof. first [exact P_burr12.nll_bad | intros; apply P_burr12.nll_bad; assumption]. Qed.
Print Assumptions C49_burr12_outside.
Example C49_burr12_outside_instance := C49_burr12_outside (3) (1) (2) ltac:(inst) ltac:(inst) ltac:(inst) [1; 0; 5] ltac:(inst).

