(** Properties of mpsci.distributions.gamma_gompertz (generated by tools/mkthm.py). *)
From Coq Require Import Reals Lra List.
From Coquelicot Require Import Coquelicot.
From Verif Require Import Values Spec SpecStat SpecEst VTac TTac DistLib.
From Verif Require Import M_gamma_gompertz.
From Verif Require P_gamma_gompertz.
Import ListNotations.
Local Open Scope R_scope.

Theorem C30_gamma_gompertz : forall c b s : R, 0 < c -> 0 < b -> 0 < s -> 
  complementary (fun x => M_gamma_gompertz.cdf x c b s) (fun x => M_gamma_gompertz.sf x c b s).
Proof. exact (fun c b s H0 H1 H2 => cert_complementary (P_gamma_gompertz.CERT c b s H0 H1 H2)). Qed.
Print Assumptions C30_gamma_gompertz.
Example C30_gamma_gompertz_instance : complementary (fun x => M_gamma_gompertz.cdf x (1) (3) (2)) (fun x => M_gamma_gompertz.sf x (1) (3) (2)).
Proof. exact (C30_gamma_gompertz (1) (3) (2) ltac:(side) ltac:(side) ltac:(side)). Qed.

Theorem C31_gamma_gompertz : forall c b s : R, 0 < c -> 0 < b -> 0 < s -> 
  nondecreasing (fun x => M_gamma_gompertz.cdf x c b s) /\ supported_on (fun x => M_gamma_gompertz.cdf x c b s) (Fin (0)) PInf /\
  M_gamma_gompertz.support c b s = Ok ((Fin (0)), PInf).
Proof. intros c b s H0 H1 H2. split; [exact (cert_nondecreasing (P_gamma_gompertz.CERT c b s H0 H1 H2))|split; [exact (cert_supported (P_gamma_gompertz.CERT c b s H0 H1 H2))|unfold M_gamma_gompertz.support, M_gamma_gompertz.validate; supp]]. Qed.
Print Assumptions C31_gamma_gompertz.
Example C31_gamma_gompertz_instance : nondecreasing (fun x => M_gamma_gompertz.cdf x (1) (3) (2)) /\ supported_on (fun x => M_gamma_gompertz.cdf x (1) (3) (2)) (Fin (0)) PInf /\
  M_gamma_gompertz.support (1) (3) (2) = Ok ((Fin (0)), PInf).
Proof. exact (C31_gamma_gompertz (1) (3) (2) ltac:(side) ltac:(side) ltac:(side)). Qed.

Theorem C32_gamma_gompertz : forall c b s : R, 0 < c -> 0 < b -> 0 < s -> 
  density_of (fun x => M_gamma_gompertz.cdf x c b s) (fun x => M_gamma_gompertz.pdf x c b s) 0 p_infty.
Proof. exact (fun c b s H0 H1 H2 => cert_density (P_gamma_gompertz.CERT c b s H0 H1 H2)). Qed.
Print Assumptions C32_gamma_gompertz.
Example C32_gamma_gompertz_instance : density_of (fun x => M_gamma_gompertz.cdf x (1) (3) (2)) (fun x => M_gamma_gompertz.pdf x (1) (3) (2)) 0 p_infty.
Proof. exact (C32_gamma_gompertz (1) (3) (2) ltac:(side) ltac:(side) ltac:(side)). Qed.

Theorem C33_gamma_gompertz : forall c b s : R, 0 < c -> 0 < b -> 0 < s -> 
  total_mass_one (fun x => M_gamma_gompertz.pdf x c b s) 0 p_infty.
Proof. exact (fun c b s H0 H1 H2 => cert_total_mass (P_gamma_gompertz.CERT c b s H0 H1 H2)). Qed.
Print Assumptions C33_gamma_gompertz.
Example C33_gamma_gompertz_instance : total_mass_one (fun x => M_gamma_gompertz.pdf x (1) (3) (2)) 0 p_infty.
Proof. exact (C33_gamma_gompertz (1) (3) (2) ltac:(side) ltac:(side) ltac:(side)). Qed.

Theorem C34_gamma_gompertz : forall c b s : R, 0 < c -> 0 < b -> 0 < s -> 
  forall x : R, log_of (fun x => M_gamma_gompertz.pdf x c b s) (fun x => M_gamma_gompertz.logpdf x c b s) (Fin x).
Proof. exact (fun c b s H0 H1 H2 => P_gamma_gompertz.log_all c b s H0 H1 H2). Qed.
Print Assumptions C34_gamma_gompertz.
Example C34_gamma_gompertz_instance : forall x : R, log_of (fun x => M_gamma_gompertz.pdf x (1) (3) (2)) (fun x => M_gamma_gompertz.logpdf x (1) (3) (2)) (Fin x).
Proof. exact (C34_gamma_gompertz (1) (3) (2) ltac:(side) ltac:(side) ltac:(side)). Qed.

Theorem C35_gamma_gompertz : forall c b s : R, 0 < c -> 0 < b -> 0 < s -> 
  inverse_of (fun x => M_gamma_gompertz.cdf x c b s) (fun x => M_gamma_gompertz.invcdf x c b s) 0 p_infty.
Proof. exact (fun c b s H0 H1 H2 => cert_inverse (P_gamma_gompertz.CERT c b s H0 H1 H2)). Qed.
Print Assumptions C35_gamma_gompertz.
Example C35_gamma_gompertz_instance : inverse_of (fun x => M_gamma_gompertz.cdf x (1) (3) (2)) (fun x => M_gamma_gompertz.invcdf x (1) (3) (2)) 0 p_infty.
Proof. exact (C35_gamma_gompertz (1) (3) (2) ltac:(side) ltac:(side) ltac:(side)). Qed.

Theorem C36_gamma_gompertz : forall c b s : R, 0 < c -> 0 < b -> 0 < s -> 
  inverse_of (fun x => M_gamma_gompertz.sf x c b s) (fun x => M_gamma_gompertz.invsf x c b s) 0 p_infty /\
  (forall p, 0 < p < 1 -> M_gamma_gompertz.invsf (Fin p) c b s = M_gamma_gompertz.invcdf (Fin (1 - p)) c b s).
Proof. exact (fun c b s H0 H1 H2 => conj (cert_inverse_sf (P_gamma_gompertz.CERT c b s H0 H1 H2)) (cert_invsf_invcdf (P_gamma_gompertz.CERT c b s H0 H1 H2))). Qed.
Print Assumptions C36_gamma_gompertz.
Example C36_gamma_gompertz_instance : inverse_of (fun x => M_gamma_gompertz.sf x (1) (3) (2)) (fun x => M_gamma_gompertz.invsf x (1) (3) (2)) 0 p_infty /\
  (forall p, 0 < p < 1 -> M_gamma_gompertz.invsf (Fin p) (1) (3) (2) = M_gamma_gompertz.invcdf (Fin (1 - p)) (1) (3) (2)).
Proof. exact (C36_gamma_gompertz (1) (3) (2) ltac:(side) ltac:(side) ltac:(side)). Qed.

Theorem C39_gamma_gompertz : forall c b s : R, 0 < c -> 0 < b -> 0 < s -> 
  is_mode (fun x => M_gamma_gompertz.pdf x c b s) (M_gamma_gompertz.mode c b s).
Proof. exact (fun c b s H0 H1 H2 => P_gamma_gompertz.mode_ok c b s H0 H1 H2). Qed.
Print Assumptions C39_gamma_gompertz.
Example C39_gamma_gompertz_instance : is_mode (fun x => M_gamma_gompertz.pdf x (1) (3) (2)) (M_gamma_gompertz.mode (1) (3) (2)).
Proof. exact (C39_gamma_gompertz (1) (3) (2) ltac:(side) ltac:(side) ltac:(side)). Qed.

(** C37: p outside [0,1] is rejected and the ends are right, except perhaps for invsf(0) ... *)
Theorem C37_gamma_gompertz_partial : forall c b s : R, 0 < c -> 0 < b -> 0 < s -> rejects_bad_p (fun p => invcdf p c b s) /\ rejects_bad_p (fun p => invsf p c b s) /\
  at_ends (fun p => invcdf p c b s) (Fin 0) PInf /\ invsf (Fin 1) c b s = Fin 0.
Proof. first [exact P_gamma_gompertz.ends_ok | intros; apply P_gamma_gompertz.ends_ok; assumption]. Qed.
Print Assumptions C37_gamma_gompertz_partial.
Example C37_gamma_gompertz_partial_instance := C37_gamma_gompertz_partial (1) (3) (2) ltac:(inst) ltac:(inst) ltac:(inst) .

(** C37: ... which raises ZeroDivisionError for c = 2, 1, 2/3, 1/2, ... . *)
Theorem C37_gamma_gompertz_refuted : forall c b s : R, 0 < c -> 0 < b -> 0 < s -> (exists k : positive, c = 2 / IZR (Zpos k)) -> invsf (Fin 0) c b s = Exc ZeroDivisionError.
Proof. first [exact P_gamma_gompertz.ends_hi | intros; apply P_gamma_gompertz.ends_hi; assumption]. Qed.
Print Assumptions C37_gamma_gompertz_refuted.
Example C37_gamma_gompertz_refuted_instance := C37_gamma_gompertz_refuted (1) (3) (2) ltac:(inst) ltac:(inst) ltac:(inst) ltac:(exists 2%positive; lra).

(** C38: a parameter that must be positive and is not is rejected by every function. *)
Theorem C38_gamma_gompertz : forall h (c b s : val),
  isnum c -> isnum b -> isnum s -> nonpositive c \/ nonpositive b \/ nonpositive s ->
  support c b s = Err ValueError /\
  always_ValueError [ fun x => pdf x c b s; fun x => logpdf x c b s; fun x => cdf x c b s; fun x => sf x c b s;
    fun p => invcdf p c b s; fun p => invsf p c b s; fun _ => mode c b s; fun _ => mean h c b s ].
Proof. first [exact P_gamma_gompertz.bad_params | intros; apply P_gamma_gompertz.bad_params; assumption]. Qed.
Print Assumptions C38_gamma_gompertz.
Example C38_gamma_gompertz_instance := C38_gamma_gompertz  (fun _ _ _ _ => NaN) (Fin 0) (Fin 1) (Fin 1) ltac:(inst) ltac:(inst) ltac:(inst) ltac:(inst).

(** C43: mean for beta = 1 or c = 1 (the two cases that do not use hyp2f1). *)
Theorem C43_gamma_gompertz_mean_partial : forall c b s : R, 0 < c -> 0 < b -> 0 < s -> forall h,
  b = 1 \/ c = 1 -> mean_is (fun x => pdf x c b s) 0 p_infty (mean h c b s).
Proof. first [exact P_gamma_gompertz.mean_ok | intros; apply P_gamma_gompertz.mean_ok; assumption]. Qed.
Print Assumptions C43_gamma_gompertz_mean_partial.
Example C43_gamma_gompertz_mean_partial_instance := C43_gamma_gompertz_mean_partial (1) (3) (2) ltac:(inst) ltac:(inst) ltac:(inst) (fun _ _ _ _ => NaN) ltac:(inst).

(** C44: scale. *)
Theorem C44_gamma_gompertz : forall c b,
  0 < c -> 0 < b -> scale_law (fun x => pdf x c b) (fun x => cdf x c b) (fun x => sf x c b)
  (fun p => invcdf p c b) (fun p => invsf p c b) 0 p_infty.
Proof. first [exact P_gamma_gompertz.scale_ok | intros; apply P_gamma_gompertz.scale_ok; assumption]. Qed.
Print Assumptions C44_gamma_gompertz.
Example C44_gamma_gompertz_instance := C44_gamma_gompertz  1 2 ltac:(inst) ltac:(inst).

