(** Properties of mpsci.distributions.exponweib (generated by tools/mkthm.py). *)
From Coq Require Import Reals Lra List.
From Coquelicot Require Import Coquelicot.
From Verif Require Import Values Spec SpecStat SpecEst VTac TTac DistLib.
From Verif Require M_weibull_min.
From Verif Require Import M_exponweib.
From Verif Require P_exponweib.
Import ListNotations.
Local Open Scope R_scope.

Theorem C30_exponweib : forall a c s : R, 0 < a -> 0 < c -> 0 < s -> 
  complementary (fun x => M_exponweib.cdf x a c s) (fun x => M_exponweib.sf x a c s).
Proof. exact (fun a c s H0 H1 H2 => cert_complementary (P_exponweib.CERT a c s H0 H1 H2)). Qed.
Print Assumptions C30_exponweib.
Example C30_exponweib_instance : complementary (fun x => M_exponweib.cdf x (1) (3) (2)) (fun x => M_exponweib.sf x (1) (3) (2)).
Proof. exact (C30_exponweib (1) (3) (2) ltac:(side) ltac:(side) ltac:(side)). Qed.

Theorem C31_exponweib : forall a c s : R, 0 < a -> 0 < c -> 0 < s -> 
  nondecreasing (fun x => M_exponweib.cdf x a c s) /\ supported_on (fun x => M_exponweib.cdf x a c s) (Fin (0)) PInf /\
  M_exponweib.support a c s = Ok ((Fin (0)), PInf).
Proof. intros a c s H0 H1 H2. split; [exact (cert_nondecreasing (P_exponweib.CERT a c s H0 H1 H2))|split; [exact (cert_supported (P_exponweib.CERT a c s H0 H1 H2))|unfold M_exponweib.support, M_exponweib.validate; supp]]. Qed.
Print Assumptions C31_exponweib.
Example C31_exponweib_instance : nondecreasing (fun x => M_exponweib.cdf x (1) (3) (2)) /\ supported_on (fun x => M_exponweib.cdf x (1) (3) (2)) (Fin (0)) PInf /\
  M_exponweib.support (1) (3) (2) = Ok ((Fin (0)), PInf).
Proof. exact (C31_exponweib (1) (3) (2) ltac:(side) ltac:(side) ltac:(side)). Qed.

Theorem C32_exponweib : forall a c s : R, 0 < a -> 0 < c -> 0 < s -> 
  density_of (fun x => M_exponweib.cdf x a c s) (fun x => M_exponweib.pdf x a c s) 0 p_infty.
Proof. exact (fun a c s H0 H1 H2 => cert_density (P_exponweib.CERT a c s H0 H1 H2)). Qed.
Print Assumptions C32_exponweib.
Example C32_exponweib_instance : density_of (fun x => M_exponweib.cdf x (1) (3) (2)) (fun x => M_exponweib.pdf x (1) (3) (2)) 0 p_infty.
Proof. exact (C32_exponweib (1) (3) (2) ltac:(side) ltac:(side) ltac:(side)). Qed.

Theorem C33_exponweib : forall a c s : R, 0 < a -> 0 < c -> 0 < s -> 
  total_mass_one (fun x => M_exponweib.pdf x a c s) 0 p_infty.
Proof. exact (fun a c s H0 H1 H2 => cert_total_mass (P_exponweib.CERT a c s H0 H1 H2)). Qed.
Print Assumptions C33_exponweib.
Example C33_exponweib_instance : total_mass_one (fun x => M_exponweib.pdf x (1) (3) (2)) 0 p_infty.
Proof. exact (C33_exponweib (1) (3) (2) ltac:(side) ltac:(side) ltac:(side)). Qed.

Theorem C34_exponweib : forall a c s : R, 0 < a -> 0 < c -> 0 < s -> 
  forall x : R, Finite (0) <> Finite x -> p_infty <> Finite x -> log_of (fun x => M_exponweib.pdf x a c s) (fun x => M_exponweib.logpdf x a c s) (Fin x).
Proof. exact (fun a c s H0 H1 H2 => cert_log (P_exponweib.CERT a c s H0 H1 H2)). Qed.
Print Assumptions C34_exponweib.
Example C34_exponweib_instance : forall x : R, Finite (0) <> Finite x -> p_infty <> Finite x -> log_of (fun x => M_exponweib.pdf x (1) (3) (2)) (fun x => M_exponweib.logpdf x (1) (3) (2)) (Fin x).
Proof. exact (C34_exponweib (1) (3) (2) ltac:(side) ltac:(side) ltac:(side)). Qed.

Theorem C35_exponweib : forall a c s : R, 0 < a -> 0 < c -> 0 < s -> 
  inverse_of (fun x => M_exponweib.cdf x a c s) (fun x => M_exponweib.invcdf x a c s) 0 p_infty.
Proof. exact (fun a c s H0 H1 H2 => cert_inverse (P_exponweib.CERT a c s H0 H1 H2)). Qed.
Print Assumptions C35_exponweib.
Example C35_exponweib_instance : inverse_of (fun x => M_exponweib.cdf x (1) (3) (2)) (fun x => M_exponweib.invcdf x (1) (3) (2)) 0 p_infty.
Proof. exact (C35_exponweib (1) (3) (2) ltac:(side) ltac:(side) ltac:(side)). Qed.

Theorem C36_exponweib : forall a c s : R, 0 < a -> 0 < c -> 0 < s -> 
  inverse_of (fun x => M_exponweib.sf x a c s) (fun x => M_exponweib.invsf x a c s) 0 p_infty /\
  (forall p, 0 < p < 1 -> M_exponweib.invsf (Fin p) a c s = M_exponweib.invcdf (Fin (1 - p)) a c s).
Proof. exact (fun a c s H0 H1 H2 => conj (cert_inverse_sf (P_exponweib.CERT a c s H0 H1 H2)) (cert_invsf_invcdf (P_exponweib.CERT a c s H0 H1 H2))). Qed.
Print Assumptions C36_exponweib.
Example C36_exponweib_instance : inverse_of (fun x => M_exponweib.sf x (1) (3) (2)) (fun x => M_exponweib.invsf x (1) (3) (2)) 0 p_infty /\
  (forall p, 0 < p < 1 -> M_exponweib.invsf (Fin p) (1) (3) (2) = M_exponweib.invcdf (Fin (1 - p)) (1) (3) (2)).
Proof. exact (C36_exponweib (1) (3) (2) ltac:(side) ltac:(side) ltac:(side)). Qed.

Theorem C37_exponweib : forall a c s : R, 0 < a -> 0 < c -> 0 < s -> 
  rejects_bad_p (fun x => M_exponweib.invcdf x a c s) /\ rejects_bad_p (fun x => M_exponweib.invsf x a c s) /\
  at_ends (fun x => M_exponweib.invcdf x a c s) (Fin 0) PInf /\ at_ends (fun x => M_exponweib.invsf x a c s) PInf (Fin 0).
Proof. exact (fun a c s H0 H1 H2 => P_exponweib.ends a c s H0 H1 H2). Qed.
Print Assumptions C37_exponweib.
Example C37_exponweib_instance : rejects_bad_p (fun x => M_exponweib.invcdf x (1) (3) (2)) /\ rejects_bad_p (fun x => M_exponweib.invsf x (1) (3) (2)) /\
  at_ends (fun x => M_exponweib.invcdf x (1) (3) (2)) (Fin 0) PInf /\ at_ends (fun x => M_exponweib.invsf x (1) (3) (2)) PInf (Fin 0).
Proof. exact (C37_exponweib (1) (3) (2) ltac:(side) ltac:(side) ltac:(side)). Qed.

(** C38: a parameter that must be positive and is not is rejected by every function. *)
Theorem C38_exponweib : forall (a c s : val),
  isnum a -> isnum c -> isnum s -> nonpositive a \/ nonpositive c \/ nonpositive s ->
  support a c s = Err ValueError /\
  always_ValueError [ fun x => pdf x a c s; fun x => logpdf x a c s; fun x => cdf x a c s; fun x => sf x a c s;
    fun p => invcdf p a c s; fun p => invsf p a c s ].
Proof. first [exact P_exponweib.bad_params | intros; apply P_exponweib.bad_params; assumption]. Qed.
Print Assumptions C38_exponweib.
Example C38_exponweib_instance := C38_exponweib  (Fin 0) (Fin 1) (Fin 1) ltac:(inst) ltac:(inst) ltac:(inst) ltac:(inst).

(** C44: scale. *)
Theorem C44_exponweib : forall a c,
  0 < a -> 0 < c -> scale_law (fun x => pdf x a c) (fun x => cdf x a c) (fun x => sf x a c)
  (fun p => invcdf p a c) (fun p => invsf p a c) 0 p_infty.
Proof. first [exact P_exponweib.scale_ok | intros; apply P_exponweib.scale_ok; assumption]. Qed.
Print Assumptions C44_exponweib.
Example C44_exponweib_instance := C44_exponweib  1 2 ltac:(inst) ltac:(inst).

(** C45: for a = 1 the density is that of weibull_min. *)
Theorem C45_exponweib_pdf : forall (c s x : R),
  0 < c -> 0 < s -> 0 < x ->
  pdf x (Fin 1) c s = M_weibull_min.pdf x c (Fin 0) s /\ logpdf x (Fin 1) c s = M_weibull_min.logpdf x c (Fin 0) s.
Proof. first [exact P_exponweib.is_weibull | intros; apply P_exponweib.is_weibull; assumption]. Qed.
Print Assumptions C45_exponweib_pdf.
Example C45_exponweib_pdf_instance := C45_exponweib_pdf  3 2 1 ltac:(inst) ltac:(inst) ltac:(inst).

(** C45: so are cdf and sf. *)
Theorem C45_exponweib : forall (c s x : R),
  0 < c -> 0 < s ->
  cdf x (Fin 1) c s = M_weibull_min.cdf x c (Fin 0) s /\ sf x (Fin 1) c s = M_weibull_min.sf x c (Fin 0) s.
Proof. first [exact P_exponweib.is_weibull_cdf | intros; apply P_exponweib.is_weibull_cdf; assumption]. Qed.
Print Assumptions C45_exponweib.
Example C45_exponweib_instance := C45_exponweib  3 2 1 ltac:(inst) ltac:(inst).

(** C65: logpdf(0) is nan when c = 1 or a = 1 ... *)
Theorem C65_exponweib_refuted : forall a c s : R, 0 < a -> 0 < c -> 0 < s -> c = 1 \/ a = 1 -> logpdf (Fin 0) a c s = NaN.
Proof. first [exact P_exponweib.logpdf_0 | intros; apply P_exponweib.logpdf_0; assumption]. Qed.
Print Assumptions C65_exponweib_refuted.
Example C65_exponweib_refuted_instance := C65_exponweib_refuted (1) (3) (2) ltac:(inst) ltac:(inst) ltac:(inst) ltac:(inst).

(** C65: ... although pdf(0) = 1/scale when both are 1. *)
Theorem C65_exponweib_pdf : forall a c s : R, 0 < a -> 0 < c -> 0 < s -> c = 1 -> a = 1 -> pdf (Fin 0) a c s = Fin (1 / s).
Proof. first [exact P_exponweib.pdf_0 | intros; apply P_exponweib.pdf_0; assumption]. Qed.
Print Assumptions C65_exponweib_pdf.
Example C65_exponweib_pdf_instance : pdf 0 1 1 2 = Fin (1 / 2).
Proof. apply (C65_exponweib_pdf 1 1 2); lra. Qed.

