(** Properties of mpsci.distributions.ncx2 (generated by tools/mkthm.py). *)
From Coq Require Import Reals Lra List.
From Coquelicot Require Import Coquelicot.
From Verif Require Import Values Spec SpecStat SpecEst VTac TTac DistLib.
From Verif Require M_chi2.
From Verif Require Import M_ncx2.
From Verif Require P_ncx2.
Import ListNotations.
Local Open Scope R_scope.

Theorem C30_ncx2 : forall k lam : R, 0 < k -> 0 < lam -> 
  complementary (fun x => M_ncx2.cdf x k lam) (fun x => M_ncx2.sf x k lam).
Proof. exact (fun k lam H0 H1 => cert_complementary (P_ncx2.CERT k lam H0 H1)). Qed.
Print Assumptions C30_ncx2.
Example C30_ncx2_instance : complementary (fun x => M_ncx2.cdf x (3) (2)) (fun x => M_ncx2.sf x (3) (2)).
Proof. exact (C30_ncx2 (3) (2) ltac:(side) ltac:(side)). Qed.

Theorem C31_ncx2 : forall k lam : R, 0 < k -> 0 < lam -> 
  nondecreasing (fun x => M_ncx2.cdf x k lam) /\ supported_on (fun x => M_ncx2.cdf x k lam) (Fin (0)) PInf /\
  M_ncx2.support k lam = Ok ((Fin (0)), PInf).
Proof. intros k lam H0 H1. split; [exact (cert_nondecreasing (P_ncx2.CERT k lam H0 H1))|split; [exact (cert_supported (P_ncx2.CERT k lam H0 H1))|unfold M_ncx2.support; supp]]. Qed.
Print Assumptions C31_ncx2.
Example C31_ncx2_instance : nondecreasing (fun x => M_ncx2.cdf x (3) (2)) /\ supported_on (fun x => M_ncx2.cdf x (3) (2)) (Fin (0)) PInf /\
  M_ncx2.support (3) (2) = Ok ((Fin (0)), PInf).
Proof. exact (C31_ncx2 (3) (2) ltac:(side) ltac:(side)). Qed.

Theorem C32_ncx2 : forall k lam : R, 0 < k -> 0 < lam -> 
  density_of (fun x => M_ncx2.cdf x k lam) (fun x => M_ncx2.pdf x k lam) 0 p_infty.
Proof. exact (fun k lam H0 H1 => cert_density (P_ncx2.CERT k lam H0 H1)). Qed.
Print Assumptions C32_ncx2.
Example C32_ncx2_instance : density_of (fun x => M_ncx2.cdf x (3) (2)) (fun x => M_ncx2.pdf x (3) (2)) 0 p_infty.
Proof. exact (C32_ncx2 (3) (2) ltac:(side) ltac:(side)). Qed.

Theorem C33_ncx2 : forall k lam : R, 0 < k -> 0 < lam -> 
  total_mass_one (fun x => M_ncx2.pdf x k lam) 0 p_infty.
Proof. exact (fun k lam H0 H1 => cert_total_mass (P_ncx2.CERT k lam H0 H1)). Qed.
Print Assumptions C33_ncx2.
Example C33_ncx2_instance : total_mass_one (fun x => M_ncx2.pdf x (3) (2)) 0 p_infty.
Proof. exact (C33_ncx2 (3) (2) ltac:(side) ltac:(side)). Qed.

(** C43: mean. *)
Theorem C43_ncx2_mean : forall k lam : R, 0 < k -> 0 < lam -> mean_is (fun x => pdf x k lam) 0 p_infty (mean k lam).
Proof. first [exact P_ncx2.mean_ok | intros; apply P_ncx2.mean_ok; assumption]. Qed.
Print Assumptions C43_ncx2_mean.
Example C43_ncx2_mean_instance := C43_ncx2_mean (3) (2) ltac:(inst) ltac:(inst) .

(** C43: variance. *)
Theorem C43_ncx2_var : forall k lam : R, 0 < k -> 0 < lam -> var_is (fun x => pdf x k lam) 0 p_infty (mean k lam) (var k lam).
Proof. first [exact P_ncx2.var_ok | intros; apply P_ncx2.var_ok; assumption]. Qed.
Print Assumptions C43_ncx2_var.
Example C43_ncx2_var_instance := C43_ncx2_var (3) (2) ltac:(inst) ltac:(inst) .

(** C31: support. *)
Theorem C31_ncx2_support : forall k lam : R, 0 < k -> 0 < lam -> support k lam = Ok (Fin 0, PInf).
Proof. first [exact P_ncx2.supp_ok | intros; apply P_ncx2.supp_ok; assumption]. Qed.
Print Assumptions C31_ncx2_support.
Example C31_ncx2_support_instance := C31_ncx2_support (3) (2) ltac:(inst) ltac:(inst) .

(** C45: cdf and sf with lam = 0 are those of chi2. *)
Theorem C45_ncx2 : forall (k : R),
  0 < k -> forall x : R, cdf x k 0 = M_chi2.cdf x k /\ sf x k 0 = M_chi2.sf x k.
Proof. first [exact P_ncx2.central | intros; apply P_ncx2.central; assumption]. Qed.
Print Assumptions C45_ncx2.
Example C45_ncx2_instance := C45_ncx2  3 ltac:(inst).

(** C32: lam = 0 is accepted by cdf and sf but pdf raises ZeroDivisionError. *)
Theorem C32_ncx2_central_refuted : forall (k : R),
  0 < k -> forall x : R, 0 < x -> pdf x k 0 = Exc ZeroDivisionError /\ exists d, 0 < d /\ M_chi2.pdf x k = Fin d.
Proof. first [exact P_ncx2.pdf_zero | intros; apply P_ncx2.pdf_zero; assumption]. Qed.
Print Assumptions C32_ncx2_central_refuted.
Example C32_ncx2_central_refuted_instance := C32_ncx2_central_refuted  2 ltac:(inst) 3 ltac:(inst).

(** C38: a negative k is accepted. *)
Theorem C38_ncx2_refuted : mean (Fin (-3)) (Fin 1) = Fin (-2) /\ var (Fin (-3)) (Fin 1) = Fin (-2) /\ support (Fin (-3)) (Fin 1) = Ok (Fin 0, PInf).
Proof. first [exact P_ncx2.no_check | intros; apply P_ncx2.no_check; assumption]. Qed.
Print Assumptions C38_ncx2_refuted.
Example C38_ncx2_refuted_instance := C38_ncx2_refuted  .

