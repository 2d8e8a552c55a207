(** Properties of mpsci.distributions.vonmises (generated by tools/mkthm.py). *)
From Coq Require Import Reals Lra List.
From Coquelicot Require Import Coquelicot.
From Verif Require Import Values Spec SpecStat SpecEst VTac TTac DistLib.
From Verif Require Import SpecDisc SpecInt SpecMulti.
From Verif Require Import SpecStat SpecEst M_common.
From Verif Require Import M_vonmises.
From Verif Require P_vonmises.
Import ListNotations.
Local Open Scope R_scope.

(** C31: the support, and a positive density that is 2 pi periodic and symmetric about mu. *)
Theorem C31_vonmises : forall (kappa mu : R), support kappa mu = Ok (Fin (- PI + mu), Fin (PI + mu)) /\
  (forall x : R, exists d, 0 < d /\ pdf x kappa mu = Fin d /\ pdf (Fin (x + 2 * PI)) kappa mu = Fin d /\ pdf (Fin (2 * mu - x)) kappa mu = Fin d).
Proof. first [exact P_vonmises.supp | intros; apply P_vonmises.supp; assumption]. Qed.
Print Assumptions C31_vonmises.
Example C31_vonmises_instance := C31_vonmises (2) (1)  .

(** C33: the density integrates to 1 over the support; besseli is given by its integral. *)
Theorem C33_vonmises : forall (kappa mu : R), total_mass_one (fun x => pdf x kappa mu) (- PI + mu) (PI + mu).
Proof. first [exact P_vonmises.mass | intros; apply P_vonmises.mass; assumption]. Qed.
Print Assumptions C33_vonmises.
Example C33_vonmises_instance := C33_vonmises (2) (1)  .

(** C34: logpdf is the logarithm of pdf at every real x. *)
Theorem C34_vonmises : forall (kappa mu : R), forall (x : R),
  log_of (fun x => pdf x kappa mu) (fun x => logpdf x kappa mu) x.
Proof. first [exact P_vonmises.log_ok | intros; apply P_vonmises.log_ok; assumption]. Qed.
Print Assumptions C34_vonmises.
Example C34_vonmises_instance := C34_vonmises (2) (1)  1.

(** C31: the density is largest at mu. *)
Theorem C31_vonmises_peak : forall (kappa mu : R), 0 <= kappa -> forall x : R, exists d m, pdf x kappa mu = Fin d /\ pdf mu kappa mu = Fin m /\ d <= m.
Proof. first [exact P_vonmises.mode_ok | intros; apply P_vonmises.mode_ok; assumption]. Qed.
Print Assumptions C31_vonmises_peak.
Example C31_vonmises_peak_instance := C31_vonmises_peak (2) (1)  ltac:(inst) 0.

(** C43: circular mean and variance: the mean of the unit vectors (cos x, sin x) has direction circmean and length 1 - circvar. *)
Theorem C43_vonmises : forall (kappa mu : R), 0 < kappa -> exists R0, 0 < R0 /\ circmean kappa mu = Fin mu /\ circvar kappa mu = Fin (1 - R0) /\
  integrates_to (fun x => cos x * toR (pdf (Fin x) kappa mu)) (- PI + mu) (PI + mu) (R0 * cos mu) /\
  integrates_to (fun x => sin x * toR (pdf (Fin x) kappa mu)) (- PI + mu) (PI + mu) (R0 * sin mu).
Proof. first [exact P_vonmises.circ_ok | intros; apply P_vonmises.circ_ok; assumption]. Qed.
Print Assumptions C43_vonmises.
Example C43_vonmises_instance := C43_vonmises (2) (1)  ltac:(inst).

(** C43: entropy. *)
Theorem C43_vonmises_entropy : forall (kappa mu : R), entropy_is (fun x => pdf x kappa mu) (- PI + mu) (PI + mu) (entropy kappa mu).
Proof. first [exact P_vonmises.ent_ok | intros; apply P_vonmises.ent_ok; assumption]. Qed.
Print Assumptions C43_vonmises_entropy.
Example C43_vonmises_entropy_instance := C43_vonmises_entropy (2) (1)  .

(** C43: kappa < 0 is accepted; then the mean direction is mu + pi, not circmean, and circvar exceeds 1. *)
Theorem C43_vonmises_refuted : forall (kappa mu : R), kappa < 0 -> exists R0, 0 < R0 /\ circmean kappa mu = Fin mu /\ circvar kappa mu = Fin (1 + R0) /\
  integrates_to (fun x => cos x * toR (pdf (Fin x) kappa mu)) (- PI + mu) (PI + mu) (R0 * cos (mu + PI)) /\
  integrates_to (fun x => sin x * toR (pdf (Fin x) kappa mu)) (- PI + mu) (PI + mu) (R0 * sin (mu + PI)).
Proof. first [exact P_vonmises.circ_bad | intros; apply P_vonmises.circ_bad; assumption]. Qed.
Print Assumptions C43_vonmises_refuted.
Example C43_vonmises_refuted_instance := C43_vonmises_refuted  (-2) 1 ltac:(inst).

