(** Properties of mpsci.distributions.genpareto (generated by tools/mkthm.py). *)
From Coq Require Import Reals Lra List.
From Coquelicot Require Import Coquelicot.
From Verif Require Import Values Spec SpecStat SpecEst VTac TTac DistLib.
From Verif Require Import SpecTop SpecNoMom.
From Verif Require Import M_genpareto.
From Verif Require P_genpareto.
Import ListNotations.
Local Open Scope R_scope.

Theorem C30_genpareto : forall xi l s : R, 0 < s -> 
  complementary (fun x => M_genpareto.cdf x xi l s) (fun x => M_genpareto.sf x xi l s).
Proof. exact (fun xi l s H0 => cert_complementary (P_genpareto.CERT xi l s H0)). Qed.
Print Assumptions C30_genpareto.
Example C30_genpareto_instance : complementary (fun x => M_genpareto.cdf x ((-1/2)%R) (1) (2)) (fun x => M_genpareto.sf x ((-1/2)%R) (1) (2)).
Proof. exact (C30_genpareto ((-1/2)%R) (1) (2) ltac:(side)). Qed.

Theorem C32_genpareto : forall xi l s : R, 0 < s -> 
  density_of (fun x => M_genpareto.cdf x xi l s) (fun x => M_genpareto.pdf x xi l s) l (gp_top xi l s).
Proof. exact (fun xi l s H0 => cert_density (P_genpareto.CERT xi l s H0)). Qed.
Print Assumptions C32_genpareto.
Example C32_genpareto_instance : density_of (fun x => M_genpareto.cdf x ((-1/2)%R) (1) (2)) (fun x => M_genpareto.pdf x ((-1/2)%R) (1) (2)) (1) (gp_top ((-1/2)%R) (1) (2)).
Proof. exact (C32_genpareto ((-1/2)%R) (1) (2) ltac:(side)). Qed.

Theorem C33_genpareto : forall xi l s : R, 0 < s -> 
  total_mass_one (fun x => M_genpareto.pdf x xi l s) l (gp_top xi l s).
Proof. exact (fun xi l s H0 => cert_total_mass (P_genpareto.CERT xi l s H0)). Qed.
Print Assumptions C33_genpareto.
Example C33_genpareto_instance : total_mass_one (fun x => M_genpareto.pdf x ((-1/2)%R) (1) (2)) (1) (gp_top ((-1/2)%R) (1) (2)).
Proof. exact (C33_genpareto ((-1/2)%R) (1) (2) ltac:(side)). Qed.

Theorem C35_genpareto : forall xi l s : R, 0 < s -> 
  inverse_of (fun x => M_genpareto.cdf x xi l s) (fun x => M_genpareto.invcdf x xi l s) l (gp_top xi l s).
Proof. exact (fun xi l s H0 => cert_inverse (P_genpareto.CERT xi l s H0)). Qed.
Print Assumptions C35_genpareto.
Example C35_genpareto_instance : inverse_of (fun x => M_genpareto.cdf x ((-1/2)%R) (1) (2)) (fun x => M_genpareto.invcdf x ((-1/2)%R) (1) (2)) (1) (gp_top ((-1/2)%R) (1) (2)).
Proof. exact (C35_genpareto ((-1/2)%R) (1) (2) ltac:(side)). Qed.

Theorem C36_genpareto : forall xi l s : R, 0 < s -> 
  inverse_of (fun x => M_genpareto.sf x xi l s) (fun x => M_genpareto.invsf x xi l s) l (gp_top xi l s) /\
  (forall p, 0 < p < 1 -> M_genpareto.invsf (Fin p) xi l s = M_genpareto.invcdf (Fin (1 - p)) xi l s).
Proof. exact (fun xi l s H0 => conj (cert_inverse_sf (P_genpareto.CERT xi l s H0)) (cert_invsf_invcdf (P_genpareto.CERT xi l s H0))). Qed.
Print Assumptions C36_genpareto.
Example C36_genpareto_instance : inverse_of (fun x => M_genpareto.sf x ((-1/2)%R) (1) (2)) (fun x => M_genpareto.invsf x ((-1/2)%R) (1) (2)) (1) (gp_top ((-1/2)%R) (1) (2)) /\
  (forall p, 0 < p < 1 -> M_genpareto.invsf (Fin p) ((-1/2)%R) (1) (2) = M_genpareto.invcdf (Fin (1 - p)) ((-1/2)%R) (1) (2)).
Proof. exact (C36_genpareto ((-1/2)%R) (1) (2) ltac:(side)). Qed.

Theorem C37_genpareto : forall xi l s : R, 0 < s -> 
  rejects_bad_p (fun x => M_genpareto.invcdf x xi l s) /\ rejects_bad_p (fun x => M_genpareto.invsf x xi l s) /\
  at_ends (fun x => M_genpareto.invcdf x xi l s) (Fin l) (gp_top_v xi l s) /\ at_ends (fun x => M_genpareto.invsf x xi l s) (gp_top_v xi l s) (Fin l).
Proof. exact (fun xi l s H0 => P_genpareto.ends xi l s H0). Qed.
Print Assumptions C37_genpareto.
Example C37_genpareto_instance : rejects_bad_p (fun x => M_genpareto.invcdf x ((-1/2)%R) (1) (2)) /\ rejects_bad_p (fun x => M_genpareto.invsf x ((-1/2)%R) (1) (2)) /\
  at_ends (fun x => M_genpareto.invcdf x ((-1/2)%R) (1) (2)) (Fin (1)) (gp_top_v ((-1/2)%R) (1) (2)) /\ at_ends (fun x => M_genpareto.invsf x ((-1/2)%R) (1) (2)) (gp_top_v ((-1/2)%R) (1) (2)) (Fin (1)).
Proof. exact (C37_genpareto ((-1/2)%R) (1) (2) ltac:(side)). Qed.

(** C31: cdf is non-decreasing and the support ends at loc - scale/xi for xi < 0 and at +inf otherwise. *)
Theorem C31_genpareto : forall xi l s : R, 0 < s -> nondecreasing (fun x => cdf x xi l s) /\ supported_on (fun x => cdf x xi l s) l (gp_top_v xi l s) /\
  support xi l s = Ok (Fin l, gp_top_v xi l s).
Proof. first [exact P_genpareto.mono_supp | intros; apply P_genpareto.mono_supp; assumption]. Qed.
Print Assumptions C31_genpareto.
Example C31_genpareto_instance := C31_genpareto ((-1/2)%R) (1) (2) ltac:(inst) .

(** C34: logpdf is the logarithm of pdf for xi > -1. *)
Theorem C34_genpareto_partial : forall xi l s : R, 0 < s -> forall (x : R),
  -1 < xi -> log_of (fun x => pdf x xi l s) (fun x => logpdf x xi l s) x.
Proof. first [exact P_genpareto.log_ok | intros; apply P_genpareto.log_ok; assumption]. Qed.
Print Assumptions C34_genpareto_partial.
Example C34_genpareto_partial_instance := C34_genpareto_partial ((-1/2)%R) (1) (2) ltac:(inst) 2 ltac:(inst).

(** C38: invalid scale is rejected. *)
Theorem C38_genpareto : forall (xi l s : val) xs,
  isnum s -> nonpositive s ->
  support xi l s = Err ValueError /\ nll xs xi l s = Exc ValueError /\
  always_ValueError [ fun x => pdf x xi l s; fun x => logpdf x xi l s; fun x => cdf x xi l s; fun x => sf x xi l s;
    fun p => invcdf p xi l s; fun p => invsf p xi l s; fun _ => mean xi l s; fun _ => var xi l s; fun _ => entropy xi l s ].
Proof. first [exact P_genpareto.bad_params | intros; apply P_genpareto.bad_params; assumption]. Qed.
Print Assumptions C38_genpareto.
Example C38_genpareto_instance := C38_genpareto  (Fin 1) (Fin 1) (Fin 0) [Fin 1] ltac:(inst) ltac:(inst).

(** C43: mean, when there is one (xi < 1). *)
Theorem C43_genpareto_mean : forall xi l s : R, 0 < s -> xi < 1 -> mean_is (fun x => pdf x xi l s) l (gp_top xi l s) (mean xi l s).
Proof. first [exact P_genpareto.mean_ok | intros; apply P_genpareto.mean_ok; assumption]. Qed.
Print Assumptions C43_genpareto_mean.
Example C43_genpareto_mean_instance := C43_genpareto_mean ((-1/2)%R) (1) (2) ltac:(inst) ltac:(inst).

(** C43: variance, when there is one (xi < 1/2). *)
Theorem C43_genpareto_var : forall xi l s : R, 0 < s -> xi < 1 / 2 -> var_is (fun x => pdf x xi l s) l (gp_top xi l s) (mean xi l s) (var xi l s).
Proof. first [exact P_genpareto.var_ok | intros; apply P_genpareto.var_ok; assumption]. Qed.
Print Assumptions C43_genpareto_var.
Example C43_genpareto_var_instance := C43_genpareto_var ((-1/2)%R) (1) (2) ltac:(inst) ltac:(inst).

(** C43: entropy. *)
Theorem C43_genpareto_entropy : forall xi l s : R, 0 < s -> entropy_is (fun x => pdf x xi l s) l (gp_top xi l s) (entropy xi l s).
Proof. first [exact P_genpareto.ent_ok | intros; apply P_genpareto.ent_ok; assumption]. Qed.
Print Assumptions C43_genpareto_entropy.
Example C43_genpareto_entropy_instance := C43_genpareto_entropy ((-1/2)%R) (1) (2) ltac:(inst) .

(** C43: for xi >= 1 there is no mean and nan is returned. *)
Theorem C43_genpareto_no_mean : forall xi l s : R, 0 < s -> 1 <= xi -> mean xi l s = NaN /\ no_mean (fun x => pdf x xi l s) l (gp_top xi l s).
Proof. first [exact P_genpareto.no_mean_ok | intros; apply P_genpareto.no_mean_ok; assumption]. Qed.
Print Assumptions C43_genpareto_no_mean.
Example C43_genpareto_no_mean_instance : mean 1 0 2 = NaN /\ no_mean (fun x => pdf x 1 0 2) 0 (gp_top 1 0 2).
Proof. apply (C43_genpareto_no_mean 1 0 2); lra. Qed.

(** C43: for xi >= 1/2 there is no finite variance and nan is returned. *)
Theorem C43_genpareto_no_var : forall xi l s : R, 0 < s -> 1 / 2 <= xi -> var xi l s = NaN /\ no_var (fun x => pdf x xi l s) l (gp_top xi l s).
Proof. first [exact P_genpareto.no_var_ok | intros; apply P_genpareto.no_var_ok; assumption]. Qed.
Print Assumptions C43_genpareto_no_var.
Example C43_genpareto_no_var_instance : var 1 0 2 = NaN /\ no_var (fun x => pdf x 1 0 2) 0 (gp_top 1 0 2).
Proof. apply (C43_genpareto_no_var 1 0 2); lra. Qed.

(** C44: location and scale. *)
Theorem C44_genpareto : forall (xi : R),
  loc_scale_law (fun x => pdf x xi) (fun x => cdf x xi) (fun x => sf x xi)
  (fun p => invcdf p xi) (fun p => invsf p xi) 0 (gp_top xi 0 1).
Proof. first [exact P_genpareto.loc_scale | intros; apply P_genpareto.loc_scale; assumption]. Qed.
Print Assumptions C44_genpareto.
Example C44_genpareto_instance := C44_genpareto  3 1 2 ltac:(inst).

(** C49: nll is minus the sum of logpdf. *)
Theorem C49_genpareto : forall xi l s : R, 0 < s -> forall xs,
  (forall x, In x xs -> l <= x /\ Rbar_le x (gp_top xi l s)) -> nll (map Fin xs) xi l s = vneg (loglik (fun x => logpdf x xi l s) xs).
Proof. first [exact P_genpareto.nll_ok | intros; apply P_genpareto.nll_ok; assumption]. Qed.
Print Assumptions C49_genpareto.
Example C49_genpareto_instance : nll (map Fin [1; 2; 5]) 1 0 2 = vneg (loglik (fun x => logpdf x 1 0 2) [1; 2; 5]).
Proof. apply (C49_genpareto 1 0 2); [lra|]. intros x [<-|[<-|[<-|[]]]]; (split; [lra|unfold gp_top; destruct (Rle_dec 0 1); simpl; auto; exfalso; lra]). Qed.

(** C49: data outside the support is rejected. *)
Theorem C49_genpareto_below : forall xi l s : R, 0 < s -> forall xs,
  (exists x, In x xs /\ x < l) -> nll (map Fin xs) xi l s = Exc ValueError.
Proof. first [exact P_genpareto.nll_low | intros; apply P_genpareto.nll_low; assumption]. Qed.
Print Assumptions C49_genpareto_below.
Example C49_genpareto_below_instance := C49_genpareto_below ((-1/2)%R) (1) (2) ltac:(inst) [1; -2; 5] ltac:(inst).

(** C49: also above the upper end. *)
Theorem C49_genpareto_above : forall xi l s : R, 0 < s -> forall xs,
  (forall x, In x xs -> l <= x) -> (exists x, In x xs /\ Rbar_lt (gp_top xi l s) x) -> nll (map Fin xs) xi l s = Exc ValueError.
Proof. first [exact P_genpareto.nll_high | intros; apply P_genpareto.nll_high; assumption]. Qed.
Print Assumptions C49_genpareto_above.
Example C49_genpareto_above_instance : nll (map Fin [1; 7]) (-1)%R 0 2 = Exc ValueError.
Proof. apply (C49_genpareto_above (-1) 0 2); [lra|intros x [<-|[<-|[]]]; lra|]. exists 7. split; [right; left; auto|]. unfold gp_top. destruct (Rle_dec 0 (-1)); simpl; lra. Qed.

(** C65: xi = -1: pdf is 1/scale at the upper end of the support but logpdf is nan there. *)
Theorem C65_genpareto_refuted : forall xi l s : R, 0 < s -> xi = -1 -> pdf (Fin (l + s)) xi l s = Fin (1 / s) /\ logpdf (Fin (l + s)) xi l s = NaN.
Proof. first [exact P_genpareto.log_end | intros; apply P_genpareto.log_end; assumption]. Qed.
Print Assumptions C65_genpareto_refuted.
Example C65_genpareto_refuted_instance : pdf (Fin 3) (-1)%R 1 2 = Fin (1 / 2) /\ logpdf (Fin 3) (-1)%R 1 2 = NaN.
Proof. replace 3 with (1 + 2) by ring. apply (C65_genpareto_refuted (-1) 1 2); lra. Qed.

