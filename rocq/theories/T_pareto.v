(** Properties of mpsci.distributions.pareto (generated by tools/mkthm.py). *)
From Coq Require Import Reals Lra List.
From Coquelicot Require Import Coquelicot.
From Verif Require Import Values Spec SpecStat SpecEst VTac TTac DistLib.
From Verif Require Import M_pareto.
From Verif Require P_pareto.
Import ListNotations.
Local Open Scope R_scope.

Theorem C30_pareto : forall b l s : R, 0 < b -> 0 < s -> 
  complementary (fun x => M_pareto.cdf x b l s) (fun x => M_pareto.sf x b l s).
Proof. exact (fun b l s H0 H1 => cert_complementary (P_pareto.CERT b l s H0 H1)). Qed.
Print Assumptions C30_pareto.
Example C30_pareto_instance : complementary (fun x => M_pareto.cdf x (4) (1) (2)) (fun x => M_pareto.sf x (4) (1) (2)).
Proof. exact (C30_pareto (4) (1) (2) ltac:(side) ltac:(side)). Qed.

Theorem C31_pareto : forall b l s : R, 0 < b -> 0 < s -> 
  nondecreasing (fun x => M_pareto.cdf x b l s) /\ supported_on (fun x => M_pareto.cdf x b l s) (Fin ((l + s))) PInf /\
  M_pareto.support b l s = Ok ((Fin ((l + s))), PInf).
Proof. intros b l s H0 H1. split; [exact (cert_nondecreasing (P_pareto.CERT b l s H0 H1))|split; [exact (cert_supported (P_pareto.CERT b l s H0 H1))|unfold M_pareto.support, M_pareto.validate; supp]]. Qed.
Print Assumptions C31_pareto.
Example C31_pareto_instance : nondecreasing (fun x => M_pareto.cdf x (4) (1) (2)) /\ supported_on (fun x => M_pareto.cdf x (4) (1) (2)) (Fin (((1) + (2)))) PInf /\
  M_pareto.support (4) (1) (2) = Ok ((Fin (((1) + (2)))), PInf).
Proof. exact (C31_pareto (4) (1) (2) ltac:(side) ltac:(side)). Qed.

Theorem C32_pareto : forall b l s : R, 0 < b -> 0 < s -> 
  density_of (fun x => M_pareto.cdf x b l s) (fun x => M_pareto.pdf x b l s) (l + s) p_infty.
Proof. exact (fun b l s H0 H1 => cert_density (P_pareto.CERT b l s H0 H1)). Qed.
Print Assumptions C32_pareto.
Example C32_pareto_instance : density_of (fun x => M_pareto.cdf x (4) (1) (2)) (fun x => M_pareto.pdf x (4) (1) (2)) ((1) + (2)) p_infty.
Proof. exact (C32_pareto (4) (1) (2) ltac:(side) ltac:(side)). Qed.

Theorem C33_pareto : forall b l s : R, 0 < b -> 0 < s -> 
  total_mass_one (fun x => M_pareto.pdf x b l s) (l + s) p_infty.
Proof. exact (fun b l s H0 H1 => cert_total_mass (P_pareto.CERT b l s H0 H1)). Qed.
Print Assumptions C33_pareto.
Example C33_pareto_instance : total_mass_one (fun x => M_pareto.pdf x (4) (1) (2)) ((1) + (2)) p_infty.
Proof. exact (C33_pareto (4) (1) (2) ltac:(side) ltac:(side)). Qed.

Theorem C34_pareto : forall b l s : R, 0 < b -> 0 < s -> 
  forall x : R, log_of (fun x => M_pareto.pdf x b l s) (fun x => M_pareto.logpdf x b l s) (Fin x).
Proof. exact (fun b l s H0 H1 => P_pareto.log_all b l s H0 H1). Qed.
Print Assumptions C34_pareto.
Example C34_pareto_instance : forall x : R, log_of (fun x => M_pareto.pdf x (4) (1) (2)) (fun x => M_pareto.logpdf x (4) (1) (2)) (Fin x).
Proof. exact (C34_pareto (4) (1) (2) ltac:(side) ltac:(side)). Qed.

Theorem C35_pareto : forall b l s : R, 0 < b -> 0 < s -> 
  inverse_of (fun x => M_pareto.cdf x b l s) (fun x => M_pareto.invcdf x b l s) (l + s) p_infty.
Proof. exact (fun b l s H0 H1 => cert_inverse (P_pareto.CERT b l s H0 H1)). Qed.
Print Assumptions C35_pareto.
Example C35_pareto_instance : inverse_of (fun x => M_pareto.cdf x (4) (1) (2)) (fun x => M_pareto.invcdf x (4) (1) (2)) ((1) + (2)) p_infty.
Proof. exact (C35_pareto (4) (1) (2) ltac:(side) ltac:(side)). Qed.

Theorem C36_pareto : forall b l s : R, 0 < b -> 0 < s -> 
  inverse_of (fun x => M_pareto.sf x b l s) (fun x => M_pareto.invsf x b l s) (l + s) p_infty /\
  (forall p, 0 < p < 1 -> M_pareto.invsf (Fin p) b l s = M_pareto.invcdf (Fin (1 - p)) b l s).
Proof. exact (fun b l s H0 H1 => conj (cert_inverse_sf (P_pareto.CERT b l s H0 H1)) (cert_invsf_invcdf (P_pareto.CERT b l s H0 H1))). Qed.
Print Assumptions C36_pareto.
Example C36_pareto_instance : inverse_of (fun x => M_pareto.sf x (4) (1) (2)) (fun x => M_pareto.invsf x (4) (1) (2)) ((1) + (2)) p_infty /\
  (forall p, 0 < p < 1 -> M_pareto.invsf (Fin p) (4) (1) (2) = M_pareto.invcdf (Fin (1 - p)) (4) (1) (2)).
Proof. exact (C36_pareto (4) (1) (2) ltac:(side) ltac:(side)). Qed.

(** C37: p outside [0,1] is rejected and the lower end of [0,1] goes to the lower end of the support ... *)
Theorem C37_pareto_partial : forall b l s : R, 0 < b -> 0 < s -> rejects_bad_p (fun p => invcdf p b l s) /\ rejects_bad_p (fun p => invsf p b l s) /\
  invcdf (Fin 0) b l s = Fin (l + s) /\ invsf (Fin 1) b l s = Fin (l + s).
Proof. first [exact P_pareto.ends_part | intros; apply P_pareto.ends_part; assumption]. Qed.
Print Assumptions C37_pareto_partial.
Example C37_pareto_partial_instance := C37_pareto_partial (4) (1) (2) ltac:(inst) ltac:(inst) .

(** C37: ... but invcdf(1) raises ValueError instead of giving +inf ... *)
Theorem C37_pareto_refuted : forall b l s : R, 0 < b -> 0 < s -> invcdf (Fin 1) b l s = Exc ValueError.
Proof. first [exact P_pareto.ends_hi | intros; apply P_pareto.ends_hi; assumption]. Qed.
Print Assumptions C37_pareto_refuted.
Example C37_pareto_refuted_instance := C37_pareto_refuted (4) (1) (2) ltac:(inst) ltac:(inst) .

(** C37: ... and for b = 2, 1, 2/3, ... invsf(0) raises ZeroDivisionError. *)
Theorem C37_pareto_refuted_sf : forall (b l s : R),
  0 < b -> 0 < s -> (exists k : positive, b = 2 / IZR (Zpos k)) -> invsf (Fin 0) b l s = Exc ZeroDivisionError.
Proof. first [exact P_pareto.ends_hi2 | intros; apply P_pareto.ends_hi2; assumption]. Qed.
Print Assumptions C37_pareto_refuted_sf.
Example C37_pareto_refuted_sf_instance := C37_pareto_refuted_sf  2 1 2 ltac:(inst) ltac:(inst) ltac:(inst).

(** C38: a shape or scale that is not positive is rejected by every function. *)
Theorem C38_pareto : forall b l s,
  isnum b -> isnum s -> nonpositive b \/ nonpositive s ->
  support b l s = Err ValueError /\
  always_ValueError [ fun x => pdf x b l s; fun x => logpdf x b l s; fun x => cdf x b l s; fun x => sf x b l s;
    fun p => invcdf p b l s; fun p => invsf p b l s; fun _ => mean b l s; fun _ => var b l s; fun _ => entropy b l s ] /\
  forall xs, nll xs b l s = Exc ValueError.
Proof. first [exact P_pareto.bad_params | intros; apply P_pareto.bad_params; assumption]. Qed.
Print Assumptions C38_pareto.
Example C38_pareto_instance := C38_pareto  (Fin 0) (Fin 1) (Fin 1) ltac:(inst) ltac:(inst) ltac:(inst).

(** C43: mean. *)
Theorem C43_pareto_mean : forall b l s : R, 0 < b -> 0 < s -> 1 < b -> mean_is (fun x => pdf x b l s) (l + s) p_infty (mean b l s).
Proof. first [exact P_pareto.mean_ok | intros; apply P_pareto.mean_ok; assumption]. Qed.
Print Assumptions C43_pareto_mean.
Example C43_pareto_mean_instance := C43_pareto_mean (4) (1) (2) ltac:(inst) ltac:(inst) ltac:(inst).

(** C43: variance. *)
Theorem C43_pareto_var : forall b l s : R, 0 < b -> 0 < s -> 2 < b -> var_is (fun x => pdf x b l s) (l + s) p_infty (mean b l s) (var b l s).
Proof. first [exact P_pareto.var_ok | intros; apply P_pareto.var_ok; assumption]. Qed.
Print Assumptions C43_pareto_var.
Example C43_pareto_var_instance := C43_pareto_var (4) (1) (2) ltac:(inst) ltac:(inst) ltac:(inst).

(** C43: entropy. *)
Theorem C43_pareto_entropy : forall b l s : R, 0 < b -> 0 < s -> entropy_is (fun x => pdf x b l s) (l + s) p_infty (entropy b l s).
Proof. first [exact P_pareto.entropy_ok | intros; apply P_pareto.entropy_ok; assumption]. Qed.
Print Assumptions C43_pareto_entropy.
Example C43_pareto_entropy_instance := C43_pareto_entropy (4) (1) (2) ltac:(inst) ltac:(inst) .

(** C44: location and scale. *)
Theorem C44_pareto : forall (b : R),
  0 < b ->
  loc_scale_law (fun x l s => pdf x b l s) (fun x l s => cdf x b l s) (fun x l s => sf x b l s)
    (fun p l s => invcdf p b l s) (fun p l s => invsf p b l s) 1 p_infty.
Proof. first [exact P_pareto.loc_scale | intros; apply P_pareto.loc_scale; assumption]. Qed.
Print Assumptions C44_pareto.
Example C44_pareto_instance := C44_pareto  1 ltac:(inst).

(** C47: location given: the pair (b, scale) minimises nll. *)
Theorem C47_pareto_loc_given : forall (solve1 : val -> val -> val) (solve2 : val * val) xs l,
  (forall x, In x xs -> l < x) -> ~ constant xs ->
  exists b s, mle solve1 solve2 (map Fin xs) None (Some (Fin l)) None = Ok (Fin b, Fin l, Fin s) /\
  minimises (fun p : R * R => 0 < fst p /\ 0 < snd p /\ forall x, In x xs -> l + snd p <= x)
    (fun p => nll (map Fin xs) (Fin (fst p)) (Fin l) (Fin (snd p))) (b, s).
Proof. first [exact P_pareto.mle_loc_given | intros; apply P_pareto.mle_loc_given; assumption]. Qed.
Print Assumptions C47_pareto_loc_given.
Example C47_pareto_loc_given_instance := C47_pareto_loc_given  (fun _ _ => NaN) (NaN, NaN) [1; 2; 5] 0 ltac:(inst) ltac:(inst).

(** C47: scale given: the pair (b, loc) minimises nll. *)
Theorem C47_pareto_scale_given : forall (solve1 : val -> val -> val) (solve2 : val * val) xs s,
  0 < s -> ~ constant xs ->
  exists b l, mle solve1 solve2 (map Fin xs) None None (Some (Fin s)) = Ok (Fin b, Fin l, Fin s) /\
  minimises (fun p : R * R => 0 < fst p /\ forall x, In x xs -> snd p + s <= x)
    (fun p => nll (map Fin xs) (Fin (fst p)) (Fin (snd p)) (Fin s)) (b, l).
Proof. first [exact P_pareto.mle_scale_given | intros; apply P_pareto.mle_scale_given; assumption]. Qed.
Print Assumptions C47_pareto_scale_given.
Example C47_pareto_scale_given_instance := C47_pareto_scale_given  (fun _ _ => NaN) (NaN, NaN) [1; 2; 5] 2 ltac:(inst) ltac:(inst).

(** C47: b and location given. *)
Theorem C47_pareto_scale_only : forall (solve1 : val -> val -> val) (solve2 : val * val) xs b l,
  xs <> [] -> 0 < b -> (forall x, In x xs -> l < x) ->
  exists s, mle solve1 solve2 (map Fin xs) (Some (Fin b)) (Some (Fin l)) None = Ok (Fin b, Fin l, Fin s) /\
  minimises (fun s : R => 0 < s /\ forall x, In x xs -> l + s <= x) (fun s => nll (map Fin xs) (Fin b) (Fin l) (Fin s)) s.
Proof. first [exact P_pareto.mle_scale_only | intros; apply P_pareto.mle_scale_only; assumption]. Qed.
Print Assumptions C47_pareto_scale_only.
Example C47_pareto_scale_only_instance := C47_pareto_scale_only  (fun _ _ => NaN) (NaN, NaN) [1; 2; 5] 2 0 ltac:(inst) ltac:(inst) ltac:(inst).

(** C47: b and scale given. *)
Theorem C47_pareto_loc_only : forall (solve1 : val -> val -> val) (solve2 : val * val) xs b s,
  xs <> [] -> 0 < b -> 0 < s ->
  exists l, mle solve1 solve2 (map Fin xs) (Some (Fin b)) None (Some (Fin s)) = Ok (Fin b, Fin l, Fin s) /\
  minimises (fun l : R => forall x, In x xs -> l + s <= x) (fun l => nll (map Fin xs) (Fin b) (Fin l) (Fin s)) l.
Proof. first [exact P_pareto.mle_loc_only | intros; apply P_pareto.mle_loc_only; assumption]. Qed.
Print Assumptions C47_pareto_loc_only.
Example C47_pareto_loc_only_instance := C47_pareto_loc_only  (fun _ _ => NaN) (NaN, NaN) [1; 2; 5] 2 3 ltac:(inst) ltac:(inst) ltac:(inst).

(** C47: location and scale given: the given location 0 is not kept, the result has location 1. *)
Theorem C47_pareto_refuted : forall (solve1 : val -> val -> val) (solve2 : val * val),
  exists b, mle solve1 solve2 (map Fin [2; 4]) None (Some (Fin 0)) (Some (Fin 1)) = Ok (Fin b, Fin 1, Fin 1).
Proof. first [exact P_pareto.mle_loc_lost | intros; apply P_pareto.mle_loc_lost; assumption]. Qed.
Print Assumptions C47_pareto_refuted.
Example C47_pareto_refuted_instance := C47_pareto_refuted  (fun _ _ => NaN) (NaN, NaN).

(** C49: nll is minus the sum of logpdf. *)
Theorem C49_pareto : forall b l s : R, 0 < b -> 0 < s -> forall xs,
  (forall x, In x xs -> l + s <= x) ->
  nll (map Fin xs) b l s = vneg (loglik (fun x => logpdf x b l s) xs).
Proof. first [exact P_pareto.nll_ok | intros; apply P_pareto.nll_ok; assumption]. Qed.
Print Assumptions C49_pareto.
Example C49_pareto_instance := C49_pareto (4) (1) (2) ltac:(inst) ltac:(inst) [3; 4; 7] ltac:(inst).

(** C49: data outside the support is rejected. *)
Theorem C49_pareto_outside : forall b l s : R, 0 < b -> 0 < s -> forall xs,
  (exists x, In x xs /\ x < l + s) -> nll (map Fin xs) b l s = Exc ValueError.
Proof. first [exact P_pareto.nll_bad | intros; apply P_pareto.nll_bad; assumption]. Qed.
Print Assumptions C49_pareto_outside.
Example C49_pareto_outside_instance := C49_pareto_outside (4) (1) (2) ltac:(inst) ltac:(inst) [4; 1; 7] ltac:(inst).

