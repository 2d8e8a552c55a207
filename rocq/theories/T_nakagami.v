(** Properties of mpsci.distributions.nakagami (generated by tools/mkthm.py). *)
From Coq Require Import Reals Lra List.
From Coquelicot Require Import Coquelicot.
From Verif Require Import Values Spec SpecStat SpecEst VTac TTac DistLib.
From Verif Require Import SpecInv.
From Verif Require Import SpecLS.
From Verif Require M_chi.
From Verif Require Import M_nakagami.
From Verif Require P_nakagami.
Import ListNotations.
Local Open Scope R_scope.

Theorem C30_nakagami : forall nu l s : R, 0 < nu -> 0 < s -> 
  complementary (fun x => M_nakagami.cdf x nu l s) (fun x => M_nakagami.sf x nu l s).
Proof. exact (fun nu l s H0 H1 => cert_complementary (P_nakagami.CERT nu l s H0 H1)). Qed.
Print Assumptions C30_nakagami.
Example C30_nakagami_instance : complementary (fun x => M_nakagami.cdf x (2) (1) (2)) (fun x => M_nakagami.sf x (2) (1) (2)).
Proof. exact (C30_nakagami (2) (1) (2) ltac:(side) ltac:(side)). Qed.

Theorem C31_nakagami : forall nu l s : R, 0 < nu -> 0 < s -> 
  nondecreasing (fun x => M_nakagami.cdf x nu l s) /\ supported_on (fun x => M_nakagami.cdf x nu l s) (Fin (l)) PInf /\
  M_nakagami.support nu l s = Ok ((Fin (l)), PInf).
Proof. intros nu l s H0 H1. split; [exact (cert_nondecreasing (P_nakagami.CERT nu l s H0 H1))|split; [exact (cert_supported (P_nakagami.CERT nu l s H0 H1))|unfold M_nakagami.support, M_nakagami.validate_params; supp]]. Qed.
Print Assumptions C31_nakagami.
Example C31_nakagami_instance : nondecreasing (fun x => M_nakagami.cdf x (2) (1) (2)) /\ supported_on (fun x => M_nakagami.cdf x (2) (1) (2)) (Fin ((1))) PInf /\
  M_nakagami.support (2) (1) (2) = Ok ((Fin ((1))), PInf).
Proof. exact (C31_nakagami (2) (1) (2) ltac:(side) ltac:(side)). Qed.

Theorem C32_nakagami : forall nu l s : R, 0 < nu -> 0 < s -> 
  density_of (fun x => M_nakagami.cdf x nu l s) (fun x => M_nakagami.pdf x nu l s) l p_infty.
Proof. exact (fun nu l s H0 H1 => cert_density (P_nakagami.CERT nu l s H0 H1)). Qed.
Print Assumptions C32_nakagami.
Example C32_nakagami_instance : density_of (fun x => M_nakagami.cdf x (2) (1) (2)) (fun x => M_nakagami.pdf x (2) (1) (2)) (1) p_infty.
Proof. exact (C32_nakagami (2) (1) (2) ltac:(side) ltac:(side)). Qed.

Theorem C33_nakagami : forall nu l s : R, 0 < nu -> 0 < s -> 
  total_mass_one (fun x => M_nakagami.pdf x nu l s) l p_infty.
Proof. exact (fun nu l s H0 H1 => cert_total_mass (P_nakagami.CERT nu l s H0 H1)). Qed.
Print Assumptions C33_nakagami.
Example C33_nakagami_instance : total_mass_one (fun x => M_nakagami.pdf x (2) (1) (2)) (1) p_infty.
Proof. exact (C33_nakagami (2) (1) (2) ltac:(side) ltac:(side)). Qed.

Theorem C34_nakagami : forall nu l s : R, 0 < nu -> 0 < s -> 
  forall x : R, log_of (fun x => M_nakagami.pdf x nu l s) (fun x => M_nakagami.logpdf x nu l s) (Fin x).
Proof. exact (fun nu l s H0 H1 => P_nakagami.log_all nu l s H0 H1). Qed.
Print Assumptions C34_nakagami.
Example C34_nakagami_instance : forall x : R, log_of (fun x => M_nakagami.pdf x (2) (1) (2)) (fun x => M_nakagami.logpdf x (2) (1) (2)) (Fin x).
Proof. exact (C34_nakagami (2) (1) (2) ltac:(side) ltac:(side)). Qed.

(** C35: for loc >= 0: solved numerically; the bracket and the root finder are specified in SpecInv. *)
Theorem C35_nakagami : forall nu l s : R, 0 < nu -> 0 < s -> 0 <= l -> solves (fun x => cdf x nu l s) (fun fr fuel p => invcdf fr fuel p nu l s) l p_infty.
Proof. first [exact P_nakagami.invcdf_ok | intros; apply P_nakagami.invcdf_ok; assumption]. Qed.
Print Assumptions C35_nakagami.
Example C35_nakagami_instance := C35_nakagami (2) (1) (2) ltac:(inst) ltac:(inst) ltac:(inst).

(** C36: for loc >= 0: solved numerically; the bracket and the root finder are specified in SpecInv. *)
Theorem C36_nakagami : forall nu l s : R, 0 < nu -> 0 < s -> 0 <= l -> solves (fun x => sf x nu l s) (fun fr fuel p => invsf fr fuel p nu l s) l p_infty.
Proof. first [exact P_nakagami.invsf_ok | intros; apply P_nakagami.invsf_ok; assumption]. Qed.
Print Assumptions C36_nakagami.
Example C36_nakagami_instance := C36_nakagami (2) (1) (2) ltac:(inst) ltac:(inst) ltac:(inst).

(** C38: invalid nu or scale is rejected. *)
Theorem C38_nakagami : forall fr fuel nu l s,
  isnum nu -> isnum s -> nonpositive nu \/ nonpositive s -> support nu l s = Err ValueError /\
  always_ValueError [ fun x => pdf x nu l s; fun x => logpdf x nu l s; fun x => cdf x nu l s; fun x => sf x nu l s;
    fun p => invcdf fr fuel p nu l s; fun p => invsf fr fuel p nu l s;
    fun _ => mean nu l s; fun _ => mode nu l s; fun _ => var nu l s; fun _ => entropy nu l s; fun x => nll [x] nu l s;
    fun x => nll_grad_nu [x] nu l s; fun x => nll_grad_loc [x] nu l s; fun x => nll_grad_scale [x] nu l s ].
Proof. first [exact P_nakagami.bad_params | intros; apply P_nakagami.bad_params; assumption]. Qed.
Print Assumptions C38_nakagami.
Example C38_nakagami_instance := C38_nakagami  (fun _ _ => NaN) 100%nat (Fin 1) (Fin 1) (Fin 0) ltac:(inst) ltac:(inst) ltac:(inst).

(** C39: the mode, when nu > 1/2. *)
Theorem C39_nakagami : forall nu l s : R, 0 < nu -> 0 < s -> 1 / 2 < nu -> is_mode (fun x => pdf x nu l s) (mode nu l s).
Proof. first [exact P_nakagami.mode_ok | intros; apply P_nakagami.mode_ok; assumption]. Qed.
Print Assumptions C39_nakagami.
Example C39_nakagami_instance := C39_nakagami (2) (1) (2) ltac:(inst) ltac:(inst) ltac:(inst).

(** C39: for nu = 1/2 the density decreases on the support and mode is its lower end. *)
Theorem C39_nakagami_half : forall nu l s : R, 0 < nu -> 0 < s -> nu = 1 / 2 -> mode nu l s = Fin l /\ forall x y : R, l < x -> x <= y -> toR (pdf y nu l s) <= toR (pdf x nu l s).
Proof. first [exact P_nakagami.mode_half | intros; apply P_nakagami.mode_half; assumption]. Qed.
Print Assumptions C39_nakagami_half.
Example C39_nakagami_half_instance : forall x y : R, 1 < x -> x <= y -> toR (pdf y (1/2)%R 1 2) <= toR (pdf x (1/2)%R 1 2).
Proof. refine (proj2 (C39_nakagami_half (1/2) 1 2 _ _ _)); lra. Qed.

(** C39: for nu < 1/2 mode is not a real number. *)
Theorem C39_nakagami_refuted : forall nu l s : R, 0 < nu -> 0 < s -> nu < 1 / 2 -> mode nu l s = Exc NonReal.
Proof. first [exact P_nakagami.mode_small | intros; apply P_nakagami.mode_small; assumption]. Qed.
Print Assumptions C39_nakagami_refuted.
Example C39_nakagami_refuted_instance : mode (1/4)%R 1 2 = Exc NonReal.
Proof. apply C39_nakagami_refuted; lra. Qed.

(** C43: mean. *)
Theorem C43_nakagami_mean : forall nu l s : R, 0 < nu -> 0 < s -> mean_is (fun x => pdf x nu l s) l p_infty (mean nu l s).
Proof. first [exact P_nakagami.mean_ok | intros; apply P_nakagami.mean_ok; assumption]. Qed.
Print Assumptions C43_nakagami_mean.
Example C43_nakagami_mean_instance := C43_nakagami_mean (2) (1) (2) ltac:(inst) ltac:(inst) .

(** C43: variance. *)
Theorem C43_nakagami_var : forall nu l s : R, 0 < nu -> 0 < s -> var_is (fun x => pdf x nu l s) l p_infty (mean nu l s) (var nu l s).
Proof. first [exact P_nakagami.var_ok | intros; apply P_nakagami.var_ok; assumption]. Qed.
Print Assumptions C43_nakagami_var.
Example C43_nakagami_var_instance := C43_nakagami_var (2) (1) (2) ltac:(inst) ltac:(inst) .

(** C43: entropy. *)
Theorem C43_nakagami_entropy : forall nu l s : R, 0 < nu -> 0 < s -> entropy_is (fun x => pdf x nu l s) l p_infty (entropy nu l s).
Proof. first [exact P_nakagami.entropy_ok | intros; apply P_nakagami.entropy_ok; assumption]. Qed.
Print Assumptions C43_nakagami_entropy.
Example C43_nakagami_entropy_instance := C43_nakagami_entropy (2) (1) (2) ltac:(inst) ltac:(inst) .

(** C44: location and scale. *)
Theorem C44_nakagami : forall nu,
  0 < nu -> loc_scale_law3 (fun x => pdf x nu) (fun x => cdf x nu) (fun x => sf x nu) 0 p_infty.
Proof. first [exact P_nakagami.loc_scale | intros; apply P_nakagami.loc_scale; assumption]. Qed.
Print Assumptions C44_nakagami.
Example C44_nakagami_instance := C44_nakagami  2 ltac:(inst) 1 2 ltac:(inst).

(** C45: the standardised variable times sqrt(2 nu) is chi with 2 nu degrees of freedom. *)
Theorem C45_nakagami : forall nu l s : R, 0 < nu -> 0 < s -> forall (x : R),
  l <= x -> cdf x nu l s = M_chi.cdf (Fin (sqrt (2 * nu) * ((x - l) / s))) (Fin (2 * nu)) /\ sf x nu l s = M_chi.sf (Fin (sqrt (2 * nu) * ((x - l) / s))) (Fin (2 * nu)).
Proof. first [exact P_nakagami.is_chi | intros; apply P_nakagami.is_chi; assumption]. Qed.
Print Assumptions C45_nakagami.
Example C45_nakagami_instance := C45_nakagami (2) (1) (2) ltac:(inst) ltac:(inst) 2 ltac:(inst).

(** C47: nu and loc given: the scale minimises nll. *)
Theorem C47_nakagami_scale : forall fr xs l nu,
  xs <> [] -> (forall x, In x xs -> l < x) -> 0 < nu -> exists s, mle fr (map Fin xs) (Some (Fin nu)) (Some (Fin l)) None = Ok (Fin nu, Fin l, Fin s) /\
  minimises (fun s => 0 < s) (fun s => nll (map Fin xs) (Fin nu) (Fin l) (Fin s)) s.
Proof. first [exact P_nakagami.c47_scale | intros; apply P_nakagami.c47_scale; assumption]. Qed.
Print Assumptions C47_nakagami_scale.
Example C47_nakagami_scale_instance := C47_nakagami_scale  (fun _ _ => NaN) [1; 2; 5] 0 2 ltac:(inst) ltac:(inst) ltac:(inst).

(** C47: loc and scale given: nu minimises nll. *)
Theorem C47_nakagami_nu : forall fr xs l nu s,
  xs <> [] -> (forall x, In x xs -> l < x) -> checked_solver1 fr -> 0 < s ->
  mle fr (map Fin xs) None (Some (Fin l)) (Some (Fin s)) = Ok (Fin nu, Fin l, Fin s) ->
  minimises (fun nu => 0 < nu) (fun nu => nll (map Fin xs) (Fin nu) (Fin l) (Fin s)) nu.
Proof. first [exact P_nakagami.c47_nu | intros; apply P_nakagami.c47_nu; assumption]. Qed.
Print Assumptions C47_nakagami_nu.
Example C47_nakagami_nu_instance : exists fr nu, checked_solver1 fr /\ mle fr (map Fin [1; 2]) None (Some (Fin 0)) (Some (Fin 1)) = Ok (Fin nu, Fin 0, Fin 1).
Proof. exact P_nakagami.c47_nu_case. Qed.

(** C47: loc given: (nu, scale) minimises nll. *)
Theorem C47_nakagami_both : forall fr xs l nu s,
  xs <> [] -> (forall x, In x xs -> l < x) -> checked_solver1 fr ->
  mle fr (map Fin xs) None (Some (Fin l)) None = Ok (Fin nu, Fin l, Fin s) ->
  minimises (fun '(nu, s) => 0 < nu /\ 0 < s) (fun '(nu, s) => nll (map Fin xs) (Fin nu) (Fin l) (Fin s)) (nu, s).
Proof. first [exact P_nakagami.c47_both | intros; apply P_nakagami.c47_both; assumption]. Qed.
Print Assumptions C47_nakagami_both.
Example C47_nakagami_both_instance : exists fr nu s, checked_solver1 fr /\ mle fr (map Fin [1; 2]) None (Some (Fin 0)) None = Ok (Fin nu, Fin 0, Fin s).
Proof. exact P_nakagami.c47_both_case. Qed.

(** C49: nll is minus the sum of logpdf. *)
Theorem C49_nakagami : forall xs nu l s,
  0 < nu -> 0 < s -> (forall x, In x xs -> l < x) -> nll (map Fin xs) (Fin nu) (Fin l) (Fin s) = vneg (loglik (fun x => logpdf x (Fin nu) (Fin l) (Fin s)) xs).
Proof. first [exact P_nakagami.c49_ok | intros; apply P_nakagami.c49_ok; assumption]. Qed.
Print Assumptions C49_nakagami.
Example C49_nakagami_instance := C49_nakagami  [1; 2; 5] 2 0 3 ltac:(inst) ltac:(inst) ltac:(inst).

(** C49: data outside the support is rejected. *)
Theorem C49_nakagami_outside : forall xs nu l s,
  0 < nu -> 0 < s -> (exists x, In x xs /\ x <= l) -> nll (map Fin xs) (Fin nu) (Fin l) (Fin s) = Exc ValueError.
Proof. first [exact P_nakagami.c49_bad | intros; apply P_nakagami.c49_bad; assumption]. Qed.
Print Assumptions C49_nakagami_outside.
Example C49_nakagami_outside_instance := C49_nakagami_outside  [1; -2; 5] 2 0 3 ltac:(inst) ltac:(inst) ltac:(inst).

(** C64: whatever loc is, a number returned by invcdf or invsf solves the equation. *)
Theorem C64_nakagami_partial : forall nu l s : R, 0 < nu -> 0 < s -> forall fr fuel (p x : R),
  checked_solver fr -> (invcdf fr fuel p nu l s = Fin x -> cdf x nu l s = Fin p) /\ (invsf fr fuel p nu l s = Fin x -> sf x nu l s = Fin p).
Proof. first [exact P_nakagami.inv_sound | intros; apply P_nakagami.inv_sound; assumption]. Qed.
Print Assumptions C64_nakagami_partial.
Example C64_nakagami_partial_instance : checked_solver (fun g _ => match g (Fin 0) with Fin r => if Reqb r 0 then Fin 0 else NaN | _ => NaN end).
Proof. intros g x0 x1 r. destruct (g (Fin 0)) as [u| | | |] eqn:E; try discriminate. destruct (Reqb_spec u 0) as [[L ->]|[L ->]]; [|discriminate]. intros H. injection H as <-. rewrite E, L. auto. Qed.

(** C73: nll_grad is the gradient. *)
Theorem C73_nakagami : forall xs nu l s,
  0 < nu -> 0 < s -> (forall x, In x xs -> l < x) -> exists g1 g2 g3,
  nll_grad_nu (map Fin xs) (Fin nu) (Fin l) (Fin s) = Fin g1 /\ nll_grad_loc (map Fin xs) (Fin nu) (Fin l) (Fin s) = Fin g2 /\ nll_grad_scale (map Fin xs) (Fin nu) (Fin l) (Fin s) = Fin g3 /\
  is_derive (fun t => toR (nll (map Fin xs) (Fin t) (Fin l) (Fin s))) nu g1 /\ is_derive (fun t => toR (nll (map Fin xs) (Fin nu) (Fin t) (Fin s))) l g2 /\
  is_derive (fun t => toR (nll (map Fin xs) (Fin nu) (Fin l) (Fin t))) s g3.
Proof. first [exact P_nakagami.c73_grad | intros; apply P_nakagami.c73_grad; assumption]. Qed.
Print Assumptions C73_nakagami.
Example C73_nakagami_instance := C73_nakagami  [1; 2; 5] 2 0 3 ltac:(inst) ltac:(inst) ltac:(inst).

