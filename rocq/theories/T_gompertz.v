(** Properties of mpsci.distributions.gompertz (generated by tools/mkthm.py). *)
From Coq Require Import Reals Lra List.
From Coquelicot Require Import Coquelicot.
From Verif Require Import Values Spec SpecStat SpecEst VTac TTac DistLib.
From Verif Require Import SpecInv.
From Verif Require Import M_gompertz.
From Verif Require P_gompertz.
Import ListNotations.
Local Open Scope R_scope.

Theorem C30_gompertz : forall c s : R, 0 < c -> 0 < s -> 
  complementary (fun x => M_gompertz.cdf x c s) (fun x => M_gompertz.sf x c s).
Proof. exact (fun c s H0 H1 => cert_complementary (P_gompertz.CERT c s H0 H1)). Qed.
Print Assumptions C30_gompertz.
Example C30_gompertz_instance : complementary (fun x => M_gompertz.cdf x (3) (2)) (fun x => M_gompertz.sf x (3) (2)).
Proof. exact (C30_gompertz (3) (2) ltac:(side) ltac:(side)). Qed.

Theorem C31_gompertz : forall c s : R, 0 < c -> 0 < s -> 
  nondecreasing (fun x => M_gompertz.cdf x c s) /\ supported_on (fun x => M_gompertz.cdf x c s) (Fin (0)) PInf /\
  M_gompertz.support c s = Ok ((Fin (0)), PInf).
Proof. intros c s H0 H1. split; [exact (cert_nondecreasing (P_gompertz.CERT c s H0 H1))|split; [exact (cert_supported (P_gompertz.CERT c s H0 H1))|unfold M_gompertz.support, M_gompertz.validate; supp]]. Qed.
Print Assumptions C31_gompertz.
Example C31_gompertz_instance : nondecreasing (fun x => M_gompertz.cdf x (3) (2)) /\ supported_on (fun x => M_gompertz.cdf x (3) (2)) (Fin (0)) PInf /\
  M_gompertz.support (3) (2) = Ok ((Fin (0)), PInf).
Proof. exact (C31_gompertz (3) (2) ltac:(side) ltac:(side)). Qed.

Theorem C32_gompertz : forall c s : R, 0 < c -> 0 < s -> 
  density_of (fun x => M_gompertz.cdf x c s) (fun x => M_gompertz.pdf x c s) 0 p_infty.
Proof. exact (fun c s H0 H1 => cert_density (P_gompertz.CERT c s H0 H1)). Qed.
Print Assumptions C32_gompertz.
Example C32_gompertz_instance : density_of (fun x => M_gompertz.cdf x (3) (2)) (fun x => M_gompertz.pdf x (3) (2)) 0 p_infty.
Proof. exact (C32_gompertz (3) (2) ltac:(side) ltac:(side)). Qed.

Theorem C33_gompertz : forall c s : R, 0 < c -> 0 < s -> 
  total_mass_one (fun x => M_gompertz.pdf x c s) 0 p_infty.
Proof. exact (fun c s H0 H1 => cert_total_mass (P_gompertz.CERT c s H0 H1)). Qed.
Print Assumptions C33_gompertz.
Example C33_gompertz_instance : total_mass_one (fun x => M_gompertz.pdf x (3) (2)) 0 p_infty.
Proof. exact (C33_gompertz (3) (2) ltac:(side) ltac:(side)). Qed.

Theorem C34_gompertz : forall c s : R, 0 < c -> 0 < s -> 
  forall x : R, log_of (fun x => M_gompertz.pdf x c s) (fun x => M_gompertz.logpdf x c s) (Fin x).
Proof. exact (fun c s H0 H1 => P_gompertz.log_all c s H0 H1). Qed.
Print Assumptions C34_gompertz.
Example C34_gompertz_instance : forall x : R, log_of (fun x => M_gompertz.pdf x (3) (2)) (fun x => M_gompertz.logpdf x (3) (2)) (Fin x).
Proof. exact (C34_gompertz (3) (2) ltac:(side) ltac:(side)). Qed.

Theorem C35_gompertz : forall c s : R, 0 < c -> 0 < s -> 
  inverse_of (fun x => M_gompertz.cdf x c s) (fun x => M_gompertz.invcdf x c s) 0 p_infty.
Proof. exact (fun c s H0 H1 => cert_inverse (P_gompertz.CERT c s H0 H1)). Qed.
Print Assumptions C35_gompertz.
Example C35_gompertz_instance : inverse_of (fun x => M_gompertz.cdf x (3) (2)) (fun x => M_gompertz.invcdf x (3) (2)) 0 p_infty.
Proof. exact (C35_gompertz (3) (2) ltac:(side) ltac:(side)). Qed.

Theorem C36_gompertz : forall c s : R, 0 < c -> 0 < s -> 
  inverse_of (fun x => M_gompertz.sf x c s) (fun x => M_gompertz.invsf x c s) 0 p_infty /\
  (forall p, 0 < p < 1 -> M_gompertz.invsf (Fin p) c s = M_gompertz.invcdf (Fin (1 - p)) c s).
Proof. exact (fun c s H0 H1 => conj (cert_inverse_sf (P_gompertz.CERT c s H0 H1)) (cert_invsf_invcdf (P_gompertz.CERT c s H0 H1))). Qed.
Print Assumptions C36_gompertz.
Example C36_gompertz_instance : inverse_of (fun x => M_gompertz.sf x (3) (2)) (fun x => M_gompertz.invsf x (3) (2)) 0 p_infty /\
  (forall p, 0 < p < 1 -> M_gompertz.invsf (Fin p) (3) (2) = M_gompertz.invcdf (Fin (1 - p)) (3) (2)).
Proof. exact (C36_gompertz (3) (2) ltac:(side) ltac:(side)). Qed.

Theorem C37_gompertz : forall c s : R, 0 < c -> 0 < s -> 
  rejects_bad_p (fun x => M_gompertz.invcdf x c s) /\ rejects_bad_p (fun x => M_gompertz.invsf x c s) /\
  at_ends (fun x => M_gompertz.invcdf x c s) (Fin 0) PInf /\ at_ends (fun x => M_gompertz.invsf x c s) PInf (Fin 0).
Proof. exact (fun c s H0 H1 => P_gompertz.ends c s H0 H1). Qed.
Print Assumptions C37_gompertz.
Example C37_gompertz_instance : rejects_bad_p (fun x => M_gompertz.invcdf x (3) (2)) /\ rejects_bad_p (fun x => M_gompertz.invsf x (3) (2)) /\
  at_ends (fun x => M_gompertz.invcdf x (3) (2)) (Fin 0) PInf /\ at_ends (fun x => M_gompertz.invsf x (3) (2)) PInf (Fin 0).
Proof. exact (C37_gompertz (3) (2) ltac:(side) ltac:(side)). Qed.

Theorem C39_gompertz : forall c s : R, 0 < c -> 0 < s -> 
  is_mode (fun x => M_gompertz.pdf x c s) (M_gompertz.mode c s).
Proof. exact (fun c s H0 H1 => P_gompertz.mode_ok c s H0 H1). Qed.
Print Assumptions C39_gompertz.
Example C39_gompertz_instance : is_mode (fun x => M_gompertz.pdf x (3) (2)) (M_gompertz.mode (3) (2)).
Proof. exact (C39_gompertz (3) (2) ltac:(side) ltac:(side)). Qed.

(** C34: at the infinities the density is 0, its logarithm -inf, and cdf and sf are 0 or 1. *)
Theorem C34_gompertz_inf : forall c s : R, 0 < c -> 0 < s -> pdf PInf c s = Fin 0 /\ logpdf PInf c s = NInf /\ pdf NInf c s = Fin 0 /\ logpdf NInf c s = NInf /\
  cdf NInf c s = Fin 0 /\ sf NInf c s = Fin 1 /\ cdf PInf c s = Fin 1 /\ sf PInf c s = Fin 0.
Proof. first [exact P_gompertz.at_inf | intros; apply P_gompertz.at_inf; assumption]. Qed.
Print Assumptions C34_gompertz_inf.
Example C34_gompertz_inf_instance := C34_gompertz_inf (3) (2) ltac:(inst) ltac:(inst) .

(** C38: a parameter that must be positive and is not is rejected by every function. *)
Theorem C38_gompertz : forall (c s : val),
  isnum c -> isnum s -> nonpositive c \/ nonpositive s ->
  support c s = Err ValueError /\
  always_ValueError [ fun x => pdf x c s; fun x => logpdf x c s; fun x => cdf x c s; fun x => sf x c s;
    fun p => invcdf p c s; fun p => invsf p c s; fun _ => mode c s; fun _ => mean c s; fun _ => entropy c s; fun x => nll [x] c s ].
Proof. first [exact P_gompertz.bad_params | intros; apply P_gompertz.bad_params; assumption]. Qed.
Print Assumptions C38_gompertz.
Example C38_gompertz_instance := C38_gompertz  (Fin 0) (Fin 1) ltac:(inst) ltac:(inst) ltac:(inst).

(** C43: mean. *)
Theorem C43_gompertz_mean : forall c s : R, 0 < c -> 0 < s -> mean_is (fun x => pdf x c s) 0 p_infty (mean c s).
Proof. first [exact P_gompertz.mean_ok | intros; apply P_gompertz.mean_ok; assumption]. Qed.
Print Assumptions C43_gompertz_mean.
Example C43_gompertz_mean_instance := C43_gompertz_mean (3) (2) ltac:(inst) ltac:(inst) .

(** C43: entropy. *)
Theorem C43_gompertz_entropy : forall c s : R, 0 < c -> 0 < s -> entropy_is (fun x => pdf x c s) 0 p_infty (entropy c s).
Proof. first [exact P_gompertz.entropy_ok | intros; apply P_gompertz.entropy_ok; assumption]. Qed.
Print Assumptions C43_gompertz_entropy.
Example C43_gompertz_entropy_instance := C43_gompertz_entropy (3) (2) ltac:(inst) ltac:(inst) .

(** C44: scale. *)
Theorem C44_gompertz : forall c,
  0 < c -> scale_law (fun x => pdf x c) (fun x => cdf x c) (fun x => sf x c)
  (fun p => invcdf p c) (fun p => invsf p c) 0 p_infty.
Proof. first [exact P_gompertz.scale_ok | intros; apply P_gompertz.scale_ok; assumption]. Qed.
Print Assumptions C44_gompertz.
Example C44_gompertz_instance := C44_gompertz  1 ltac:(inst).

(** C47: scale given: the shape minimises nll. *)
Theorem C47_gompertz_shape : forall findroot s0 xs (s : R),
  0 < s -> (forall x, In x xs -> 0 <= x) -> (exists x, In x xs /\ 0 < x) ->
  exists c, mle findroot s0 (map Fin xs) None (Some (Fin s)) = Ok (Fin c, Fin s) /\
    minimises (fun c => 0 < c) (fun c => nll (map Fin xs) (Fin c) (Fin s)) c.
Proof. first [exact P_gompertz.mle_c | intros; apply P_gompertz.mle_c; assumption]. Qed.
Print Assumptions C47_gompertz_shape.
Example C47_gompertz_shape_instance := C47_gompertz_shape  (fun _ _ => NaN) (Fin 1) [1; 2; 5] 3 ltac:(inst) ltac:(inst) ltac:(exists 1; split; [left; reflexivity|lra]).

(** C47: shape given: a positive scale returned minimises nll. *)
Theorem C47_gompertz_scale : forall findroot s0 xs (c s : R),
  checked_solver1 findroot -> xs <> [] -> 0 < c -> 0 < s -> (forall x, In x xs -> 0 <= x) ->
  mle findroot s0 (map Fin xs) (Some (Fin c)) None = Ok (Fin c, Fin s) ->
  minimises (fun s => 0 < s) (fun s => nll (map Fin xs) (Fin c) (Fin s)) s.
Proof. first [exact P_gompertz.mle_scale | intros; apply P_gompertz.mle_scale; assumption]. Qed.
Print Assumptions C47_gompertz_scale.
Example C47_gompertz_scale_instance : exists fr c, checked_solver1 fr /\ 0 < c /\ mle fr (Fin 1) (map Fin [1]) (Some (Fin c)) None = Ok (Fin c, Fin 1).
Proof. exact P_gompertz.case_scale. Qed.

(** C47: both free: the pair returned minimises nll if its scale is positive. *)
Theorem C47_gompertz_both : forall findroot s0 xs (c s : R),
  checked_solver1 findroot -> 0 < s -> (forall x, In x xs -> 0 <= x) -> (exists x, In x xs /\ 0 < x) ->
  mle findroot s0 (map Fin xs) None None = Ok (Fin c, Fin s) ->
  minimises (fun p => 0 < fst p /\ 0 < snd p) (fun p => nll (map Fin xs) (Fin (fst p)) (Fin (snd p))) (c, s).
Proof. first [exact P_gompertz.mle_both | intros; apply P_gompertz.mle_both; assumption]. Qed.
Print Assumptions C47_gompertz_both.
Example C47_gompertz_both_instance : exists fr c s, checked_solver1 fr /\ 0 < s /\ mle fr (Fin 1) (map Fin [1; 2]) None None = Ok (Fin c, Fin s).
Proof. exact P_gompertz.case_both. Qed.

(** C47: data consisting of zeros is accepted but leads to ZeroDivisionError. *)
Theorem C47_gompertz_refuted : forall findroot s0 (s : R),
  0 < s -> mle findroot s0 [Fin 0] None (Some (Fin s)) = Err ZeroDivisionError.
Proof. first [exact P_gompertz.mle_zero | intros; apply P_gompertz.mle_zero; assumption]. Qed.
Print Assumptions C47_gompertz_refuted.
Example C47_gompertz_refuted_instance := C47_gompertz_refuted  (fun _ _ => NaN) (Fin 1) 3 ltac:(inst).

(** C49: nll is minus the sum of logpdf. *)
Theorem C49_gompertz : forall c s : R, 0 < c -> 0 < s -> forall xs,
  (forall x, In x xs -> 0 <= x) -> nll (map Fin xs) c s = vneg (loglik (fun x => logpdf x c s) xs).
Proof. first [exact P_gompertz.nll_ok | intros; apply P_gompertz.nll_ok; assumption]. Qed.
Print Assumptions C49_gompertz.
Example C49_gompertz_instance := C49_gompertz (3) (2) ltac:(inst) ltac:(inst) [1; 2; 5] ltac:(inst).

(** C49: data outside the support is rejected. *)
Theorem C49_gompertz_outside : forall c s : R, 0 < c -> 0 < s -> forall xs,
  (exists x, In x xs /\ x < 0) -> nll (map Fin xs) c s = Exc ValueError.
Proof. first [exact P_gompertz.nll_bad | intros; apply P_gompertz.nll_bad; assumption]. Qed.
Print Assumptions C49_gompertz_outside.
Example C49_gompertz_outside_instance := C49_gompertz_outside (3) (2) ltac:(inst) ltac:(inst) [1; -2; 5] ltac:(inst).

