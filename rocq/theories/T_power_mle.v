(** Properties of mpsci.distributions.power_mle (generated by tools/mkthm.py). *)
From Coq Require Import Reals Lra List.
From Coquelicot Require Import Coquelicot.
From Verif Require Import Values Spec SpecStat SpecEst VTac TTac DistLib.
From Verif Require Import SpecDisc SpecInt SpecMulti.
From Verif Require Import SpecPower SpecInv.
From Verif Require Import M_power_mle.
From Verif Require P_power_mle.
Import ListNotations.
Local Open Scope R_scope.

(** C75: Box-Cox: the log-likelihood maximised over mu and sigma. *)
Theorem C75_power_mle_boxcox : forall (lam : R) (xs : list R),
  (forall x, In x xs -> 0 < x) -> ~ constant xs ->
  exists L, boxcox_llf (Fin lam) (map Fin xs) = Fin L /\ profile_max (transformed_loglik (boxcox_fn lam) xs) (L - INR (length xs) / 2 * (1 + ln (2 * PI))).
Proof. first [exact P_power_mle.boxcox_profile | intros; apply P_power_mle.boxcox_profile; assumption]. Qed.
Print Assumptions C75_power_mle_boxcox.
Example C75_power_mle_boxcox_instance : exists L, boxcox_llf (Fin 2) (map Fin [1; 3]) = Fin L.
Proof.
  destruct (C75_power_mle_boxcox 2 [1; 3]) as [L [E _]]; [intros x [<-|[<-|[]]]; lra|intros K; pose proof (K 1 3 ltac:(simpl; auto) ltac:(simpl; auto)); lra|].
  exists L. exact E.
Qed.

(** C75: Yeo-Johnson: the same, for data of any sign. *)
Theorem C75_power_mle_yeojohnson : forall (lam : R) (xs : list R),
  ~ constant xs ->
  exists L, yeojohnson_llf (Fin lam) (map Fin xs) = Fin L /\ profile_max (transformed_loglik (yeojohnson_fn lam) xs) (L - INR (length xs) / 2 * (1 + ln (2 * PI))).
Proof. first [exact P_power_mle.yeojohnson_profile | intros; apply P_power_mle.yeojohnson_profile; assumption]. Qed.
Print Assumptions C75_power_mle_yeojohnson.
Example C75_power_mle_yeojohnson_instance : exists L, yeojohnson_llf (Fin 2) (map Fin [-1; 3]) = Fin L.
Proof.
  destruct (C75_power_mle_yeojohnson 2 [-1; 3]) as [L [E _]]; [intros K; pose proof (K (-1) 3 ltac:(simpl; auto) ltac:(simpl; auto)); lra|].
  exists L. exact E.
Qed.

(** C75: a value returned by boxcox_mle is a stationary point. *)
Theorem C75_power_mle_boxcox_mle : forall fr (xs : list R) (lam0 lam : R),
  checked_solver1 fr -> (forall x, In x xs -> 0 < x) -> ~ constant xs -> boxcox_mle fr (map Fin xs) lam0 = Fin lam ->
  is_derive (fun l => toR (boxcox_llf (Fin l) (map Fin xs))) lam 0.
Proof. first [exact P_power_mle.boxcox_mle_ok | intros; apply P_power_mle.boxcox_mle_ok; assumption]. Qed.
Print Assumptions C75_power_mle_boxcox_mle.
Example C75_power_mle_boxcox_mle_instance : exists fr, checked_solver1 fr /\ boxcox_mle fr (map Fin [exp (-1); exp 1]) (Fin 0) = Fin 0.
Proof. exact P_power_mle.bc_case. Qed.

(** C75: a value returned by yeojohnson_mle is a stationary point. *)
Theorem C75_power_mle_yeojohnson_mle : forall fr (xs : list R) (lam0 lam : R),
  checked_solver1 fr -> ~ constant xs -> yeojohnson_mle fr (map Fin xs) lam0 = Fin lam ->
  is_derive (fun l => toR (yeojohnson_llf (Fin l) (map Fin xs))) lam 0.
Proof. first [exact P_power_mle.yeojohnson_mle_ok | intros; apply P_power_mle.yeojohnson_mle_ok; assumption]. Qed.
Print Assumptions C75_power_mle_yeojohnson_mle.
Example C75_power_mle_yeojohnson_mle_instance : exists fr, checked_solver1 fr /\ yeojohnson_mle fr (map Fin [-1; 1]) (Fin 0) = Fin 1.
Proof. exact P_power_mle.yj_case. Qed.

