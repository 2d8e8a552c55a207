(** Properties of mpsci.fun.logbinomial, logbeta and multivariate_logbeta. *)
From Coq Require Import Reals Lra List Arith.
From Coquelicot Require Import Coquelicot.
From Verif Require Import Values SFun SpecInt SpecStat VTac TTac M_sfun M_fun.
From Verif Require P_logb.
Import ListNotations.
Local Open Scope R_scope.

(** C21: exp(logbinomial(n, k)) is the number of k-subsets of n things. *)
Theorem C21_choose : forall n k : nat, (k <= n)%nat -> vexp (logbinomial vloggamma (Fin (INR n)) (Fin (INR k))) = Fin (INR (choose n k)).
Proof. exact P_logb.exp_lb. Qed.
Print Assumptions C21_choose.
Theorem C21_symmetric : forall n k, 0 <= k <= n ->
  logbinomial vloggamma (Fin n) (Fin (n - k)) = logbinomial vloggamma (Fin n) (Fin k).
Proof. exact P_logb.lb_sym. Qed.
Print Assumptions C21_symmetric.
Theorem C21_errors : forall n k, logbinomial vloggamma (Fin n) (Fin k) = Exc ValueError <-> n < 0 \/ k < 0 \/ n < k.
Proof. exact P_logb.lb_err. Qed.
Print Assumptions C21_errors.
(** The value at every real argument in the domain. *)
Theorem C21_value : forall n k, 0 <= k <= n ->
  logbinomial vloggamma (Fin n) (Fin k) = Fin (ln (Gamma (n + 1)) - ln (Gamma (k + 1)) - ln (Gamma (n - k + 1))).
Proof. exact P_logb.lb_fin. Qed.
Print Assumptions C21_value.
(** exp(logbeta(x, y)) is the beta function; symmetry and recurrence. *)
Theorem C21_beta : forall x y, 0 < x -> 0 < y -> vexp (logbeta vloggamma (Fin x) (Fin y)) = Fin (Gamma x * Gamma y / Gamma (x + y)).
Proof. exact P_logb.exp_logbeta. Qed.
Print Assumptions C21_beta.
Theorem C21_beta_symmetric : forall x y, 0 < x -> 0 < y -> logbeta vloggamma (Fin x) (Fin y) = logbeta vloggamma (Fin y) (Fin x).
Proof. exact P_logb.logbeta_sym. Qed.
Print Assumptions C21_beta_symmetric.
Theorem C21_beta_recurrence : forall x y, 0 < x -> 0 < y ->
  exists b, vexp (logbeta vloggamma (Fin x) (Fin y)) = Fin b /\ 0 < b /\
    vexp (logbeta vloggamma (Fin (x + 1)) (Fin y)) = Fin (b * x / (x + y)).
Proof. exact P_logb.logbeta_succ. Qed.
Print Assumptions C21_beta_recurrence.
Theorem C21_multivariate_two : forall x y, 0 < x -> 0 < y ->
  multivariate_logbeta vloggamma [Fin x; Fin y] = logbeta vloggamma (Fin x) (Fin y).
Proof. exact P_logb.mlb2. Qed.
Print Assumptions C21_multivariate_two.
Theorem C21_multivariate : forall l, l <> [] -> (forall x, In x l -> 0 < x) ->
  multivariate_logbeta vloggamma (map Fin l) = Fin (sum (map (fun x => ln (Gamma x)) l) - ln (Gamma (sum l))).
Proof. exact P_logb.mlb_fin. Qed.
Print Assumptions C21_multivariate.
Example C21_instance : vexp (logbinomial vloggamma (Fin (INR 5)) (Fin (INR 2))) = Fin (INR 10) /\
  logbinomial vloggamma (Fin 2) (Fin 3) = Exc ValueError /\
  multivariate_logbeta vloggamma (map Fin [1; 5/2; 3]) = Fin (sum (map (fun x => ln (Gamma x)) [1; 5/2; 3]) - ln (Gamma (sum [1; 5/2; 3]))).
Proof.
  split; [apply C21_choose; auto with arith|]. split; [apply C21_errors; lra|].
  apply C21_multivariate; inst.
Qed.
