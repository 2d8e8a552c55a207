From Coq Require Import Reals Lra Lia List ZArith Arith.
From Coquelicot Require Import Coquelicot.
From Verif Require Import Values VTac LLib SFun GammaLib M_sfun M_disc M_fun SpecInt SpecStat BinLib IncLib.
Import ListNotations.
Local Open Scope R_scope.
Set Bullet Behavior "Strict Subproofs".

Lemma vlg x : 0 < x -> vloggamma (Fin x) = Fin (ln (Gamma x)).
Proof. intros H. unfold vloggamma. rewrite Rltb_true by auto. reflexivity. Qed.
Lemma lb_fin n k : 0 <= k <= n -> logbinomial vloggamma (Fin n) (Fin k) = Fin (ln (Gamma (n + 1)) - ln (Gamma (k + 1)) - ln (Gamma (n - k + 1))).
Proof.
  intros H. unfold logbinomial. vif. unfold vfsum, fold_right. cbn [vadd vneg]. rewrite !vlg by lra.
  cbn [vsub vadd vneg]. f_equal. replace (n + 1 + (- k + 0)) with (n - k + 1) by ring. ring.
Qed.
Lemma lb_binomR n k : 0 <= k <= n -> logbinomial vloggamma (Fin n) (Fin k) = Fin (ln (binomR n k)).
Proof.
  intros H. rewrite lb_fin by auto. f_equal. unfold binomR. pose proof (Gamma_pos (n + 1) ltac:(lra)). pose proof (Gamma_pos (k + 1) ltac:(lra)).
  pose proof (Gamma_pos (n - k + 1) ltac:(lra)). unfold Rdiv. rewrite ln_mult; [|auto|apply Rinv_0_lt_compat, Rmult_lt_0_compat; auto].
  rewrite ln_Rinv by (apply Rmult_lt_0_compat; auto). rewrite ln_mult by auto. ring.
Qed.
Lemma lb_choose n k : (k <= n)%nat -> logbinomial vloggamma (Fin (INR n)) (Fin (INR k)) = Fin (ln (INR (choose n k))).
Proof. intros H. rewrite lb_binomR, choose_Gamma; auto. split; [apply pos_INR|apply le_INR; auto]. Qed.
Lemma exp_lb n k : (k <= n)%nat -> vexp (logbinomial vloggamma (Fin (INR n)) (Fin (INR k))) = Fin (INR (choose n k)).
Proof. intros H. rewrite lb_choose by auto. cbn [vexp]. rewrite exp_ln; auto. apply lt_0_INR. apply choose_pos. exact H. Qed.
Lemma lb_sym n k : 0 <= k <= n -> logbinomial vloggamma (Fin n) (Fin (n - k)) = logbinomial vloggamma (Fin n) (Fin k).
Proof. intros H. rewrite !lb_fin by lra. f_equal. replace (n - (n - k) + 1) with (k + 1) by ring. ring. Qed.
Lemma lb_err n k : logbinomial vloggamma (Fin n) (Fin k) = Exc ValueError <-> n < 0 \/ k < 0 \/ n < k.
Proof.
  split.
  - intros H. destruct (Rlt_dec n 0); auto. destruct (Rlt_dec k 0); auto. destruct (Rlt_dec n k); auto. exfalso.
    rewrite lb_fin in H by lra. discriminate.
  - intros H. unfold logbinomial. vcases; auto; lra.
Qed.
Lemma logbeta_fin x y : 0 < x -> 0 < y -> logbeta vloggamma (Fin x) (Fin y) = Fin (ln (Beta x y)).
Proof.
  intros X Y. unfold logbeta. cbn [vfsum fold_right vadd]. rewrite !vlg by lra. cbn [vadd vsub vneg]. f_equal. unfold Beta.
  pose proof (Gamma_pos x X). pose proof (Gamma_pos y Y). pose proof (Gamma_pos (x + y) ltac:(lra)).
  unfold Rdiv. rewrite ln_mult; [|apply Rmult_lt_0_compat; auto|apply Rinv_0_lt_compat; auto]. rewrite ln_mult, ln_Rinv by auto.
  replace (x + (y + 0)) with (x + y) by ring. ring.
Qed.
Lemma exp_logbeta x y : 0 < x -> 0 < y -> vexp (logbeta vloggamma (Fin x) (Fin y)) = Fin (Beta x y).
Proof. intros X Y. rewrite logbeta_fin by auto. cbn [vexp]. rewrite exp_ln; auto. apply Beta_pos; auto. Qed.
Lemma logbeta_succ x y : 0 < x -> 0 < y ->
  exists b, vexp (logbeta vloggamma (Fin x) (Fin y)) = Fin b /\ 0 < b /\ vexp (logbeta vloggamma (Fin (x + 1)) (Fin y)) = Fin (b * x / (x + y)).
Proof.
  intros X Y. exists (Beta x y). rewrite !exp_logbeta by lra. split; auto. split; [apply Beta_pos; auto|]. rewrite Beta_succ by auto. f_equal. field. lra.
Qed.
Lemma logbeta_sym x y : 0 < x -> 0 < y -> logbeta vloggamma (Fin x) (Fin y) = logbeta vloggamma (Fin y) (Fin x).
Proof. intros X Y. rewrite !logbeta_fin by auto. rewrite Beta_sym. reflexivity. Qed.
Lemma mlb2 x y : 0 < x -> 0 < y -> multivariate_logbeta vloggamma [Fin x; Fin y] = logbeta vloggamma (Fin x) (Fin y).
Proof.
  intros X Y. unfold multivariate_logbeta, logbeta. cbn [map app vfsum fold_right vadd]. rewrite !vlg by lra. cbn [vadd vsub vneg]. f_equal. ring.
Qed.
Lemma mlb_fin l : l <> [] -> (forall x, In x l -> 0 < x) ->
  multivariate_logbeta vloggamma (map Fin l) = Fin (sum (map (fun x => ln (Gamma x)) l) - ln (Gamma (sum l))).
Proof.
  intros NE P. unfold multivariate_logbeta.
  assert (E : map vloggamma (map Fin l) = map Fin (map (fun x => ln (Gamma x)) l)).
  { rewrite !map_map. apply map_ext_in. intros x X. apply vlg. auto. }
  rewrite E. assert (S : forall l : list R, vfsum (map Fin l) = Fin (sum l)).
  { intros q. unfold vfsum. induction q as [|a q IH]; auto. cbn [map fold_right]. rewrite IH. reflexivity. }
  assert (0 < sum l).
  { destruct l as [|a l]; [congruence|]. assert (Q : forall q : list R, (forall x, In x q -> 0 < x) -> 0 <= sum q).
    { induction q as [|b q IH]; intros Hq; [simpl; lra|]. simpl. specialize (IH (fun x h => Hq x (or_intror h))). specialize (Hq b (or_introl eq_refl)). lra. }
    specialize (Q l (fun x h => P x (or_intror h))). specialize (P a (or_introl eq_refl)). simpl. lra. }
  rewrite S, vlg by auto. cbn [vneg]. change [Fin (- ln (Gamma (sum l)))] with (map Fin [- ln (Gamma (sum l))]). rewrite <- map_app, S. f_equal.
  generalize (map (fun x => ln (Gamma x)) l). intros q. induction q as [|a q IH]; simpl; lra.
Qed.
