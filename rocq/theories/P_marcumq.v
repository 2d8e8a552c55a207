(** Proofs about M_marcumq. *)
From Coq Require Import Reals Lra Lia.
From Coquelicot Require Import Coquelicot.
From Verif Require Import Values VTac Spec RLib LimLib DistLib DistLS IntLib SubLib MomLib PLib SFun SFun4 GammaLib GammaLib2 GamLib GamSq GamMix KumLib.
From Verif Require Import M_sfun P_sfun SpecMarcum M_marcumq.
Local Open Scope R_scope.
Set Bullet Behavior "Strict Subproofs".

Lemma sub_if lo' hi' lo hi phi dphi psi g F v : subst lo' hi' lo hi phi dphi psi -> (forall x, inside lo' hi' x -> 0 < dphi x) ->
  integral_fn lo hi g F v -> integral_fn lo' hi' (fun x => g (phi x) * dphi x) (fun x => F (phi x)) v.
Proof.
  intros SB INC [LT C P D L0 L1]. constructor.
  - apply (sb_lt' SB).
  - intros x X. apply (continuous_mult (fun x => g (phi x)) dphi); [apply (sub_comp_cont SB); auto|apply (sb_cont _ _ _ _ _ _ _ SB); auto].
  - intros x X. apply Rmult_lt_0_compat; auto. apply P, (sb_in _ _ _ _ _ _ _ SB); auto.
  - intros x X. rewrite Rmult_comm. apply (is_derive_comp F phi); [apply D, (sb_in _ _ _ _ _ _ _ SB)|apply (sb_der _ _ _ _ _ _ _ SB)]; auto.
  - apply (filterlim_comp _ _ _ phi F _ (near_lo lo)); auto. apply (sub_lo SB INC).
  - apply (filterlim_comp _ _ _ phi F _ (near_hi hi)); auto. apply (sub_hi SB INC).
Qed.
Lemma if_unique lo hi g F F' v v' x : integral_fn lo hi g F v -> integral_fn lo hi g F' v' -> inside lo hi x -> F x = F' x.
Proof. intros A B X. apply (integrates_unique lo x (proj1 X) g); [apply (if_upto A)|apply (if_upto B)]; auto. Qed.
Lemma if_ext lo hi g g' F v : (forall x, inside lo hi x -> g x = g' x) -> integral_fn lo hi g F v -> integral_fn lo hi g' F v.
Proof.
  intros E [LT C P D L0 L1]. constructor; auto.
  - intros x X. apply (continuous_ext_loc g' g x); [|auto]. generalize (inside_locally lo hi x X). apply filter_imp. auto.
  - intros x X. rewrite <- E; auto.
  - intros x X. rewrite <- E; auto.
Qed.
(** noncentrality 0 *)
Lemma pm_0 c t : 0 < c -> 0 < t -> pm c 0 t = gf c t.
Proof.
  intros C T. rewrite pm_eq by auto. rewrite Ropp_0, exp_0. unfold gf, Rdiv. rewrite Rmult_1_r. f_equal.
  rewrite (Series_ext _ (fun k => (fun n => match n with 0%nat => / Gamma c | S _ => 0 end) k * 1 ^ k)).
  - apply (PS_const (fun n => match n with 0%nat => / Gamma c | S _ => 0 end)); auto.
  - intros [|k]; rewrite pow1, Rmult_1_r.
    + simpl. rewrite Rplus_0_r. pose proof (Gamma_pos c C). field. lra.
    + rewrite Rmult_0_l. simpl pow. rewrite !Rmult_0_l. reflexivity.
Qed.
Lemma gF_if c : 0 < c -> integral_fn 0 p_infty (gf c) (gF c) 1.
Proof.
  intros C. pose proof (gST c C) as [[LT S01 SD SP] SC _]. constructor; auto; [apply gF_lo|apply gF_hi]; auto.
Qed.
Lemma pmF_0 c t : 0 < c -> 0 < t -> pmF c 0 t = gF c t.
Proof.
  intros C T. apply (if_unique 0 p_infty (pm c 0) _ _ 1 1); [apply pm_if; lra| |apply inside_pos; auto].
  apply (if_ext _ _ (gf c)); [|apply gF_if; auto]. intros x X%inside_pos. symmetry. apply pm_0; auto.
Qed.
Lemma gF_1 t : 0 < t -> gF 1 t = 1 - exp (- t).
Proof.
  intros T. apply (if_unique 0 p_infty (gf 1) (gF 1) (fun t => 1 - exp (- t)) 1 1); [apply gF_if; lra| |apply inside_pos; auto].
  constructor.
  - exact I.
  - apply (if_cont _ _ _ _ _ (gF_if 1 Rlt_0_1)).
  - apply (if_pos _ _ _ _ _ (gF_if 1 Rlt_0_1)).
  - intros x X%inside_pos. auto_derive; auto. unfold gf, gamma_kernel. rewrite Gamma_1. replace (1 - 1) with 0 by ring. rewrite Rpower_O by auto. field.
  - apply (flim_val _ _ (1 - exp (- 0))); [|rewrite Ropp_0, exp_0; ring]. apply (flim_right (fun x => 1 - exp (- x))). apply ex_derive_cont. auto_derive. auto.
  - apply (flim_val _ _ (1 - 0)); [|ring]. apply flim_minus; [apply Rbar_locally_filter|apply filterlim_const|apply lim_exp].
Qed.
Lemma pmF_1 t : 0 < t -> pmF 1 0 t = 1 - exp (- t). Proof. intros. rewrite pmF_0, gF_1 by lra. auto. Qed.
(** besseli at 0 *)
Lemma I0_0 : Series (fun k => (0 ^ 2 / 4) ^ k / (INR (fact k) * Gamma (0 + 1 + INR k))) = 1.
Proof.
  rewrite (Series_ext _ (fun k => (fun n => match n with 0%nat => 1 | S _ => 0 end) k * 1 ^ k)).
  - apply (PS_const (fun n => match n with 0%nat => 1 | S _ => 0 end)); auto.
  - intros [|k]; rewrite pow1, Rmult_1_r.
    + simpl. replace (0 + 1 + 0) with 1 by ring. rewrite Gamma_1. field.
    + replace (0 ^ 2 / 4) with 0 by field. simpl pow. unfold Rdiv. rewrite !Rmult_0_l. reflexivity.
Qed.
Lemma vbesseli0 (y : R) : 0 <= y -> vbesseli (Fin 0) (Fin y) = Fin (Series (fun k => (y ^ 2 / 4) ^ k / (INR (fact k) * Gamma (0 + 1 + INR k)))).
Proof.
  intros Y. unfold vbesseli. rewrite (Rltb_true (-1) 0) by lra. destruct Y as [Y|<-].
  - rewrite (Rltb_true 0 y) by auto. unfold besseli. rewrite Rpower_O by lra. rewrite Rmult_1_l. reflexivity.
  - rewrite (Rltb_false 0 0), (Reqb_true 0 0) by lra. rewrite I0_0. reflexivity.
Qed.
Section A.
Variables m a : R.
Hypothesis HM : 0 < m.
Hypothesis HA : 0 < a.
Let mu := a ^ 2 / 2.
Lemma mu_nn : 0 <= mu. Proof. unfold mu. pose proof (pow2_ge_0 a). lra. Qed.
Definition ig (x : R) := pm m mu (1 / 2 * x ^ 2) * (2 * (1 / 2) * x).
Definition IG (b : R) := pmF m mu (1 / 2 * b ^ 2).
Lemma ig_if : integral_fn 0 p_infty ig IG 1.
Proof. apply (sub_if _ _ _ _ _ _ _ _ _ _ (qSB (1 / 2) ltac:(lra)) (qINC (1 / 2) ltac:(lra))). apply pm_if; [auto|apply mu_nn]. Qed.
Lemma spec_ig x : 0 < x -> marcum_integrand m a x = ig x.
Proof.
  intros X. unfold ig, marcum_integrand. rewrite pm_eq by auto. unfold besseli, gamma_kernel.
  assert (X2 : 0 < 1 / 2 * x ^ 2) by (assert (0 < x ^ 2) by (apply pow_lt; auto); lra). assert (XA : 0 < x / a) by (apply Rdiv_pos; auto). assert (AX : 0 < a * x / 2) by (assert (0 < a * x) by (apply Rmult_lt_0_compat; auto); lra).
  rewrite (Series_ext (fun k => (mu * (1 / 2 * x ^ 2)) ^ k / (INR (fact k) * Gamma (m + INR k))) (fun k => ((a * x) ^ 2 / 4) ^ k / (INR (fact k) * Gamma (m - 1 + 1 + INR k)))).
  - set (S := Series _). clearbody S. replace (Rpower (1 / 2 * x ^ 2) (m - 1)) with (Rpower (x / a) (m - 1) * Rpower (a * x / 2) (m - 1)).
    + replace (exp (- (x ^ 2 + a ^ 2) / 2)) with (exp (- (1 / 2 * x ^ 2)) * exp (- mu)); [field|]. rewrite <- exp_plus. f_equal. unfold mu. field.
    + rewrite Rpower_mult_distr by auto. f_equal. field. lra.
  - intros k. f_equal; [f_equal; unfold mu; field|]. f_equal. f_equal. ring.
Qed.
Lemma ig_val (x : R) : 0 < x -> integrand x m a = Fin (ig x).
Proof.
  intros X. rewrite <- spec_ig by auto. unfold integrand, vbesseli. assert (0 < x / a) by (apply Rdiv_pos; auto). assert (0 < a * x) by (apply Rmult_lt_0_compat; auto).
  veval. rewrite (Rltb_true (-1) (m - 1)), (Rltb_true 0 (a * x)) by lra. reflexivity.
Qed.
Lemma quad_if : integral_fn 0 p_infty (fun x => real_of (integrand (Fin x) m a)) IG 1.
Proof. apply (if_ext _ _ ig); [|apply ig_if]. intros x X%inside_pos. rewrite ig_val by auto. reflexivity. Qed.
Lemma mq_pos (b : R) : 0 < b -> marcumq m a b = Fin (1 - IG b) /\ cmarcumq m a b = Fin (IG b).
Proof.
  intros B. assert (IB : inside 0 p_infty b) by (apply inside_pos; auto). unfold marcumq, cmarcumq, vquad. unfold rbar_of. split; veval; f_equal.
  - apply improper_eq; [exact I|]. apply (if_from _ _ _ _ _ _ quad_if IB).
  - apply improper_eq; [apply IB|]. apply (if_upto quad_if); auto.
Qed.
Lemma mq_inf : marcumq m a PInf = Fin 0 /\ cmarcumq m a PInf = Fin 1.
Proof.
  unfold marcumq, cmarcumq, vquad. unfold rbar_of. split; veval; f_equal. apply improper_eq; [exact I|]. apply (if_integral quad_if).
Qed.
End A.
(** every noncentrality *)
Lemma mq_all (m a b : R) : 0 < m -> 0 <= a -> 0 < b ->
  marcumq m a b = Fin (1 - pmF m (a ^ 2 / 2) (b ^ 2 / 2)) /\ cmarcumq m a b = Fin (pmF m (a ^ 2 / 2) (b ^ 2 / 2)).
Proof.
  intros M A B. assert (B2 : 0 < b ^ 2 / 2) by (assert (0 < b ^ 2) by (apply pow_lt; auto); lra). destruct A as [A|<-].
  - replace (b ^ 2 / 2) with (1 / 2 * b ^ 2) by field. apply mq_pos; auto.
  - replace (0 ^ 2 / 2) with 0 by field. unfold marcumq, cmarcumq. destruct (Req_dec m 1) as [->|N].
    + rewrite pmF_1 by auto. split; veval; f_equal; replace (- b ^ 2 / 2) with (- (b ^ 2 / 2)) by field; ring.
    + rewrite pmF_0 by auto. split; veval; rewrite ?(vgu m), ?(vgl m) by auto; auto.
Qed.
Lemma mq_inf_all (m a : R) : 0 < m -> 0 <= a -> marcumq m a PInf = Fin 0 /\ cmarcumq m a PInf = Fin 1.
Proof.
  intros M [A|<-]; [apply mq_inf; auto|]. unfold marcumq, cmarcumq. destruct (Req_dec m 1) as [->|N].
  - split; veval; auto; f_equal; ring.
  - split; veval; rewrite ?(vgui m), ?(vgli m) by auto; auto.
Qed.
Lemma pmF_01 c mu t : 0 < c -> 0 <= mu -> 0 < t -> 0 < pmF c mu t < 1.
Proof.
  intros C M T. apply (if_range (pm_if c mu C M)). apply inside_pos; auto.
Qed.
Lemma pmF_decr c mu s t : 0 < c -> 0 <= mu -> 0 < s -> s < t -> pmF c mu s < pmF c mu t.
Proof. intros C M S T. apply (if_incr (pm_if c mu C M)); try apply inside_pos; lra. Qed.
(** C74 *)
Lemma spec_ok (m a b : R) : 0 < m -> 0 < a -> 0 <= b -> exists q, 0 < q <= 1 /\ marcumq m a b = Fin q /\ cmarcumq m a b = Fin (1 - q) /\
  integrates_to (marcum_integrand m a) b p_infty q.
Proof.
  intros M A [B|<-].
  - exists (1 - IG m a b). pose proof (mq_pos m a M A b B) as [E1 E2]. assert (B2 : 0 < 1 / 2 * b ^ 2) by (assert (0 < b ^ 2) by (apply pow_lt; auto); lra). pose proof (pmF_01 m (a ^ 2 / 2) _ M (mu_nn a) B2) as K.
    split; [unfold IG; lra|]. split; [auto|]. split; [rewrite E2; f_equal; ring|]. apply (integrates_ext b p_infty I (ig m a)); [intros x [X _]; simpl in X; symmetry; apply spec_ig; auto; lra|]. apply (if_from _ _ _ _ _ _ (ig_if m a M)). apply inside_pos; auto.
  - exists 1. split; [lra|]. unfold marcumq, cmarcumq. split; [veval; auto|]. split; [veval; f_equal; ring|].
    apply (integrates_ext 0 p_infty I (ig m a)); [intros x X%inside_pos; symmetry; apply spec_ig; auto|]. apply (if_integral (ig_if m a M)).
Qed.
Lemma range_ok (m a : R) : 0 < m -> 0 <= a -> marcumq m a 0 = Fin 1 /\ cmarcumq m a 0 = Fin 0 /\ marcumq m a PInf = Fin 0 /\ cmarcumq m a PInf = Fin 1 /\
  forall b : R, 0 < b -> exists q, 0 < q < 1 /\ marcumq m a b = Fin q /\ cmarcumq m a b = Fin (1 - q) /\
    forall b' : R, b < b' -> exists q', q' < q /\ marcumq m a b' = Fin q'.
Proof.
  intros M A. pose proof (mq_inf_all m a M A) as [E1 E2]. rewrite E1, E2.
  assert (Z : marcumq m a 0 = Fin 1 /\ cmarcumq m a 0 = Fin 0).
  { unfold marcumq, cmarcumq. destruct A as [A|<-]; [split; veval; auto|]. destruct (Req_dec m 1) as [->|N].
    - split; veval; f_equal; replace (- 0 ^ 2 / 2) with 0 by field; rewrite exp_0; ring.
    - split; veval; replace (0 ^ 2 / 2) with 0 by field; rewrite ?(vgu0 m), ?(vgl0 m) by auto; auto. }
  destruct Z as [Z1 Z2]. rewrite Z1, Z2. repeat (split; [reflexivity|]). intros b B. pose proof (mq_all m a b M A B) as [F1 F2].
  assert (MU : 0 <= a ^ 2 / 2) by (pose proof (pow2_ge_0 a); lra). assert (B2 : 0 < b ^ 2 / 2) by (assert (0 < b ^ 2) by (apply pow_lt; auto); lra).
  pose proof (pmF_01 m (a ^ 2 / 2) _ M MU B2). eexists. split; [|split; [exact F1|split; [rewrite F2; f_equal; ring|]]]; [lra|].
  intros b' L. exists (1 - pmF m (a ^ 2 / 2) (b' ^ 2 / 2)). split; [|apply mq_all; auto; lra]. assert (pmF m (a ^ 2 / 2) (b ^ 2 / 2) < pmF m (a ^ 2 / 2) (b' ^ 2 / 2)); [|lra]. apply pmF_decr; auto. nra.
Qed.
Lemma central_ok (m b : R) : 0 < m -> 0 < b -> exists q, marcumq m 0 b = Fin q /\ vgammainc_upper m (Fin (b ^ 2 / 2)) = Fin q /\ cmarcumq m 0 b = Fin (1 - q) /\ vgammainc_lower m (Fin (b ^ 2 / 2)) = Fin (1 - q).
Proof.
  intros M B. assert (B2 : 0 < b ^ 2 / 2) by (assert (0 < b ^ 2) by (apply pow_lt; auto); lra). exists (1 - gF m (b ^ 2 / 2)). pose proof (mq_all m 0 b M ltac:(lra) B) as [E1 E2]. replace (0 ^ 2 / 2) with 0 in * by field. rewrite pmF_0 in * by auto.
  rewrite E1, E2, (vgu m), (vgl m) by auto. repeat split; f_equal; ring.
Qed.
(** the Poisson mixture as a standard law *)
Definition pmQ (c mu p : R) := inverse_fn 0 p_infty (pmF c mu) p.
Lemma if_std lo hi g F : integral_fn lo hi g F 1 -> std lo hi F g (fun p => inverse_fn lo hi F p).
Proof.
  intros J. constructor; [constructor| |].
  - apply (if_lt _ _ _ _ _ J).
  - intros x X. pose proof (if_range J x X). lra.
  - apply (if_der _ _ _ _ _ J).
  - apply (if_pos _ _ _ _ _ J).
  - apply (if_cont _ _ _ _ _ J).
  - intros p P. apply (GammaLib3.inverse_fn_ok _ _ _ _ _ p J P).
Qed.
Lemma pmST c mu : 0 < c -> 0 <= mu -> std 0 p_infty (pmF c mu) (pm c mu) (pmQ c mu).
Proof. intros C M. apply if_std, pm_if; auto. Qed.
Lemma pm_momentn c mu n : 0 < c -> 0 <= mu -> integrates_to (fun t => t ^ n * pm c mu t) 0 p_infty (Gamma (c + INR n) / Gamma c * hyp1f1 (- INR n) c (- mu)).
Proof.
  intros C M. apply (integrates_ext 0 p_infty I (fun t => Rpower t (INR n) * pm c mu t)); [intros x X%inside_pos; rewrite Rpower_pow; auto|]. apply pm_moment; auto. pose proof (pos_INR n). lra.
Qed.
