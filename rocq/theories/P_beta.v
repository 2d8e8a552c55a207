(** Proofs about M_beta. *)
From Coq Require Import Reals Lra Lia List ZArith.
From Coquelicot Require Import Coquelicot.
From Verif Require Import Values VTac Spec RLib LimLib LLib XLib DistLib DistLS IntLib SubLib MomLib PLib DiscLib M_common SpecStat SpecEst SpecRoot SpecBracket SpecInv SpecGrid SpecBis
  SFun GammaLib GammaLib2 GammaLib3 GammaLib4 GamLib IncLib BetaLib M_sfun P_sfun M_fun P_logb M_bracket InvLib M_bisect P_bisect BisLib P_est.
From Verif Require Import M_beta.
Import ListNotations.
Local Open Scope R_scope.
Set Bullet Behavior "Strict Subproofs".

Lemma validate_bad {A} `{CanRaise A} a b (c : A) : isnum a -> isnum b -> nonpositive a \/ nonpositive b -> validate_a_b a b c = raise ValueError.
Proof.
  intros NA NS B. unfold validate_a_b. destruct B as [B|B].
  - inversion B as [x y Hxy|y Hy|x Hx]; subst; destruct NS as [? []|]; vcases; try reflexivity.
  - inversion B as [x y Hxy|y Hy|x Hx]; subst; destruct NA as [? []|]; vcases; try reflexivity.
Qed.
Ltac start := unfold pdf, logpdf, cdf, sf, support, mode, mean, var, skewness, kurtosis, entropy, validate_a_b, validate_p, xlogy, xlog1py.
Lemma val_pass {A} `{CanRaise A} (a b : R) (c : A) : 0 < a -> 0 < b -> validate_a_b (Fin a) (Fin b) c = c.
Proof. intros. unfold validate_a_b. vif. reflexivity. Qed.
Lemma classic_low (xs : list R) : (exists x, In x xs /\ x <= 0) \/ (forall x, In x xs -> 0 < x).
Proof.
  induction xs as [|y xs IH]; [right; intros x []|]. destruct (Rle_lt_dec y 0) as [L|L]; [left; exists y; simpl; auto|].
  destruct IH as [[x [I H]]|H]; [left; exists x; simpl; auto|]. right. intros x [<-|I]; auto.
Qed.
Lemma pow_le_1 x k : 0 < x < 1 -> 0 <= k -> Rpower x k <= 1.
Proof. intros H [K|<-]; [left; apply Rpower_lt_1; auto|rewrite Rpower_O by lra; lra]. Qed.
Section P.
Variables a b : R.
Hypothesis HA : 0 < a.
Hypothesis HB : 0 < b.
Notation F := (bF a b). Notation f := (bf a b). Notation Q := (bQ a b). Notation B := (Beta a b).
Lemma lgb : logbeta vloggamma (Fin a) (Fin b) = Fin (ln B).
Proof. apply logbeta_fin; auto. Qed.
Lemma pdf_fin (x : R) : 0 < x < 1 -> pdf x a b = Fin (f x) /\ logpdf x a b = Fin (ln (f x)).
Proof.
  intros H. pose proof (bB a b HA HB) as BP. rewrite (ln_bf a b HA HB) by auto. start. rewrite (vbet a b HA HB), lgb. split.
  - veval. f_equal.
  - destruct (Req_dec a 1) as [E|E]; [|assert (a - 1 <> 0) by lra]; (destruct (Req_dec b 1) as [E'|E']; [|assert (b - 1 <> 0) by lra]); veval; f_equal; try (rewrite E); try (rewrite E'); replace (1 + - x) with (1 - x) by ring; ring.
Qed.
Lemma cdf_fin (x : R) : 0 < x < 1 -> cdf x a b = Fin (F x) /\ sf x a b = Fin (1 - F x).
Proof.
  intros H. unfold cdf, sf. rewrite !val_pass by auto. vif. rewrite low_eval, up_eval by (auto; lra). unfold Ifull. rewrite !Reqb_false by lra. auto.
Qed.
Lemma at0 : cdf 0 a b = Fin 0 /\ sf 0 a b = Fin 1.
Proof. unfold cdf, sf. rewrite !val_pass by auto. vif. rewrite low_eval, up_eval by (auto; lra). rewrite If_0. split; f_equal; ring. Qed.
Lemma at1 : cdf 1 a b = Fin 1 /\ sf 1 a b = Fin 0.
Proof. unfold cdf, sf. rewrite !val_pass by auto. vif. rewrite low_eval, up_eval by (auto; lra). rewrite If_1. split; f_equal; ring. Qed.
Definition iq (g : R -> R) (v : val) := match v with Fin p => Fin (g p) | v => v end.
Lemma CERT : cert (fun x => pdf x a b) (fun x => logpdf x a b) (fun x => cdf x a b) (fun x => sf x a b)
  (iq Q) (iq (fun p => Q (1 - p))) 0 1 F f Q.
Proof.
  destruct (bST a b HA HB) as [S1 S2 S3]. constructor; auto.
  - constructor.
    + intros x [H1 H2]. simpl in *. apply cdf_fin; lra.
    + intros x [H| ->]; [|apply at0]. simpl in H. start. veval. auto.
    + intros x [H|<-]; [|apply at1]. simpl in H. start. veval. auto.
    + start. veval. auto.
    + start. veval. auto.
  - intros x [H1 H2]. simpl in *. apply pdf_fin; lra.
  - intros x [H|H]; simpl in H; start; veval; auto.
Qed.
(** C34, C65: the logarithm also at the ends. *)
Lemma pdf_0 : pdf 0 a b = if Rltb a 1 then PInf else if Reqb a 1 then Fin (/ B) else Fin 0.
Proof.
  pose proof (bB a b HA HB) as BP. start. rewrite (vbet a b HA HB).
  destruct (Rtotal_order a 1) as [L|[L|L]].
  - rewrite Rltb_true by auto. veval. reflexivity.
  - rewrite Rltb_false, Reqb_true by lra. veval. f_equal. replace (a - 1) with 0 by lra. unfold Rpower. replace (1 - 0) with 1 by ring. rewrite ln_1, Rmult_0_r, exp_0. field. lra.
  - rewrite Rltb_false, Reqb_false by lra. assert (0 < a - 1) by lra. veval. f_equal. field. lra.
Qed.
Lemma pdf_1 : pdf 1 a b = if Rltb b 1 then PInf else if Reqb b 1 then Fin (/ B) else Fin 0.
Proof.
  pose proof (bB a b HA HB) as BP. start. rewrite (vbet a b HA HB).
  destruct (Rtotal_order b 1) as [L|[L|L]].
  - rewrite Rltb_true by auto. veval. reflexivity.
  - rewrite Rltb_false, Reqb_true by lra. change (Fin 1 - Fin 1)%V with (Fin (1 - 1)). replace (1 - 1) with 0 by ring. change (Fin b - Fin 1)%V with (Fin (b - 1)). replace (b - 1) with 0 by lra. veval. f_equal. rewrite Rpower_1_l. field. lra.
  - rewrite Rltb_false, Reqb_false by lra. assert (0 < b - 1) by lra. change (Fin 1 - Fin 1)%V with (Fin (1 - 1)). replace (1 - 1) with 0 by ring. veval. f_equal. field. lra.
Qed.
Lemma logpdf_0 : logpdf 0 a b = if Rltb a 1 then PInf else if Reqb a 1 then Fin (- ln B) else NInf.
Proof.
  start. rewrite lgb. replace (- Fin 0)%V with (Fin 0) by (cbn; f_equal; ring). change (Fin b - Fin 1)%V with (Fin (b - 1)). change (Fin a - Fin 1)%V with (Fin (a - 1)).
  assert (E : (IF cor (visnan (Fin (b - 1))) (visnan (Fin 0)) THEN NaN ELSE IF (Fin (b - 1) =? 0)%V THEN Fin 0 ELSE (Fin (b - 1) * vlog1p 0)%V) = Fin 0).
  { destruct (Req_dec b 1) as [E'|E']; [|assert (b - 1 <> 0) by lra]; veval; auto. f_equal. replace (1 + 0) with 1 by ring. rewrite ln_1. ring. }
  rewrite E. destruct (Rtotal_order a 1) as [L|[L|L]].
  - rewrite Rltb_true by auto. assert (a - 1 < 0) by lra. veval. reflexivity.
  - rewrite Rltb_false, Reqb_true by lra. replace (a - 1) with 0 by lra. veval. f_equal. ring.
  - rewrite Rltb_false, Reqb_false by lra. assert (0 < a - 1) by lra. veval. reflexivity.
Qed.
Lemma logpdf_1 : logpdf 1 a b = if Rltb b 1 then PInf else if Reqb b 1 then Fin (- ln B) else NInf.
Proof.
  start. rewrite lgb. change (- Fin 1)%V with (Fin (-1)). change (Fin b - Fin 1)%V with (Fin (b - 1)). change (Fin a - Fin 1)%V with (Fin (a - 1)).
  assert (E : (IF cor (visnan (Fin (a - 1))) (visnan (Fin 1)) THEN NaN ELSE IF (Fin (a - 1) =? 0)%V THEN Fin 0 ELSE (Fin (a - 1) * vlog 1)%V) = Fin 0).
  { destruct (Req_dec a 1) as [E'|E']; [|assert (a - 1 <> 0) by lra]; veval; auto. f_equal. rewrite ln_1. ring. }
  rewrite E. destruct (Rtotal_order b 1) as [L|[L|L]].
  - rewrite Rltb_true by auto. assert (b - 1 < 0) by lra. veval. reflexivity.
  - rewrite Rltb_false, Reqb_true by lra. replace (b - 1) with 0 by lra. veval. f_equal. ring.
  - rewrite Rltb_false, Reqb_false by lra. assert (0 < b - 1) by lra. veval. reflexivity.
Qed.
Lemma log_all : forall x : R, log_of (fun x => pdf x a b) (fun x => logpdf x a b) x.
Proof.
  pose proof (bB a b HA HB) as BP. assert (LB : - ln B = ln (/ B)) by (rewrite ln_Rinv; auto).
  intros x. destruct (Req_dec x 0) as [->|N0]; [|destruct (Req_dec x 1) as [->|N1]].
  - unfold log_of. rewrite pdf_0, logpdf_0. destruct (Rltb a 1); auto. destruct (Reqb a 1); auto. left. exists (/ B). rewrite LB. split; auto. apply Rinv_0_lt_compat; auto.
  - unfold log_of. rewrite pdf_1, logpdf_1. destruct (Rltb b 1); auto. destruct (Reqb b 1); auto. left. exists (/ B). rewrite LB. split; auto. apply Rinv_0_lt_compat; auto.
  - apply (cert_log CERT); congruence.
Qed.
(** C39 *)
Lemma pdf_out x : x < 0 \/ 1 < x -> pdf x a b = Fin 0.
Proof. intros [H|H]; start; veval; reflexivity. Qed.
Lemma f_le_end0 x : a = 1 -> 1 <= b -> 0 < x < 1 -> f x <= / B.
Proof.
  intros A1 B1 X. pose proof (bB a b HA HB) as BP. unfold bf, beta_kernel. rewrite A1 at 1. replace (1 - 1) with 0 by ring. rewrite Rpower_O by lra.
  assert (Rpower (1 - x) (b - 1) <= 1) by (apply pow_le_1; lra).
  rewrite <- (Rmult_1_l (/ B)). unfold Rdiv. apply Rmult_le_compat_r; [left; apply Rinv_0_lt_compat; auto|lra].
Qed.
Lemma f_le_end1 x : b = 1 -> 1 <= a -> 0 < x < 1 -> f x <= / B.
Proof.
  intros A1 B1 X. pose proof (bB a b HA HB) as BP. unfold bf, beta_kernel. rewrite A1 at 1. replace (1 - 1) with 0 by ring. rewrite (Rpower_O (1 - x)) by lra.
  assert (Rpower x (a - 1) <= 1) by (apply pow_le_1; lra).
  rewrite <- (Rmult_1_l (/ B)). unfold Rdiv. apply Rmult_le_compat_r; [left; apply Rinv_0_lt_compat; auto|lra].
Qed.
Lemma mode_ok : is_mode_ext (fun x => pdf x a b) (mode a b).
Proof.
  pose proof (bB a b HA HB) as BP. assert (IB : 0 < / B) by (apply Rinv_0_lt_compat; auto).
  assert (NN : forall x : R, exists v, pdf x a b = v /\ (v = PInf \/ exists r, v = Fin r)).
  { intros x. eexists; split; [reflexivity|]. destruct (Rlt_le_dec x 0); [right; eexists; apply pdf_out; auto|]. destruct (Rlt_le_dec 1 x); [right; eexists; apply pdf_out; auto|].
    destruct (Req_dec x 0) as [->|]; [rewrite pdf_0; destruct (Rltb a 1), (Reqb a 1); eauto|]. destruct (Req_dec x 1) as [->|]; [rewrite pdf_1; destruct (Rltb b 1), (Reqb b 1); eauto|].
    right. eexists. apply pdf_fin. lra. }
  assert (TOP : forall x : R, ext_le (pdf x a b) PInf) by (intros x; destruct (NN x) as [v [-> [->|[r ->]]]]; constructor; constructor).
  destruct (Rlt_le_dec a 1) as [A1|A1].
  { exists 0. split; [start; veval; reflexivity|]. rewrite pdf_0, (Rltb_true a 1) by auto. auto. }
  destruct (Rlt_le_dec b 1) as [B1|B1].
  { exists 1. split; [start; destruct (Req_dec a 1); veval; reflexivity|]. rewrite pdf_1, (Rltb_true b 1) by auto. auto. }
  destruct (Req_dec a 1) as [A2|A2].
  { exists 0. split; [start; veval; reflexivity|]. assert (P0 : pdf 0 a b = Fin (/ B)) by (rewrite pdf_0, (Rltb_false a 1), Reqb_true by lra; auto). rewrite P0. intros x.
    destruct (Rlt_le_dec x 0); [rewrite pdf_out by auto; constructor; lra|]. destruct (Rlt_le_dec 1 x); [rewrite pdf_out by auto; constructor; lra|].
    destruct (Req_dec x 0) as [->|]; [rewrite P0; constructor; lra|]. destruct (Req_dec x 1) as [->|]; [rewrite pdf_1, (Rltb_false b 1) by lra; destruct (Reqb b 1); constructor; lra|].
    rewrite (proj1 (pdf_fin x ltac:(lra))). constructor. apply f_le_end0; lra. }
  destruct (Req_dec b 1) as [B2|B2].
  { exists 1. split; [start; veval; reflexivity|]. assert (P1 : pdf 1 a b = Fin (/ B)) by (rewrite pdf_1, (Rltb_false b 1), Reqb_true by lra; auto). rewrite P1. intros x.
    destruct (Rlt_le_dec x 0); [rewrite pdf_out by auto; constructor; lra|]. destruct (Rlt_le_dec 1 x); [rewrite pdf_out by auto; constructor; lra|].
    destruct (Req_dec x 1) as [->|]; [rewrite P1; constructor; lra|]. destruct (Req_dec x 0) as [->|]; [rewrite pdf_0, (Rltb_false a 1) by lra; destruct (Reqb a 1); constructor; lra|].
    rewrite (proj1 (pdf_fin x ltac:(lra))). constructor. apply f_le_end1; lra. }
  set (m := (a - 1) / (a + b - 2)). assert (M : 0 < m < 1). { unfold m. split; [apply Rdiv_pos; lra|apply div_lt_1; lra]. }
  exists m. split; [start; veval; reflexivity|]. rewrite (proj1 (pdf_fin m M)). pose proof (bf_pos a b HA HB m). intros x.
  destruct (Rlt_le_dec x 0); [rewrite pdf_out by auto; constructor; lra|]. destruct (Rlt_le_dec 1 x); [rewrite pdf_out by auto; constructor; lra|].
  destruct (Req_dec x 1) as [->|]; [rewrite pdf_1, Rltb_false, Reqb_false by lra; constructor; lra|]. destruct (Req_dec x 0) as [->|]; [rewrite pdf_0, Rltb_false, Reqb_false by lra; constructor; lra|].
  rewrite (proj1 (pdf_fin x ltac:(lra))). constructor. apply bf_le; try lra. right. unfold m. replace ((a - 1) * (1 - (a - 1) / (a + b - 2)) - (b - 1) * ((a - 1) / (a + b - 2))) with 0 by (field; lra). ring.
Qed.
(** C35, C36 *)
Lemma cq p : 0 < p < 1 -> inside 0 1 (Q p) /\ Gv (fun x => cdf x a b) (Q p) = p. Proof. apply (cdf_q CERT). Qed.
Lemma cdf_Ifull (x : R) : 0 <= x <= 1 -> Gv (fun x => cdf x a b) x = Ifull a b x /\ Gv (fun x => sf x a b) x = 1 - Ifull a b x.
Proof. intros H. unfold Gv, cdf, sf. rewrite !val_pass by auto. vif. rewrite low_eval, up_eval by (auto; lra). auto. Qed.
Lemma invcdf_ok : solves_bisect (fun x => cdf x a b) (fun fuel prec p => invcdf fuel prec p a b).
Proof.
  intros prec p PR P. destruct (bis_ok (fun x => cdf x a b) (betainc_func (Fin a) (Fin b) (Fin p) false) (Gv (fun x => cdf x a b)) true Q) with (p := p) (prec := prec) as (r & N & R1 & R2 & R3); auto.
  - intros x. apply (cv CERT).
  - apply (cdf_mono CERT).
  - apply (cdf_q CERT).
  - apply (cdf_inj CERT).
  - rewrite (proj1 (cdf_Ifull 0 ltac:(lra))). apply If_0.
  - rewrite (proj1 (cdf_Ifull 1 ltac:(lra))). apply If_1.
  - intros x X. unfold betainc_func. rewrite low_eval by auto. rewrite (proj1 (cdf_Ifull x X)). reflexivity.
  - exists (Q p), r, N. destruct (cdf_q CERT p P) as [[Q0 Q1] QE]. simpl in Q0, Q1. split; [lra|]. split; [rewrite (proj1 (cv CERT (Q p))); f_equal; auto|]. split; [intros x X; apply (cdf_inj CERT); auto; unfold Gv; rewrite X; auto|]. split; auto. split; auto.
    intros fuel FL. specialize (R3 fuel FL). unfold invcdf. rewrite val_pass by auto. unfold validate_p. vif.
    destruct (find_bracket fuel (fun x => cdf x a b) p 0 1 None) as [[x0 x1]|e]; auto. rewrite inv_simple by auto. exact R3.
Qed.
Lemma sfx x : Gv (fun x => sf x a b) x = 1 - Gv (fun x => cdf x a b) x /\ 0 <= Gv (fun x => sf x a b) x <= 1.
Proof. destruct (cv CERT x) as (_ & _ & E & H). split; [exact E|]. revert E H. generalize (Gv (fun x => sf x a b) x), (Gv (fun x => cdf x a b) x). intros; lra. Qed.
Lemma invsf_ok : solves_bisect (fun x => sf x a b) (fun fuel prec p => invsf fuel prec p a b).
Proof.
  intros prec p PR P. destruct (bis_ok (fun x => sf x a b) (betainc_func (Fin a) (Fin b) (Fin p) true) (Gv (fun x => sf x a b)) false (fun p => Q (1 - p))) with (p := p) (prec := prec) as (r & N & R1 & R2 & R3); auto.
  - intros x. first [apply (cv CERT) | apply sfx].
  - intros x y L. rewrite (proj1 (sfx x)), (proj1 (sfx y)). pose proof (cdf_mono CERT x y L) as M. revert M. change (fun x : val => cdf x a b) with (fun x => cdf x (Fin a) (Fin b)). lra.
  - apply (sf_q CERT).
  - intros q x. apply (sf_inj CERT).
  - rewrite (proj2 (cdf_Ifull 0 ltac:(lra))), If_0. ring.
  - rewrite (proj2 (cdf_Ifull 1 ltac:(lra))), If_1. ring.
  - intros x X. unfold betainc_func. rewrite up_eval by auto. rewrite (proj2 (cdf_Ifull x X)). reflexivity.
  - exists (Q (1 - p)), r, N. destruct (sf_q CERT p P) as [[Q0 Q1] QE]. simpl in Q0, Q1. split; [lra|]. split; [rewrite (proj1 (proj2 (cv CERT (Q (1 - p))))); f_equal; auto|]. split; [intros x X; apply (sf_inj CERT); auto; unfold Gv; rewrite X; auto|]. split; auto. split; auto.
    intros fuel FL. specialize (R3 fuel FL). unfold invsf. rewrite val_pass by auto. unfold validate_p. vif.
    destruct (find_bracket fuel (fun x => sf x a b) p 0 1 None) as [[x0 x1]|e]; auto. rewrite inv_simple by auto. exact R3.
Qed.
(** C37 *)
Lemma fb_0 fuel g v : g (Fin 0) = v -> (v = Fin 0 \/ v = Fin 1) -> find_bracket fuel g v (Fin 0) (Fin 1) None = Ok (Fin 0, Fin 0).
Proof. intros E H. unfold find_bracket. rewrite E. destruct H as [->| ->]; cbn [bindv]; vif; reflexivity. Qed.
Lemma fb_1 fuel g u v : g (Fin 0) = Fin u -> g (Fin 1) = Fin v -> u <> v -> find_bracket fuel g (Fin v) (Fin 0) (Fin 1) None = Ok (Fin 1, Fin 1).
Proof. intros E E' H. unfold find_bracket. rewrite E, E'. cbn [bindv]. vif. reflexivity. Qed.
Lemma ends fuel prec : rejects_bad_p (fun p => invcdf fuel prec p a b) /\ rejects_bad_p (fun p => invsf fuel prec p a b) /\
  at_ends (fun p => invcdf fuel prec p a b) (Fin 0) (Fin 1) /\ at_ends (fun p => invsf fuel prec p a b) (Fin 1) (Fin 0).
Proof.
  destruct at0 as [C0 S0], at1 as [C1 S1]. unfold invcdf, invsf. split; [|split; [|split]].
  - split; [intros p H|split]; rewrite val_pass by auto; [apply vpp_bad; auto|apply vpp_pinf|apply vpp_ninf].
  - split; [intros p H|split]; rewrite val_pass by auto; [apply vpp_bad; auto|apply vpp_pinf|apply vpp_ninf].
  - split; rewrite val_pass by auto; unfold validate_p; vif.
    + rewrite (fb_0 fuel (fun x => cdf x a b)) by auto. vif. reflexivity.
    + rewrite (fb_1 fuel (fun x => cdf x a b) 0) by (auto; lra). vif. reflexivity.
  - split; rewrite val_pass by auto; unfold validate_p; vif.
    + rewrite (fb_1 fuel (fun x => sf x a b) 1) by (auto; lra). vif. reflexivity.
    + rewrite (fb_0 fuel (fun x => sf x a b)) by auto. vif. reflexivity.
Qed.
(** C43 *)
Definition Mn (n : nat) := bM a b (INR n) 0.
Lemma pdf_in x : inside 0 1 x -> pdf (Fin x) a b = Fin (f x).
Proof. intros [H1 H2]. simpl in *. apply pdf_fin; lra. Qed.
Lemma mom_int n : integrates_to (fun z => z ^ n * f z) 0 1 (Mn n). Proof. apply b_momentn; auto. Qed.
Lemma Mn0 : Mn 0 = 1. Proof. unfold Mn. simpl INR. apply bM_0; auto. Qed.
Lemma Mn1 : Mn 1 = a / (a + b). Proof. unfold Mn. simpl INR. apply bM1; auto. Qed.
Lemma Mn2 : Mn 2 = a / (a + b) * ((a + 1) / (a + b + 1)). Proof. unfold Mn. simpl INR. replace (1 + 1) with 2 by ring. apply bM2; auto. Qed.
Lemma Mn3 : Mn 3 = a / (a + b) * ((a + 1) / (a + b + 1)) * ((a + 2) / (a + b + 2)). Proof. unfold Mn. simpl INR. replace (1 + 1 + 1) with 3 by ring. apply bM3; auto. Qed.
Lemma Mn4 : Mn 4 = a / (a + b) * ((a + 1) / (a + b + 1)) * ((a + 2) / (a + b + 2)) * ((a + 3) / (a + b + 3)). Proof. unfold Mn. simpl INR. replace (1 + 1 + 1 + 1) with 4 by ring. apply bM4; auto. Qed.
Notation RAW lem N := (lem 0 1 (fun x => pdf x a b) f Mn N%nat lt01 pdf_in (fun n _ => mom_int n)).
Lemma mvar_eq : mvar Mn = a * b / ((a + b) ^ 2 * (a + b + 1)). Proof. unfold mvar. rewrite Mn1, Mn2. field. lra. Qed.
Lemma mean_ok : mean_is (fun x => pdf x a b) 0 1 (mean a b).
Proof. apply (RAW raw_mean_is 1); auto. start. veval. f_equal. rewrite Mn1. reflexivity. Qed.
Lemma var_ok : var_is (fun x => pdf x a b) 0 1 (mean a b) (var a b).
Proof.
  assert (0 < a + b) by lra. assert (0 < (a + b) ^ 2) by (apply pow_lt; lra). assert (0 < (a + b) ^ 2 * (a + b + 1)) by (apply Rmult_lt_0_compat; lra).
  apply (RAW raw_var_is 2); auto; start; veval; f_equal; rewrite ?Mn1, ?mvar_eq, ?Mn0; auto.
Qed.
Lemma mvar_p : 0 < mvar Mn. Proof. rewrite mvar_eq. apply Rdiv_pos; [nra|]. apply Rmult_lt_0_compat; [apply pow_lt; lra|lra]. Qed.
Lemma skew_ok : skewness_is (fun x => pdf x a b) 0 1 (skewness a b).
Proof.
  assert (AB : 0 < a * b) by nra. assert (S1 : 0 < sqrt (a * b)) by (apply sqrt_lt_R0; auto). assert (S2 : 0 < sqrt (a + b + 1)) by (apply sqrt_lt_R0; lra).
  assert (0 < (a + b + 2) * sqrt (a * b)) by (apply Rmult_lt_0_compat; lra).
  apply (RAW raw_skewness_is 3); auto; [apply Mn0|apply mvar_p|]. start. veval. f_equal.
  assert (E : sqrt (mvar Mn) = sqrt (a * b) / ((a + b) * sqrt (a + b + 1))).
  { rewrite mvar_eq, sqrt_div_alt by (apply Rmult_lt_0_compat; [apply pow_lt; lra|lra]). f_equal. rewrite sqrt_mult by (try apply pow_le; lra). f_equal. apply sqrt_pow2. lra. }
  rewrite E, mvar_eq. unfold mcen3. rewrite Mn1, Mn2, Mn3.
  assert (Q1 : sqrt (a + b + 1) * sqrt (a + b + 1) = a + b + 1) by (apply sqrt_sqrt; lra).
  apply (Rmult_eq_reg_r (sqrt (a + b + 1))); [|lra]. replace (2 * (b - a) * sqrt (a + b + 1) / ((a + b + 2) * sqrt (a * b)) * sqrt (a + b + 1)) with (2 * (b - a) * (sqrt (a + b + 1) * sqrt (a + b + 1)) / ((a + b + 2) * sqrt (a * b))) by (field; lra).
  match goal with |- _ = ?N / (?V * ?Z) * ?W => replace (N / (V * Z) * W) with (N / V * (a + b) * (sqrt (a + b + 1) * sqrt (a + b + 1)) / sqrt (a * b)) end.
  - rewrite Q1. field. repeat split; lra.
  - field. repeat split; lra.
Qed.
Lemma kurt_ok : kurtosis_is (fun x => pdf x a b) 0 1 (kurtosis a b).
Proof.
  assert (AB : 0 < a * b) by nra. assert (0 < a * b * (a + b + 2)) by (apply Rmult_lt_0_compat; lra). assert (0 < a * b * (a + b + 2) * (a + b + 3)) by (apply Rmult_lt_0_compat; lra).
  apply (RAW raw_kurtosis_is 4); auto; [apply Mn0|apply mvar_p|]. start. veval. f_equal. rewrite mvar_eq. unfold mcen4. rewrite Mn1, Mn2, Mn3, Mn4. field. repeat split; lra.
Qed.
Lemma moment_ok n : moment_is (fun x => pdf x a b) 0 1 n (noncentral_moment n a b).
Proof.
  apply (RAW raw_moment_is n); auto. unfold noncentral_moment. rewrite val_pass by auto.
  induction n; [simpl; f_equal; symmetry; apply Mn0|]. rewrite seq_S, fold_left_app, IHn. cbn [fold_left]. rewrite Nat.add_0_l. pose proof (pos_INR n). veval. f_equal.
  unfold Mn. rewrite S_INR, bM_succ by lra. rewrite Rplus_0_r. ring.
Qed.
Lemma entropy_ok : entropy_is (fun x => pdf x a b) 0 1 (entropy a b).
Proof.
  eexists. split.
  - unfold entropy. rewrite val_pass, lgb by auto. change (Fin a + Fin b)%V with (Fin (a + b)). rewrite (vdig a HA), (vdig b HB), (vdig (a + b)) by lra. reflexivity.
  - apply (integrates_ext 0 1 lt01 (fun z => - (f z * ln (f z)))); [intros x X; rewrite (pdf_in x X); reflexivity|]. apply b_entropy; auto.
Qed.
(** C49 *)
Lemma nll_ok xs : (forall x, In x xs -> 0 < x < 1) -> nll (map Fin xs) a b = vneg (loglik (fun x => logpdf x a b) xs).
Proof.
  intros H. unfold nll. rewrite vxb_pass by (intros x I; pose proof (H x I); simpl; auto). rewrite val_pass by auto.
  unfold loglik. rewrite map_map. reflexivity.
Qed.
Lemma nll_bad xs : (exists x, In x xs /\ (x <= 0 \/ 1 <= x)) -> nll (map Fin xs) a b = Exc ValueError.
Proof.
  intros [x [I H]]. unfold nll. rewrite val_pass by auto.
  destruct (classic_low xs) as [L|L]; [rewrite vxb_low; auto|]. rewrite vxb_high; auto. exists x. split; auto. destruct H as [H|H]; auto. pose proof (L x I). lra.
Qed.
End P.
(** C46 *)
Lemma improper_beta a b (x y : R) : 0 < a -> 0 < b -> 0 < x < y -> y < 1 -> improper (beta_kernel a b) x y = lower_beta a b y - lower_beta a b x.
Proof.
  intros A B [X Y] Y1. pose proof (Bi a b A B) as GI. apply improper_eq; [exact Y|].
  assert (IN : forall z, inside x y z -> inside 0 1 z) by (intros z [Z Z1]; simpl in *; split; simpl; lra).
  apply (mk_integral (beta_kernel a b) (lower_beta a b)).
  - exact Y.
  - intros z Z. apply (if_der _ _ _ _ _ GI). auto.
  - intros z Z. apply (if_cont _ _ _ _ _ GI). auto.
  - simpl. apply flim_right. apply ex_derive_cont. exists (beta_kernel a b x). apply (if_der _ _ _ _ _ GI). split; simpl; lra.
  - simpl. apply flim_left. apply ex_derive_cont. exists (beta_kernel a b y). apply (if_der _ _ _ _ _ GI). split; simpl; lra.
Qed.
Lemma interval_ok (a b x y : R) : 0 < a -> 0 < b -> 0 <= x <= y -> y <= 1 -> exists c d, cdf x a b = Fin c /\ cdf y a b = Fin d /\ interval_prob x y a b = Fin (d - c).
Proof.
  intros A B [X Y] Y1. pose proof (Beta_pos a b A B) as BP. unfold cdf, interval_prob. rewrite !val_pass by auto. vif. rewrite !low_eval by (auto; lra).
  eexists _, _. split; [reflexivity|]. split; [reflexivity|]. unfold vbetainc2.
  destruct (Reqb_spec x y) as [[E ->]|[E ->]]; [subst; f_equal; ring|]. rewrite !Rleb_true by lra. f_equal.
  destruct X as [X|<-]; destruct Y1 as [Y1| ->].
  - unfold Ifull. rewrite !(Reqb_false _ 0), !(Reqb_false _ 1) by lra. unfold Ireg. rewrite improper_beta by lra. field. lra.
  - rewrite If_1. unfold Ifull. rewrite !(Reqb_false _ 0), !(Reqb_false _ 1) by lra. unfold Ireg. change (improper (beta_kernel a b) x 1) with (upper_beta a b x). rewrite upper_beta_eq by lra. field. lra.
  - rewrite If_0. unfold Ifull. rewrite !(Reqb_false _ 0), !(Reqb_false _ 1) by lra. unfold Ireg. change (improper (beta_kernel a b) 0 y) with (lower_beta a b y). field. lra.
  - rewrite If_0, If_1. pose proof (Bi a b A B) as GI. assert (E1 : improper (beta_kernel a b) 0 1 = Beta a b).
    { apply improper_eq; [apply lt01|]. apply (if_integral GI). }
    rewrite E1. field. lra.
Qed.
Lemma interval_wide : interval_prob (Fin (-1)) (Fin 2) (Fin 1) (Fin 1) = Fin 3 /\ cdf (Fin (-1)) (Fin 1) (Fin 1) = Fin 0 /\ cdf (Fin 2) (Fin 1) (Fin 1) = Fin 1.
Proof.
  split; [|split].
  - unfold interval_prob. rewrite val_pass by lra. vif. unfold vbetainc2. rewrite (Reqb_false (-1)), (Rleb_false 0), !Reqb_true by lra. f_equal. ring.
  - unfold cdf. rewrite val_pass by lra. vif. reflexivity.
  - unfold cdf. rewrite val_pass by lra. vif. reflexivity.
Qed.
Lemma interval_order (a b x y : R) : 0 < a -> 0 < b -> y < x -> interval_prob x y a b = Exc ValueError.
Proof. intros. unfold interval_prob. rewrite val_pass by auto. vif. reflexivity. Qed.
(** C45: reflection *)
Lemma reflect (a b x : R) : 0 < a -> 0 < b -> cdf (Fin (1 - x)) b a = sf x a b /\ (0 < x < 1 -> pdf (Fin (1 - x)) b a = pdf x a b).
Proof.
  intros A B. split.
  - destruct (Rlt_dec x 0) as [L|L]; [unfold cdf, sf; rewrite !val_pass by auto; vif; reflexivity|].
    destruct (Rlt_dec 1 x) as [L'|L']; [unfold cdf, sf; rewrite !val_pass by auto; vif; reflexivity|].
    unfold cdf, sf. rewrite !val_pass by auto. vif. rewrite low_eval, up_eval by (auto; lra). f_equal.
    destruct (Req_dec x 0) as [->|N0]; [replace (1 - 0) with 1 by ring; rewrite If_0, If_1; ring|].
    destruct (Req_dec x 1) as [->|N1]; [replace (1 - 1) with 0 by ring; rewrite If_0, If_1; ring|].
    unfold Ifull. rewrite !(Reqb_false _ 0), !(Reqb_false _ 1) by lra. unfold Ireg.
    assert (BS : Beta b a = Beta a b) by (unfold Beta; rewrite (Rplus_comm b a); field; pose proof (Gamma_pos (a + b)); lra).
    rewrite BS. pose proof (Beta_pos a b A B) as BP.
    enough (E : lower_beta b a (1 - x) = Beta a b - lower_beta a b x) by (rewrite E; field; lra).
    rewrite <- (upper_beta_eq a b x) by lra. unfold lower_beta, upper_beta.
    pose proof (Bi b a B A) as GI. symmetry. apply improper_eq; [simpl; lra|].
    assert (IN : forall z, inside x 1 z -> inside 0 1 (1 - z)) by (intros z [Z Z1]; simpl in *; split; simpl; lra).
    assert (KE : forall z, beta_kernel a b z = beta_kernel b a (1 - z)) by (intros z; unfold beta_kernel; replace (1 - (1 - z)) with z by ring; apply Rmult_comm).
    replace (improper (beta_kernel b a) 0 (1 - x)) with (0 - - lower_beta b a (1 - x)) by (unfold lower_beta; ring).
    apply (mk_integral (beta_kernel a b) (fun z => - lower_beta b a (1 - z))); [simpl; lra| | | |].
    + intros z Z. rewrite KE. pose proof (if_der _ _ _ _ _ GI (1 - z) (IN z Z)) as D.
      apply (is_derive_ext_loc (fun z => - lower_beta b a (1 - z))); [apply filter_forall; reflexivity|].
      replace (beta_kernel b a (1 - z)) with (- (-1 * beta_kernel b a (1 - z))) by ring. apply (is_derive_opp (fun z => lower_beta b a (1 - z))).
      apply (is_derive_comp (lower_beta b a) (fun z => 1 - z) z _ (-1) D). auto_derive; auto; ring.
    + intros z Z. apply (continuous_ext (fun z => beta_kernel b a (1 - z))); [intros; symmetry; apply KE|].
      apply (continuous_comp (fun z => 1 - z) (beta_kernel b a)); [apply ex_derive_cont; auto_derive; auto|apply (if_cont _ _ _ _ _ GI); auto].
    + simpl. apply (flim_right (fun z => - lower_beta b a (1 - z)) x). apply (continuous_opp (fun z => lower_beta b a (1 - z))). apply (continuous_comp (fun z => 1 - z) (lower_beta b a)); [apply ex_derive_cont; auto_derive; auto|].
      apply ex_derive_cont. exists (beta_kernel b a (1 - x)). apply (if_der _ _ _ _ _ GI). split; simpl; lra.
    + simpl. replace 0 with (- 0) by ring. apply (filterlim_comp _ _ _ (fun z => lower_beta b a (1 - z)) Ropp _ (locally 0)); [|apply (filterlim_opp 0)].
      apply (filterlim_comp _ _ _ (fun z => 1 - z) (lower_beta b a) _ (at_right 0)); [|apply lb_lo; auto].
      intros P [e He]. exists e. intros z Z ZL. apply He; [|lra]. change (Rabs (z - 1) < e) in Z. change (Rabs (1 - z - 0) < e). rewrite <- Rabs_Ropp. replace (- (1 - z - 0)) with (z - 1) by ring. auto.
  - intros X. rewrite (proj1 (pdf_fin b a B A (1 - x) ltac:(lra))), (proj1 (pdf_fin a b A B x X)). f_equal. unfold bf, beta_kernel, Beta. replace (1 - (1 - x)) with x by ring. rewrite (Rplus_comm b a). rewrite (Rmult_comm (Gamma b)). f_equal. apply Rmult_comm.
Qed.
(** C48 *)
Lemma avg_pos xs : xs <> [] -> (forall x, In x xs -> 0 < x) -> 0 < average xs.
Proof. intros N H. unfold average. apply Rdiv_pos; [|apply length_pos; auto]. change (sum xs) with (rsum xs). rewrite <- (map_id_R xs). apply rsum_pos; auto. Qed.
Lemma sq_avg xs : xs <> [] -> sumsq_dev xs / INR (length xs) = rsum (map (fun x => x ^ 2) xs) / INR (length xs) - average xs ^ 2.
Proof.
  intros N. pose proof (mean_sq xs N) as E. rewrite map_map in E. rewrite (mean_of _ (fun x => x^2)) in E by (auto; intros; apply vpown_Fin).
  injection E as E. change (fun x => x ^ 2) with (fun x => x * (x * 1)). change (average xs ^ 2) with (average xs * (average xs * 1)). lra.
Qed.
Lemma mom_ok xs : (forall x, In x xs -> 0 < x < 1) -> ~ constant xs -> exists a b, mom (map Fin xs) = Ok (Fin a, Fin b) /\ 0 < a /\ 0 < b /\
  reproduces (mean (Fin a) (Fin b)) (var (Fin a) (Fin b)) xs.
Proof.
  intros H C. pose proof (const_nil xs C) as N. pose proof (length_pos xs N) as LN. pose proof (dev_pos xs C) as D.
  assert (A : 0 < average xs) by (apply avg_pos; auto; intros x I; apply H; auto).
  pose proof (sq_avg xs N) as SQ. set (m := average xs) in *. set (v := sumsq_dev xs / INR (length xs)) in *.
  assert (U : v + m ^ 2 < m).
  { rewrite SQ. unfold m, average. change sum with rsum. unfold Rdiv. assert (rsum (map (fun x => x ^ 2) xs) < rsum xs).
    - assert (P : 0 < rsum (map (fun x => x - x ^ 2) xs)) by (apply rsum_pos; auto; intros x I; pose proof (H x I); nra). rewrite rsum_minus, map_id_R in P. lra.
    - pose proof (Rinv_0_lt_compat _ LN). nra. }
  assert (0 < m ^ 2) by (apply pow_lt; auto). set (c := (m - (v + m ^ 2)) / v). assert (CP : 0 < c) by (apply Rdiv_pos; lra). assert (M1 : 0 < 1 - m) by nra.
  assert (PA : 0 < m * c) by (apply Rmult_lt_0_compat; auto). assert (PB : 0 < (1 - m) * c) by (apply Rmult_lt_0_compat; auto).
  exists (m * c), ((1 - m) * c). split; [|split; [auto|split; [auto|]]].
  - unfold mom. rewrite vxb_pass by (intros x I; pose proof (H x I); simpl; lra). rewrite mean_avg0, mean_sq by auto. fold m v. cbn [bindv].
    replace (vsub (Fin (v + m ^ 2)) (vpown (Fin m) 2)) with (Fin v) by (unfold vpown; simpl; f_equal; ring).
    change (vsub (Fin m) (Fin (v + m ^ 2))) with (Fin (m - (v + m ^ 2))). rewrite vdiv_Fin by lra. fold c. reflexivity.
  - assert (SE : m * c + (1 - m) * c = c) by ring. unfold reproduces, mean, var. rewrite !val_pass by auto. cbv zeta. fold m v.
    change (vadd (Fin (m * c)) (Fin ((1 - m) * c))) with (Fin (m * c + (1 - m) * c)). rewrite SE. rewrite vdiv_Fin by lra. split; [f_equal; field; lra|].
    assert (0 < c ^ 2 * (c + 1)) by (apply Rmult_lt_0_compat; [apply pow_lt; auto|lra]).
    unfold vpown. simpl vmul. simpl vadd. rewrite vdiv_Fin by (simpl in *; lra). f_equal. 
    replace (m * c * ((1 - m) * c) / (c ^ 2 * (c + 1))) with (m * (1 - m) / (c + 1)) by (field; lra). unfold c. field. split; [lra|]. nra.
Qed.
(** C47 *)
Lemma lnB_tangent a b a' b' : 0 < a -> 0 < b -> 0 < a' -> 0 < b' ->
  ln (Beta a b) + (a' - a) * (digamma a - digamma (a + b)) + (b' - b) * (digamma b - digamma (a + b)) <= ln (Beta a' b').
Proof.
  intros A B A' B'. set (r := a' - a). set (s := b' - b). set (da := digamma a - digamma (a + b)). set (db := digamma b - digamma (a + b)). set (m := r * da + s * db).
  assert (HR : 0 < a + r) by (unfold r; lra). assert (HS : 0 < b + s) by (unfold s; lra).
  pose proof (b_moment a b A B r s HR HS) as I1.
  assert (I2 : integrates_to (fun z => exp m * (1 - m) * bf a b z + exp m * r * (ln z * bf a b z) + exp m * s * (ln (1 - z) * bf a b z)) 0 1
    (exp m * (1 - m) * 1 + exp m * r * da + exp m * s * db)).
  { apply (integrates_plus 0 1 (fun z => exp m * (1 - m) * bf a b z + exp m * r * (ln z * bf a b z))); [apply integrates_plus|]; apply integrates_scal; [apply b_mass|apply b_ln|apply b_ln1]; auto. }
  assert (LE : forall z, inside 0 1 z -> exp m * (1 - m) * bf a b z + exp m * r * (ln z * bf a b z) + exp m * s * (ln (1 - z) * bf a b z) <= Rpower z r * Rpower (1 - z) s * bf a b z).
  { intros z [Z1 Z2]. simpl in Z1, Z2. pose proof (bf_pos a b A B z) as FP. unfold Rpower. rewrite <- exp_plus. set (y := r * ln z + s * ln (1 - z)).
  replace (exp m * (1 - m) * bf a b z + exp m * r * (ln z * bf a b z) + exp m * s * (ln (1 - z) * bf a b z)) with (exp m * (1 + (y - m)) * bf a b z) by (unfold y; ring).
  apply Rmult_le_compat_r; [lra|]. replace y with (m + (y - m)) at 2 by ring. rewrite exp_plus. apply Rmult_le_compat_l; [left; apply exp_pos|]. apply exp_ineq1_le. }
  pose proof (integrates_le 0 1 _ _ _ _ lt01 LE I2 I1) as L.
  unfold bM in L. replace (a + r) with a' in L by (unfold r; ring). replace (b + s) with b' in L by (unfold s; ring).
  pose proof (Beta_pos a b A B) as BP. pose proof (Beta_pos a' b' A' B') as BP'.
  replace (exp m * (1 - m) * 1 + exp m * r * da + exp m * s * db) with (exp m) in L by (unfold m; ring).
  assert (m <= ln (Beta a' b' / Beta a b)) by (rewrite <- (ln_exp m); apply ln_le; [apply exp_pos|auto]). rewrite ln_div in H by auto. fold da db. unfold m in H. lra.
Qed.
Definition S1 xs := rsum (map ln xs).
Definition S2 xs := rsum (map (fun x => ln (1 - x)) xs).
Definition rnll xs a b := INR (length xs) * ln (Beta a b) - (a - 1) * S1 xs - (b - 1) * S2 xs.
Lemma logpdf_fin a b x : 0 < a -> 0 < b -> 0 < x < 1 -> logpdf (Fin x) a b = Fin ((a - 1) * ln x + (b - 1) * ln (1 - x) - ln (Beta a b)).
Proof.
  intros A B X. rewrite (proj2 (pdf_fin a b A B x X)). f_equal. apply ln_bf; auto.
Qed.
Lemma nll_fin xs a b : 0 < a -> 0 < b -> (forall x, In x xs -> 0 < x < 1) -> nll (map Fin xs) a b = Fin (rnll xs a b).
Proof.
  intros A B H. rewrite nll_ok by auto. rewrite (loglik_fin _ (fun x => (a - 1) * ln x + (b - 1) * ln (1 - x) - ln (Beta a b))) by (intros; apply logpdf_fin; auto).
  simpl. f_equal. unfold rnll, S1, S2. change sum with rsum. rewrite rsum_minus, rsum_plus, !rsum_scal, rsum_const. ring.
Qed.
Lemma opt xs a b a' b' : 0 < a -> 0 < b -> 0 < a' -> 0 < b' ->
  (a' = a \/ S1 xs - INR (length xs) * (digamma a - digamma (a + b)) = 0) -> (b' = b \/ S2 xs - INR (length xs) * (digamma b - digamma (a + b)) = 0) -> rnll xs a b <= rnll xs a' b'.
Proof.
  intros A B A' B' E1 E2. pose proof (lnB_tangent a b a' b' A B A' B') as T. pose proof (pos_INR (length xs)) as NP. apply (Rmult_le_compat_l _ _ _ NP) in T. unfold rnll.
  destruct E1 as [->|E1], E2 as [->|E2]; nra.
Qed.
Lemma s1_fin xs : (forall x, In x xs -> 0 < x < 1) -> vfsum (map vlog (map Fin xs)) = Fin (S1 xs).
Proof. intros H. rewrite map_map. apply vfsum_map. intros x I. apply vlog_Fin. apply H; auto. Qed.
Lemma s2_fin xs : (forall x, In x xs -> 0 < x < 1) -> vfsum (map (fun t => vlog1p (vneg t)) (map Fin xs)) = Fin (S2 xs).
Proof. intros H. rewrite map_map. apply vfsum_map. intros x I. pose proof (H x I). simpl vneg. unfold vlog1p. simpl vadd. rewrite vlog_Fin by lra. reflexivity. Qed.
Lemma s2_fin' xs : (forall x, In x xs -> 0 < x < 1) -> vfsum (map vlog (map (fun t => vsub (Fin 1) t) (map Fin xs))) = Fin (S2 xs).
Proof. intros H. rewrite !map_map. apply vfsum_map. intros x I. pose proof (H x I). simpl vsub. rewrite vlog_Fin by lra. reflexivity. Qed.
Lemma func_fin a b n s : 0 < a -> 0 < b -> mle_func (Fin a) (Fin b) (Fin n) (Fin s) = Fin (s - n * (digamma a - digamma (a + b))).
Proof.
  intros A B. unfold mle_func. change (vadd (Fin a) (Fin b)) with (Fin (a + b)). rewrite (vdig a A), (vdig (a + b)) by lra. simpl. f_equal. ring.
Qed.
Lemma bindv_fin {A} `{CanRaise A} v (k : val -> A) : bindv v k = (match v with Exc e => raise e | v => k v end). Proof. destruct v; reflexivity. Qed.
Lemma ok_bind (v : val) (a b c : val) : (bindv v (fun a => Ok (a, b))) = Ok (a, c) -> v = a /\ b = c.
Proof. destruct v; cbn [bindv]; intros E; try discriminate; injection E; auto. Qed.
Lemma ok_bind' (v : val) (a b c : val) : (bindv v (fun a => Ok (b, a))) = Ok (c, a) -> v = a /\ b = c.
Proof. destruct v; cbn [bindv]; intros E; try discriminate; injection E; auto. Qed.
Section Mle.
Variable xs : list R.
Hypothesis NE : xs <> [].
Hypothesis HX : forall x, In x xs -> 0 < x < 1.
Variables (fr1 : (val -> val) -> val -> val) (fr2 : (val -> val -> val * val) -> val * val -> res (val * val)) (a0 b0 : option val).
Lemma vx {A} `{CanRaise A} (k : A) : validate_x_bounds (map Fin xs) (Some (Fin 0)) (Some (Fin 1)) true true k = k.
Proof. apply vxb_pass. intros x I; pose proof (HX x I); simpl; auto. Qed.
Lemma mle_a a b : checked_solver1 fr1 -> 0 < a -> 0 < b -> mle fr1 fr2 a0 b0 (map Fin xs) None (Some (Fin b)) = Ok (Fin a, Fin b) ->
  minimises (fun a => 0 < a) (fun a => nll (map Fin xs) (Fin a) (Fin b)) a.
Proof.
  intros CS A B. unfold mle. rewrite vx, mean_avg0 by auto. cbn [bindv]. vif. intros E. apply ok_bind in E. destruct E as [E _].
  unfold mle_one in E. rewrite s1_fin in E by auto. cbn [bindv] in E. rewrite bindv_fin in E.
  assert (Z : S1 xs - INR (length xs) * (digamma a - digamma (a + b)) = 0).
  { assert (X : exists q, fr1 (fun a => mle_func a (Fin b) (vlen (map Fin xs)) (Fin (S1 xs))) q = Fin a) by (revert E; destruct (match a0 with Some p => p | None => _ end); intros E; try discriminate; eexists; exact E).
    destruct X as [q X]. apply CS in X. unfold vlen in X. rewrite map_length, func_fin in X by auto. injection X; auto. }
  split; auto. eexists. split; [apply nll_fin; auto|]. intros a' A'. eexists. split; [apply nll_fin; auto|]. apply opt; auto.
Qed.
Lemma mle_b a b : checked_solver1 fr1 -> 0 < a -> 0 < b -> mle fr1 fr2 a0 b0 (map Fin xs) (Some (Fin a)) None = Ok (Fin a, Fin b) ->
  minimises (fun b => 0 < b) (fun b => nll (map Fin xs) (Fin a) (Fin b)) b.
Proof.
  intros CS A B. unfold mle. rewrite vx, mean_avg0 by auto. cbn [bindv]. vif. intros E. apply ok_bind' in E. destruct E as [E _].
  unfold mle_one in E. rewrite s2_fin' in E by auto. cbn [bindv] in E. rewrite bindv_fin in E.
  assert (Z : S2 xs - INR (length xs) * (digamma b - digamma (a + b)) = 0).
  { assert (X : exists q, fr1 (fun b => mle_func b (Fin a) (vlen (map (fun t => vsub (Fin 1) t) (map Fin xs))) (Fin (S2 xs))) q = Fin b) by (revert E; destruct (match b0 with Some p => p | None => _ end); intros E; try discriminate; eexists; exact E).
    destruct X as [q X]. apply CS in X. unfold vlen in X. rewrite !map_length, func_fin in X by auto. injection X as X. rewrite (Rplus_comm a b). auto. }
  split; auto. eexists. split; [apply nll_fin; auto|]. intros b' B'. eexists. split; [apply nll_fin; auto|]. apply opt; auto.
Qed.
Lemma mle_both a b : checked_solver2 fr2 -> 0 < a -> 0 < b -> mle fr1 fr2 a0 b0 (map Fin xs) None None = Ok (Fin a, Fin b) ->
  minimises (fun '(a, b) => 0 < a /\ 0 < b) (fun '(a, b) => nll (map Fin xs) (Fin a) (Fin b)) (a, b).
Proof.
  intros CS A B. unfold mle. rewrite vx, mean_avg0 by auto. cbn [bindv]. vif. rewrite s1_fin, s2_fin by auto. cbn [bindv]. rewrite bindv_fin. intros E.
  assert (X : exists q, fr2 (fun a b => (mle_func a b (vlen (map Fin xs)) (Fin (S1 xs)), mle_func b a (vlen (map Fin xs)) (Fin (S2 xs)))) q = Ok (Fin a, Fin b)).
  { revert E. destruct (vsub _ _) as [?| | | |]; intros E; try discriminate; rewrite !bindv_fin in E; (destruct (match a0 with Some p => p | None => _ end); try discriminate; rewrite ?bindv_fin in E; destruct (match b0 with Some p => p | None => _ end); try discriminate; eexists; exact E). }
  destruct X as [q X]. apply CS in X. unfold vlen in X. rewrite map_length, !func_fin in X by auto. injection X as X1 X2. rewrite (Rplus_comm b a) in X2.
  split; auto. eexists. split; [apply nll_fin; auto|]. intros [a' b'] [A' B']. eexists. split; [apply nll_fin; auto|]. apply opt; auto.
Qed.
Lemma mle_given a b : 0 < a -> 0 < b -> mle fr1 fr2 a0 b0 (map Fin xs) (Some (Fin a)) (Some (Fin b)) = Ok (Fin a, Fin b).
Proof. intros. unfold mle. rewrite vx, mean_avg0 by auto. cbn [bindv]. vif. reflexivity. Qed.
End Mle.
Lemma mle_const fr1 fr2 x n : 0 < x < 1 -> mle fr1 fr2 None None (map Fin (repeat x (S n))) None None = Err ZeroDivisionError.
Proof.
  intros X. assert (H : forall y, In y (repeat x (S n)) -> 0 < y < 1) by (intros y I; apply repeat_spec in I; subst; auto).
  assert (NE : repeat x (S n) <> []) by discriminate.
  unfold mle. rewrite vx, mean_avg0 by auto. cbn [bindv]. vif. rewrite s1_fin, s2_fin by auto. cbn [bindv].
  assert (EV : M_basic.var (map Fin (repeat x (S n))) (Fin 0) = Fin 0).
  { pose proof (length_pos _ NE) as LN. unfold M_basic.var, vlen. rewrite map_length, vfsum_Fin. rewrite vdiv_Fin by lra. cbn [bindv]. rewrite map_map.
    assert (M : rsum (repeat x (S n)) / INR (length (repeat x (S n))) = x).
    { replace (rsum (repeat x (S n))) with (INR (length (repeat x (S n))) * x); [field; lra|]. rewrite repeat_length. clear. generalize (S n). intros k. induction k; [simpl; ring|]. rewrite S_INR. cbn [repeat]. rewrite rsum_cons. lra. }
    rewrite M. rewrite (vfsum_map _ (fun _ => 0)) by (intros y I; apply repeat_spec in I; subst; varith; f_equal; ring).
    change (vsub (Fin (INR (length (repeat x (S n))))) (Fin 0)) with (Fin (INR (length (repeat x (S n))) - 0)). rewrite vdiv_Fin by lra. f_equal. rewrite rsum_const. field. lra. }
  rewrite EV. unfold vsub at 2. simpl vneg. simpl vadd. unfold vdiv at 1. simpl vmul. rewrite Reqb_true by auto. reflexivity.
Qed.
Lemma reqb_eq x y : Reqb x y = true -> x = y.
Proof. destruct (Reqb_spec x y) as [[H ->]|[H ->]]; [auto|discriminate]. Qed.
Definition try1 (r : R) : (val -> val) -> val -> val := fun g _ => match g (Fin r) with Fin z => if Reqb z 0 then Fin r else NaN | _ => NaN end.
Lemma try1_ok r : checked_solver1 (try1 r).
Proof.
  intros g x0 q. unfold try1. destruct (g (Fin r)) as [z| | | |] eqn:E; try discriminate. destruct (Reqb z 0) eqn:Z; [|discriminate].
  intros H. injection H as <-. rewrite E. apply reqb_eq in Z. rewrite Z. auto.
Qed.
Definition try2 (a b : R) : (val -> val -> val * val) -> val * val -> res (val * val) :=
  fun g _ => match g (Fin a) (Fin b) with (Fin y, Fin z) => if Reqb y 0 then if Reqb z 0 then Ok (Fin a, Fin b) else Err ValueError else Err ValueError | _ => Err ValueError end.
Lemma try2_ok a b : checked_solver2 (try2 a b).
Proof.
  intros g x0 q r. unfold try2. destruct (g (Fin a) (Fin b)) as [[y| | | |] [z| | | |]] eqn:E; try discriminate.
  destruct (Reqb y 0) eqn:Y; [|discriminate]. destruct (Reqb z 0) eqn:Z; [|discriminate].
  intros H. injection H as <- <-. rewrite E. apply reqb_eq in Y, Z. rewrite Y, Z. auto.
Qed.
Definition edat := [exp (-1); exp (-1)].
Lemma edat_in x : In x edat -> 0 < x < 1.
Proof. intros I. assert (x = exp (-1)) as -> by (simpl in I; intuition). split; [apply exp_pos|]. rewrite <- exp_0. apply exp_increasing. lra. Qed.
Lemma case_a : exists fr, checked_solver1 fr /\ mle fr (fun _ _ => Err ValueError) None None (map Fin edat) None (Some (Fin 1)) = Ok (Fin 1, Fin 1).
Proof.
  assert (NE : edat <> []) by discriminate. exists (try1 1). split; [apply try1_ok|]. unfold mle. rewrite vx, mean_avg0 by (auto; apply edat_in). cbn [bindv]. vif.
  unfold mle_one. rewrite s1_fin by apply edat_in. cbn [bindv].
  assert (A : 0 < 1 - average edat) by (unfold average, edat; simpl; pose proof (edat_in (exp (-1)) (or_introl eq_refl)); lra).
  change (vsub (Fin 1) (Fin (average edat))) with (Fin (1 - average edat)). simpl vmul. rewrite vdiv_Fin by lra. cbn [bindv]. unfold try1, vlen. rewrite func_fin by lra.
  rewrite digamma_succ by lra. unfold S1, edat. cbn [map]. unfold rsum. simpl. rewrite ln_exp. rewrite Reqb_true by field. reflexivity.
Qed.
Lemma case_b : exists fr, checked_solver1 fr /\ mle fr (fun _ _ => Err ValueError) None None (map Fin (map (fun x => 1 - x) edat)) (Some (Fin 1)) None = Ok (Fin 1, Fin 1).
Proof.
  assert (HX : forall x, In x (map (fun x => 1 - x) edat) -> 0 < x < 1) by (intros x I; apply in_map_iff in I; destruct I as [y [<- I]]; pose proof (edat_in y I); lra).
  assert (NE : map (fun x => 1 - x) edat <> []) by discriminate. exists (try1 1). split; [apply try1_ok|]. unfold mle. rewrite vx, mean_avg0 by auto. cbn [bindv]. vif.
  unfold mle_one. rewrite s2_fin' by auto. cbn [bindv].
  assert (A : 1 - (1 - average (map (fun x => 1 - x) edat)) <> 0) by (unfold average, edat; simpl; pose proof (edat_in (exp (-1)) (or_introl eq_refl)); lra).
  simpl vsub. simpl vmul. rewrite vdiv_Fin by auto. cbn [bindv]. unfold try1, vlen. rewrite func_fin by lra.
  rewrite digamma_succ by lra. unfold S2, edat. cbn [map]. unfold rsum. simpl. replace (1 - (1 - exp (-1))) with (exp (-1)) by ring. rewrite ln_exp. rewrite Reqb_true by field. reflexivity.
Qed.
Lemma case_both : exists fr t, checked_solver2 fr /\ 0 < t < 1 /\ mle (fun _ _ => NaN) fr (Some (Fin 1)) (Some (Fin 1)) (map Fin [t; 1 - t]) None None = Ok (Fin 1, Fin 1).
Proof.
  (* t (1 - t) = exp (-2) *)
  assert (EX : exists t, 0 < t < 1 /\ t <> 1 / 2 /\ t * (1 - t) = exp (-2)).
  { assert (E4 : exp (-2) < / 4). { assert (2 < exp 1) by (pose proof (exp_ineq1 1); lra). replace (-2) with (- (2)) by ring. rewrite exp_Ropp. replace 2 with (1 + 1) by ring. rewrite exp_plus. apply Rinv_lt_contravar; nra. }
    pose proof (exp_pos (-2)) as E0. set (d := 1 - 4 * exp (-2)). assert (DP : 0 < d < 1) by (unfold d; lra). pose proof (sqrt_lt_R0 d (proj1 DP)) as S0. assert (S1 : sqrt d < 1) by (rewrite <- sqrt_1; apply sqrt_lt_1; lra).
    exists ((1 - sqrt d) / 2). split; [lra|]. split; [lra|]. pose proof (sqrt_sqrt d ltac:(lra)) as SS. unfold d in SS at 3. nra. }
  destruct EX as [t [T [TH TE]]]. exists (try2 1 1), t. split; [apply try2_ok|]. split; auto.
  assert (HX : forall x, In x [t; 1 - t] -> 0 < x < 1) by (intros x [<-|[<-|[]]]; lra). assert (NE : [t; 1 - t] <> []) by discriminate.
  assert (L : ln t + ln (1 - t) = -2) by (rewrite <- ln_mult by lra; rewrite TE; apply ln_exp).
  unfold mle. rewrite vx, mean_avg0 by auto. cbn [bindv]. vif. rewrite s1_fin, s2_fin by auto. cbn [bindv].
  assert (EV : exists v, v <> 0 /\ M_basic.var (map Fin [t; 1 - t]) (Fin 0) = Fin v).
  { exists ((t - 1 / 2) ^ 2). split; [apply pow_nonzero; lra|]. unfold M_basic.var, vlen. cbn [map vfsum length fold_right].
    assert (0 < INR 2) by (simpl; lra). varith. f_equal. simpl. field. }
  destruct EV as [v [V EV]]. rewrite EV. change (vsub (Fin 1) (Fin (average [t; 1 - t]))) with (Fin (1 - average [t; 1 - t])). simpl vmul. rewrite vdiv_Fin by auto. cbn [bindv vsub vneg vadd].
  unfold try2, vlen. rewrite !func_fin by lra. rewrite digamma_succ by lra. unfold S1, S2. simpl. rewrite !Reqb_true; [reflexivity| |].
  - replace (1 - (1 - t)) with t by ring. rewrite Rinv_1. lra.
  - rewrite Rinv_1. lra.
Qed.
Lemma bad_params fuel prec a b : isnum a -> isnum b -> nonpositive a \/ nonpositive b ->
  support a b = Err ValueError /\
  always_ValueError [ fun x => pdf x a b; fun x => logpdf x a b; fun x => cdf x a b; fun x => sf x a b;
    fun p => invcdf fuel prec p a b; fun p => invsf fuel prec p a b; fun x => interval_prob x x a b; fun _ => mean a b; fun _ => mode a b; fun _ => var a b;
    fun _ => skewness a b; fun _ => kurtosis a b; fun _ => entropy a b; fun _ => noncentral_moment 2 a b; fun x => nll [x] a b ].
Proof.
  intros H1 H2 H3. unfold support, pdf, logpdf, cdf, sf, invcdf, invsf, interval_prob, mean, mode, var, skewness, kurtosis, entropy, noncentral_moment, nll.
  split; [|all_ve; intros x Hx]; rewrite ?validate_bad by auto; reflexivity.
Qed.
Lemma c47_a fr1 fr2 a0 b0 xs a b : xs <> [] -> (forall x, In x xs -> 0 < x < 1) -> checked_solver1 fr1 -> 0 < a -> 0 < b -> mle fr1 fr2 a0 b0 (map Fin xs) None (Some (Fin b)) = Ok (Fin a, Fin b) ->
  minimises (fun a => 0 < a) (fun a => nll (map Fin xs) (Fin a) (Fin b)) a.
Proof. intros. eapply mle_a; eauto. Qed.
Lemma c47_b fr1 fr2 a0 b0 xs a b : xs <> [] -> (forall x, In x xs -> 0 < x < 1) -> checked_solver1 fr1 -> 0 < a -> 0 < b -> mle fr1 fr2 a0 b0 (map Fin xs) (Some (Fin a)) None = Ok (Fin a, Fin b) ->
  minimises (fun b => 0 < b) (fun b => nll (map Fin xs) (Fin a) (Fin b)) b.
Proof. intros. eapply mle_b; eauto. Qed.
Lemma c47_both fr1 fr2 a0 b0 xs a b : xs <> [] -> (forall x, In x xs -> 0 < x < 1) -> checked_solver2 fr2 -> 0 < a -> 0 < b -> mle fr1 fr2 a0 b0 (map Fin xs) None None = Ok (Fin a, Fin b) ->
  minimises (fun '(a, b) => 0 < a /\ 0 < b) (fun '(a, b) => nll (map Fin xs) (Fin a) (Fin b)) (a, b).
Proof. intros. eapply mle_both; eauto. Qed.
Lemma c47_given fr1 fr2 a0 b0 xs a b : xs <> [] -> (forall x, In x xs -> 0 < x < 1) -> 0 < a -> 0 < b -> mle fr1 fr2 a0 b0 (map Fin xs) (Some (Fin a)) (Some (Fin b)) = Ok (Fin a, Fin b).
Proof. intros. eapply mle_given; eauto. Qed.
