(** Proofs about M_truncnorm. *)
From Coq Require Import Reals Lra Lia List.
From Coquelicot Require Import Coquelicot.
From Verif Require Import Values VTac Spec RLib LimLib DistLib DistLS IntLib MomLib VarPos PLib M_common SpecStat LLib
  SFun GammaLib GammaLib2 GammaLib3 M_sfun P_sfun TruncLib.
From Verif Require M_normal P_normal.
From Verif Require Import M_truncnorm.
Import ListNotations.
Local Open Scope R_scope.
Set Bullet Behavior "Strict Subproofs".

Notation V := val_of_Rbar.
Notation xN := (xF ncdf).
Lemma NST : std m_infty p_infty ncdf nkernel P_normal.Q. Proof. exact P_normal.ST. Qed.
Lemma vncdf_V (a : Rbar) : vncdf (V a) (Fin 0) (Fin 1) = Fin (xN a).
Proof.
  destruct a as [a| |]; simpl V; unfold xF, xe.
  - rewrite vncdf_Fin by lra. do 2 f_equal. field.
  - apply vncdf_PInf; lra.
  - apply vncdf_NInf; lra.
Qed.
Lemma xN_opp (a : Rbar) : xN (Rbar_opp a) = 1 - xN a.
Proof. destruct a as [a| |]; simpl; [apply ncdf_opp| |]; lra. Qed.
Lemma V_opp (a : Rbar) : vneg (V a) = V (Rbar_opp a).
Proof. destruct a; auto. Qed.
Lemma vnpdf_V (a : Rbar) : vnpdf (V a) (Fin 0) (Fin 1) = Fin (xk 0 a).
Proof.
  pose proof PI_RGT_0. pose proof sqrt2PI_pos.
  destruct a as [a| |]; simpl V; unfold xk, xe.
  - rewrite vnpdf_Fin by lra. f_equal. replace ((a - 0) / 1) with a by field. simpl. field.
  - unfold vnpdf, vpi. assert (0 < 1 * sqrt (2 * PI)) by lra. assert (0 < 2 * 1 ^ 2) by (simpl; lra). veval. f_equal. field. lra.
  - unfold vnpdf, vpi. assert (0 < 1 * sqrt (2 * PI)) by lra. assert (0 < 2 * 1 ^ 2) by (simpl; lra). veval. f_equal. field. lra.
Qed.
Lemma validate_ok {A} `{CanRaise A} (a b : Rbar) (k : A) : Rbar_lt a b -> validate (V a) (V b) k = k.
Proof.
  intros L. unfold validate. assert (E : cge (V a) (V b) = CB false).
  { destruct a as [a| |], b as [b| |]; simpl in L; try tauto; try reflexivity. simpl V. change (CB (Rleb b a) = CB false). rewrite Rleb_false by lra. auto. }
  rewrite E. reflexivity.
Qed.
Lemma V_sep (a b : Rbar) : Rbar_lt a b -> ceq (V a) (V b) = CB false.
Proof.
  destruct a as [a| |], b as [b| |]; simpl V; intros L; simpl in L; try tauto; try reflexivity.
  change (ceq (Fin a) (Fin b)) with (CB (Reqb a b)). rewrite Reqb_false by lra. auto.
Qed.
Lemma delta_ok (a b : Rbar) : Rbar_lt a b -> norm_delta_cdf (V a) (V b) = Fin (xD ncdf a b).
Proof.
  intros L. unfold norm_delta_cdf. rewrite (V_sep a b L). rewrite !V_opp, !vncdf_V, !xN_opp. unfold xD. set (A := xN a) in *. set (B := xN b) in *.
  assert (EA : match a with m_infty => A = 0 | _ => True end) by (destruct a; auto).
  assert (EB : match b with p_infty => B = 1 | _ => True end) by (destruct b; auto).
  clearbody A B. destruct a as [a| |], b as [b| |]; simpl V; simpl in L; try tauto.
  - destruct (Rlt_le_dec 0 a); vif; cbn [vsub vneg vadd]; f_equal; lra.
  - vif. f_equal. lra.
  - vif. f_equal. lra.
  - vif. f_equal. lra.
Qed.
Lemma lt_V (x : R) (a : Rbar) : clt (Fin x) (V a) = CB (if Rbar_lt_dec x a then true else false).
Proof.
  destruct a as [a| |]; simpl V.
  - change (clt (Fin x) (Fin a)) with (CB (Rltb x a)). f_equal. destruct (Rbar_lt_dec x a) as [L|L]; simpl in L; [apply Rltb_true|apply Rltb_false]; lra.
  - destruct (Rbar_lt_dec x p_infty) as [L|L]; [auto|destruct L; exact I].
  - destruct (Rbar_lt_dec x m_infty) as [L|L]; [destruct L|auto].
Qed.
Lemma gt_V (x : R) (a : Rbar) : cgt (Fin x) (V a) = CB (if Rbar_lt_dec a x then true else false).
Proof.
  destruct a as [a| |]; simpl V.
  - change (cgt (Fin x) (Fin a)) with (CB (Rltb a x)). f_equal. destruct (Rbar_lt_dec a x) as [L|L]; simpl in L; [apply Rltb_true|apply Rltb_false]; lra.
  - destruct (Rbar_lt_dec p_infty x) as [L|L]; [destruct L|auto].
  - destruct (Rbar_lt_dec m_infty x) as [L|L]; [auto|destruct L; exact I].
Qed.
Lemma le_V (x : R) (a : Rbar) : cle (Fin x) (V a) = CB (if Rbar_lt_dec a x then false else true).
Proof.
  destruct a as [a| |]; simpl V.
  - change (cle (Fin x) (Fin a)) with (CB (Rleb x a)). f_equal. destruct (Rbar_lt_dec a x) as [L|L]; simpl in L; [apply Rleb_false|apply Rleb_true]; lra.
  - destruct (Rbar_lt_dec p_infty x) as [L|L]; [destruct L|auto].
  - destruct (Rbar_lt_dec m_infty x) as [L|L]; [auto|destruct L; exact I].
Qed.
Lemma ge_V (x : R) (a : Rbar) : cge (Fin x) (V a) = CB (if Rbar_lt_dec x a then false else true).
Proof.
  destruct a as [a| |]; simpl V.
  - change (cge (Fin x) (Fin a)) with (CB (Rleb a x)). f_equal. destruct (Rbar_lt_dec x a) as [L|L]; simpl in L; [apply Rleb_false|apply Rleb_true]; lra.
  - destruct (Rbar_lt_dec x p_infty) as [L|L]; [auto|destruct L; exact I].
  - destruct (Rbar_lt_dec x m_infty) as [L|L]; [destruct L|auto].
Qed.
Ltac rb := repeat match goal with
  | |- context [Rbar_lt_dec ?u ?v] => destruct (Rbar_lt_dec u v)
  end.

Section P.
Variables (a b : Rbar).
Hypothesis AB : Rbar_lt a b.
Notation d := (xD ncdf a b).
Lemma d_pos : 0 < d. Proof. apply (xD_pos _ _ _ a b NST AB). Qed.
Lemma TST : std a b (cF ncdf a b) (cf ncdf nkernel a b) (cQ ncdf P_normal.Q a b).
Proof. apply cST; auto. apply NST. Qed.
Lemma pdf_on (x : R) : Rbar_le a x -> Rbar_le x b -> pdf x (V a) (V b) = Fin (cf ncdf nkernel a b x).
Proof.
  intros H1 H2. pose proof d_pos as D. unfold pdf. rewrite validate_ok, lt_V, gt_V, delta_ok by auto.
  change (Fin x) with (V (Finite x)). rewrite vnpdf_V.
  rb; try (exfalso; eapply Rbar_lt_not_le; eassumption). vif. rewrite vdiv_Fin by lra. f_equal. unfold cf, xk, xe. simpl. field. lra.
Qed.
Lemma nlog x : M_normal.logpdf (Fin x) (Fin 0) (Fin 1) = Fin (ln (nkernel x)).
Proof.
  rewrite (proj2 (P_normal.pdf_fin 0 1 ltac:(lra) x)). f_equal. f_equal. unfold P_normal.f. replace ((x - 0) / 1) with x by field. field.
Qed.
Lemma logpdf_on (x : R) : Rbar_le a x -> Rbar_le x b -> logpdf x (V a) (V b) = Fin (ln (cf ncdf nkernel a b x)).
Proof.
  intros H1 H2. pose proof d_pos as D. unfold logpdf. rewrite validate_ok, lt_V, gt_V, delta_ok by auto.
  rb; try (exfalso; eapply Rbar_lt_not_le; eassumption). rewrite nlog. vif. rewrite vlog_Fin by auto. cbn [vsub vadd vneg]. f_equal. unfold cf.
  rewrite ln_div by (auto; apply nkernel_pos). lra.
Qed.
Lemma pdf_off (x : R) : Rbar_lt x a \/ Rbar_lt b x -> pdf x (V a) (V b) = Fin 0 /\ logpdf x (V a) (V b) = NInf.
Proof.
  intros H. unfold pdf, logpdf. rewrite !validate_ok, lt_V, gt_V by auto.
  rb; try (exfalso; tauto); auto.
Qed.
Lemma p_mix (p : R) : 0 <= p <= 1 -> 0 <= p * d + xN a <= 1 /\ -p * d + xN b = (1 - p) * d + xN a.
Proof.
  intros H. pose proof d_pos. pose proof (xF_01 _ _ _ NST a). pose proof (xF_01 _ _ _ NST b).
  assert (0 <= p * d) by nra. assert (p * d <= d) by nra. unfold xD in *. lra.
Qed.
Lemma ninv (q : R) : 0 < q < 1 -> M_normal.invcdf (Fin q) (Fin 0) (Fin 1) = Fin (P_normal.Q q).
Proof.
  intros H. unfold M_normal.invcdf, validate_p, validate_loc_scale. pose proof sqrt2_pos. vif. cbn [vmul vsub vadd vneg].
  rewrite verfinv_Fin by lra. veval. f_equal. unfold P_normal.Q. repeat match goal with |- context [erfinv ?u] => progress replace u with (2 * q - 1) by ring end. ring.
Qed.
Lemma inv_eval (p : R) : 0 < p < 1 -> invcdf p (V a) (V b) = Fin (cQ ncdf P_normal.Q a b p) /\ invsf p (V a) (V b) = Fin (cQ ncdf P_normal.Q a b (1 - p)).
Proof.
  intros H. assert (HL : 0 <= p <= 1) by lra.
  unfold invcdf, invsf, validate_p. rewrite !validate_ok, !delta_ok, !vncdf_V by auto. vif. cbn [vmul vadd vneg]. 
  rewrite (proj2 (p_mix p HL)). rewrite !ninv; auto.
  - apply (p_in _ _ _ a b NST AB (1 - p)). lra.
  - apply (p_in _ _ _ a b NST AB p). lra.
Qed.
Lemma CERT : cert (fun x => pdf x (V a) (V b)) (fun x => logpdf x (V a) (V b)) (fun x => cdf x (V a) (V b)) (fun x => sf x (V a) (V b))
  (fun p => invcdf p (V a) (V b)) (fun p => invsf p (V a) (V b)) a b (cF ncdf a b) (cf ncdf nkernel a b) (cQ ncdf P_normal.Q a b).
Proof.
  pose proof d_pos as D. destruct TST as [SM CT QU]. constructor; auto.
  - constructor; unfold cdf, sf.
    + intros x [H1 H2]. rewrite !validate_ok, !le_V, !ge_V by auto. change (Fin x) with (V (Finite x)). rewrite !delta_ok by auto.
      rb; try tauto. vif. rewrite !vdiv_Fin by lra. split; [reflexivity|]. f_equal. unfold cF. unfold xD in *. change (xN (Finite x)) with (ncdf x). field. lra.
    + intros x H. rewrite !validate_ok, !le_V by auto. rb; [exfalso; eapply Rbar_lt_not_le; eassumption|]. vif. auto.
    + intros x H. rewrite !validate_ok, !le_V, !ge_V by auto. rb; try (exfalso; eapply Rbar_lt_not_le; eassumption).
      * vif. auto.
      * exfalso. apply n. eapply Rbar_lt_le_trans; eauto.
    + rewrite !validate_ok by auto. destruct a as [u| |]; simpl V; simpl in AB; try tauto; vif; auto.
    + rewrite !validate_ok by auto. destruct a as [u| |], b as [w| |]; simpl V; simpl in AB; try tauto; vif; auto.
  - intros x [H1 H2]. rewrite pdf_on, logpdf_on by (apply Rbar_lt_le; auto). auto.
  - apply pdf_off.
  - apply inv_eval.
Qed.
Lemma cdf_ok : complementary (fun x => cdf x (V a) (V b)) (fun x => sf x (V a) (V b)).
Proof. exact (cert_complementary CERT). Qed.
Lemma support_ok : nondecreasing (fun x => cdf x (V a) (V b)) /\ supported_on (fun x => cdf x (V a) (V b)) (V a) (V b) /\ support (V a) (V b) = Ok (V a, V b).
Proof. split; [exact (cert_nondecreasing CERT)|split; [exact (cert_supported CERT)|apply validate_ok; auto]]. Qed.
Lemma density_ok : density_of (fun x => cdf x (V a) (V b)) (fun x => pdf x (V a) (V b)) a b.
Proof. exact (cert_density CERT). Qed.
Lemma mass_ok : total_mass_one (fun x => pdf x (V a) (V b)) a b.
Proof. exact (cert_total_mass CERT). Qed.
Lemma log_ok (x : R) : log_of (fun x => pdf x (V a) (V b)) (fun x => logpdf x (V a) (V b)) x.
Proof.
  destruct (Rbar_lt_dec x a) as [H|H]; [right; left; apply pdf_off; auto|].
  destruct (Rbar_lt_dec b x) as [H'|H']; [right; left; apply pdf_off; auto|].
  apply Rbar_not_lt_le in H. apply Rbar_not_lt_le in H'. left. exists (cf ncdf nkernel a b x). rewrite pdf_on, logpdf_on by auto.
  split; auto. unfold cf. apply Rdiv_pos; [apply nkernel_pos|apply d_pos].
Qed.
Lemma inverse_ok : inverse_of (fun x => cdf x (V a) (V b)) (fun p => invcdf p (V a) (V b)) a b.
Proof. exact (cert_inverse CERT). Qed.
Lemma inverse_sf_ok : inverse_of (fun x => sf x (V a) (V b)) (fun p => invsf p (V a) (V b)) a b /\
  (forall p, 0 < p < 1 -> invsf (Fin p) (V a) (V b) = invcdf (Fin (1 - p)) (V a) (V b)).
Proof. exact (conj (cert_inverse_sf CERT) (cert_invsf_invcdf CERT)). Qed.
Lemma ninv_V (u : Rbar) : M_normal.invcdf (Fin (xN u)) (Fin 0) (Fin 1) = V u.
Proof.
  destruct u as [u| |]; simpl.
  - pose proof (F01 _ _ _ NST u). rewrite ninv by auto. f_equal.
    apply (F_inj _ _ _ _ (st_smooth _ _ _ _ _ NST)); try (split; simpl; auto; fail).
    apply (st_quant _ _ _ _ _ NST). auto.
  - unfold M_normal.invcdf, validate_p, validate_loc_scale, xF, xe. pose proof sqrt2_pos. vif. cbn [vmul vsub vadd vneg]. rewrite verfinv_1 by lra. veval. auto.
  - unfold M_normal.invcdf, validate_p, validate_loc_scale, xF, xe. pose proof sqrt2_pos. vif. cbn [vmul vsub vadd vneg]. rewrite verfinv_m1 by lra. veval. auto.
Qed.
Lemma ends : rejects_bad_p (fun p => invcdf p (V a) (V b)) /\ rejects_bad_p (fun p => invsf p (V a) (V b)) /\
  at_ends (fun p => invcdf p (V a) (V b)) (V a) (V b) /\ at_ends (fun p => invsf p (V a) (V b)) (V b) (V a).
Proof.
  unfold invcdf, invsf, rejects_bad_p, at_ends.
  rewrite ?vpp_pinf, ?vpp_ninf.
  split; [|split; [|split]].
  - split; [intros p Hp; apply vpp_bad; auto|split; reflexivity].
  - split; [intros p Hp; apply vpp_bad; auto|split; reflexivity].
  - unfold validate_p. rewrite !validate_ok, !delta_ok, !vncdf_V by auto. vif. cbn [vmul vadd vneg].
    replace (0 * d + xN a) with (xN a) by ring. replace (1 * d + xN a) with (xN b) by (unfold xD; ring). rewrite !ninv_V. auto.
  - unfold validate_p. rewrite !validate_ok, !delta_ok, !vncdf_V by auto. vif. cbn [vmul vadd vneg].
    replace (- 0 * d + xN b) with (xN b) by ring. replace (- (1) * d + xN b) with (xN a) by (unfold xD; ring). rewrite !ninv_V. auto.
Qed.
(** The value of the density at the end points. *)
Lemma pdf_a : pdf (V a) (V a) (V b) = Fin (xk 0 a / d).
Proof.
  pose proof d_pos as D. unfold pdf. rewrite validate_ok, delta_ok, vnpdf_V by auto. rewrite vdiv_Fin by lra.
  destruct a as [u| |], b as [w| |]; simpl V; simpl in AB; try tauto; vif; auto.
Qed.
Lemma pdf_b : pdf (V b) (V a) (V b) = Fin (xk 0 b / d).
Proof.
  pose proof d_pos as D. unfold pdf. rewrite validate_ok, delta_ok, vnpdf_V by auto. rewrite vdiv_Fin by lra.
  destruct a as [u| |], b as [w| |]; simpl V; simpl in AB; try tauto; vif; auto.
Qed.
Lemma mom_int n : integrates_to (fun z => z ^ n * cf ncdf nkernel a b z) a b (tm a b d n).
Proof.
  apply (tm_int a b n AB d_pos). apply (std_mass a b AB _ _ _ TST).
Qed.
Definition xr (u : Rbar) := match u with Finite r => r | _ => 0 end.
Lemma xk0_pos u : match u with Finite r => 0 < xk 0 u | _ => xk 0 u = 0 end.
Proof. destruct u as [r| |]; unfold xk, xe; auto. simpl. pose proof (nkernel_pos r). lra. Qed.
Lemma fixend (u : Rbar) : (IF Fin (xk 0 u / d) =? Fin 0 THEN Fin 0 ELSE V u)%V = Fin (xr u).
Proof.
  pose proof d_pos as D. pose proof (xk0_pos u) as K. change (ceq (Fin (xk 0 u / d)) (Fin 0)) with (CB (Reqb (xk 0 u / d) 0)).
  destruct u as [r| |].
  - rewrite Reqb_false; [auto|]. assert (0 < xk 0 r / d) by (apply Rdiv_pos; auto). lra.
  - rewrite K, Reqb_true by (field; lra). auto.
  - rewrite K, Reqb_true by (field; lra). auto.
Qed.
Lemma xk_S n u : xr u * (xk n u / d) = xk (S n) u / d.
Proof. pose proof d_pos. destruct u as [r| |]; unfold xk, xe, xr; simpl; field; lra. Qed.
Lemma loop_ok j : forall k, (3 <= k)%nat ->
  moments_loop (Fin (xr a)) (Fin (xr b)) j k (Fin (xk (k - 2) a / d)) (Fin (xk (k - 2) b / d)) (map (fun i => Fin (tm a b d i)) (seq 1 (k - 1))) =
  map (fun i => Fin (tm a b d i)) (seq 1 (k - 1 + j)).
Proof.
  induction j as [|j IH]; intros k K; cbn [moments_loop].
  - rewrite PeanoNat.Nat.add_0_r. auto.
  - cbn [vmul]. rewrite !xk_S. replace (S (k - 2)) with (S k - 2)%nat by lia.
    replace (k - 1 + S j)%nat with (S k - 1 + j)%nat by lia.
    rewrite <- IH by lia. f_equal.
    replace (S k - 1)%nat with (k - 1 + 1)%nat by lia. rewrite seq_app, map_app. f_equal. cbn [seq map]. f_equal.
    rewrite nth_indep with (d' := (fun i => Fin (tm a b d i)) 0%nat) by (rewrite map_length, seq_length; lia).
    rewrite (map_nth (fun i => Fin (tm a b d i))), seq_nth by lia. cbn [vmul vadd vsub vneg]. f_equal.
    replace (1 + (k - 1))%nat with (S (S (k - 2))) by lia. rewrite tm_SS.
    replace (1 + (k - 3))%nat with (k - 2)%nat by lia. replace (S k - 2)%nat with (S (k - 2)) by lia. replace (k - 1)%nat with (S (k - 2)) by lia.
    pose proof d_pos. field. lra.
Qed.
Lemma moments_eval n : (1 <= n)%nat -> noncentral_moments n (V a) (V b) = Ok (map (fun i => Fin (tm a b d i)) (seq 1 n)).
Proof.
  intros N. pose proof d_pos as D. unfold noncentral_moments. rewrite validate_ok, pdf_a, pdf_b, !fixend by auto. cbv zeta. f_equal.
  destruct n as [|[|n]]; [lia| |].
  - cbn [Nat.leb Nat.sub moments_loop seq map vsub vadd vneg]. rewrite tm_1. do 2 f_equal. field. lra.
  - cbn [Nat.leb]. replace (S (S n) - 2)%nat with n by lia. cbn [vmul]. rewrite !xk_S.
    pose proof (loop_ok n 3 ltac:(lia)) as L. cbn [Nat.sub Nat.add] in L. change (1 + (1 + n))%nat with (S (S n)) in L. 
    change (seq 1 2) with [1; 2]%nat in L. cbn [map] in L. rewrite tm_SS, tm_1, tm_0 in L. cbn [vsub vadd vneg]. 
    replace ((xk 0 a - xk 0 b) / d) with (xk 0 a / d + - (xk 0 b / d)) in L by (field; lra).
    replace (INR 1 * 1 + (xk 1 a - xk 1 b) / d) with (1 + xk 1 a / d + - (xk 1 b / d)) in L by (simpl; field; lra). exact L.
Qed.
Lemma pdf_in (x : R) : inside a b x -> pdf x (V a) (V b) = Fin (cf ncdf nkernel a b x).
Proof. intros [H1 H2]. apply pdf_on; apply Rbar_lt_le; auto. Qed.
Lemma moments_ok (n : nat) : (1 <= n)%nat -> exists l, noncentral_moments n (V a) (V b) = Ok l /\ length l = n /\
  forall k, (1 <= k <= n)%nat -> moment_is (fun x => pdf x (V a) (V b)) a b k (nth (k - 1) l NaN).
Proof.
  intros N. eexists. split; [apply moments_eval; auto|]. split; [rewrite map_length, seq_length; auto|].
  intros k K. apply (raw_moment_is a b _ (cf ncdf nkernel a b) (tm a b d) k AB pdf_in (fun i _ => mom_int i)); auto.
  rewrite nth_indep with (d' := (fun i => Fin (tm a b d i)) 0%nat) by (rewrite map_length, seq_length; lia).
  rewrite (map_nth (fun i => Fin (tm a b d i))), seq_nth by lia. do 2 f_equal. lia.
Qed.
Lemma mean_eval : mean (V a) (V b) = Fin (tm a b d 1).
Proof. pose proof d_pos. unfold mean. rewrite validate_ok, pdf_a, pdf_b by auto. cbn [vsub vadd vneg]. rewrite tm_1. f_equal. field. lra. Qed.
Lemma mean_ok : mean_is (fun x => pdf x (V a) (V b)) a b (mean (V a) (V b)).
Proof. apply (raw_mean_is a b _ (cf ncdf nkernel a b) (tm a b d) 1 AB pdf_in (fun i _ => mom_int i)); auto. apply mean_eval. Qed.
Lemma fixmul (u : Rbar) : (IF Fin (xk 0 u / d) =? Fin 0 THEN Fin 0 ELSE V u * Fin (xk 0 u / d))%V = Fin (xk 1 u / d).
Proof.
  pose proof d_pos as D. pose proof (xk0_pos u) as K. change (ceq (Fin (xk 0 u / d)) (Fin 0)) with (CB (Reqb (xk 0 u / d) 0)).
  destruct u as [r| |].
  - rewrite Reqb_false; [|assert (0 < xk 0 r / d) by (apply Rdiv_pos; auto); lra]. simpl V. cbn [cif vmul]. f_equal. apply (xk_S 0 (Finite r)).
  - rewrite K, Reqb_true by (field; lra). cbn [cif]. f_equal. unfold xk, xe. field. lra.
  - rewrite K, Reqb_true by (field; lra). cbn [cif]. f_equal. unfold xk, xe. field. lra.
Qed.
Lemma var_eval : var (V a) (V b) = Fin (mvar (tm a b d)).
Proof.
  pose proof d_pos. unfold var. rewrite validate_ok, pdf_a, pdf_b, !fixmul by auto. cbv zeta. cbn [vsub vadd vneg]. rewrite vpown_Fin. cbn [vsub vadd vneg].
  f_equal. unfold mvar. rewrite tm_SS, tm_1, tm_0. simpl INR. field. lra.
Qed.
Lemma var_ok : var_is (fun x => pdf x (V a) (V b)) a b (mean (V a) (V b)) (var (V a) (V b)).
Proof. apply (raw_var_is a b _ (cf ncdf nkernel a b) (tm a b d) 2 AB pdf_in (fun i _ => mom_int i)); auto; [apply mean_eval|apply var_eval]. Qed.
Lemma mv_pos : 0 < mvar (tm a b d).
Proof. apply (mvar_pos a b _ _ _ (tm a b d) TST); apply mom_int. Qed.
Lemma skewness_ok : skewness_is (fun x => pdf x (V a) (V b)) a b (skewness (V a) (V b)).
Proof.
  apply (raw_skewness_is a b _ (cf ncdf nkernel a b) (tm a b d) 3 AB pdf_in (fun i _ => mom_int i)); auto; [apply mv_pos|].
  pose proof mv_pos as MV. unfold skewness. rewrite validate_ok, moments_eval by (auto; lia). cbn [bindr seq map]. cbv zeta.
  rewrite vpown_Fin. cbn [vsub vadd vneg vmul]. unfold mvar, mcen3 in *. set (m1 := tm a b d 1) in *. set (m2 := tm a b d 2) in *. set (m3 := tm a b d 3) in *.
  assert (0 < m2 + - m1 ^ 2) by lra. clearbody m1 m2 m3. assert (0 < Rpower (m2 + - m1 ^ 2) (3 / 2)) by apply exp_pos. veval. 
  change (m2 - m1 ^ 2) with (m2 + - m1 ^ 2). set (v := m2 + - m1 ^ 2) in *. clearbody v.
  pose proof (sqrt_lt_R0 v H). replace (Rpower v (3 / 2)) with (v * sqrt v); [f_equal; field; lra|].
  replace (3 / 2) with (1 + / 2) by lra. rewrite Rpower_plus, Rpower_1, Rpower_sqrt by auto. auto.
Qed.
Lemma kurtosis_ok : kurtosis_is (fun x => pdf x (V a) (V b)) a b (kurtosis (V a) (V b)).
Proof.
  apply (raw_kurtosis_is a b _ (cf ncdf nkernel a b) (tm a b d) 4 AB pdf_in (fun i _ => mom_int i)); auto; [apply mv_pos|].
  pose proof mv_pos as MV. unfold kurtosis. rewrite validate_ok, moments_eval by (auto; lia). cbn [bindr seq map]. cbv zeta.
  rewrite !vpown_Fin. cbn [vsub vadd vneg vmul]. rewrite vpown_Fin. unfold mvar, mcen4 in *. set (m1 := tm a b d 1) in *. set (m2 := tm a b d 2) in *. set (m3 := tm a b d 3) in *. set (m4 := tm a b d 4) in *.
  assert (0 < (m2 + - m1 ^ 2) ^ 2) by (apply pow_lt; lra). clearbody m1 m2 m3 m4. rewrite vdiv_Fin by lra. cbn [vsub vadd vneg vmul].
  f_equal. field. lra.
Qed.
Lemma median_ok : median_is (fun x => cdf x (V a) (V b)) (median (V a) (V b)).
Proof.
  assert (E : median (V a) (V b) = Fin (cQ ncdf P_normal.Q a b (1 / 2))).
  { unfold median, M_normal.cdf, validate_loc_scale. rewrite validate_ok, !vncdf_V by auto. vif. cbn [vadd]. rewrite vdiv_Fin by lra.
    pose proof (proj1 (p_in _ _ _ a b NST AB (1/2) ltac:(lra))) as P. unfold cQ. replace ((xN a + xN b) / 2) with (1 / 2 * d + xN a) by (unfold xD; field). apply ninv; auto. }
  rewrite E. eexists. split; [reflexivity|]. destruct (st_quant _ _ _ _ _ TST (1/2) ltac:(lra)) as [I Q].
  rewrite (proj1 (co_in _ _ _ _ _ (ce_core _ _ _ _ _ _ _ _ _ _ _ CERT) _ I)), Q. auto.
Qed.
Lemma nk_mono x y : Rabs x <= Rabs y -> nkernel y <= nkernel x.
Proof.
  intros H. unfold nkernel. pose proof sqrt2PI_pos. apply Rmult_le_compat_r; [left; pos|]. apply exp_le_compat.
  assert (x ^ 2 <= y ^ 2). { rewrite <- (pow2_abs x), <- (pow2_abs y). apply pow_incr. split; [apply Rabs_pos|auto]. } lra.
Qed.
Lemma mode_ok : is_mode (fun x => pdf x (V a) (V b)) (mode (V a) (V b)).
Proof.
  pose proof d_pos as D.
  assert (G : exists m, mode (V a) (V b) = Fin m /\ Rbar_le a m /\ Rbar_le m b /\ forall x : R, Rbar_le a x -> Rbar_le x b -> Rabs m <= Rabs x).
  { unfold mode. rewrite validate_ok by auto. 
    destruct a as [u| |], b as [w| |]; simpl V; simpl in AB; try tauto.
    - destruct (Rle_lt_dec 0 u).
      + exists u. vif. split; auto. simpl. repeat split; try lra. intros x H1 H2. rewrite !Rabs_pos_eq; lra.
      + destruct (Rle_lt_dec w 0).
        * exists w. vif. split; auto. simpl. repeat split; try lra. intros x H1 H2. rewrite !Rabs_left1; lra.
        * exists 0. vif. split; auto. simpl. repeat split; try lra. intros x H1 H2. rewrite Rabs_R0. apply Rabs_pos.
    - destruct (Rle_lt_dec 0 u).
      + exists u. vif. split; auto. simpl. repeat split; try lra; auto. intros x H1 H2. rewrite !Rabs_pos_eq; lra.
      + exists 0. vif. split; auto. simpl. repeat split; try lra; auto. intros x H1 H2. rewrite Rabs_R0. apply Rabs_pos.
    - destruct (Rle_lt_dec w 0).
      + exists w. vif. split; auto. simpl. repeat split; try lra; auto. intros x H1 H2. rewrite !Rabs_left1; lra.
      + exists 0. vif. split; auto. simpl. repeat split; try lra; auto. intros x H1 H2. rewrite Rabs_R0. apply Rabs_pos.
    - exists 0. vif. split; auto. simpl. repeat split; auto. intros x H1 H2. rewrite Rabs_R0. apply Rabs_pos. }
  destruct G as [m [E [M1 [M2 G]]]]. exists m, (cf ncdf nkernel a b m). split; [auto|]. split; [apply pdf_on; auto|].
  intros x. assert (0 < cf ncdf nkernel a b m) by (apply Rdiv_pos; auto; apply nkernel_pos).
  destruct (Rbar_lt_dec x a) as [H1|H1]; [exists 0; split; [apply pdf_off; auto|lra]|].
  destruct (Rbar_lt_dec b x) as [H2|H2]; [exists 0; split; [apply pdf_off; auto|lra]|].
  apply Rbar_not_lt_le in H1. apply Rbar_not_lt_le in H2. exists (cf ncdf nkernel a b x). split; [apply pdf_on; auto|].
  unfold cf. apply Rmult_le_compat_r; [left; apply Rinv_0_lt_compat; auto|]. apply nk_mono. auto.
Qed.
Lemma prod_eval u : prod_x_npdfx (V u) = Fin (xk 1 u).
Proof.
  unfold prod_x_npdfx. rewrite vnpdf_V. destruct u as [r| |]; simpl V; cbn [visinf cif vmul]; auto. f_equal. unfold xk, xe. simpl. ring.
Qed.
Lemma ent_ok : entropy_is (fun x => pdf x (V a) (V b)) a b (entropy (V a) (V b)).
Proof.
  pose proof d_pos as D. pose proof PI_RGT_0. assert (0 < 2 * d) by lra.
  exists ((ln (2 * PI) + 1) / 2 + ln d + (xk 1 a - xk 1 b) / (2 * d)). split.
  - unfold entropy. rewrite validate_ok, delta_ok, !prod_eval by auto. change vpi with (Fin PI). cbv zeta. cbn [vmul vsub vadd vneg].
    rewrite !vlog_Fin by lra. rewrite !vdiv_Fin by lra. cbn [vadd]. rewrite vdiv_Fin by lra. cbn [vadd]. f_equal.
  - apply (integrates_ext a b AB (fun z => (ln (2 * PI) / 2 + ln d) * (z ^ 0 * cf ncdf nkernel a b z) + / 2 * (z ^ 2 * cf ncdf nkernel a b z))).
    + intros z I. rewrite pdf_in by auto. cbn [toR]. assert (E : ln (cf ncdf nkernel a b z) = - ln (2 * PI) / 2 - z ^ 2 / 2 - ln d).
      { unfold cf. rewrite ln_div by (auto; apply nkernel_pos). rewrite nkernel_ln. auto. }
      rewrite E. simpl. field.
    + replace ((ln (2 * PI) + 1) / 2 + ln d + (xk 1 a - xk 1 b) / (2 * d)) with ((ln (2 * PI) / 2 + ln d) * tm a b d 0 + / 2 * tm a b d 2).
      * apply integrates_plus; apply integrates_scal; apply mom_int.
      * rewrite tm_SS, tm_0. simpl INR. field. lra.
Qed.
(** The law is the standard normal law conditioned on the interval. *)
Lemma conditioned (x : R) : Rbar_le a x -> Rbar_le x b -> exists na nb nx fx,
  M_normal.cdf (V a) (Fin 0) (Fin 1) = Fin na /\ M_normal.cdf (V b) (Fin 0) (Fin 1) = Fin nb /\
  M_normal.cdf x (Fin 0) (Fin 1) = Fin nx /\ M_normal.pdf x (Fin 0) (Fin 1) = Fin fx /\ na < nb /\
  cdf x (V a) (V b) = Fin ((nx - na) / (nb - na)) /\ sf x (V a) (V b) = Fin ((nb - nx) / (nb - na)) /\
  pdf x (V a) (V b) = Fin (fx / (nb - na)).
Proof.
  intros H1 H2. pose proof d_pos as D. exists (xN a), (xN b), (ncdf x), (nkernel x).
  unfold M_normal.cdf, M_normal.pdf, validate_loc_scale. rewrite !vncdf_V. vif. change (Fin x) with (V (Finite x)). rewrite vncdf_V, vnpdf_V.
  split; auto. split; auto. split; auto. split; [f_equal; unfold xk, xe; simpl; ring|]. split; [unfold xD in D; lra|].
  change (V (Finite x)) with (Fin x). rewrite pdf_on by auto. 
  destruct (ce_core _ _ _ _ _ _ _ _ _ _ _ CERT) as [CI CB CA _ _].
  destruct (Rbar_le_lt_or_eq_dec a x H1) as [L1|L1]; [destruct (Rbar_le_lt_or_eq_dec x b H2) as [L2|L2]|].
  - destruct (CI x (conj L1 L2)) as [-> ->]. split; [reflexivity|]. split; [|reflexivity]. f_equal. unfold cF, xD in *. field. lra.
  - destruct (CA x ltac:(rewrite L2; apply Rbar_le_refl)) as [-> ->]. assert (E : ncdf x = xN b) by (rewrite <- L2; auto). rewrite E. unfold xD in D.
    split; [f_equal; field; lra|]. split; [f_equal; field; lra|reflexivity].
  - destruct (CB x ltac:(rewrite L1; apply Rbar_le_refl)) as [-> ->]. assert (E : ncdf x = xN a) by (rewrite L1; auto). rewrite E. unfold xD in D.
    split; [f_equal; field; lra|]. split; [f_equal; field; lra|reflexivity].
Qed.
End P.
(** An empty interval is rejected by every function. *)
Lemma bad_params (a b : Rbar) (n : nat) : Rbar_le b a ->
  support (V a) (V b) = Err ValueError /\ noncentral_moments n (V a) (V b) = Err ValueError /\
  always_ValueError [ fun x => pdf x (V a) (V b); fun x => logpdf x (V a) (V b); fun x => cdf x (V a) (V b); fun x => sf x (V a) (V b);
    fun p => invcdf p (V a) (V b); fun p => invsf p (V a) (V b); fun _ => mean (V a) (V b); fun _ => median (V a) (V b); fun _ => mode (V a) (V b);
    fun _ => var (V a) (V b); fun _ => skewness (V a) (V b); fun _ => kurtosis (V a) (V b); fun _ => entropy (V a) (V b) ].
Proof.
  intros L. assert (C : cge (V a) (V b) = CB true).
  { destruct a as [a| |], b as [b| |]; simpl in L; try tauto; try reflexivity. simpl V. change (CB (Rleb b a) = CB true). rewrite Rleb_true by lra. auto. }
  assert (E : forall (T : Type) (CR : CanRaise T) (k : T), validate (V a) (V b) k = raise ValueError) by (intros; unfold validate; rewrite C; auto).
  assert (VE : forall p, isnum p -> validate_p p (raise ValueError : val) = Exc ValueError).
  { intros p P. unfold validate_p. destruct P as [p E0|]; [destruct E0 as [x| |]|]; try reflexivity. destruct (Rlt_le_dec x 0); [vif; auto|]. destruct (Rlt_le_dec 1 x); vif; auto. }
  unfold pdf, logpdf, cdf, sf, mean, median, mode, var, skewness, kurtosis, entropy, support, noncentral_moments, invcdf, invsf. rewrite !E.
  split; [auto|split; [auto|]]. all_ve; intros x Hx; rewrite ?E, ?VE by auto; reflexivity.
Qed.
