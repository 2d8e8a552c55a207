(** Proofs about M_rel_breitwigner. *)
From Coq Require Import Reals Lra Lia List.
From Coquelicot Require Import Coquelicot.
From Verif Require Import Values VTac Spec RLib LimLib LLib DistLib DistLS IntLib SubLib MomLib LSMom LSMom2 PLib M_common M_bracket SpecStat SpecEst
  SpecInv SpecNoMom InvLib SFun SFun2 NoInt GammaLib GammaLib2 GammaLib3 GamLib P_marcumq SFunC M_fun P_fun.
From Verif Require Import M_rel_breitwigner.
Import ListNotations.
Local Open Scope R_scope.
Set Bullet Behavior "Strict Subproofs".

Lemma validate_ok {A} `{CanRaise A} (rho s : R) (c : A) : 0 < rho -> 0 < s -> validate_rho_scale rho s c = c.
Proof. intros N S. unfold validate_rho_scale. veval. reflexivity. Qed.
Lemma validate_bad {A} `{CanRaise A} rho s (c : A) : isnum rho -> isnum s -> nonpositive rho \/ nonpositive s -> validate_rho_scale rho s c = raise ValueError.
Proof.
  intros N1 N2 B. unfold validate_rho_scale. destruct B as [B|B].
  - assert (E : cle rho (Fin 0) = CB true) by (inversion B; subst; ccond). rewrite E. reflexivity.
  - assert (E : cle s (Fin 0) = CB true) by (inversion B; subst; ccond). rewrite E. cbn [cif]. destruct N1 as [v []|]; try (vif; reflexivity). destruct (Rle_lt_dec r 0); vif; reflexivity.
Qed.

Ltac req := match goal with |- ?u = ?v => change (@eq R u v) end.
Section Z.
Variable rho : R.
Hypothesis HR : 0 < rho.
Definition sr := sqrt (rho ^ 2 + 1).
Definition N := rho * sr.
Definition a := sqrt ((N - rho ^ 2) / 2).
Definition b := sqrt ((N + rho ^ 2) / 2).
Lemma sr_sq : sr ^ 2 = rho ^ 2 + 1. Proof. unfold sr. rewrite pow2_sqrt; auto. nra. Qed.
Lemma sr_pos : rho < sr. Proof. unfold sr. rewrite <- (sqrt_pow2 rho) at 1 by lra. apply sqrt_lt_1; nra. Qed.
Lemma N_gt : rho ^ 2 < N. Proof. unfold N. pose proof sr_pos. nra. Qed.
Lemma N_pos : 0 < N. Proof. pose proof N_gt. nra. Qed.
Lemma N_sq : N ^ 2 = rho ^ 2 * (rho ^ 2 + 1). Proof. unfold N. rewrite Rpow_mult_distr, sr_sq. reflexivity. Qed.
Lemma a_pos : 0 < a. Proof. unfold a. apply sqrt_lt_R0. pose proof N_gt. lra. Qed.
Lemma b_pos : 0 < b. Proof. unfold b. apply sqrt_lt_R0. pose proof N_gt. nra. Qed.
Lemma a_sq : a ^ 2 = (N - rho ^ 2) / 2. Proof. unfold a. rewrite pow2_sqrt; auto. pose proof N_gt. lra. Qed.
Lemma b_sq : b ^ 2 = (N + rho ^ 2) / 2. Proof. unfold b. rewrite pow2_sqrt; auto. pose proof N_gt. nra. Qed.
Lemma ab : 2 * a * b = rho.
Proof.
  pose proof a_pos. pose proof b_pos. assert (E : (2 * a * b) ^ 2 = rho ^ 2). { rewrite !Rpow_mult_distr, a_sq, b_sq. pose proof N_sq. replace (2 ^ 2 * ((N - rho ^ 2) / 2) * ((N + rho ^ 2) / 2)) with (N ^ 2 - rho ^ 4) by field. rewrite N_sq. ring. }
  apply Rsqr_inj; [nra|lra|]. unfold Rsqr. nra.
Qed.
Lemma ab_N : a ^ 2 + b ^ 2 = N. Proof. rewrite a_sq, b_sq. field. Qed.
Definition D z := (z ^ 2 - rho ^ 2) ^ 2 + rho ^ 2.
Lemma D_pos z : 0 < D z. Proof. unfold D. pose proof (pow2_ge_0 (z ^ 2 - rho ^ 2)). nra. Qed.
Lemma q_pos z : 0 < z ^ 2 + 2 * b * z + N. Proof. rewrite <- ab_N. pose proof a_pos. pose proof (pow2_ge_0 (z + b)). nra. Qed.
Lemma q_neg z : 0 < z ^ 2 - 2 * b * z + N. Proof. rewrite <- ab_N. pose proof a_pos. pose proof (pow2_ge_0 (z - b)). nra. Qed.
Lemma q_D z : (z ^ 2 + 2 * b * z + N) * (z ^ 2 - 2 * b * z + N) = D z.
Proof. unfold D. replace ((z ^ 2 + 2 * b * z + N) * (z ^ 2 - 2 * b * z + N)) with (z ^ 4 + 2 * N * z ^ 2 + N ^ 2 - 4 * b ^ 2 * z ^ 2) by ring. rewrite b_sq, N_sq. field. Qed.
Definition Rz z := / 2 * (PI - atan (N / (a * z) - b / a) - atan (N / (a * z) + b / a)).
Definition Iz z := / 4 * (ln (z ^ 2 + 2 * b * z + N) - ln (z ^ 2 - 2 * b * z + N)).
(** the model's complex expression *)
Lemma alpha_eq : csqroot (- (rho * rho), - rho) = (a, - b).
Proof.
  unfold csqroot. cbn [fst snd]. destruct (Rlt_dec (- rho) 0) as [_|K]; [|lra].
  replace (sqrt ((- (rho * rho)) ^ 2 + (- rho) ^ 2)) with N. 2:{ replace ((- (rho * rho)) ^ 2 + (- rho) ^ 2) with (N ^ 2) by (rewrite N_sq; ring). rewrite sqrt_pow2; auto. left. apply N_pos. }
  unfold a, b. f_equal; [f_equal; field|f_equal; f_equal; field].
Qed.
Lemma catan_val z : 0 < z -> catan (cdivide (z, 0) (a, - b)) = (Rz z, Iz z).
Proof.
  intros Z. pose proof a_pos as A. pose proof b_pos as B. pose proof N_pos as NP. unfold cdivide. cbn [fst snd]. replace (a ^ 2 + (- b) ^ 2) with N by (rewrite <- ab_N; ring).
  replace ((z * a + 0 * - b) / N) with (z * a / N) by (field; lra). replace ((0 * a - z * - b) / N) with (z * b / N) by (field; lra).
  assert (U : 0 < z * a / N) by (apply Rdiv_pos; [nra|auto]). unfold catan. cbn [fst snd]. unfold carg.
  destruct (Rlt_dec 0 (z * a / N)) as [_|K]; [|lra]. destruct (Rlt_dec 0 (- (z * a / N))) as [K|_]; [lra|]. destruct (Rlt_dec (- (z * a / N)) 0) as [_|K]; [|lra].
  f_equal.
  - unfold Rz. replace ((1 - z * b / N) / (z * a / N)) with (N / (a * z) - b / a) by (field; lra). replace ((1 + z * b / N) / - (z * a / N)) with (- (N / (a * z) + b / a)) by (field; lra). rewrite atan_opp. field.
  - unfold Iz. replace ((1 + z * b / N) ^ 2 + (z * a / N) ^ 2) with (/ N * (z ^ 2 + 2 * b * z + N)). 2:{ replace (z ^ 2) with (z ^ 2 * (a ^ 2 + b ^ 2) / N) by (rewrite ab_N; field; lra). field. lra. }
    replace ((1 - z * b / N) ^ 2 + (z * a / N) ^ 2) with (/ N * (z ^ 2 - 2 * b * z + N)). 2:{ replace (z ^ 2) with (z ^ 2 * (a ^ 2 + b ^ 2) / N) by (rewrite ab_N; field; lra). field. lra. }
    rewrite !ln_mult; try apply Rinv_0_lt_compat; auto; try apply q_pos; try apply q_neg. field.
Qed.
Lemma im_val z : 0 < z -> im_term (Fin z) (Fin rho) = Fin ((b * Rz z + a * Iz z) / N).
Proof.
  intros Z. unfold im_term. rewrite alpha_eq, catan_val by auto. unfold cdivide. cbn [fst snd]. replace (a ^ 2 + (- b) ^ 2) with N by (rewrite <- ab_N; ring). f_equal. pose proof N_pos. field. lra.
Qed.
Lemma im_0 : im_term (Fin 0) (Fin rho) = Fin 0.
Proof.
  unfold im_term. rewrite alpha_eq. unfold cdivide at 2. cbn [fst snd]. replace (a ^ 2 + (- b) ^ 2) with N by (rewrite <- ab_N; ring). pose proof N_pos as NP. pose proof a_pos. pose proof b_pos.
  replace ((0 * a + 0 * - b) / N) with 0 by (field; lra). replace ((0 * a - 0 * - b) / N) with 0 by (field; lra).
  unfold catan. cbn [fst snd]. unfold carg. rewrite !Ropp_0. destruct (Rlt_dec 0 0) as [K|_]; [lra|]. destruct (Rlt_dec (1 - 0) 0) as [K|_]; [lra|]. destruct (Rlt_dec (1 + 0) 0) as [K|_]; [lra|].
  rewrite ?Rplus_0_r, ?Rminus_0_r. unfold cdivide. cbn [fst snd]. f_equal. rewrite ?Rminus_0_r. unfold Rdiv. ring.
Qed.
(** derivatives *)
Lemma R_der z : 0 < z -> is_derive Rz z (/ 2 * a * (/ (z ^ 2 - 2 * b * z + N) + / (z ^ 2 + 2 * b * z + N))).
Proof.
  intros Z. pose proof a_pos as A. pose proof N_pos as NP. pose proof (q_pos z). pose proof (q_neg z).
  assert (E1 : 1 + (N / (a * z) - b / a) ^ 2 = N * (z ^ 2 - 2 * b * z + N) / (a ^ 2 * z ^ 2)). { replace (N * (z ^ 2 - 2 * b * z + N)) with (z ^ 2 * (a ^ 2 + b ^ 2) - 2 * b * z * N + N ^ 2) by (rewrite ab_N; ring). field. lra. }
  assert (E2 : 1 + (N / (a * z) + b / a) ^ 2 = N * (z ^ 2 + 2 * b * z + N) / (a ^ 2 * z ^ 2)). { replace (N * (z ^ 2 + 2 * b * z + N)) with (z ^ 2 * (a ^ 2 + b ^ 2) + 2 * b * z * N + N ^ 2) by (rewrite ab_N; ring). field. lra. }
  unfold Rz. auto_derive; [repeat split; auto; nra|]. unfold Rsqr.
  replace (1 + (N * / (a * z) + - (b / a)) * ((N * / (a * z) + - (b / a)) * 1)) with (N * (z ^ 2 - 2 * b * z + N) / (a ^ 2 * z ^ 2)) by (rewrite <- E1; unfold Rdiv; ring).
  replace (1 + (N * / (a * z) + b / a) * ((N * / (a * z) + b / a) * 1)) with (N * (z ^ 2 + 2 * b * z + N) / (a ^ 2 * z ^ 2)) by (rewrite <- E2; unfold Rdiv; ring).
  field. repeat split; try lra; nra.
Qed.
Lemma I_der z : is_derive Iz z (/ 4 * ((2 * z + 2 * b) / (z ^ 2 + 2 * b * z + N) - (2 * z - 2 * b) / (z ^ 2 - 2 * b * z + N))).
Proof.
  pose proof (q_pos z). pose proof (q_neg z). unfold Iz. auto_derive; [split; [apply q_pos|split; auto; apply q_neg]|]. field. split; lra.
Qed.
Lemma G_der z : 0 < z -> is_derive (fun z => (b * Rz z + a * Iz z) / (rho * N)) z (/ D z).
Proof.
  intros Z. pose proof N_pos as NP. pose proof (q_pos z) as Q1. pose proof (q_neg z) as Q2. evar_last.
  - apply (is_derive_ext (fun z => / (rho * N) * (b * Rz z + a * Iz z))); [intros; unfold Rdiv; apply Rmult_comm|]. apply (is_derive_scal (fun z => b * Rz z + a * Iz z)). apply (is_derive_plus (fun z => b * Rz z) (fun z => a * Iz z)); [apply (is_derive_scal Rz); apply R_der; auto|apply (is_derive_scal Iz); apply I_der].
  - unfold plus. simpl. rewrite <- q_D. replace rho with (2 * a * b) at 1 by apply ab. pose proof a_pos. pose proof b_pos. field. repeat split; try lra; nra.
Qed.
Lemma H_der z : 0 < z -> is_derive (fun z => (b * Rz z - a * Iz z) / rho) z (z ^ 2 / D z).
Proof.
  intros Z. pose proof N_pos as NP. pose proof (q_pos z) as Q1. pose proof (q_neg z) as Q2. evar_last.
  - apply (is_derive_ext (fun z => / rho * (b * Rz z - a * Iz z))); [intros; unfold Rdiv; apply Rmult_comm|]. apply (is_derive_scal (fun z => b * Rz z - a * Iz z)). apply (is_derive_minus (fun z => b * Rz z) (fun z => a * Iz z)); [apply (is_derive_scal Rz); apply R_der; auto|apply (is_derive_scal Iz); apply I_der].
  - unfold minus, plus, opp. simpl. rewrite <- q_D. replace rho with (2 * a * b) at 1 by apply ab. pose proof a_pos. pose proof b_pos. field. repeat split; try lra; nra.
Qed.
(** limits *)
Lemma right_id : filterlim (fun z : R => z) (at_right 0) (locally 0).
Proof. intros P HP. unfold filtermap, at_right, within. generalize HP. apply filter_imp. auto. Qed.
Lemma cont_lim (f g : R -> R) (F : (R -> Prop) -> Prop) {FF : Filter F} (h : R -> R) l : filterlim h F (locally 0) -> continuous g 0 -> g 0 = l -> F (fun x => g (h x) = f x) -> filterlim f F (locally l).
Proof. intros L C <- E. apply (filterlim_ext_loc (fun x => g (h x)) f E). apply (filterlim_comp _ _ _ h g F (locally 0) (locally (g 0))); auto. Qed.
Lemma R_0 : filterlim Rz (at_right 0) (locally 0).
Proof.
  pose proof a_pos as A. pose proof b_pos as B. pose proof N_pos as NP.
  apply (cont_lim Rz (fun z => / 2 * (atan (a * z / (N - b * z)) + atan (a * z / (N + b * z)))) (at_right 0) (fun z => z)).
  - apply right_id.
  - apply ex_derive_cont. auto_derive. repeat split; lra.
  - unfold Rdiv. rewrite !Rmult_0_r, !Rmult_0_l, atan_0. ring.
  - assert (P : 0 < N / b) by (apply Rdiv_pos; auto). generalize (right_lt 0 (N / b) P). apply filter_imp. intros z [Z1 Z2].
    assert (Z3 : 0 < N - b * z). { apply (Rmult_lt_compat_l b) in Z2; auto. replace (b * (N / b)) with N in Z2 by (field; lra). lra. }
    assert (Z4 : 0 < N + b * z) by nra. assert (0 < a * z) by nra.
    unfold Rz. replace (N / (a * z) - b / a) with ((N - b * z) / (a * z)) by (field; lra). replace (N / (a * z) + b / a) with ((N + b * z) / (a * z)) by (field; lra).
    replace (a * z / (N - b * z)) with (/ ((N - b * z) / (a * z))) by (field; lra). replace (a * z / (N + b * z)) with (/ ((N + b * z) / (a * z))) by (field; lra). rewrite !atan_inv by (apply Rdiv_pos; auto). field.
Qed.
Lemma I_0 : filterlim Iz (at_right 0) (locally 0).
Proof.
  pose proof N_pos as NP. apply (cont_lim Iz Iz (at_right 0) (fun z => z)); [apply right_id| | |apply filter_forall; auto].
  - apply ex_derive_cont. exists (/ 4 * ((2 * 0 + 2 * b) / (0 ^ 2 + 2 * b * 0 + N) - (2 * 0 - 2 * b) / (0 ^ 2 - 2 * b * 0 + N))). apply I_der.
  - unfold Iz. replace (0 ^ 2 + 2 * b * 0 + N) with N by ring. replace (0 ^ 2 - 2 * b * 0 + N) with N by ring. ring.
Qed.
Lemma R_inf : filterlim Rz (Rbar_locally p_infty) (locally (PI / 2)).
Proof.
  pose proof a_pos as A. pose proof N_pos as NP.
  apply (cont_lim Rz (fun t => / 2 * (PI - atan (N / a * t - b / a) - atan (N / a * t + b / a))) (Rbar_locally p_infty) (fun z => / z)); [apply lim_inv| | |].
  - apply ex_derive_cont. auto_derive. auto.
  - rewrite Rmult_0_r, Rplus_0_l. replace (0 - b / a) with (- (b / a)) by ring. rewrite atan_opp. field.
  - exists 0. intros z Z. unfold Rz. replace (N / (a * z)) with (N / a * / z) by (field; lra). reflexivity.
Qed.
Lemma I_inf : filterlim Iz (Rbar_locally p_infty) (locally 0).
Proof.
  pose proof N_pos as NP.
  apply (cont_lim Iz (fun t => / 4 * (ln (1 + 2 * b * t + N * t ^ 2) - ln (1 - 2 * b * t + N * t ^ 2))) (Rbar_locally p_infty) (fun z => / z)); [apply lim_inv| | |].
  - apply ex_derive_cont. auto_derive. split; [lra|split; [lra|auto]].
  - replace (1 + 2 * b * 0 + N * 0 ^ 2) with 1 by ring. replace (1 - 2 * b * 0 + N * 0 ^ 2) with 1 by ring. ring.
  - exists 0. intros z Z. unfold Iz. pose proof (q_pos z). pose proof (q_neg z). assert (0 < z ^ 2) by (apply pow_lt; auto).
    replace (z ^ 2 + 2 * b * z + N) with (z ^ 2 * (1 + 2 * b * / z + N * (/ z) ^ 2)) in * by (field; lra). replace (z ^ 2 - 2 * b * z + N) with (z ^ 2 * (1 - 2 * b * / z + N * (/ z) ^ 2)) in * by (field; lra).
    rewrite !ln_mult; auto; try ring; nra.
Qed.
Lemma lim_lin (F : (R -> Prop) -> Prop) {FF : Filter F} (f g : R -> R) (c d e p q : R) : filterlim f F (locally p) -> filterlim g F (locally q) -> filterlim (fun z => (c * f z + d * g z) / e) F (locally ((c * p + d * q) / e)).
Proof.
  intros L1 L2. apply (filterlim_comp_2 f g (fun u v => (c * u + d * v) / e) L1 L2). apply (filterlim_comp_2 (G := locally (c * p)) (H := locally (d * q)) (fun uv => c * fst uv) (fun uv => d * snd uv) (fun u v => (u + v) / e)).
  - apply (filterlim_comp _ _ _ fst (fun u => c * u) _ (locally p)); [apply filterlim_fst|apply (filterlim_scal_r c p)].
  - apply (filterlim_comp _ _ _ snd (fun u => d * u) _ (locally q)); [apply filterlim_snd|apply (filterlim_scal_r d q)].
  - apply (filterlim_comp _ _ _ (fun uv => fst uv + snd uv) (fun u => u / e) _ (locally (c * p + d * q))).
    + apply (filterlim_plus (c * p) (d * q)).
    + apply (filterlim_ext (fun u => / e * u)); [intros; unfold Rdiv; apply Rmult_comm|]. unfold Rdiv. rewrite (Rmult_comm (c * p + d * q) (/ e)). apply (filterlim_scal_r (/ e) (c * p + d * q)).
Qed.
Definition kk := rho * N * 2 / (b * PI).
Lemma kk_pos : 0 < kk. Proof. pose proof N_pos. pose proof b_pos. pose proof PI_RGT_0. unfold kk. apply Rdiv_pos; [|nra]. nra. Qed.
Definition F z := (kk * b / (rho * N)) * Rz z + (kk * a / (rho * N)) * Iz z.
Definition f z := kk / D z.
Lemma f_cont z : continuous f z.
Proof. apply ex_derive_cont. unfold f, D. auto_derive. pose proof (D_pos z). unfold D in *. lra. Qed.
Lemma IFN : integral_fn 0 p_infty f F 1.
Proof.
  pose proof N_pos as NP. pose proof b_pos as B. pose proof PI_RGT_0 as PP. constructor; simpl; auto.
  - intros x _. apply f_cont.
  - intros x _. apply Rdiv_pos; [apply kk_pos|apply D_pos].
  - intros x X%inside_pos. apply (is_derive_ext (fun z => kk * ((b * Rz z + a * Iz z) / (rho * N)))); [intros; unfold F; req; field; lra|]. apply (is_derive_scal (fun z => (b * Rz z + a * Iz z) / (rho * N))). apply G_der; auto.
  - apply (filterlim_ext (fun z => (b * Rz z + a * Iz z) / (rho * N / kk))); [intros; unfold F; pose proof kk_pos; req; field; lra|]. replace 0 with ((b * 0 + a * 0) / (rho * N / kk)) at 2 by (unfold Rdiv; ring). apply (lim_lin (at_right 0) Rz Iz b a _ 0 0 R_0 I_0).
  - apply (filterlim_ext (fun z => (b * Rz z + a * Iz z) / (rho * N / kk))); [intros; unfold F; pose proof kk_pos; req; field; lra|]. replace 1 with ((b * (PI / 2) + a * 0) / (rho * N / kk)) by (unfold kk; field; lra). apply (lim_lin (Rbar_locally p_infty) Rz Iz b a _ _ 0 R_inf I_inf).
Qed.

Definition Mr (n : nat) := match n with O => 1 | S O => kk / (2 * rho) * (PI / 2 + atan rho) | _ => kk * b * PI / (2 * rho) end.
Lemma at_der z : is_derive (fun z => atan ((z ^ 2 - rho ^ 2) / rho)) z (2 * z * rho / D z).
Proof.
  pose proof (D_pos z) as DP. evar_last; [auto_derive; auto|]. unfold D in *.
  replace (1 + ((z * (z * 1) + - (rho * (rho * 1))) * / rho) ^ 2) with (((z ^ 2 - rho ^ 2) ^ 2 + rho ^ 2) / rho ^ 2) by (field; lra).
  replace (1 + ((z ^ 2 + - rho ^ 2) * / rho) ^ 2) with (((z ^ 2 - rho ^ 2) ^ 2 + rho ^ 2) / rho ^ 2) by (field; lra). field. lra.
Qed.
Lemma at_inf : filterlim (fun z => atan ((z ^ 2 - rho ^ 2) / rho)) (Rbar_locally p_infty) (locally (PI / 2)).
Proof.
  apply (cont_lim _ (fun t => PI / 2 - atan (rho * t ^ 2 / (1 - rho ^ 2 * t ^ 2))) (Rbar_locally p_infty) (fun z => / z)); [apply lim_inv| | |].
  - apply ex_derive_cont. auto_derive. lra.
  - replace (rho * 0 ^ 2 / (1 - rho ^ 2 * 0 ^ 2)) with 0 by (field; lra). rewrite atan_0. ring.
  - exists rho. intros z Z. assert (ZP : 0 < z ^ 2 - rho ^ 2) by nra. replace (rho * (/ z) ^ 2 / (1 - rho ^ 2 * (/ z) ^ 2)) with (/ ((z ^ 2 - rho ^ 2) / rho)). 2:{ field. repeat split; nra. } rewrite atan_inv by (apply Rdiv_pos; auto). ring.
Qed.
Lemma at_0 : filterlim (fun z => atan ((z ^ 2 - rho ^ 2) / rho)) (at_right 0) (locally (- atan rho)).
Proof.
  apply (cont_lim _ (fun z => atan ((z ^ 2 - rho ^ 2) / rho)) (at_right 0) (fun z => z)); [apply right_id| | |apply filter_forall; auto].
  - apply ex_derive_cont. auto_derive. auto.
  - rewrite <- atan_opp. f_equal. field. lra.
Qed.
Lemma lim_c (F : (R -> Prop) -> Prop) {FF : Filter F} (c : R) : filterlim (fun _ : R => c) F (locally c). Proof. apply filterlim_const. Qed.
Lemma mom1 : integral_fn 0 p_infty (fun z => z ^ 1 * f z) (fun z => (kk * atan ((z ^ 2 - rho ^ 2) / rho) + kk * atan rho) / (2 * rho)) (Mr 1).
Proof.
  pose proof kk_pos as KP. constructor; simpl; auto.
  - intros x _. apply (continuous_mult (fun z => z * 1) f); [apply ex_derive_cont; auto_derive; auto|apply f_cont].
  - intros x X%inside_pos. rewrite Rmult_1_r. apply Rmult_lt_0_compat; auto. apply Rdiv_pos; [auto|apply D_pos].
  - intros x X%inside_pos. apply (is_derive_ext (fun z => kk / (2 * rho) * (atan ((z ^ 2 - rho ^ 2) / rho) + atan rho))); [intros t; simpl; req; field; lra|]. evar_last; [apply (is_derive_scal (fun z => atan ((z ^ 2 - rho ^ 2) / rho) + atan rho)); apply (is_derive_plus (fun z => atan ((z ^ 2 - rho ^ 2) / rho)) (fun _ => atan rho)); [apply at_der|apply (@is_derive_const R_AbsRing)]|].
    change (@zero R_NormedModule) with 0. change plus with Rplus. unfold f. pose proof (D_pos x). field. lra.
  - pose proof (lim_lin (at_right 0) _ _ kk kk (2 * rho) _ _ at_0 (lim_c (at_right 0) (atan rho))) as L. replace ((kk * - atan rho + kk * atan rho) / (2 * rho)) with 0 in L by (field; lra). exact L.
  - pose proof (lim_lin (Rbar_locally p_infty) _ _ kk kk (2 * rho) _ _ at_inf (lim_c (Rbar_locally p_infty) (atan rho))) as L. replace (kk / (2 * rho) * (PI / 2 + atan rho)) with ((kk * (PI / 2) + kk * atan rho) / (2 * rho)) by (field; lra). exact L.
Qed.
Lemma mom2 : integral_fn 0 p_infty (fun z => z ^ 2 * f z) (fun z => (kk * b * Rz z + (- kk * a) * Iz z) / rho) (Mr 2).
Proof.
  pose proof kk_pos as KP. constructor; simpl; auto.
  - intros x _. apply (continuous_mult (fun z => z * (z * 1)) f); [apply ex_derive_cont; auto_derive; auto|apply f_cont].
  - intros x X%inside_pos. apply Rmult_lt_0_compat; [nra|]. apply Rdiv_pos; [auto|apply D_pos].
  - intros x X%inside_pos. apply (is_derive_ext (fun z => kk * ((b * Rz z - a * Iz z) / rho))); [intros; req; field; lra|]. evar_last; [apply (is_derive_scal (fun z => (b * Rz z - a * Iz z) / rho)); apply H_der; auto|]. unfold f. pose proof (D_pos x). field. lra.
  - pose proof (lim_lin (at_right 0) _ _ (kk * b) (- kk * a) rho _ _ R_0 I_0) as L. replace ((kk * b * 0 + - kk * a * 0) / rho) with 0 in L by (field; lra). exact L.
  - pose proof (lim_lin (Rbar_locally p_infty) _ _ (kk * b) (- kk * a) rho _ _ R_inf I_inf) as L. replace (kk * b * PI / (2 * rho)) with ((kk * b * (PI / 2) + - kk * a * 0) / rho) by (field; lra). exact L.
Qed.
Lemma Mr_ok n : (n <= 2)%nat -> integrates_to (fun z => z ^ n * f z) 0 p_infty (Mr n).
Proof.
  intros L. destruct n as [|[|[|n]]]; [| | |lia].
  - apply (integrates_ext 0 p_infty I f); [intros; simpl; ring|]. apply (if_integral IFN).
  - apply (if_integral mom1).
  - apply (if_integral mom2).
Qed.
Lemma k_val : k_ (Fin rho) = Fin kk.
Proof.
  unfold k_. change vpi with (Fin PI). pose proof PI_RGT_0 as PP. assert (S1 : 0 <= rho ^ 2 + 1) by nra. pose proof sr_pos as SP. assert (S2 : 0 < rho ^ 2 + rho * sqrt (rho ^ 2 + 1)) by (change (sqrt (rho ^ 2 + 1)) with sr; nra). pose proof (sqrt_lt_R0 _ S2) as S3.
  veval. f_equal. change (sqrt (rho ^ 2 + 1)) with sr in *. unfold kk, b, N. replace ((rho * sr + rho ^ 2) / 2) with ((rho ^ 2 + rho * sr) / 2) by field. rewrite sqrt_div_alt by lra. pose proof (sqrt_lt_R0 2 ltac:(lra)). field. lra.
Qed.
(** no third moment *)
Definition K3 := kk / (1 + rho ^ 2).
Lemma K3_pos : 0 < K3. Proof. pose proof kk_pos. unfold K3. apply Rdiv_pos; nra. Qed.
Lemma big_le n x : (3 <= n)%nat -> 1 + rho <= x -> K3 * / x <= x ^ n * f x.
Proof.
  intros L CX. pose proof kk_pos as KP. unfold f. pose proof (D_pos x) as DP. assert (DX : D x <= (1 + rho ^ 2) * x ^ 4). { unfold D. assert (rho ^ 2 <= x ^ 2) by nra. assert (1 <= x ^ 2) by nra. assert ((x ^ 2 - rho ^ 2) ^ 2 <= x ^ 4) by nra. assert (rho ^ 2 <= rho ^ 2 * x ^ 4) by nra. nra. }
  assert (XN : x ^ 3 <= x ^ n) by (apply Rle_pow; [lra|auto]). assert (0 < x ^ 3) by (apply pow_lt; lra).
  apply Rle_trans with (x ^ 3 * (kk / D x)); [|apply Rmult_le_compat_r; [left; apply Rdiv_pos; auto|auto]]. unfold K3.
  replace (kk / (1 + rho ^ 2) * / x) with (kk * (x ^ 3 * / ((1 + rho ^ 2) * x ^ 4))) by (field; split; nra). replace (x ^ 3 * (kk / D x)) with (kk * (x ^ 3 * / D x)) by (field; lra).
  apply Rmult_le_compat_l; [lra|]. apply Rmult_le_compat_l; [lra|]. apply Rinv_le_contravar; auto.
Qed.
End Z.

Section P.
Variables rho s : R.
Hypothesis HR : 0 < rho.
Hypothesis HS : 0 < s.
Notation F := (F rho). Notation f := (f rho). Notation Q := (fun p => inverse_fn 0 p_infty F p).
Lemma ST : std 0 p_infty F f Q. Proof. exact (if_std _ _ _ _ (IFN rho HR)). Qed.
Lemma z0 x : (x - 0) / s = x / s. Proof. field. lra. Qed.
Lemma f_pos z : 0 < f z. Proof. apply Rdiv_pos; [apply kk_pos; auto|apply D_pos; auto]. Qed.
Lemma pdf_val (x : R) : 0 <= x -> pdf x rho s = Fin (f (x / s) / s) /\ logpdf x rho s = Fin (ln (f (x / s) / s)).
Proof.
  intros X. pose proof (f_pos (x / s)) as FP. pose proof (D_pos rho HR (x / s)) as DP. pose proof (kk_pos rho HR) as KP. unfold pdf, logpdf. rewrite !validate_ok by auto. rewrite k_val by auto. unfold D in DP. split.
  - veval. unfold M_rel_breitwigner.validate_rho_scale. unfold P_rel_breitwigner.f, D. reflexivity.
  - assert (W : 0 <= ((x / s + rho) * (x / s - rho) / rho) ^ 2) by apply pow2_ge_0. veval. f_equal. unfold P_rel_breitwigner.f, D.
    replace (1 + ((x / s + rho) * (x / s - rho) / rho) ^ 2) with ((((x / s) ^ 2 - rho ^ 2) ^ 2 + rho ^ 2) * / rho ^ 2) by (field; lra).
    assert (0 < rho ^ 2) by (apply pow_lt; auto). rewrite !ln_div, ln_mult, ln_Rinv; auto; try apply Rinv_0_lt_compat; auto; try apply Rdiv_pos; auto. assert (L2 : ln (rho ^ 2) = 2 * ln rho) by (replace (rho ^ 2) with (rho * rho) by ring; rewrite ln_mult by auto; ring). rewrite L2. ring.
Qed.
Lemma cdf_val (x : R) : 0 < x -> cdf x rho s = Fin (F (x / s)) /\ sf x rho s = Fin (1 - F (x / s)).
Proof.
  intros X. assert (XS : 0 < x / s) by (apply Rdiv_pos; auto). assert (E : cdf x rho s = Fin (F (x / s))).
  { unfold cdf. rewrite validate_ok, k_val by auto. rewrite vdiv_Fin by lra. rewrite im_val by auto. veval. f_equal. unfold P_rel_breitwigner.F. pose proof (N_pos rho HR). field. lra. }
  unfold sf. rewrite E. split; [auto|veval; auto].
Qed.
Lemma cdf_0 : cdf (Fin 0) rho s = Fin 0.
Proof. unfold cdf. rewrite validate_ok, k_val by auto. rewrite vdiv_Fin by lra. replace (0 / s) with 0 by (field; lra). rewrite im_0 by auto. veval. f_equal. field. lra. Qed.
Lemma CERT : cert (fun x => pdf x rho s) (fun x => logpdf x rho s) (fun x => cdf x rho s) (fun x => sf x rho s)
  (fun p => ideal_cdf Q p 0 s) (fun p => ideal_sf Q p 0 s) 0 p_infty (fun x => F ((x - 0) / s)) (fun x => f ((x - 0) / s) / s) (fun p => 0 + s * Q p).
Proof.
  apply (ls_cert 0 p_infty F f Q ST 0 s HS); auto.
  - simpl. f_equal. ring.
  - constructor.
    + intros x [H0 _]. simpl in H0. rewrite z0. apply cdf_val; auto.
    + intros x H0. simpl in H0. unfold sf. destruct H0 as [H0| ->]; [|rewrite cdf_0; split; [auto|veval; f_equal; ring]]. unfold cdf. rewrite !validate_ok by auto. split; veval; [auto|f_equal; ring].
    + intros x [].
    + assert (E : cdf NInf rho s = Fin 0) by (unfold cdf; rewrite validate_ok by auto; reflexivity). unfold sf. rewrite E. split; [auto|veval; f_equal; ring].
    + assert (E : cdf PInf rho s = Fin 1) by (unfold cdf; rewrite validate_ok by auto; reflexivity). unfold sf. rewrite E. split; [auto|veval; f_equal; ring].
  - intros x [H0 _]. simpl in H0. rewrite z0 in *. apply pdf_val. left. apply (Rmult_lt_reg_r (/ s)); [apply Rinv_0_lt_compat; auto|]. rewrite Rmult_0_l. auto.
  - intros x [H0|[]]. simpl in H0. unfold pdf, logpdf. rewrite !validate_ok by auto. veval. auto.
Qed.
Lemma log_all (x : R) : log_of (fun x => pdf x rho s) (fun x => logpdf x rho s) x.
Proof.
  destruct (Rlt_le_dec x 0) as [L|L].
  - right; left. unfold pdf, logpdf. rewrite !validate_ok by auto. split; veval; auto.
  - left. exists (f (x / s) / s). destruct (pdf_val x L) as [E1 E2]. split; [apply Rdiv_pos; [apply f_pos|auto]|auto].
Qed.
Lemma mode_ok : is_mode (fun x => pdf x rho s) (mode rho s).
Proof.
  assert (X : 0 < rho * s) by nra. exists (rho * s), (f (rho * s / s) / s). split; [|split; [apply pdf_val; lra|]].
  - unfold mode. rewrite validate_ok by auto. veval. reflexivity.
  - intros x. destruct (Rlt_le_dec x 0) as [L|L].
    + exists 0. split; [unfold pdf; rewrite validate_ok by auto; vif; reflexivity|]. left. apply Rdiv_pos; [apply f_pos|auto].
    + exists (f (x / s) / s). split; [apply pdf_val; auto|]. apply Rmult_le_compat_r; [left; apply Rinv_0_lt_compat; auto|]. replace (rho * s / s) with rho by (field; lra).
      unfold P_rel_breitwigner.f. apply Rmult_le_compat_l; [left; apply kk_pos; auto|]. apply Rinv_le_contravar; [apply D_pos; auto|]. unfold D. replace (rho ^ 2 - rho ^ 2) with 0 by ring. pose proof (pow2_ge_0 ((x / s) ^ 2 - rho ^ 2)). lra.
Qed.
Lemma elo : Finite 0 = ls 0 s 0. Proof. simpl. f_equal. ring. Qed.
Lemma pdf_in x : inside 0 p_infty x -> pdf (Fin x) rho s = Fin (f ((x - 0) / s) / s).
Proof. intros X%inside_pos. rewrite z0. apply pdf_val; lra. Qed.
Notation LSM lem N := (lem 0 p_infty F f Q ST 0 s (fun x => pdf x rho s) (Finite 0) p_infty HS elo eq_refl pdf_in (Mr rho) N%nat (fun n H => Mr_ok rho HR n H)).
Lemma mean_val : mean rho s = Fin (s * Mr rho 1).
Proof. unfold mean. rewrite validate_ok, k_val by auto. change vpi with (Fin PI). veval. f_equal. unfold Mr. field. lra. Qed.
Lemma m2_val : noncentral_moment 2 rho s = Fin (s ^ 2 * Mr rho 2).
Proof.
  unfold noncentral_moment. rewrite validate_ok, k_val by auto. change vpi with (Fin PI). assert (R2 : 0 < rho ^ 2) by (apply pow_lt; auto). assert (EP : vpown (Fin rho) 2 = Fin (rho ^ 2)) by (veval; reflexivity). rewrite EP. assert (I2 : 0 < 1 / rho ^ 2) by (apply Rdiv_pos; lra).
  rewrite (vdiv_Fin 1 (rho ^ 2)) by lra. rewrite pow1pm1_fin by lra. replace (1 / 2) with (/ 2) by field. rewrite Rpower_sqrt by lra. pose proof (sr_pos rho HR) as SP. pose proof (sr_sq rho) as SQ.
  assert (E : sqrt (1 + 1 / rho ^ 2) = sr rho / rho). { replace (1 + 1 / rho ^ 2) with ((rho ^ 2 + 1) / rho ^ 2) by (field; lra). rewrite sqrt_div_alt by auto. rewrite sqrt_pow2 by lra. reflexivity. }
  rewrite E. replace (sr rho / rho - 1) with ((sr rho - rho) / rho) by (field; lra). assert (T : 0 < (sr rho - rho) / rho) by (apply Rdiv_pos; lra). pose proof (sqrt_lt_R0 _ T) as ST2.
  pose proof (sqrt_lt_R0 2 ltac:(lra)) as S2. assert (RT : 0 < rho * sqrt ((sr rho - rho) / rho)) by nra. veval. f_equal. unfold Mr.
  assert (B : b rho = / (sqrt 2 * sqrt ((sr rho - rho) / rho))). { unfold b, N. rewrite <- sqrt_mult by lra. rewrite <- sqrt_inv. f_equal. assert (K : (sr rho - rho) * (sr rho + rho) = 1) by nra. replace (/ (2 * ((sr rho - rho) / rho))) with (rho * ((sr rho - rho) * (sr rho + rho)) / (2 * (sr rho - rho))) by (rewrite K; field; lra). field. lra. }
  rewrite B. field. repeat split; lra.
Qed.
Lemma mean_ok : mean_is (fun x => pdf x rho s) 0 p_infty (mean rho s).
Proof. apply (LSM lsm_mean 2); auto. rewrite mean_val. f_equal. ring. Qed.
Lemma var_ok : var_is (fun x => pdf x rho s) 0 p_infty (mean rho s) (var rho s).
Proof.
  apply (LSM lsm_var 2); auto; [rewrite mean_val; f_equal; ring|]. unfold var. rewrite validate_ok, m2_val, mean_val by auto. veval. f_equal. unfold mvar. ring.
Qed.
Lemma moment_ok (n : nat) : (n <= 2)%nat -> moment_is (fun x => pdf x rho s) 0 p_infty n (noncentral_moment n rho s).
Proof.
  intros L. apply (scale_moment 0 p_infty F f Q ST s (fun x => pdf x rho s) 0 p_infty HS elo eq_refl pdf_in n (Mr rho n) _ (Mr_ok rho HR n L)).
  destruct n as [|[|[|n]]]; [| | |lia].
  - unfold noncentral_moment. rewrite validate_ok by auto. f_equal. simpl. ring.
  - unfold noncentral_moment. rewrite validate_ok, mean_val by auto. f_equal. simpl. ring.
  - apply m2_val.
Qed.
(** moments of order 3 and more do not exist; the code returns inf *)
Lemma moment_big (n : nat) : (3 <= n)%nat -> noncentral_moment n rho s = PInf /\ forall v, ~ integrates_to (fun t => t ^ n * toR (pdf (Fin t) rho s)) 0 p_infty v.
Proof.
  intros L. split; [unfold noncentral_moment; rewrite validate_ok by auto; destruct n as [|[|[|n]]]; [lia|lia|lia|reflexivity]|]. intros v IV.
  assert (IV' : integrates_to (fun t => t ^ n * (f (t / s) / s)) 0 p_infty v). { revert IV. apply (integrates_ext 0 p_infty I). intros x X%inside_pos. rewrite (proj1 (pdf_val x ltac:(lra))). reflexivity. }
  clear IV. revert IV'. pose proof (K3_pos rho HR) as KP. assert (SN : 0 < s ^ n) by (apply pow_lt; auto). assert (KS : 0 < s ^ n * K3 rho) by nra.
  refine (no_integral 0 p_infty _ (s * (1 + rho)) (fun z => s ^ n * K3 rho * ln z) (fun z => s ^ n * K3 rho * / z) _ _ _ _ v).
  - apply inside_pos. nra.
  - intros x _. apply (continuous_mult (fun z => z ^ n) (fun t => f (t / s) / s)); [apply ex_derive_cont; auto_derive; auto|]. apply ex_derive_cont. unfold P_rel_breitwigner.f, D. pose proof (D_pos rho HR (x / s)) as DP. unfold D in DP. auto_derive. unfold Rdiv in DP. lra.
  - intros x X%inside_pos CX. split; [evar_last; [apply (is_derive_scal ln); apply is_derive_Reals, derivable_pt_lim_ln; auto|reflexivity]|].
    assert (Z : 1 + rho <= x / s). { apply (Rmult_le_reg_l s); auto. replace (s * (x / s)) with x by (field; lra). auto. }
    pose proof (big_le rho HR n (x / s) L Z) as B. apply (Rmult_le_compat_l (s ^ n / s)) in B; [|left; apply Rdiv_pos; auto].
    replace (s ^ n / s * (K3 rho * / (x / s))) with (s ^ n * K3 rho * / x) in B by (field; lra). replace (s ^ n / s * ((x / s) ^ n * f (x / s))) with (x ^ n * (f (x / s) / s)) in B; auto.
    assert (EX : (x / s) ^ n = x ^ n / s ^ n) by (unfold Rdiv; rewrite Rpow_mult_distr, pow_inv; reflexivity). rewrite EX. field. lra.
  - intros M. exists (exp (M / (s ^ n * K3 rho))). intros x X. pose proof (exp_pos (M / (s ^ n * K3 rho))) as EP.
    apply ln_increasing in X; [|apply exp_pos]. rewrite ln_exp in X. apply (Rmult_lt_compat_l _ _ _ KS) in X. replace (s ^ n * K3 rho * (M / (s ^ n * K3 rho))) with M in X by (field; lra). auto.
Qed.
Lemma supp_ok : support rho s = Ok (Fin 0, PInf). Proof. unfold support. apply validate_ok; auto. Qed.
Lemma core' : core (fun x => cdf x rho s) (fun x => sf x rho s) 0 p_infty (fun x => F ((x - 0) / s)). Proof. apply (ce_core _ _ _ _ _ _ _ _ _ _ _ CERT). Qed.
Lemma low (x : R) : x <= 0 -> cdf x rho s = Fin 0 /\ sf x rho s = Fin 1. Proof. intros H. apply (co_below _ _ _ _ _ core' x H). Qed.
Lemma within0 x : inside 0 p_infty x -> SpecBracket.within (Fin 0) PInf x.
Proof. intros [H _]. simpl in H. split; simpl; [lra|auto]. Qed.
Lemma invcdf_ok : solves (fun x => cdf x rho s) (fun fr fuel p => invcdf fr fuel p rho s) 0 p_infty.
Proof.
  apply (solves_ext _ _ (fun fr fuel p => match find_bracket fuel (fun x => cdf x rho s) p (Fin 0) PInf None with Err e => Exc e | Ok x => fr (fun t => vsub (cdf t rho s) p) x end)).
  - intros fr fuel p P. unfold invcdf, validate_p. rewrite validate_ok by auto. veval. reflexivity.
  - apply (cert_call_cdf CERT); [apply low; lra|apply (co_pinf _ _ _ _ _ core')|intros x; apply within0; auto].
Qed.
Lemma invsf_ok : solves (fun x => sf x rho s) (fun fr fuel p => invsf fr fuel p rho s) 0 p_infty.
Proof.
  apply (solves_ext _ _ (fun fr fuel p => match find_bracket fuel (fun x => sf x rho s) p (Fin 0) PInf None with Err e => Exc e | Ok x => fr (fun t => vsub (sf t rho s) p) x end)).
  - intros fr fuel p P. unfold invsf, validate_p. rewrite validate_ok by auto. veval. reflexivity.
  - apply (cert_call_sf CERT); [apply low; lra|apply (co_pinf _ _ _ _ _ core')|intros x; apply within0; auto].
Qed.
End P.
Lemma bad_params findroot fuel rho scale : isnum rho -> isnum scale -> nonpositive rho \/ nonpositive scale ->
  support rho scale = Err ValueError /\
  always_ValueError [fun x => pdf x rho scale; fun x => logpdf x rho scale; fun x => cdf x rho scale; fun x => sf x rho scale; fun p => invcdf findroot fuel p rho scale;
    fun p => invsf findroot fuel p rho scale; fun _ => mean rho scale; fun _ => var rho scale; fun _ => mode rho scale; fun _ => noncentral_moment 2 rho scale].
Proof.
  intros A B C. unfold support, pdf, logpdf, sf, cdf, invcdf, invsf, mean, mode, var, noncentral_moment, validate_p.
  split; [|all_ve; intros x Hx]; rewrite ?validate_bad by auto; try reflexivity; destruct Hx as [v []|]; try (vif; reflexivity); destruct (Rlt_le_dec r 0); destruct (Rlt_le_dec 1 r); vif; reflexivity.
Qed.
(** p outside [0, 1] is rejected by both inverses *)
Lemma bad_p findroot fuel (p rho s : R) : p < 0 \/ 1 < p -> invcdf findroot fuel p rho s = Exc ValueError /\ invsf findroot fuel p rho s = Exc ValueError.
Proof. intros [L|L]; unfold invcdf, invsf, validate_p; split; veval; reflexivity. Qed.
(** C44 *)
Lemma scale_ok rho s : 0 < rho -> 0 < s -> forall k x : R, 0 < k -> cdf (Fin (k * x)) rho (Fin (k * s)) = cdf x rho s /\ sf (Fin (k * x)) rho (Fin (k * s)) = sf x rho s /\
  exists d, pdf x rho s = Fin d /\ pdf (Fin (k * x)) rho (Fin (k * s)) = Fin (d / k).
Proof.
  intros HR HS k x HK. assert (KS : 0 < k * s) by nra. destruct (Rle_lt_dec x 0) as [L|L].
  - destruct (low rho s HR HS x L) as [-> ->]. destruct (low rho (k * s) HR KS (k * x) ltac:(nra)) as [-> ->]. split; [auto|split; [auto|]]. destruct L as [L| ->].
    + exists 0. assert (KX : k * x < 0) by nra. unfold pdf. rewrite !validate_ok by auto. split; [vif; reflexivity|]. vif. f_equal. field. lra.
    + exists (f rho (0 / s) / s). split; [apply pdf_val; lra|]. rewrite (proj1 (pdf_val rho (k * s) HR KS (k * 0) ltac:(nra))). f_equal. replace (k * 0 / (k * s)) with (0 / s) by (field; lra). field. lra.
  - destruct (cdf_val rho s HR HS x L) as [-> ->]. destruct (cdf_val rho (k * s) HR KS (k * x) ltac:(nra)) as [-> ->]. replace (k * x / (k * s)) with (x / s) by (field; lra). split; [auto|split; [auto|]].
    exists (f rho (x / s) / s). split; [apply pdf_val; lra|]. rewrite (proj1 (pdf_val rho (k * s) HR KS (k * x) ltac:(nra))). f_equal. replace (k * x / (k * s)) with (x / s) by (field; lra). field. lra.
Qed.
