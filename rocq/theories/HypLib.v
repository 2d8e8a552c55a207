(** The second moment of the hyperbolic secant law, from logarithmic moments of the arcsine law. *)
From Coq Require Import Reals Lra Lia List.
From Coquelicot Require Import Coquelicot.
From Verif Require Import Values VTac Spec RLib LimLib DistLib DistLS IntLib SubLib MomLib SFun GammaLib GammaLib3 GammaLib4 IncLib LogMom BetaLib TrigLib LogisLib.
Local Open Scope R_scope.
Set Bullet Behavior "Strict Subproofs".

Section B.
Variables a b : R.
Hypothesis HA : 0 < a.
Hypothesis HB : 0 < b.
Notation bf := (bf a b).
Notation bM := (bM a b).
Lemma bf_shift h z : 0 < a + h -> 0 < z < 1 -> Rpower z h * bf z = bM h 0 * BetaLib.bf (a + h) b z.
Proof.
  intros H Z. pose proof (Beta_pos a b HA HB). pose proof (Beta_pos (a + h) b H HB). unfold BetaLib.bf, BetaLib.bM, beta_kernel. rewrite Rplus_0_r.
  replace (a + h - 1) with (h + (a - 1)) by ring. rewrite Rpower_plus. field. lra.
Qed.
Lemma neg_ln_le' e z : 0 < e -> 0 < z -> - ln z < / e * Rpower z (- e).
Proof.
  intros E Z. pose proof (ln_pow_le z e Z E) as P. assert (0 < / e) by (apply Rinv_0_lt_compat; auto). unfold Rdiv in P. lra.
Qed.
Lemma gmom_1 h : - (a / 4) <= h <= a / 4 -> exists F, integral_fn 0 1 (fun x => Rpower x h * (- ln (1 - x) * bf x)) F (bM h 0 * (digamma (a + b + h) - digamma b)).
Proof.
  intros H. pose proof (Beta_pos a b HA HB) as BP.
  pose proof (if_scal _ _ _ _ _ (/ (b / 2) / Beta a b) ltac:(apply Rdiv_pos; [apply Rinv_0_lt_compat; lra|auto]) (Bi (a + h) (b / 2) ltac:(lra) ltac:(lra))) as B.
  destruct (if_dom 0 1 (fun x => Rpower x h * (- ln (1 - x) * bf x)) _ _ _ B) as [F [v I]].
  - intros z Z%in01. apply (continuous_mult (fun x => Rpower x h) (fun x => - ln (1 - x) * bf x)); [apply ex_derive_cont; unfold Rpower; auto_derive; lra|].
    apply (continuous_mult (fun x => - ln (1 - x)) bf); [apply ex_derive_cont; auto_derive; lra|apply bf_cont; auto].
  - intros z Z%in01. pose proof (neg_ln_pos (1 - z) ltac:(lra)) as P1. pose proof (neg_ln_le' (b / 2) (1 - z) ltac:(lra) ltac:(lra)) as P2. pose proof (Rpower_pos z h). pose proof (bf_pos a b HA HB z) as P3.
    split; [apply Rmult_lt_0_compat; auto; apply Rmult_lt_0_compat; auto|].
    replace (/ (b / 2) / Beta a b * beta_kernel (a + h) (b / 2) z) with (Rpower z h * (/ (b / 2) * Rpower (1 - z) (- (b / 2)) * bf z)).
    + apply Rmult_le_compat_l; [lra|]. apply Rmult_le_compat_r; lra.
    + unfold BetaLib.bf, beta_kernel. replace (a + h - 1) with (h + (a - 1)) by ring. replace (b / 2 - 1) with (- (b / 2) + (b - 1)) by field. rewrite !Rpower_plus. field. lra.
  - exists F. replace (bM h 0 * (digamma (a + b + h) - digamma b)) with v; auto.
    apply (integrates_unique 0 1 lt01 (fun x => Rpower x h * (- ln (1 - x) * bf x))); [apply (if_integral I)|].
    pose proof (integrates_scal _ _ (- bM h 0) _ _ (b_ln1 (a + h) b ltac:(lra) HB)) as J.
    replace (a + h + b) with (a + b + h) in J by ring.
    replace (- bM h 0 * (digamma b - digamma (a + b + h))) with (bM h 0 * (digamma (a + b + h) - digamma b)) in J by ring.
    revert J. apply (integrates_ext 0 1 lt01). intros z Z%in01. replace (Rpower z h * (- ln (1 - z) * bf z)) with (- ln (1 - z) * (Rpower z h * bf z)) by ring. rewrite bf_shift by lra. ring.
Qed.
Lemma gmom_0 h : - (a / 4) <= h <= a / 4 -> exists F, integral_fn 0 1 (fun x => Rpower x h * (- ln x * bf x)) F (bM h 0 * (digamma (a + b + h) - digamma (a + h))).
Proof.
  intros H. pose proof (Beta_pos a b HA HB) as BP.
  pose proof (if_scal _ _ _ _ _ (/ (a / 2) / Beta a b) ltac:(apply Rdiv_pos; [apply Rinv_0_lt_compat; lra|auto]) (Bi (a / 2 + h) b ltac:(lra) ltac:(lra))) as B.
  destruct (if_dom 0 1 (fun x => Rpower x h * (- ln x * bf x)) _ _ _ B) as [F [v I]].
  - intros z Z%in01. apply (continuous_mult (fun x => Rpower x h) (fun x => - ln x * bf x)); [apply ex_derive_cont; unfold Rpower; auto_derive; lra|].
    apply (continuous_mult (fun x => - ln x) bf); [apply ex_derive_cont; auto_derive; lra|apply bf_cont; auto].
  - intros z Z%in01. pose proof (neg_ln_pos z ltac:(lra)) as P1. pose proof (neg_ln_le' (a / 2) z ltac:(lra) ltac:(lra)) as P2. pose proof (Rpower_pos z h). pose proof (bf_pos a b HA HB z) as P3.
    split; [apply Rmult_lt_0_compat; auto; apply Rmult_lt_0_compat; auto|].
    replace (/ (a / 2) / Beta a b * beta_kernel (a / 2 + h) b z) with (Rpower z h * (/ (a / 2) * Rpower z (- (a / 2)) * bf z)).
    + apply Rmult_le_compat_l; [lra|]. apply Rmult_le_compat_r; lra.
    + unfold BetaLib.bf, beta_kernel. replace (a / 2 + h - 1) with (h + (- (a / 2) + (a - 1))) by field. rewrite !Rpower_plus. field. lra.
  - exists F. replace (bM h 0 * (digamma (a + b + h) - digamma (a + h))) with v; auto.
    apply (integrates_unique 0 1 lt01 (fun x => Rpower x h * (- ln x * bf x))); [apply (if_integral I)|].
    pose proof (integrates_scal _ _ (- bM h 0) _ _ (b_ln (a + h) b ltac:(lra) HB)) as J.
    replace (a + h + b) with (a + b + h) in J by ring.
    replace (- bM h 0 * (digamma (a + h) - digamma (a + b + h))) with (bM h 0 * (digamma (a + b + h) - digamma (a + h))) in J by ring.
    revert J. apply (integrates_ext 0 1 lt01). intros z Z%in01. replace (Rpower z h * (- ln z * bf z)) with (- ln z * (Rpower z h * bf z)) by ring. rewrite bf_shift by lra. ring.
Qed.
Lemma dig_sh c : 0 < c -> is_derive (fun h => digamma (c + h)) 0 (trigamma c).
Proof.
  intros C. evar_last; [apply (is_derive_comp digamma (fun h => c + h) 0 (trigamma c) 1); [rewrite Rplus_0_r; apply digamma_trigamma; auto|auto_derive; auto; ring]|].
  unfold scal; simpl; unfold mult; simpl. ring.
Qed.
Lemma bM00 : bM 0 0 = 1.
Proof. unfold BetaLib.bM. rewrite !Rplus_0_r. pose proof (Beta_pos a b HA HB). field. lra. Qed.
Lemma glnln1 : integrates_to (fun x => ln x * (- ln (1 - x) * bf x)) 0 1 ((digamma a - digamma (a + b)) * (digamma (a + b) - digamma b) + trigamma (a + b)).
Proof.
  apply (log_mom 0 1 (fun x => - ln (1 - x) * bf x) (fun x => x) (fun h => bM h 0 * (digamma (a + b + h) - digamma b)) _ (a / 4)); [lra| |apply gmom_1|].
  - intros z Z%in01. split; [apply Rmult_lt_0_compat; [apply neg_ln_pos; lra|apply bf_pos; auto]|]. split; [|split; [lra|apply continuous_id]].
    apply (continuous_mult (fun x => - ln (1 - x)) bf); [apply ex_derive_cont; auto_derive; lra|apply bf_cont; auto].
  - evar_last; [apply (is_derive_mult (fun h => bM h 0) (fun h => digamma (a + b + h) - digamma b) 0 (digamma a - digamma (a + b)) (trigamma (a + b))); [apply bM_der; auto| |intros; apply Rmult_comm]|].
    + evar_last; [apply (is_derive_minus (fun h => digamma (a + b + h)) (fun _ => digamma b)); [apply dig_sh; lra|apply is_derive_const]|]. unfold minus, plus, opp, zero; simpl. ring.
    + unfold plus, mult; simpl. rewrite bM00, Rplus_0_r. ring.
Qed.
Lemma glnln : integrates_to (fun x => ln x * (- ln x * bf x)) 0 1 ((digamma a - digamma (a + b)) * (digamma (a + b) - digamma a) + (trigamma (a + b) - trigamma a)).
Proof.
  apply (log_mom 0 1 (fun x => - ln x * bf x) (fun x => x) (fun h => bM h 0 * (digamma (a + b + h) - digamma (a + h))) _ (a / 4)); [lra| |apply gmom_0|].
  - intros z Z%in01. split; [apply Rmult_lt_0_compat; [apply neg_ln_pos; lra|apply bf_pos; auto]|]. split; [|split; [lra|apply continuous_id]].
    apply (continuous_mult (fun x => - ln x) bf); [apply ex_derive_cont; auto_derive; lra|apply bf_cont; auto].
  - evar_last; [apply (is_derive_mult (fun h => bM h 0) (fun h => digamma (a + b + h) - digamma (a + h)) 0 (digamma a - digamma (a + b)) (trigamma (a + b) - trigamma a)); [apply bM_der; auto| |intros; apply Rmult_comm]|].
    + apply (is_derive_minus (fun h => digamma (a + b + h)) (fun h => digamma (a + h))); apply dig_sh; lra.
    + unfold plus, mult; simpl. rewrite bM00, !Rplus_0_r. ring.
Qed.
End B.
Lemma half_pos : 0 < 1 / 2. Proof. lra. Qed.
Notation hb := (bf (1 / 2) (1 / 2)).
Lemma hb_sym z : 0 < z < 1 -> hb (1 - z) = hb z.
Proof. intros Z. unfold bf, beta_kernel. replace (1 - (1 - z)) with z by ring. f_equal. ring. Qed.
Lemma hln1 : integrates_to (fun x => ln (1 - x) * (- ln (1 - x) * hb x)) 0 1 ((digamma (1 / 2) - digamma (1 / 2 + 1 / 2)) * (digamma (1 / 2 + 1 / 2) - digamma (1 / 2)) + (trigamma (1 / 2 + 1 / 2) - trigamma (1 / 2))).
Proof.
  assert (DEC : forall x, inside 0 1 x -> (fun _ : R => -1) x < 0) by (intros; lra).
  assert (C : forall y, inside 0 1 y -> continuous (fun x => ln x * (- ln x * hb x)) y).
  { intros y Y%in01. apply (continuous_mult ln (fun x => - ln x * hb x)); [apply ex_derive_cont; auto_derive; lra|].
    apply (continuous_mult (fun x => - ln x) hb); [apply ex_derive_cont; auto_derive; lra|apply bf_cont; auto using half_pos]. }
  pose proof (sub_integral_dec RSB DEC _ _ C (glnln (1 / 2) (1 / 2) half_pos half_pos)) as J. revert J.
  apply (integrates_ext 0 1 lt01). intros x X%in01. cbv beta. rewrite hb_sym by auto. ring.
Qed.
Lemma hlogit2 : integrates_to (fun u => (ln u - ln (1 - u)) ^ 2 * hb u) 0 1 (PI ^ 2).
Proof.
  pose proof (glnln (1 / 2) (1 / 2) half_pos half_pos) as I0. pose proof hln1 as I1. pose proof (glnln1 (1 / 2) (1 / 2) half_pos half_pos) as I2.
  pose proof (integrates_plus _ _ _ _ _ _ (integrates_scal _ _ (-1) _ _ I0) (integrates_plus _ _ _ _ _ _ (integrates_scal _ _ (-1) _ _ I1) (integrates_scal _ _ 2 _ _ I2))) as J.
  match type of J with integrates_to _ _ _ ?v => replace v with (PI ^ 2) in J by (rewrite !trigamma_half; field) end.
  revert J. apply (integrates_ext 0 1 lt01). intros; ring.
Qed.
