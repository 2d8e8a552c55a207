(** Recurrences of the incomplete gamma and beta functions; integers among the values. *)
From Coq Require Import Reals Lra Lia ZArith Bool List.
From Coquelicot Require Import Coquelicot.
From Verif Require Import Values VTac Spec RLib LimLib DistLib MomLib SFun IntLib GammaLib GammaLib2 M_sfun M_disc SpecInt BinLib DiscLib.
Import ListNotations.
Local Open Scope R_scope.
Set Bullet Behavior "Strict Subproofs".

Lemma der_lin (f g : R -> R) c x df dg : is_derive f x df -> is_derive g x dg -> is_derive (fun x => f x + c * g x) x (df + c * dg).
Proof. intros A B. apply (is_derive_plus f (fun x => c * g x)); auto. apply (is_derive_scal g); auto. Qed.
Lemma der_powexp a x : 0 < x -> is_derive (fun x => Rpower x a * exp (- x)) x (a * Rpower x (a - 1) * exp (- x) - Rpower x a * exp (- x)).
Proof.
  intros H. evar_last; [apply (is_derive_mult (fun t => Rpower t a) (fun t => exp (- t)) x (a * Rpower x (a - 1)) (- exp (- x)))|].
  - apply is_derive_Rpower; lra.
  - auto_derive; auto. ring.
  - intros; apply Rmult_comm.
  - unfold plus, mult; simpl. ring.
Qed.
Lemma lower_gamma_succ a x : 0 < a -> 0 < x -> lower_gamma (a + 1) x = a * lower_gamma a x - Rpower x a * exp (- x).
Proof.
  intros Ha Hx. pose proof (Gamma_if a Ha) as G. pose proof (Gamma_if (a + 1) ltac:(lra)) as G1.
  enough (E : (lower_gamma (a + 1) x + - a * lower_gamma a x) + 1 * (Rpower x a * exp (- x)) = 0) by lra.
  apply (const_lim 0 p_infty (fun x => (lower_gamma (a + 1) x + - a * lower_gamma a x) + 1 * (Rpower x a * exp (- x)))); [exact I| | |apply inside_pos; auto].
  - intros y Y%inpos. evar_last.
    + apply der_lin; [apply der_lin|apply der_powexp; auto]; [apply (if_der _ _ _ _ _ G1)|apply (if_der _ _ _ _ _ G)]; apply inside_pos; auto.
    + unfold gamma_kernel. replace (a + 1 - 1) with a by ring. ring.
  - simpl. eapply flim_val.
    + apply (flim_plus _ _ _ (0 + - a * 0) (1 * (0 * exp (- 0)))).
      * apply (flim_plus _ _ _ 0 (- a * 0)); [apply (if_lo _ _ _ _ _ G1)|]. apply (flim_mult _ (fun _ => - a)); [apply flim_const; typeclasses eauto|apply (if_lo _ _ _ _ _ G)].
      * apply (flim_mult _ (fun _ => 1)); [apply flim_const; typeclasses eauto|]. apply (flim_mult _ (fun x => Rpower x a) (fun x => exp (- x))); [apply lim_Rpower_0; auto|].
        apply (flim_right (fun x => exp (- x))). apply ex_derive_cont. auto_derive; auto.
    + ring.
Qed.

Lemma Bi a b : 0 < a -> 0 < b -> integral_fn 0 1 (beta_kernel a b) (lower_beta a b) (Beta a b).
Proof. intros Ha Hb. rewrite <- Bint_Beta by auto. apply Bint_if; auto. Qed.
Lemma Beta_pos a b : 0 < a -> 0 < b -> 0 < Beta a b.
Proof. intros Ha Hb. unfold Beta. apply Rdiv_lt_0_compat; [apply Rmult_lt_0_compat|]; apply Gamma_pos; lra. Qed.
Lemma Beta_sym a b : Beta a b = Beta b a.
Proof. unfold Beta. rewrite (Rplus_comm b a). unfold Rdiv. ring. Qed.
Lemma Beta_succ a b : 0 < a -> 0 < b -> Beta (a + 1) b = a / (a + b) * Beta a b.
Proof.
  intros Ha Hb. unfold Beta. replace (a + 1 + b) with (a + b + 1) by ring. rewrite !Gamma_succ by lra.
  pose proof (Gamma_pos (a + b) ltac:(lra)). field. lra.
Qed.
Lemma Beta_succ_r a b : 0 < a -> 0 < b -> Beta a (b + 1) = b / (a + b) * Beta a b.
Proof. intros Ha Hb. rewrite Beta_sym, Beta_succ, Beta_sym by auto. rewrite (Rplus_comm b a). reflexivity. Qed.
Lemma upper_beta_eq a b x : 0 < a -> 0 < b -> 0 < x < 1 -> upper_beta a b x = Beta a b - lower_beta a b x.
Proof.
  intros Ha Hb Hx. unfold upper_beta. apply improper_eq; [apply Hx|]. apply (if_from _ _ _ _ _ _ (Bi a b Ha Hb)). apply inside_01; auto.
Qed.
Lemma lb_der a b x : 0 < a -> 0 < b -> 0 < x < 1 -> is_derive (lower_beta a b) x (beta_kernel a b x).
Proof. intros Ha Hb Hx. apply (if_der _ _ _ _ _ (Bi a b Ha Hb)). apply inside_01; auto. Qed.
Lemma lb_lo a b : 0 < a -> 0 < b -> filterlim (lower_beta a b) (at_right 0) (locally 0).
Proof. intros Ha Hb. apply (if_lo _ _ _ _ _ (Bi a b Ha Hb)). Qed.
Lemma lb_range a b x : 0 < a -> 0 < b -> 0 < x < 1 -> 0 < lower_beta a b x < Beta a b.
Proof. intros Ha Hb Hx. apply (if_range (Bi a b Ha Hb)). apply inside_01; auto. Qed.
Lemma bk_up1 a b t : 0 < t < 1 -> beta_kernel (a + 1) b t = t * beta_kernel a b t.
Proof. intros H. rewrite bk_shift, Rpower_1 by lra. reflexivity. Qed.
Lemma bk_up2 a b t : 0 < t < 1 -> beta_kernel a (b + 1) t = (1 - t) * beta_kernel a b t.
Proof. intros H. rewrite bk_shift', Rpower_1 by lra. reflexivity. Qed.
Lemma bk_pow a b t : 0 < t < 1 -> Rpower t a * Rpower (1 - t) b = t * (1 - t) * beta_kernel a b t.
Proof.
  intros H. unfold beta_kernel. replace a with (a - 1 + 1) at 1 by ring. replace b with (b - 1 + 1) at 1 by ring.
  rewrite !Rpower_plus, !Rpower_1 by lra. ring.
Qed.
Lemma lower_beta_split a b x : 0 < a -> 0 < b -> 0 < x < 1 -> lower_beta a b x = lower_beta (a + 1) b x + lower_beta a (b + 1) x.
Proof.
  intros Ha Hb Hx.
  enough (E : (lower_beta a b x + - (1) * lower_beta (a + 1) b x) + - (1) * lower_beta a (b + 1) x = 0) by lra.
  apply (const_lim 0 1 (fun x => (lower_beta a b x + - (1) * lower_beta (a + 1) b x) + - (1) * lower_beta a (b + 1) x)); [exact lt01| | |apply inside_01; auto].
  - intros y Y%in01. evar_last; [apply der_lin; [apply der_lin|]; apply lb_der; lra|].
    rewrite bk_up1, bk_up2 by auto. ring.
  - simpl. eapply flim_val.
    + apply (flim_plus _ _ _ (0 + - (1) * 0) (- (1) * 0)); [apply (flim_plus _ _ _ 0 (- (1) * 0))|];
        repeat (apply (flim_mult _ (fun _ => - (1))); [apply flim_const; typeclasses eauto|]); apply lb_lo; lra.
    + ring.
Qed.
Lemma der_powpow a b x : 0 < x < 1 -> is_derive (fun t => Rpower t a * Rpower (1 - t) b) x ((a * (1 - x) - b * x) * beta_kernel a b x).
Proof.
  intros H. evar_last; [apply (is_derive_mult (fun t => Rpower t a) (fun t => Rpower (1 - t) b) x (a * Rpower x (a - 1)) (- (b * Rpower (1 - x) (b - 1))))|].
  - apply is_derive_Rpower; lra.
  - evar_last; [apply (is_derive_comp (fun u => Rpower u b) (fun t => 1 - t)); [apply is_derive_Rpower; lra|auto_derive; auto]|].
    unfold scal; simpl; unfold mult; simpl. ring.
  - intros; apply Rmult_comm.
  - unfold plus, mult; simpl. unfold beta_kernel.
    replace (Rpower x a) with (x * Rpower x (a - 1)) by (replace a with (a - 1 + 1) at 2 by ring; rewrite Rpower_plus, Rpower_1 by lra; ring).
    replace (Rpower (1 - x) b) with ((1 - x) * Rpower (1 - x) (b - 1)) by (replace b with (b - 1 + 1) at 2 by ring; rewrite Rpower_plus, Rpower_1 by lra; ring).
    ring.
Qed.
Lemma lim_powpow0 a b : 0 < a -> filterlim (fun t => Rpower t a * Rpower (1 - t) b) (at_right 0) (locally 0).
Proof.
  intros Ha. eapply flim_val; [apply flim_mult; [apply at_right_proper_filter|apply lim_Rpower_0; auto|]|apply Rmult_0_l].
  apply (flim_right (fun t => Rpower (1 - t) b)). apply ex_derive_cont. unfold Rpower. auto_derive. lra.
Qed.
Lemma lower_beta_parts a b x : 0 < a -> 0 < b -> 0 < x < 1 ->
  a * lower_beta a (b + 1) x - b * lower_beta (a + 1) b x = Rpower x a * Rpower (1 - x) b.
Proof.
  intros Ha Hb Hx.
  enough (E : (Rpower x a * Rpower (1 - x) b + - a * lower_beta a (b + 1) x) + b * lower_beta (a + 1) b x = 0) by lra.
  apply (const_lim 0 1 (fun x => (Rpower x a * Rpower (1 - x) b + - a * lower_beta a (b + 1) x) + b * lower_beta (a + 1) b x)); [exact lt01| | |apply inside_01; auto].
  - intros y Y%in01. evar_last; [apply der_lin; [apply der_lin|]; [apply der_powpow; auto|..]; apply lb_der; lra|].
    rewrite bk_up1, bk_up2 by auto. ring.
  - simpl. eapply flim_val.
    + apply (flim_plus _ _ _ (0 + - a * 0) (b * 0)); [apply (flim_plus _ _ _ 0 (- a * 0))|].
      * apply lim_powpow0; auto.
      * apply (flim_mult _ (fun _ => - a)); [apply flim_const; typeclasses eauto|apply lb_lo; lra].
      * apply (flim_mult _ (fun _ => b)); [apply flim_const; typeclasses eauto|apply lb_lo; lra].
    + ring.
Qed.
Lemma lower_beta_1 a x : 0 < a -> 0 < x < 1 -> lower_beta a 1 x = Rpower x a / a.
Proof.
  intros Ha Hx. enough (E : lower_beta a 1 x + - / a * Rpower x a = 0) by (unfold Rdiv; lra).
  apply (const_lim 0 1 (fun x => lower_beta a 1 x + - / a * Rpower x a)); [exact lt01| | |apply inside_01; auto].
  - intros y Y%in01. evar_last; [apply der_lin; [apply lb_der; lra|apply is_derive_Rpower; lra]|].
    unfold beta_kernel. replace (1 - 1) with 0 by ring. rewrite Rpower_O by lra. field. lra.
  - simpl. eapply flim_val; [apply (flim_plus _ _ _ 0 (- / a * 0)); [apply lb_lo; lra|apply (flim_mult _ (fun _ => - / a)); [apply flim_const; typeclasses eauto|apply lim_Rpower_0; auto]]|ring].
Qed.

(** The regularised function. *)
Definition Ireg (a b x : R) : R := lower_beta a b x / Beta a b.
Lemma Ireg_range a b x : 0 < a -> 0 < b -> 0 < x < 1 -> 0 < Ireg a b x < 1.
Proof.
  intros Ha Hb Hx. pose proof (lb_range a b x Ha Hb Hx). pose proof (Beta_pos a b Ha Hb). unfold Ireg. split.
  - apply Rdiv_lt_0_compat; lra.
  - apply Rlt_div_l; lra.
Qed.
Lemma Ireg_up1 a b x : 0 < a -> 0 < b -> 0 < x < 1 -> Ireg (a + 1) b x = Ireg a b x - Rpower x a * Rpower (1 - x) b / (a * Beta a b).
Proof.
  intros Ha Hb Hx. pose proof (lower_beta_split a b x Ha Hb Hx) as S. pose proof (lower_beta_parts a b x Ha Hb Hx) as P.
  pose proof (Beta_pos a b Ha Hb). unfold Ireg. rewrite Beta_succ by auto.
  assert (E : lower_beta (a + 1) b x = (a * lower_beta a b x - Rpower x a * Rpower (1 - x) b) / (a + b)).
  { apply (Rmult_eq_reg_l (a + b)); [|lra]. field_simplify; [|lra]. nra. }
  rewrite E. field. lra.
Qed.
Lemma Ireg_up2 a b x : 0 < a -> 0 < b -> 0 < x < 1 -> Ireg a (b + 1) x = Ireg a b x + Rpower x a * Rpower (1 - x) b / (b * Beta a b).
Proof.
  intros Ha Hb Hx. pose proof (lower_beta_split a b x Ha Hb Hx) as S. pose proof (lower_beta_parts a b x Ha Hb Hx) as P.
  pose proof (Beta_pos a b Ha Hb). unfold Ireg. rewrite Beta_succ_r by auto.
  assert (E : lower_beta a (b + 1) x = (b * lower_beta a b x + Rpower x a * Rpower (1 - x) b) / (a + b)).
  { apply (Rmult_eq_reg_l (a + b)); [|lra]. field_simplify; [|lra]. nra. }
  rewrite E. field. lra.
Qed.
Lemma Beta_1 a : 0 < a -> Beta a 1 = / a.
Proof. intros Ha. rewrite Beta_sym, <- Bint_Beta by lra. apply Bint_1; auto. Qed.
Lemma Ireg_1 a x : 0 < a -> 0 < x < 1 -> Ireg a 1 x = Rpower x a.
Proof. intros Ha Hx. unfold Ireg. rewrite lower_beta_1, Beta_1 by auto. field. lra. Qed.
Lemma lower_beta_le a b x : 1 <= a -> 0 < b -> 0 < x < 1 -> lower_beta a b x <= Rpower x (a - 1) * lower_beta 1 b x.
Proof.
  intros Ha Hb Hx. assert (IX : inside 0 1 x) by (apply inside_01; auto).
  assert (L0 : Rbar_lt 0 x) by (simpl; lra).
  apply (integrates_le 0 x (beta_kernel a b) (fun t => Rpower x (a - 1) * beta_kernel 1 b t)); auto.
  - intros t [T1 T2]. simpl in T1, T2. unfold beta_kernel. replace (1 - 1) with 0 by ring. rewrite Rpower_O by lra. rewrite Rmult_1_l.
    apply Rmult_le_compat_r; [left; apply exp_pos|]. apply Rle_Rpower_l; lra.
  - apply (if_upto (Bi a b ltac:(lra) Hb)); auto.
  - apply integrates_scal. apply (if_upto (Bi 1 b ltac:(lra) Hb)); auto.
Qed.

(** Integers. *)
Lemma Int_part_IZR z : Int_part (IZR z) = z.
Proof. unfold Int_part. rewrite <- (tech_up (IZR z) (z + 1)); [lia| |]; rewrite plus_IZR; lra. Qed.
Lemma Int_part_INR n : Int_part (INR n) = Z.of_nat n.
Proof. rewrite INR_IZR_INZ. apply Int_part_IZR. Qed.
Lemma is_intb_IZR z : is_intb (IZR z) = true.
Proof. unfold is_intb, Reqb. rewrite Int_part_IZR. destruct (Req_EM_T _ _); congruence. Qed.
Lemma is_intb_INR n : is_intb (INR n) = true.
Proof. rewrite INR_IZR_INZ. apply is_intb_IZR. Qed.
Lemma is_intb_true r : is_intb r = true -> r = IZR (Int_part r).
Proof. unfold is_intb, Reqb. destruct (Req_EM_T _ _); congruence. Qed.
Lemma vint_IZR z : vint (Fin (IZR z)) = Fin (IZR z).
Proof. unfold vint. destruct (Rltb _ _). - rewrite <- opp_IZR, Int_part_IZR. f_equal. f_equal. lia. - rewrite Int_part_IZR. reflexivity. Qed.
Lemma vint_INR n : vint (Fin (INR n)) = Fin (INR n).
Proof. rewrite INR_IZR_INZ. apply vint_IZR. Qed.
Lemma vceil_spec x : exists z, vceil (Fin x) = Fin (IZR z) /\ x <= IZR z < x + 1.
Proof.
  exists (- Int_part (- x))%Z. split; [reflexivity|]. destruct (base_Int_part (- x)) as [A B]. rewrite opp_IZR. lra.
Qed.
Lemma vfloor_spec x : exists z, vfloor (Fin x) = Fin (IZR z) /\ x - 1 < IZR z <= x.
Proof. exists (Int_part x). split; [reflexivity|]. destruct (base_Int_part x) as [A B]. lra. Qed.
Lemma polb_false x : 0 < x -> polb x = false.
Proof. intros H. unfold polb, Rleb. destruct (is_intb x); auto. destruct (Rle_dec x 0); auto. lra. Qed.
Lemma polb_IZR z : polb (IZR z) = Z.leb z 0.
Proof.
  unfold polb, Rleb. rewrite is_intb_IZR. destruct (Rle_dec (IZR z) 0) as [H|H].
  - symmetry. apply Z.leb_le. apply le_IZR. exact H.
  - symmetry. apply Z.leb_gt. apply lt_IZR. lra.
Qed.
Lemma choose_Gamma n k : (k <= n)%nat -> INR (choose n k) = binomR (INR n) (INR k).
Proof.
  intros H. unfold binomR. replace (INR n - INR k + 1) with (INR (n - k) + 1) by (rewrite minus_INR; auto).
  rewrite !Gamma_fact. pose proof (choose_fact n k H) as E. apply (f_equal INR) in E. rewrite !mult_INR in E.
  pose proof (INR_fact_neq_0 k). pose proof (INR_fact_neq_0 (n - k)). rewrite <- E. field. auto.
Qed.
Lemma vbinomial_nat n (k : Z) : vbinomial (Fin (INR n)) (Fin (IZR k)) = Fin (if Z.leb 0 k then INR (choose n (Z.to_nat k)) else 0).
Proof.
  unfold vbinomial. pose proof (pos_INR n). 
  assert (Rltb 0 (INR n + 1) = true) as -> by (unfold Rltb; destruct (Rlt_dec _ _); auto; lra).
  replace (IZR k + 1) with (IZR (k + 1)) by (rewrite plus_IZR; lra).
  replace (INR n - IZR k + 1) with (IZR (Z.of_nat n - k + 1)) by (rewrite plus_IZR, minus_IZR, <- INR_IZR_INZ; lra).
  rewrite !polb_IZR. destruct (Z.leb_spec (k + 1) 0) as [A|A].
  - destruct (Z.leb_spec 0 k); [lia|reflexivity].
  - destruct (Z.leb_spec 0 k); [|lia]. destruct (Z.leb_spec (Z.of_nat n - k + 1) 0) as [B|B].
    + rewrite choose_gt by lia. reflexivity.
    + assert (0 < IZR (k + 1)) by (apply IZR_lt; lia). assert (0 < IZR (Z.of_nat n - k + 1)) by (apply IZR_lt; lia).
      unfold Rltb. destruct (Rlt_dec _ _); [|lra]. destruct (Rlt_dec _ _); [|lra].
      rewrite choose_Gamma by lia. rewrite (INR_IZR_INZ (Z.to_nat k)), Z2Nat.id by lia. reflexivity.
Qed.
Lemma vbinomial_choose n k : vbinomial (Fin (INR n)) (Fin (INR k)) = Fin (INR (choose n k)).
Proof. rewrite (INR_IZR_INZ k), vbinomial_nat. destruct (Z.leb_spec 0 (Z.of_nat k)); [|lia]. rewrite Nat2Z.id. reflexivity. Qed.
Lemma Rpower_INR n x : 0 < x -> Rpower x (INR n) = x ^ n.
Proof. intros H. apply Rpower_pow; auto. Qed.
Lemma lower_beta_1l b x : 0 < b -> 0 < x < 1 -> lower_beta 1 b x = (1 - Rpower (1 - x) b) / b.
Proof.
  intros Hb Hx. enough (E : lower_beta 1 b x + / b * (Rpower (1 - x) b - 1) = 0) by (unfold Rdiv; lra).
  assert (D : forall y, y < 1 -> is_derive (fun x => Rpower (1 - x) b - 1) y (- (b * Rpower (1 - y) (b - 1)))).
  { intros y Y. evar_last; [apply (is_derive_minus (fun x => Rpower (1 - x) b) (fun _ => 1)); [apply (is_derive_comp (fun u => Rpower u b) (fun x => 1 - x)); [apply is_derive_Rpower; lra|auto_derive; auto; reflexivity]|apply @is_derive_const]|].
    unfold minus, plus, opp, zero, scal; simpl; unfold mult; simpl. ring. }
  apply (const_lim 0 1 (fun x => lower_beta 1 b x + / b * (Rpower (1 - x) b - 1))); [exact lt01| | |apply inside_01; auto].
  - intros y Y%in01. evar_last; [apply der_lin; [apply lb_der; lra|apply D; lra]|].
    unfold beta_kernel. replace (1 - 1) with 0 by ring. rewrite Rpower_O by lra. field. lra.
  - simpl. eapply flim_val; [apply (flim_plus _ _ _ 0 (/ b * (Rpower (1 - 0) b - 1))); [apply lb_lo; lra|apply (flim_mult _ (fun _ => / b)); [apply flim_const; typeclasses eauto|]]|].
    + apply (flim_right (fun x => Rpower (1 - x) b - 1)). apply ex_derive_cont. eexists. apply D. lra.
    + rewrite Rminus_0_r. unfold Rpower. rewrite ln_1, Rmult_0_r, exp_0. ring.
Qed.
