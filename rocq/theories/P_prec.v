(** Proofs about M_prec: a static check and its soundness. *)
From Coq Require Import List String ZArith Bool Lia.
From Verif Require Import M_prec.
From Verif Require M_prec_table.
Import ListNotations.
Local Open Scope Z_scope.
Set Bullet Behavior "Strict Subproofs".

(** A lower bound of an expression when dps >= d (and prec >= 1); None = unknown. *)
Fixpoint lb (d : Z) (e : pexp) : option Z :=
  match e with
  | Num n => Some n | Prec => Some 1 | Dps => Some d
  | Add a b => match lb d a, lb d b with Some x, Some y => Some (x + y) | _, _ => None end
  | Mul (Num k) b => match lb d b with Some y => if 0 <=? k then Some (k * y) else None | _ => None end
  | Mul _ _ => None
  | Div a (Num k) => match lb d a with Some x => if 0 <? k then Some (x / k) else None | _ => None end
  | Div _ _ => None
  | Min a b => match lb d a, lb d b with Some x, Some y => Some (Z.min x y) | _, _ => None end
  | Max a b => match lb d a, lb d b with Some x, Some y => Some (Z.max x y) | _, _ => None end
  end.
Definition raises (d : Z) (m : manager) : bool :=
  match m with
  | ExtraDps e => match lb d e with Some x => 1 <=? x | None => false end
  | ExtraPrec e => match lb d e with Some x => 0 <=? x | None => false end
  | WorkPrec (Mul (Num k) Prec) => 1 <=? k
  | WorkPrec _ | WorkDps _ => false
  end.
Fixpoint no_yield (a : stmt) : bool :=
  match a with
  | Seq a b | If a b => no_yield a && no_yield b
  | Loop a => no_yield a
  | With _ a => no_yield a
  | Try a b c => no_yield a && no_yield b && no_yield c
  | Yield => false
  | _ => true
  end.
(** No plain assignment to the precision, and no yield inside a with-statement. *)
Fixpoint tidy (a : stmt) : bool :=
  match a with
  | Seq a b | If a b => tidy a && tidy b
  | Loop a => tidy a
  | With _ a => tidy a && no_yield a
  | Try a b c => tidy a && tidy b && tidy c
  | SetPrec _ | SetDps _ => false
  | _ => true
  end.
Fixpoint lifts (d : Z) (a : stmt) : bool :=
  match a with
  | Seq a b | If a b => lifts d a && lifts d b
  | Loop a => lifts d a
  | With m a => raises d m && lifts d a
  | Try a b c => lifts d a && lifts d b && lifts d c
  | _ => true
  end.

Lemma settled_prec n : settled (set_prec n).
Proof. unfold settled, set_prec. simpl. lia. Qed.
Lemma leave_settled s : settled s -> leave s = s.
Proof. destruct s as [p d]. unfold settled, leave, set_prec. simpl. intros [P ->]. rewrite Z.max_r by lia. reflexivity. Qed.
Ltac divs := repeat match goal with |- context [?a / ?b] => let x := fresh "q" in let H := fresh "H" in pose proof (Z.div_mod a b ltac:(lia)) as H; pose proof (Z.mod_pos_bound a b ltac:(lia)); set (x := a / b) in *; clearbody x end.
Lemma roundtrip n : 1 <= n -> prec_to_dps (dps_to_prec n) = n.
Proof.
  intros N. unfold dps_to_prec. pose proof (Z.div_mod (2 * (n + 1) * c_num + c_den) (2 * c_den) ltac:(unfold c_den; lia)) as H. pose proof (Z.mod_pos_bound (2 * (n + 1) * c_num + c_den) (2 * c_den) ltac:(unfold c_den; lia)) as B.
  set (q := (2 * (n + 1) * c_num + c_den) / (2 * c_den)) in *. clearbody q. set (r := (2 * (n + 1) * c_num + c_den) mod (2 * c_den)) in *. clearbody r.
  assert (1 <= q) by (unfold c_num, c_den in *; lia). rewrite Z.max_r by lia. unfold prec_to_dps.
  assert ((2 * q * c_den + c_num) / (2 * c_num) = n + 1) as ->; [|lia].
  symmetry. apply (Z.div_unique_pos _ _ (n + 1) (2 * q * c_den + c_num - 2 * c_num * (n + 1))); unfold c_num, c_den in *; lia.
Qed.
Lemma settled_dps n : settled (set_dps n).
Proof.
  unfold settled, set_dps. simpl. split; [unfold dps_to_prec; lia|]. destruct (Z_le_gt_dec 1 n) as [L|L]; [rewrite roundtrip; lia|].
  rewrite Z.max_l by lia. unfold dps_to_prec.
  assert ((2 * (n + 1) * c_num + c_den) / (2 * c_den) <= 3). { apply Z.lt_succ_r. apply Z.div_lt_upper_bound; unfold c_num, c_den; lia. }
  set (q := Z.max 1 ((2 * (n + 1) * c_num + c_den) / (2 * c_den))). assert (1 <= q <= 3) by (unfold q; lia). unfold prec_to_dps.
  assert ((2 * q * c_den + c_num) / (2 * c_num) <= 1); [|lia]. apply Z.lt_succ_r. apply Z.div_lt_upper_bound; unfold c_num, c_den; lia.
Qed.
Lemma enter_settled m s : settled (enter m s).
Proof. destruct m; simpl; apply settled_prec || apply settled_dps. Qed.
Lemma dps_pos s : settled s -> 1 <= dps s.
Proof. intros [_ ->]. unfold prec_to_dps. lia. Qed.
Lemma dps_mono p q : p <= q -> prec_to_dps p <= prec_to_dps q.
Proof. intros H. unfold prec_to_dps. assert ((2 * p * c_den + c_num) / (2 * c_num) <= (2 * q * c_den + c_num) / (2 * c_num)); [|lia]. apply Z.div_le_mono; unfold c_num, c_den; lia. Qed.
Lemma extra_up p n : 1 <= p -> 1 <= n -> p <= dps_to_prec (prec_to_dps p + n).
Proof.
  intros P N. unfold prec_to_dps. pose proof (Z.div_mod (2 * p * c_den + c_num) (2 * c_num) ltac:(unfold c_num; lia)) as H. pose proof (Z.mod_pos_bound (2 * p * c_den + c_num) (2 * c_num) ltac:(unfold c_num; lia)) as B.
  set (q := (2 * p * c_den + c_num) / (2 * c_num)) in *. clearbody q. set (r := (2 * p * c_den + c_num) mod (2 * c_num)) in *. clearbody r.
  unfold dps_to_prec. apply Z.le_trans with ((2 * (Z.max 1 (q - 1) + n + 1) * c_num + c_den) / (2 * c_den)); [|lia]. apply Z.div_le_lower_bound; [unfold c_den; lia|].
  unfold c_num, c_den in *. nia.
Qed.
Lemma lb_ok d e : forall x s, 1 <= prec s -> d <= dps s -> lb d e = Some x -> x <= peval s e.
Proof.
  induction e; intros x s P D; simpl.
  - intros [= ->]. lia.
  - intros [= <-]. lia.
  - intros [= <-]. lia.
  - destruct (lb d e1) as [u|]; [|discriminate]. destruct (lb d e2) as [v|]; [|discriminate]. intros [= <-]. specialize (IHe1 u s P D eq_refl). specialize (IHe2 v s P D eq_refl). lia.
  - destruct e1; try discriminate. destruct (lb d e2) as [v|]; [|discriminate]. specialize (IHe2 v s P D eq_refl). destruct (Z.leb_spec 0 n); [|discriminate]. intros [= <-]. simpl. nia.
  - destruct e2; try discriminate. destruct (lb d e1) as [v|]; [|discriminate]. specialize (IHe1 v s P D eq_refl). destruct (Z.ltb_spec 0 n); [|discriminate]. intros [= <-]. simpl. apply Z.div_le_mono; auto.
  - destruct (lb d e1) as [u|]; [|discriminate]. destruct (lb d e2) as [v|]; [|discriminate]. intros [= <-]. specialize (IHe1 u s P D eq_refl). specialize (IHe2 v s P D eq_refl). lia.
  - destruct (lb d e1) as [u|]; [|discriminate]. destruct (lb d e2) as [v|]; [|discriminate]. intros [= <-]. specialize (IHe1 u s P D eq_refl). specialize (IHe2 v s P D eq_refl). lia.
Qed.
Lemma raises_ok d m s : settled s -> d <= dps s -> raises d m = true -> prec s <= prec (enter m s).
Proof.
  intros S D. destruct m; simpl.
  - destruct (lb d e) as [x|] eqn:E; [|discriminate]. intros R. apply Z.leb_le in R. pose proof (lb_ok d e x s (proj1 S) D E). destruct S as [P ->]. apply extra_up; lia.
  - destruct (lb d e) as [x|] eqn:E; [|discriminate]. intros R. apply Z.leb_le in R. pose proof (lb_ok d e x s (proj1 S) D E). lia.
  - destruct e; try discriminate. destruct e1; try discriminate. destruct e2; try discriminate. intros R. apply Z.leb_le in R. destruct S. simpl. nia.
  - discriminate.
Qed.

Section Sound.
Variable P : program.
Hypothesis TIDY : forallb (fun r => tidy (snd r)) P = true.
Lemma body_tidy f b : In (f, b) P -> tidy b = true.
Proof. intros H. rewrite forallb_forall in TIDY. apply (TIDY (f, b) H). Qed.
Scheme exec_ind2 := Minimality for exec Sort Prop with evals_ind2 := Minimality for evals Sort Prop.
Combined Scheme exec_both from exec_ind2, evals_ind2.
Ltac andb := repeat match goal with H : (_ && _)%bool = true |- _ => apply andb_prop in H; destruct H end.
Lemma restored : (forall a s t o s', exec P a s t o s' -> settled s -> tidy a = true -> s' = s) /\
  (forall fs s t s', evals P fs s t s' -> settled s -> s' = s).
Proof.
  apply exec_both; simpl; intros; andb; auto; try discriminate.
  - rewrite (H0 H3 H4) in *. auto.
  - rewrite (H0 H3 H4) in *. auto.
  - rewrite (H0 H3 H4) in *. auto.
  - apply leave_settled; auto.
  - rewrite (H0 H3 H4) in *. auto.
  - rewrite (H0 H5 H6) in *. rewrite (H2 H5 H8) in *. auto.
  - rewrite (H2 H5 (body_tidy _ _ H0)) in *. auto.
  - rewrite leave_settled in * by auto. auto.
Qed.
Variable d : Z.
Hypothesis LIFTS : forallb (fun r => lifts d (snd r)) P = true.
Lemma body_lifts f b : In (f, b) P -> lifts d b = true.
Proof. intros H. rewrite forallb_forall in LIFTS. apply (LIFTS (f, b) H). Qed.
Lemma higher s s' : settled s -> settled s' -> d <= dps s -> prec s <= prec s' -> d <= dps s'.
Proof. intros [_ E] [_ E'] D H. rewrite E'. rewrite E in D. pose proof (dps_mono _ _ H). lia. Qed.
Lemma Forall_up p q l : p <= q -> Forall (fun x => q <= x) l -> Forall (fun x => p <= x) l.
Proof. intros H. apply Forall_impl. intros. lia. Qed.
Lemma never_lower : (forall a s t o s', exec P a s t o s' -> settled s -> d <= dps s -> tidy a = true -> lifts d a = true -> Forall (fun q => prec s <= q) t) /\
  (forall fs s t s', evals P fs s t s' -> settled s -> d <= dps s -> Forall (fun q => prec s <= q) t).
Proof.
  destruct restored as [RE RV].
  apply exec_both; simpl; intros; andb; auto; try discriminate.
  - apply Forall_app. split; auto. rewrite (RE _ _ _ _ _ H H3) in * by auto. auto.
  - apply Forall_app. split; auto. rewrite (RE _ _ _ _ _ H H3) in * by auto. auto.
  - apply Forall_app. split; auto. rewrite (RE _ _ _ _ _ H H3) in * by auto. auto.
  - pose proof (raises_ok d m s H1 H2 H4) as U. apply (Forall_up _ (prec (enter m s))); auto. apply H0; auto using enter_settled. apply (higher s); auto using enter_settled.
  - apply Forall_app. split; auto. rewrite (RE _ _ _ _ _ H H3) in * by auto. auto.
  - rewrite (RE _ _ _ _ _ H H5) in * by auto. rewrite (RE _ _ _ _ _ H1 H5) in * by auto. apply Forall_app. split; auto. apply Forall_app. split; auto.
  - constructor; auto. lia.
  - constructor; [lia|]. rewrite (RE _ _ _ _ _ H1 H5 (body_tidy _ _ H0)) in *. apply Forall_app. split; [|auto]. apply H2; eauto using body_tidy, body_lifts.
  - constructor; [lia|]. rewrite leave_settled in * by auto. destruct H6 as [H6 H6'].
    assert (U : prec s <= prec (set_prec q)) by (simpl; lia). assert (F2 : Forall (fun q => prec s <= q) t2) by (rewrite Z.max_r in H5 by lia; apply H5; [split; auto|rewrite <- H6'; auto]). apply Forall_app. split; [|exact F2]. apply (Forall_up _ (prec (set_prec q))); auto. apply H3; eauto using body_tidy, body_lifts, settled_prec. exact (higher s (set_prec q) (conj H6 H6') (settled_prec q) H7 U).
Qed.
Lemma session_ok fs s t s' : session P fs s t s' -> settled s -> s' = s /\ (d <= dps s -> Forall (fun q => prec s <= q) t).
Proof.
  induction 1 as [s|f body fs s t1 o s1 t2 s2 I E S IH]; intros ST; [split; auto|].
  rewrite (proj1 restored _ _ _ _ _ E ST (body_tidy _ _ I)) in *. destruct (IH ST) as [-> F]. split; auto. intros D. apply Forall_app. split; auto.
  apply (proj1 never_lower _ _ _ _ _ E); eauto using body_tidy, body_lifts.
Qed.
End Sound.

Lemma row f n : nth_error (map fst M_prec_table.package) n = Some f -> exists b, In (f, b) M_prec_table.package.
Proof. intros H. apply nth_error_In in H. apply in_map_iff in H. destruct H as [[g b] [<- I]]. exists b. exact I. Qed.
Lemma package_tidy : forallb (fun r => tidy (snd r)) M_prec_table.package = true. Proof. vm_compute. reflexivity. Qed.
Lemma package_lifts : forallb (fun r => lifts 4 (snd r)) M_prec_table.package = true. Proof. vm_compute. reflexivity. Qed.
Lemma dps4 s : settled s -> 15 <= prec s -> 4 <= dps s.
Proof. intros [_ ->] H. pose proof (dps_mono 15 (prec s) H). assert (prec_to_dps 15 = 4) by (vm_compute; reflexivity). lia. Qed.
