(** Likelihoods of integer data with repetition counts. *)
From Coq Require Import Reals Lra Lia List ZArith Arith Bool.
From Verif Require Import Values VTac Spec SpecStat SpecEst SpecDisc LLib XLib PLib DiscLib IncLib M_common M_disc.
From Verif Require M_basic.
Import ListNotations.
Local Open Scope R_scope.
Set Bullet Behavior "Strict Subproofs".

Lemma map_repeat {A B} (f : A -> B) x n : map f (repeat x n) = repeat (f x) n.
Proof. induction n as [|n IH]; simpl; [|rewrite IH]; reflexivity. Qed.
Definition wsum (h : nat -> R) (xs cs : list nat) : R := sum (map (fun '(x, c) => INR c * h x) (combine xs cs)).
Lemma sum_app l l' : sum (l ++ l') = sum l + sum l'.
Proof. apply rsum_app. Qed.
Lemma sum_repeat (x : R) n : sum (repeat x n) = INR n * x.
Proof. induction n as [|n IH]; [simpl; lra|]. rewrite S_INR. simpl. fold (sum (repeat x n)). lra. Qed.
Lemma wsum_expand h xs : forall cs, wsum h xs cs = sum (map h (expand xs cs)).
Proof.
  unfold wsum, expand. induction xs as [|x xs IH]; intros [|c cs]; try reflexivity.
  simpl combine. simpl concat. rewrite map_app, sum_app, <- IH. rewrite map_repeat, sum_repeat. reflexivity.
Qed.
Lemma expand_ones {A} (xs : list A) : expand xs (repeat 1%nat (length xs)) = xs.
Proof. unfold expand. induction xs as [|x xs IH]; auto. simpl. rewrite IH. reflexivity. Qed.
Lemma expand_in {A} (xs : list A) x : forall cs, In x (expand xs cs) -> In x xs.
Proof.
  unfold expand. induction xs as [|y xs IH]; intros [|c cs]; simpl; try tauto. rewrite in_app_iff. intros [H|H]; [|right; eapply IH; exact H].
  apply repeat_spec in H. auto.
Qed.
Lemma wsum_ext h h' xs cs : (forall x, In x xs -> h x = h' x) -> wsum h xs cs = wsum h' xs cs.
Proof. intros H. rewrite !wsum_expand. apply rsum_ext. intros x X. apply H. eapply expand_in; eauto. Qed.
Lemma wsum_plus f g xs cs : wsum (fun x => f x + g x) xs cs = wsum f xs cs + wsum g xs cs.
Proof. rewrite !wsum_expand. apply rsum_plus. Qed.
Lemma wsum_scal a f xs cs : wsum (fun x => a * f x) xs cs = a * wsum f xs cs.
Proof. rewrite !wsum_expand. apply rsum_scal. Qed.
Lemma wsum_nonneg f xs cs : (forall x, In x xs -> 0 <= f x) -> 0 <= wsum f xs cs.
Proof. intros H. rewrite wsum_expand. apply rsum_nonneg. intros x X. apply H. eapply expand_in; eauto. Qed.
(** Total count. *)
Definition wtot (xs cs : list nat) : R := wsum (fun _ => 1) xs cs.
Lemma wsum_const a xs cs : wsum (fun _ => a) xs cs = a * wtot xs cs.
Proof. unfold wtot. rewrite <- wsum_scal. apply wsum_ext. intros. ring. Qed.
Lemma wtot_len xs cs : wtot xs cs = INR (length (expand xs cs)).
Proof. unfold wtot. rewrite wsum_expand. induction (expand xs cs) as [|x l IH]; [reflexivity|]. simpl length. rewrite S_INR. simpl. fold (sum (map (fun _ : nat => 1) l)). lra. Qed.
Lemma wtot_sum xs : forall cs, length cs = length xs -> wtot xs cs = sum (map INR cs).
Proof. unfold wtot, wsum. induction xs as [|x xs IH]; intros [|c cs] H; try discriminate; [reflexivity|]. simpl. f_equal; [ring|]. apply IH. simpl in H. lia. Qed.

(** The sum over zip(x, counts). *)
Lemma zip_sum (f : val -> val) h xs : forall cs, (forall x, In x xs -> f (vN x) = Fin (h x)) ->
  vfsum (map (fun '(t, c) => vmul c (f t)) (combine (vNs xs) (vNs cs))) = Fin (wsum h xs cs).
Proof.
  unfold wsum. induction xs as [|x xs IH]; intros [|c cs] H; try reflexivity. simpl combine. cbn [map vfsum].
  rewrite IH by (intros; apply H; simpl; auto). rewrite H by (simpl; auto). reflexivity.
Qed.
Lemma ones_vN n : repeat (Fin 1) n = vNs (repeat 1%nat n).
Proof. unfold vNs. rewrite map_repeat. reflexivity. Qed.
Lemma nat_ok n : cor (cne (vN n) (vint (vN n))) (clt (vN n) (Fin 0)) = CB false.
Proof.
  unfold vN. rewrite vint_INR. pose proof (pos_INR n). unfold cne, clt, cmp, eqb, ltb, Reqb, Rltb, cor.
  destruct (Req_EM_T _ _); [|congruence]. simpl. destruct (Rlt_dec _ _); [lra|reflexivity].
Qed.
Lemma counts_pass {A B} `{CanRaise B} (x : list A) (xs : list nat) cs e (k : option (list val) -> B) :
  length x = length xs -> good_counts xs cs ->
  validate_counts x (vcounts cs) e k = k (match cs with Some c => Some (vNs c) | None => if e then Some (vNs (counts_for xs None)) else None end).
Proof.
  intros L G. unfold validate_counts. destruct cs as [c|]; simpl.
  - unfold vNs at 1. unfold good_counts in G. simpl in G. rewrite map_length, G, <- L, Nat.eqb_refl. cbn [negb].
    assert (cany (fun t => cor (cne t (vint t)) (clt t (Fin 0))) (vNs c) = CB false) as ->; [|reflexivity].
    unfold vNs. clear. induction c as [|a c IH]; auto. simpl map. cbn [cany]. rewrite nat_ok. exact IH.
  - destruct e; auto. rewrite <- L, ones_vN. reflexivity.
Qed.
Lemma counts_bad {A B} `{CanRaise B} (x : list A) (cs : list R) e (k : option (list val) -> B) :
  bad_counts x cs -> validate_counts x (Some (map Fin cs)) e k = raise ValueError.
Proof.
  intros [L|[c [I C]]]; unfold validate_counts; rewrite map_length.
  - destruct (Nat.eqb_spec (length cs) (length x)); [contradiction|reflexivity].
  - destruct (Nat.eqb _ _); [|reflexivity]. cbn [negb].
    assert (E : forall r : R, exists b, cor (cne (Fin r) (vint (Fin r))) (clt (Fin r) (Fin 0)) = CB b).
    { intros r. unfold vint. unfold cne, clt, cmp, cor. destruct (Rltb r 0); destruct (negb _); eauto. }
    assert (F : cor (cne (Fin c) (vint (Fin c))) (clt (Fin c) (Fin 0)) = CB true).
    { destruct C as [C|C].
      - unfold clt, cmp, ltb. rewrite (Rltb_true c 0) by auto. destruct (E c) as [b Eb]. unfold cne, vint, cmp in *. rewrite (Rltb_true c 0) in * by auto.
        destruct (negb _); reflexivity.
      - assert (N : forall z, Reqb c (IZR z) = false) by (intros z; apply Reqb_false; intros ->; apply C; eauto).
        unfold cne, vint, cmp. destruct (Rltb c 0); unfold eqb; rewrite N; reflexivity. }
    assert (cany (fun t => cor (cne t (vint t)) (clt t (Fin 0))) (map Fin cs) = CB true) as ->; [|reflexivity].
    induction cs as [|a cs IH]; [destruct I|]. cbn [map cany]. destruct I as [->|I].
    + rewrite F. reflexivity.
    + destruct (E a) as [[|] ->]; cbn [cor]; auto.
Qed.
Lemma zip_counts_pass xs cs : zip_counts (vNs xs) (match cs with Some c => Some (vNs c) | None => Some (vNs (counts_for xs None)) end) =
  combine (vNs xs) (vNs (counts_for xs cs)).
Proof. destruct cs; reflexivity. Qed.
Lemma vN_R xs : vNs xs = map Fin (map INR xs).
Proof. unfold vNs. rewrite map_map. reflexivity. Qed.
Lemma xb_nat {A} `{CanRaise A} xs high (sh : bool) (k : A) : (forall x, In x xs -> XLib.below sh high (INR x)) ->
  validate_x_bounds (vNs xs) (Some (Fin 0)) high false sh k = k.
Proof.
  intros B. rewrite vN_R. apply vxb_pass. intros x X. apply in_map_iff in X. destruct X as [n [<- X]]. split; [simpl; apply pos_INR|auto].
Qed.
Lemma ints_nat xs : call visint (vNs xs) = CB true.
Proof. induction xs as [|x xs IH]; auto. unfold vNs in *. cbn [map call]. unfold vN at 1, visint at 1. rewrite is_intb_INR. exact IH. Qed.
Lemma vint_eq_nat xs : cany (fun xi => cne (vint xi) xi) (vNs xs) = CB false.
Proof.
  induction xs as [|x xs IH]; auto. unfold vNs in *. cbn [map cany]. unfold vN at 1 2. rewrite vint_INR.
  unfold cne, cmp, eqb. rewrite Reqb_true by auto. exact IH.
Qed.
(** [mean] with counts. *)
Lemma mean_counts xs cs : good_counts xs cs -> 0 < wtot xs (counts_for xs cs) ->
  M_basic.mean (vNs xs) (vcounts cs) = Fin (wsum INR xs (counts_for xs cs) / wtot xs (counts_for xs cs)).
Proof.
  intros G P. destruct cs as [c|]; simpl in *.
  - unfold M_basic.mean. unfold good_counts in G. simpl in G. unfold vNs at 1 2. rewrite !map_length, G, Nat.eqb_refl. cbn [negb].
    assert (E : vfsum (vNs c) = Fin (wtot xs c)).
    { rewrite vN_R, vfsum_Fin. rewrite wtot_sum by auto. reflexivity. }
    rewrite E.
    assert (vfsum (map (fun '(t, w) => vmul t w) (combine (vNs xs) (vNs c))) = Fin (wsum INR xs c)) as ->.
    { clear. unfold wsum. revert c. induction xs as [|x xs IH]; intros [|c cs]; try reflexivity. simpl combine. cbn [map vfsum]. rewrite IH.
      simpl. f_equal. unfold sum. simpl. rewrite (Rmult_comm (INR x)). reflexivity. }
    unfold ceq, cmp, eqb. rewrite Reqb_false by lra. simpl. rewrite Reqb_false by lra. reflexivity.
  - unfold M_basic.mean. rewrite vN_R, vfsum_Fin. unfold vlen. rewrite !map_length.
    rewrite wtot_len, expand_ones in *. rewrite vdiv_Fin by lra. rewrite wsum_expand, expand_ones. reflexivity.
Qed.
(** Values of a likelihood with counts. *)
Lemma counts_of_expand (h : nat -> R) xs cs : wsum h xs (counts_for xs cs) = wsum h (expand xs (counts_for xs cs)) (counts_for (expand xs (counts_for xs cs)) None).
Proof. simpl. rewrite !wsum_expand, expand_ones. reflexivity. Qed.
