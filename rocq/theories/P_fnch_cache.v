(** Proofs about M_fnch_cache. *)
From Coq Require Import Reals Lra Lia List Bool ZArith Arith.
From Verif Require Import Values VTac SpecDisc M_fnch M_fnch_cache SpecCache.
From Verif Require M_hypergeometric P_hypergeometric.
Import ListNotations.
Set Bullet Behavior "Strict Subproofs".

Lemma veqb_eq a b : veqb a b = true -> a = b.
Proof.
  destruct a, b; simpl; try congruence. intros H. destruct (Reqb_spec r r0) as [[-> _]|[_ E]]; [auto|congruence].
Qed.
Lemma veqb_refl a : veqb a a = true \/ a = NaN \/ exists e, a = Exc e.
Proof. destruct a; simpl; eauto. left. apply Reqb_true. auto. Qed.
Lemma keyb_eq a b : keyb a b = true -> a = b.
Proof.
  destruct a as [[[[x1 x2] x3] x4] p], b as [[[[y1 y2] y3] y4] q]. unfold keyb. rewrite !andb_true_iff. intros [[[[A B] C] D] E].
  apply veqb_eq in A, B, C, D. apply Nat.eqb_eq in E. congruence.
Qed.

Section Cache.
Variable compute : nat -> args -> res (isupport * list val).
Variable up : nat -> nat.
Notation support_pmf := (support_pmf compute). Notation step := (step compute up). Notation run := (run compute up).
Notation cached := (cached compute).

(** Every entry of the cache points to the list that [compute] gives for its key. *)
Definition good_entry (h : list (list val)) (e : key * (isupport * addr)) : Prop :=
  let '((a, p), (sup, l)) := e in exists xs, nth_error h l = Some xs /\ compute p a = Ok (sup, xs).
Definition good (s : state) : Prop := forall e, In e (cache s) -> good_entry (heap s) e.
Lemma good_init p : good (init p). Proof. intros e []. Qed.
Lemma good_ext h h' e : good_entry h e -> good_entry (h ++ h') e.
Proof. destruct e as [[a p] [sup l]]. intros [xs [A B]]. exists xs. split; auto. rewrite nth_error_app1; auto. apply nth_error_Some. congruence. Qed.
Lemma lookup_In k c v : lookup k c = Some v -> exists k', keyb k k' = true /\ In (k', v) c.
Proof.
  induction c as [|[k' v'] c IH]; simpl; [congruence|]. destruct (keyb k k') eqn:E; [intros [= <-]; exists k'; auto|]. intros H. destruct (IH H) as [k2 [A B]]. exists k2; auto.
Qed.
Lemma remove_In k c e : In e (remove k c) -> In e c.
Proof. induction c as [|[k' v'] c IH]; simpl; [auto|]. destruct (keyb k k'); simpl; [auto|]. intros [H|H]; auto. Qed.
Lemma firstn_In {A} (l : list A) : forall n x, In x (firstn n l) -> In x l.
Proof. induction l; intros [|n] x; simpl; try tauto. intros [H|H]; eauto. Qed.

Lemma cached_spec a s s' r : good s -> cached a s = (s', r) ->
  good s' /\ prec s' = prec s /\ deref s' r = compute (prec s) a.
Proof.
  intros G. unfold M_fnch_cache.cached. destruct (lookup (a, prec s) (cache s)) as [[sup l]|] eqn:L.
  - intros [= <- <-]. apply lookup_In in L. destruct L as [k' [E I]]. apply keyb_eq in E. subst k'. pose proof (G _ I) as [xs [N C]]. split; [|split].
    + intros e [<-|H]; [apply G; auto|]. simpl. apply G. apply (remove_In _ _ _ H).
    + reflexivity.
    + simpl. rewrite C. do 2 f_equal. apply nth_error_nth; auto.
  - destruct (compute (prec s) a) as [[sup l]|e] eqn:C; intros [= <- <-]; [|auto]. split; [|split].
    + intros e H. change (In e (firstn maxsize (((a, prec s), (sup, length (heap s))) :: cache s))) in H. apply firstn_In in H. change (good_entry (heap s ++ [l]) e). destruct H as [<-|H].
      * exists l. split; auto. rewrite nth_error_app2, Nat.sub_diag by auto. reflexivity.
      * apply good_ext, G, H.
    + reflexivity.
    + simpl. rewrite app_nth2, Nat.sub_diag by auto. reflexivity.
Qed.
Definition fresh (p : nat) (a : args) : res (isupport * list val) :=
  match valid a with Err e => Err e | Ok _ => compute p a end.
Lemma sp_spec a s s' r : good s -> support_pmf a s = (s', r) -> good s' /\ prec s' = prec s /\ deref s' r = fresh (prec s) a.
Proof.
  intros G. unfold M_fnch_cache.support_pmf, fresh. destruct (valid a) as [[]|e]; [apply cached_spec; auto|]. intros [= <- <-]. auto.
Qed.
Definition expect (o : op) (p : nat) : obs :=
  let num f q a := Num (match fresh q a with Ok r => f r | Err e => Exc e end) in
  match o with
  | SupportPmf a => Lst (fresh p a) None
  | Pmf k a => num (pmf_of k) p a
  | Cdf k a => num (cdf_of k) p a
  | Sf k a => num (sf_of k) p a
  | Mean a => num mean_of (up p) a
  | _ => Nothing
  end.
Lemma wp_spec f a s : good s -> good (fst (with_pair compute f a s)) /\ prec (fst (with_pair compute f a s)) = prec s /\
  snd (with_pair compute f a s) = Num (match fresh (prec s) a with Ok r => f r | Err e => Exc e end).
Proof.
  intros G. unfold with_pair. destruct (support_pmf a s) as [s' r] eqn:E. destruct (sp_spec _ _ _ _ G E) as [G' [P D]]. simpl. rewrite D. auto.
Qed.
Lemma step_spec o s : good s -> is_assign o = false -> good (fst (step o s)) /\ same_obs (snd (step o s)) (expect o (prec s)).
Proof.
  intros G N. destruct o; try discriminate; cbn [M_fnch_cache.step expect].
  - destruct (support_pmf a s) as [s' r] eqn:E. destruct (sp_spec _ _ _ _ G E) as [G' [P D]]. simpl. auto.
  - destruct (wp_spec (pmf_of k) a s G) as [A [B C]]. rewrite C. simpl. auto.
  - destruct (wp_spec (cdf_of k) a s G) as [A [B C]]. rewrite C. simpl. auto.
  - destruct (wp_spec (sf_of k) a s G) as [A [B C]]. rewrite C. simpl. auto.
  - destruct (with_pair compute mean_of a (St (heap s) (cache s) (up (prec s)))) as [s' v] eqn:E.
    destruct (wp_spec mean_of a (St (heap s) (cache s) (up (prec s)))) as [A [B C]]; [exact G|]. rewrite E in *. simpl in A, C. subst v. split; [exact A|]. reflexivity.
  - split; [exact G|]. exact I.
Qed.
Lemma run_good os : forall s, good s -> forallb (fun o => negb (is_assign o)) os = true -> good (run os s).
Proof.
  induction os as [|o os IH]; intros s G H; simpl; [auto|]. simpl in H. apply andb_true_iff in H. destruct H as [H1 H2]. apply IH; auto. apply step_spec; auto. destruct (is_assign o); auto; discriminate.
Qed.
Lemma same_sym_trans a b c : same_obs a c -> same_obs b c -> same_obs a b.
Proof. destruct a, b, c; simpl; try tauto; congruence. Qed.
Lemma no_assign p0 os o : forallb (fun o => negb (is_assign o)) os = true -> history_independent compute up p0 os o.
Proof.
  intros H. unfold history_independent. destruct (is_assign o) eqn:E.
  - destruct o; try discriminate. exact I.
  - pose proof (run_good os (init p0) (good_init p0) H) as G. destruct (step_spec o _ G E) as [_ A].
    destruct (step_spec o (init (prec (run os (init p0)))) (good_init _) E) as [_ B]. simpl in B. eapply same_sym_trans; eauto.
Qed.
End Cache.

(** A list obtained from support_pmf and modified is what later calls read. *)
Lemma lookup_self nc N K n p v c : lookup ((Fin nc, Fin N, Fin K, Fin n), p) ((((Fin nc, Fin N, Fin K, Fin n), p), v) :: c) = Some v.
Proof. simpl. rewrite !Reqb_true by auto. rewrite Nat.eqb_refl. reflexivity. Qed.
Lemma set_nth_nth i v : forall l d, (i < length l)%nat -> nth i (set_nth i v l) d = v.
Proof. induction i; intros [|x l] d H; simpl in *; try lia; auto. apply IHi. lia. Qed.
Lemma assigned compute up p nc (N K n : nat) lo hi xs i v :
  (K <= N)%nat -> (n <= N)%nat -> compute p (Fin nc, Fin (INR N), Fin (INR K), Fin (INR n)) = Ok (Range lo hi, xs) ->
  (i < length xs)%nat -> (Z.of_nat i < hi - lo)%Z ->
  snd (step compute up (Pmf (Fin (IZR (lo + Z.of_nat i))) (Fin nc, Fin (INR N), Fin (INR K), Fin (INR n)))
    (run compute up [SupportPmf (Fin nc, Fin (INR N), Fin (INR K), Fin (INR n)); Assign 0 i v] (init p))) = Num v.
Proof.
  intros HK Hn C L I. assert (V : valid (Fin nc, Fin (INR N), Fin (INR K), Fin (INR n)) = Ok tt) by (unfold valid; apply P_hypergeometric.ok; auto).
  set (A := (Fin nc, Fin (INR N), Fin (INR K), Fin (INR n))) in *.
  assert (S1 : M_fnch_cache.support_pmf compute A (init p) = (St [xs] [((A, p), (Range lo hi, 0%nat))] p, Ok (Range lo hi, 0%nat))).
  { unfold M_fnch_cache.support_pmf. rewrite V. unfold M_fnch_cache.cached. cbn [init cache lookup prec]. rewrite C. reflexivity. }
  assert (S2 : run compute up [SupportPmf A; Assign 0 i v] (init p) = St [set_nth i v xs] [((A, p), (Range lo hi, 0%nat))] p).
  { cbn [M_fnch_cache.run]. replace (fst (step compute up (SupportPmf A) (init p))) with (St [xs] [((A, p), (Range lo hi, 0%nat))] p); [reflexivity|]. cbn [step]. rewrite S1. reflexivity. }
  rewrite S2. cbn [M_fnch_cache.step]. unfold A in *.
  unfold with_pair, M_fnch_cache.support_pmf. rewrite V. unfold M_fnch_cache.cached. cbn [cache prec]. rewrite lookup_self. cbn [snd deref heap nth pmf_of].
  unfold as_int. rewrite IncLib.is_intb_IZR, IncLib.Int_part_IZR. replace ((lo <=? lo + Z.of_nat i)%Z && (lo + Z.of_nat i <? hi)%Z) with true by (symmetry; apply andb_true_intro; split; [apply Z.leb_le|apply Z.ltb_lt]; lia).
  replace (Z.to_nat (lo + Z.of_nat i - lo)) with i by lia. rewrite set_nth_nth; auto.
Qed.
(** With the exact arithmetic of M_fnch the observations are the functions of that model. *)
Definition exact (p : nat) (a : args) : res (isupport * list val) := let '(nc, N, K, n) := a in support_pmf0 nc N K n.
Lemma cif_cases (c : cond) : (forall A (H : CanRaise A) (t e : A), cif c t e = t) \/ (forall A (H : CanRaise A) (t e : A), cif c t e = e) \/ exists x, forall A (H : CanRaise A) (t e : A), cif c t e = raise x.
Proof. destruct c as [[]|x]; simpl; eauto. Qed.
Lemma validate_cases N K n : (forall A (H : CanRaise A) (k : A), M_hypergeometric.validate N K n k = k) \/ exists x, forall A (H : CanRaise A) (k : A), M_hypergeometric.validate N K n k = raise x.
Proof.
  unfold M_hypergeometric.validate. destruct (cif_cases (cor (cor (clt N (Fin 0)) (clt K (Fin 0))) (clt n (Fin 0)))) as [H|[H|[x H]]]; [right; exists ValueError; auto| |right; exists x; auto].
  destruct (cif_cases (cgt K N)) as [H2|[H2|[x H2]]]; [right; exists ValueError; intros; rewrite H; auto| |right; exists x; intros; rewrite H; auto].
  destruct (cif_cases (cgt n N)) as [H3|[H3|[x H3]]]; [right; exists ValueError; intros; rewrite H, H2; auto| |right; exists x; intros; rewrite H, H2; auto].
  left. intros. rewrite H, H2. auto.
Qed.
Lemma fresh_exact p nc N K n : fresh exact p (nc, N, K, n) = M_fnch.support_pmf nc N K n.
Proof. unfold fresh, valid, exact, M_fnch.support_pmf. destruct (validate_cases N K n) as [H|[x H]]; rewrite !H; reflexivity. Qed.
Lemma exact_calls up p0 os k nc N K n : forallb (fun o => negb (is_assign o)) os = true ->
  let s := run exact up os (init p0) in
  snd (step exact up (Pmf k (nc, N, K, n)) s) = Num (pmf k nc N K n) /\
  snd (step exact up (Cdf k (nc, N, K, n)) s) = Num (cdf k nc N K n) /\
  snd (step exact up (Sf k (nc, N, K, n)) s) = Num (sf k nc N K n) /\
  snd (step exact up (Mean (nc, N, K, n)) s) = Num (mean nc N K n) /\
  exists a, snd (step exact up (SupportPmf (nc, N, K, n)) s) = Lst (M_fnch.support_pmf nc N K n) a.
Proof.
  intros H s. pose proof (run_good exact up os (init p0) (good_init _ p0) H) as G. fold s in G.
  assert (E : forall o, is_assign o = false -> same_obs (snd (step exact up o s)) (expect exact up o (prec s))) by (intros o Ho; apply (step_spec exact up o s G Ho)).
  assert (F : forall f, match M_fnch.support_pmf nc N K n with Ok r => f r | Err e => Exc e end = M_hypergeometric.validate N K n (bindr (M_fnch.support_pmf nc N K n) f)).
  { intros f. unfold M_fnch.support_pmf. destruct (validate_cases N K n) as [V|[x V]]; rewrite !V; [|reflexivity]. unfold bindr. destruct (support_pmf0 nc N K n); reflexivity. }
  repeat split.
  - pose proof (E (Pmf k (nc, N, K, n)) eq_refl) as X. unfold expect in X. rewrite fresh_exact, F in X. destruct (snd _); simpl in X; try contradiction. subst; reflexivity.
  - pose proof (E (Cdf k (nc, N, K, n)) eq_refl) as X. unfold expect in X. rewrite fresh_exact, F in X. destruct (snd _); simpl in X; try contradiction. subst; reflexivity.
  - pose proof (E (Sf k (nc, N, K, n)) eq_refl) as X. unfold expect in X. rewrite fresh_exact, F in X. destruct (snd _); simpl in X; try contradiction. subst; reflexivity.
  - pose proof (E (Mean (nc, N, K, n)) eq_refl) as X. unfold expect in X. rewrite fresh_exact, F in X. destruct (snd _); simpl in X; try contradiction. subst; reflexivity.
  - pose proof (E (SupportPmf (nc, N, K, n)) eq_refl) as X. unfold expect in X. rewrite fresh_exact in X. destruct (snd _); simpl in X; try contradiction. subst; eauto.
Qed.
