(** A bracket search on [0,1] followed by bisection in floating point. *)
From Coq Require Import Reals Lra Lia List Bool ZArith.
From Coquelicot Require Import Coquelicot.
From Verif Require Import Values VTac Spec RLib SpecBracket SpecGrid SpecBis M_bracket P_bracket InvLib M_bisect P_bisect.
Local Open Scope R_scope.
Set Bullet Behavior "Strict Subproofs".

Definition dy (j : nat) (v : val) := exists k : Z, v = Fin (IZR k / 2 ^ j).
Lemma dy_S j v : dy j v -> dy (S j) v.
Proof. intros [k ->]. exists (2 * k)%Z. f_equal. rewrite mult_IZR. cbn [pow]. assert (0 < 2 ^ j) by (apply pow_lt; lra). field. lra. Qed.
Lemma dy_add n : forall j v, dy j v -> dy (j + n) v.
Proof. induction n; intros j v H; [rewrite Nat.add_0_r; auto|]. rewrite Nat.add_succ_r. apply dy_S; auto. Qed.
Lemma dy_mid j x0 x1 : dy j x0 -> dy j x1 -> dy (S j) (vdiv (vadd x0 x1) (Fin 2)).
Proof. intros [k ->] [l ->]. exists (k + l)%Z. cbn [vadd]. rewrite vdiv_Fin by lra. f_equal. rewrite plus_IZR. cbn [pow]. assert (0 < 2 ^ j) by (apply pow_lt; lra). field. lra. Qed.
Lemma refine_dy func p sign n : forall j x0 x1 y, dy j x0 -> dy j x1 -> refine n func p sign x0 x1 = Ok y -> dy (j + n) (fst y) /\ dy (j + n) (snd y).
Proof.
  induction n; intros j x0 x1 y H0 H1 E.
  - injection E as <-. rewrite Nat.add_0_r. auto.
  - cbn [refine] in E. pose proof (dy_mid j x0 x1 H0 H1) as HM. set (m := vdiv (vadd x0 x1) (Fin 2)) in *. clearbody m.
    rewrite Nat.add_succ_r. change (S (j + n)) with (S j + n)%nat. apply dy_S in H0, H1.
    assert (E' : forall c (A B : res (val * val)), cif c A B = Ok y -> A = Ok y \/ B = Ok y) by (intros [[]|e] A B X; cbn in X; auto; discriminate).
    unfold bindv in E. destruct (func m) as [r| | | |e]; try discriminate E; apply E' in E; (destruct E as [E|E]; [injection E as <-; split; cbn [fst snd]; apply dy_add; auto|]); apply E' in E; destruct E as [E|E]; apply (IHn (S j)) in E; auto.
Qed.
Lemma bracket_dy fuel func p y : find_bracket fuel func p (Fin 0) (Fin 1) None = Ok y -> dy 8 (fst y) /\ dy 8 (snd y).
Proof.
  assert (D0 : dy 0 (Fin 0)) by (exists 0%Z; f_equal; simpl; field). assert (D1 : dy 0 (Fin 1)) by (exists 1%Z; f_equal; simpl; field).
  assert (E' : forall c (A B : res (val * val)), cif c A B = Ok y -> A = Ok y \/ B = Ok y) by (intros [[]|e] A B X; cbn in X; auto; discriminate).
  unfold find_bracket, expand_bracket. intros E.
  assert (K : forall f : val -> res (val * val), forall v, bindv v f = Ok y -> f v = Ok y) by (intros f [] X; cbn in X; auto; discriminate).
  apply K in E. apply E' in E. destruct E as [E|E]; [injection E as <-; split; apply (dy_add 8 0); auto|].
  apply K in E. apply E' in E. destruct E as [E|E]; [injection E as <-; split; apply (dy_add 8 0); auto|].
  cbn [ceq cmp eqb cand cif bind fst snd] in E. change (cif _ _ _) with (Ok (Fin 0, Fin 1)) in E. cbn [bind fst snd] in E.
  apply (refine_dy _ _ _ 8 0) in E; auto.
Qed.
Lemma dy_rep prec x : (8 <= prec)%positive -> 0 <= x <= 1 -> dy 8 (Fin x) -> representable prec x.
Proof.
  intros HP HX [k E]. injection E as E.
  assert (P256 : (2 ^ 8 <= 2 ^ Z.pos prec)%Z) by (apply Z.pow_le_mono_r; lia).
  destruct (Req_dec x 1) as [->|N]; [apply F_1|]. exists k, (-8)%Z. split.
  - assert (0 <= IZR k < 256) by (rewrite E in HX, N; simpl in HX, N; split; lra). assert (0 <= k < 256)%Z by (split; [apply le_IZR|apply lt_IZR]; lra). rewrite Z.abs_eq by lia. lia.
  - rewrite E. simpl. field.
Qed.

Section B.
Variables (func func2 : val -> val) (G : R -> R) (inc : bool) (q : R -> R).
Hypothesis HG : forall x, func (Fin x) = Fin (G x).
Hypothesis G01 : forall x, 0 <= G x <= 1.
Hypothesis GM : forall x y, x <= y -> if inc then G x <= G y else G y <= G x.
Hypothesis Gq : forall p, 0 < p < 1 -> inside 0 1 (q p) /\ G (q p) = p.
Hypothesis GI : forall p x, 0 < p < 1 -> G x = p -> x = q p.
Hypothesis G_0 : G 0 = if inc then 0 else 1.
Hypothesis G_1 : G 1 = if inc then 1 else 0.
Variable p : R.
Hypothesis HP : 0 < p < 1.
Hypothesis H2 : forall x, 0 <= x <= 1 -> func2 (Fin x) = Fin (G x - p).
Lemma bis_ok prec : (8 <= prec)%positive -> exists r N, 0 <= r <= 1 /\ next_to prec (q p) r /\ forall fuel, (N < fuel)%nat ->
  match find_bracket fuel func (Fin p) (Fin 0) (Fin 1) None with
  | Err e => Exc e
  | Ok (x0, x1) => cif (ceq x0 x1) x0 (catch (mp_bisect fuel prec func2 (vfl prec x0) (vfl prec x1)))
  end = Fin r.
Proof.
  intros PR. destruct (Gq p HP) as [QI QE]. destruct QI as [Q0 Q1]. simpl in Q0, Q1.
  destruct (find_bracket_ok func G p (G 0) (G 1) (Fin 0) (Fin 1) inc None) as (x0 & x1 & N & E & BR & _).
  - intros x _. apply HG.
  - intros x y _ _ L. apply GM; auto.
  - apply HG.
  - apply HG.
  - rewrite G_0. unfold before. destruct inc; lra.
  - rewrite G_1. unfold before. destruct inc; lra.
  - exists 0. split; [split; simpl; lra|]. rewrite G_0. unfold before. destruct inc; lra.
  - exists 1. split; [split; simpl; lra|]. rewrite G_1. unfold before. destruct inc; lra.
  - destruct BR as ([W0 W0'] & [W1 W1'] & BR). simpl in W0, W0', W1, W1'.
    destruct (bracket_dy _ _ _ _ (E (S N) (Nat.lt_succ_diag_r N))) as [D0 D1]. cbn [fst snd] in D0, D1.
    apply (dy_rep prec) in D0, D1; auto.
    assert (V0 : vfl prec (Fin x0) = Fin x0) by (unfold vfl; rewrite fl_F; auto). assert (V1 : vfl prec (Fin x1) = Fin x1) by (unfold vfl; rewrite fl_F; auto).
    destruct BR as [[-> X]|[L [X Y]]].
    + exists x1, N. assert (x1 = q p) by (apply GI; auto). split; [lra|]. split; [left; auto|]. intros fuel F. rewrite E by auto. change (ceq (Fin x1) (Fin x1)) with (CB (Reqb x1 x1)). rewrite Reqb_true by auto. reflexivity.
    + destruct (Req_dec (G x1) p) as [Z|Z].
      * exists x1, N. split; [lra|]. split; [left; apply GI; auto|]. intros fuel F. rewrite E by auto. change (ceq (Fin x0) (Fin x1)) with (CB (Reqb x0 x1)). rewrite Reqb_false by lra. cbn [cif]. rewrite V0, V1.
        destruct (bisect_ends fuel prec func2 x0 x1 (G x0 - p) (G x1 - p) D0 D1) as (_ & B & _); [apply H2; lra|apply H2; lra|]. rewrite B; [reflexivity| |lra]. unfold before in X. destruct inc; lra.
      * assert (Y' : if inc then p < G x1 else G x1 < p) by (unfold before in Y; destruct inc; lra). unfold before in X.
        destruct (bisect_ok prec func2 (fun x => G x - p) x0 x1) as (r & N' & HR & Hr & Fr & D); auto.
        -- intros x _ Hx. apply H2. lra.
        -- destruct inc; nra.
        -- intros ->. exists (q p). split; auto. intros x Hx. rewrite G_0. pose proof (GM x (q p) ltac:(lra)) as M. rewrite QE in M.
           assert (G x <> p) by (intros K; apply GI in K; auto; lra). destruct inc; nra.
        -- exists r, (Nat.max N N'). split; [lra|]. split.
           ++ destruct D as [D|(l & h & Ll & Lh & Nb & EE & Sl & Sh)]; [left; apply GI; auto; lra|].
              right. exists l, h. split; auto. split; [|auto].
              pose proof (GM (q p) l) as M1. pose proof (GM h (q p)) as M2. rewrite QE in M1, M2.
              split; apply Rnot_le_lt; intros K; [specialize (M1 K)|specialize (M2 K)]; destruct inc; nra.
           ++ intros fuel F. rewrite E by lia. change (ceq (Fin x0) (Fin x1)) with (CB (Reqb x0 x1)). rewrite Reqb_false by lra. cbn [cif]. rewrite V0, V1, HR by lia. reflexivity.
Qed.
End B.
