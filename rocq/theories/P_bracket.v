(** Proofs about the bracket searches. *)
From Coq Require Ranalysis5.
From Coq Require Import Reals Lra Lia List ZArith Bool.
From Coquelicot Require Import Coquelicot.
From Verif Require Import Values VTac SpecBracket M_bracket.
Import ListNotations.
Local Open Scope R_scope.
Set Bullet Behavior "Strict Subproofs".

(** A loop with an invariant indexed by the number of iterations it may still take. *)
Lemma while_ind {T} (c : T -> cond) (f : T -> T) (J : nat -> T -> Prop) :
  (forall n s, J n s -> exists b, c s = CB b) ->
  (forall s, J O s -> c s = CB false) ->
  (forall n s, J (S n) s -> c s = CB true -> J n (f s)) ->
  forall n s, J n s -> exists m s', J m s' /\ c s' = CB false /\ forall fuel, (n < fuel)%nat -> while fuel c f s = Ok s'.
Proof.
  intros Hd H0 Hs. induction n; intros s Js.
  - exists O, s. split; [exact Js|]. split; [exact (H0 _ Js)|]. intros [|k] Hk; [lia|]. simpl. rewrite (H0 _ Js). reflexivity.
  - destruct (Hd _ _ Js) as [[|] Hb].
    + destruct (IHn _ (Hs _ _ Js Hb)) as (m & s' & Jm & Cm & Hm). exists m, s'. split; [exact Jm|]. split; [exact Cm|].
      intros [|k] Hk; [lia|]. simpl. rewrite Hb. apply Hm. lia.
    + exists (S n), s. split; [exact Js|]. split; [exact Hb|]. intros [|k] Hk; [lia|]. simpl. rewrite Hb. reflexivity.
Qed.

Lemma pow_big (r c B : R) : 1 < r -> 0 < c -> exists n, B <= r ^ n * c.
Proof.
  intros Hr Hc. destruct (Pow_x_infinity r ltac:(rewrite Rabs_right; lra) (Rabs B / c)) as [n Hn].
  exists n. specialize (Hn n (Nat.le_refl n)). rewrite Rabs_right in Hn by (apply Rle_ge, pow_le; lra).
  apply Rge_le in Hn. apply Rle_trans with (Rabs B); [apply Rle_abs|].
  replace (Rabs B) with (Rabs B / c * c) by (field; lra). apply Rmult_le_compat_r; lra.
Qed.
Lemma pow_small (c B : R) : 0 < c -> 0 < B -> exists n, (1/2) ^ n * c <= B.
Proof.
  intros Hc HB. destruct (pow_big 2 B c) as [n Hn]; [lra|lra|]. exists n.
  assert (P : 0 < 2 ^ n) by (apply pow_lt; lra).
  replace (1/2) with (/2) by field. rewrite pow_inv. 
  apply Rmult_le_reg_l with (2 ^ n); [exact P|]. rewrite <- Rmult_assoc, Rinv_r by lra. lra.
Qed.

Definition sg (inc : bool) : R := if inc then 1 else -1.

(** [mp.sign(p - func(x)) == sign] says that func(x) comes strictly before p. *)
Lemma sign_eq inc y p : cmp eqb (vsign (vsub (Fin p) (Fin y))) (Fin (sg inc)) = CB (if inc then Rltb y p else Rltb p y).
Proof.
  cbn. destruct inc; cbn; destruct (Rltb_spec 0 (p + - y)) as [[? ->]|[? ->]]; cbn;
    try (destruct (Rltb_spec (p + - y) 0) as [[? ->]|[? ->]]; cbn);
    f_equal; destruct (Rltb_spec y p) as [[? Hb]|[? Hb]]; destruct (Rltb_spec p y) as [[? Hc]|[? Hc]]; rewrite ?Hb, ?Hc;
    try lra; try (apply Reqb_true; lra); try (apply Reqb_false; lra).
Qed.
Lemma sign_ne inc y p : cne (vsign (vsub (Fin p) (Fin y))) (Fin (sg inc)) = CB (negb (if inc then Rltb y p else Rltb p y)).
Proof.
  pose proof (sign_eq inc y p) as H. unfold cne, cmp in *.
  destruct (vsign (vsub (Fin p) (Fin y))); cbn in *; try discriminate; injection H as <-; reflexivity.
Qed.
Definition bf (inc : bool) (y p : R) : bool := if inc then Rltb y p else Rltb p y.
Lemma bf_true inc y p : bf inc y p = true <-> before inc y p.
Proof.
  unfold bf, before. destruct inc; [destruct (Rltb_spec y p) as [[? ->]|[? ->]]|destruct (Rltb_spec p y) as [[? ->]|[? ->]]]; split; intros; try lra; congruence.
Qed.
Lemma bf_false inc y p : bf inc y p = false <-> ~ before inc y p.
Proof. rewrite <- bf_true. destruct (bf inc y p); split; congruence. Qed.
Lemma sign_before inc pa pb p : before inc pa p -> before inc p pb -> vsign (vsub (Fin pb) (Fin pa)) = Fin (sg inc).
Proof.
  unfold before. destruct inc; intros; cbn.
  - rewrite Rltb_true by lra. reflexivity.
  - rewrite Rltb_false, Rltb_true by lra. reflexivity.
Qed.
Lemma before_le inc a b f x y p : monotone inc a b f -> within a b x -> within a b y -> x <= y ->
  before inc (f y) p -> before inc (f x) p.
Proof. intros M Hx Hy L. specialize (M x y Hx Hy L). unfold before. destruct inc; lra. Qed.
Lemma nbefore inc y p : before inc y p -> ~ before inc p y.
Proof. unfold before; destruct inc; lra. Qed.

Section B.
Variables (func : val -> val) (f : R -> R) (p : R) (a b : val) (inc : bool).
Hypothesis Hf : forall x, within a b x -> func (Fin x) = Fin (f x).
Hypothesis M : monotone inc a b f.

Lemma ceq_at x : within a b x -> ceq (vsign (vsub (Fin p) (func (Fin x)))) (Fin (sg inc)) = CB (bf inc (f x) p).
Proof. intros W. rewrite (Hf _ W). apply sign_eq. Qed.
Lemma cne_at x : within a b x -> cne (vsign (vsub (Fin p) (func (Fin x)))) (Fin (sg inc)) = CB (negb (bf inc (f x) p)).
Proof. intros W. rewrite (Hf _ W). apply sign_ne. Qed.

Definition good (x0 x1 : R) : Prop :=
  within a b x0 /\ within a b x1 /\ x0 < x1 /\ before inc (f x0) p /\ ~ before inc (f x1) p.

Lemma within_mid x y z : within a b x -> within a b z -> x <= y <= z -> within a b y.
Proof. unfold within. destruct a, b; intros; try tauto; split; try tauto; lra. Qed.

Lemma refine_ok n : forall x0 x1, good x0 x1 -> exists y0 y1,
  refine n func (Fin p) (Fin (sg inc)) (Fin x0) (Fin x1) = Ok (Fin y0, Fin y1) /\
  x0 <= y0 /\ y1 <= x1 /\ (y1 - y0) * 2 ^ n <= x1 - x0 /\ ((y0 = y1 /\ within a b y0 /\ f y0 = p) \/ good y0 y1).
Proof.
  induction n; intros x0 x1 G.
  - exists x0, x1. repeat split; try lra. tauto.
  - destruct G as (W0 & W1 & L & B0 & B1).
    assert (Wm : within a b ((x0 + x1) / 2)) by (apply within_mid with x0 x1; try assumption; lra).
    assert (P2 : 0 < 2 ^ n) by (apply pow_lt; lra).
    cbn [refine]. cbv zeta. cbn [vadd]. rewrite vdiv_Fin by lra. rewrite (Hf _ Wm). cbn [bindv].
    cbn [ceq cmp eqb]. unfold cif at 1.
    change (ceq (Fin (f ((x0 + x1) / 2))) (Fin p)) with (CB (Reqb (f ((x0 + x1) / 2)) p)).
    destruct (Reqb_spec (f ((x0 + x1) / 2)) p) as [[E ->]|[E ->]].
    + exists ((x0 + x1) / 2), ((x0 + x1) / 2). repeat split; try lra.
      left. repeat split; try assumption; apply Wm.
    + rewrite <- (Hf _ Wm), ceq_at by assumption. unfold cif.
      destruct (bf inc (f ((x0 + x1) / 2)) p) eqn:Hb.
      * apply bf_true in Hb.
        destruct (IHn ((x0 + x1) / 2) x1) as (y0 & y1 & E1 & L0 & L1 & Wd & C); [repeat split; try assumption; try apply Wm; try apply W1; lra|].
        exists y0, y1. split; [exact E1|]. repeat split; try lra. 2: exact C. simpl pow. lra.
      * apply bf_false in Hb.
        destruct (IHn x0 ((x0 + x1) / 2)) as (y0 & y1 & E1 & L0 & L1 & Wd & C); [repeat split; try assumption; try apply Wm; try apply W0; lra|].
        exists y0, y1. split; [exact E1|]. repeat split; try lra. 2: exact C. simpl pow. lra.
Qed.

Variables (u v : R).
Hypothesis Wu : within a b u.
Hypothesis Wv : within a b v.
Hypothesis Bu : before inc (f u) p.
Hypothesis Bv : before inc p (f v).

Lemma uv : u < v.
Proof.
  destruct (Rlt_le_dec u v) as [|L]; [assumption|exfalso].
  apply (nbefore _ _ _ Bv). now apply (before_le inc a b f v u).
Qed.
Lemma low x : within a b x -> x <= u -> bf inc (f x) p = true.
Proof. intros. apply bf_true. now apply (before_le inc a b f x u). Qed.
Lemma high x : within a b x -> v <= x -> bf inc (f x) p = false.
Proof. intros. apply bf_false. intros B. apply (nbefore _ _ _ Bv). now apply (before_le inc a b f v x). Qed.

Lemma expand_ok : a = NInf \/ a = Fin u -> b = PInf \/ b = Fin v -> exists x0 x1 N, good x0 x1 /\
  (forall fuel, (N < fuel)%nat -> expand_bracket fuel func (Fin p) (Fin (sg inc)) a b = Ok (Fin x0, Fin x1)).
Proof.
  intros Ea Eb. pose proof uv as UV. pose proof ceq_at as CE1. pose proof cne_at as CN1. pose proof low as LO. pose proof high as HI.
  destruct Ea as [Ea|Ea], Eb as [Eb|Eb]; unfold expand_bracket, good.
  - assert (W : forall x, within a b x) by (intros; rewrite Ea, Eb; split; exact I).
    destruct (pow_big 2 1 (- u)) as [n Hn]; [lra|lra|].
    destruct (while_ind (fun s : val * val => cne (vsign (vsub (Fin p) (func (fst s)))) (Fin (sg inc)))
       (fun s => (vmul (Fin 2) (fst s), fst s))
       (fun n s => exists x0 x1, s = (Fin x0, Fin x1) /\ 2 ^ n * x0 <= u /\ x0 < 0 /\ x0 < x1 /\ (x1 = 1 \/ ~ before inc (f x1) p))) with (n := n) (s := (vneg (Fin 1), Fin 1))
      as (m & s & (x0 & x1 & -> & _ & N0 & L01 & D1) & C0 & HW).
    { intros k s (x0 & x1 & -> & _). cbn [fst]. rewrite CN1 by apply W. eauto. }
    { intros s (x0 & x1 & -> & H & _). cbn [fst]. rewrite CN1 by apply W. rewrite LO; [reflexivity|apply W|]. simpl in H. lra. }
    { intros k s (x0 & x1 & -> & H & N0 & L & D). cbn [fst]. rewrite CN1 by apply W. intros C. injection C as C.
      apply negb_true_iff in C. apply bf_false in C. exists (2 * x0), x0. cbn [vmul]. repeat split.
      - simpl in H. lra. - lra. - lra. - right. exact C. }
    { exists (-1), 1. cbn [vneg]. repeat split; try lra. }
    cbn [fst] in C0. rewrite CN1 in C0 by apply W. injection C0 as C0. apply negb_false_iff, bf_true in C0.
    destruct (pow_big 2 1 v) as [k Hk]; [lra|lra|].
    destruct (while_ind (fun x1 : val => ceq (vsign (vsub (Fin p) (func x1))) (Fin (sg inc)))
       (fun x1 => vmul (Fin 2) x1)
       (fun n s => exists x1, s = Fin x1 /\ x0 < x1 /\ (~ before inc (f x1) p \/ (0 < x1 /\ v <= 2 ^ n * x1)))) with (n := k) (s := Fin x1)
      as (m' & s' & (y1 & -> & L1 & D2) & C1 & HW1).
    { intros j s (y & -> & _). rewrite CE1 by apply W. eauto. }
    { intros s (y & -> & L & [B|[P1 H]]); rewrite CE1 by apply W.
      - f_equal. apply bf_false. exact B. - rewrite HI; [reflexivity|apply W|]. simpl in H. lra. }
    { intros j s (y & -> & L & D). rewrite CE1 by apply W. intros C. injection C as C. apply bf_true in C.
      destruct D as [D|[P1 H]]; [contradiction|]. exists (2 * y). cbn [vmul]. repeat split; [lra|]. right. split; [lra|]. simpl in H. lra. }
    { exists x1. repeat split; [lra|]. destruct D1 as [->|D1]; [right; split; lra|left; exact D1]. }
    rewrite CE1 in C1 by apply W. injection C1 as C1. apply bf_false in C1.
    exists x0, y1, (n + k)%nat. split; [repeat split; try apply W; try lra; assumption|].
    intros fuel Hfu. rewrite Ea, Eb in *. change (cand (ceq NInf NInf) (ceq PInf PInf)) with (CB true). unfold cif.
    rewrite HW by lia. cbn [bind snd fst]. rewrite HW1 by lia. reflexivity.
  - assert (W : forall x, x <= v -> within a b x) by (intros; rewrite Ea, Eb; split; [exact I|assumption]).
    destruct (pow_big 2 1 (v - u)) as [n Hn]; [lra|lra|].
    destruct (while_ind (fun s : val * val * val => cne (vsign (vsub (Fin p) (func (fst (fst s))))) (Fin (sg inc)))
       (fun s => (vsub b (vmul (Fin 2) (snd s)), fst (fst s), vmul (Fin 2) (snd s)))
       (fun n s => exists d x1, s = (Fin (v - d), Fin x1, Fin d) /\ v - u <= 2 ^ n * d /\ 0 < d /\ v - d < x1 <= v /\ ~ before inc (f x1) p)) with (n := n) (s := (vsub b (Fin 1), b, Fin 1))
      as (m & s & (d & x1 & -> & _ & N0 & L01 & D1) & C0 & HW).
    { intros k s (d & x1 & -> & _ & Hd & _). cbn [fst]. rewrite CN1 by (apply W; lra). eauto. }
    { intros s (d & x1 & -> & H & Hd & _). cbn [fst]. rewrite CN1 by (apply W; lra). rewrite LO; [reflexivity|apply W; lra|]. simpl in H. lra. }
    { intros k s (d & x1 & -> & H & N0 & L & D). cbn [fst]. rewrite CN1 by (apply W; lra). intros C. injection C as C.
      apply negb_true_iff in C. apply bf_false in C. exists (2 * d), (v - d). rewrite Eb. cbn [fst snd vmul vsub vadd vneg]. repeat split; try lra.
      - simpl in H. lra. - exact C. }
    { exists 1, v. rewrite Eb. cbn [vneg vsub vadd]. repeat split; try lra. apply nbefore. exact Bv. }
    cbn [fst] in C0. rewrite CN1 in C0 by (apply W; lra). injection C0 as C0. apply negb_false_iff, bf_true in C0.
    exists (v - d), x1, n. split; [repeat split; try (apply W; lra); try lra; assumption|].
    intros fuel Hfu. rewrite Ea, Eb in *. change (cand (ceq NInf NInf) (ceq (Fin v) PInf)) with (CB false). change (ceq NInf NInf) with (CB true). unfold cif.
    rewrite HW by lia. reflexivity.
  - assert (W : forall x, u <= x -> within a b x) by (intros; rewrite Ea, Eb; split; [assumption|exact I]).
    destruct (pow_big 2 1 (v - u)) as [n Hn]; [lra|lra|].
    destruct (while_ind (fun s : val * val * val => ceq (vsign (vsub (Fin p) (func (snd (fst s))))) (Fin (sg inc)))
       (fun s => (snd (fst s), vadd a (vmul (Fin 2) (snd s)), vmul (Fin 2) (snd s)))
       (fun n s => exists d x0, s = (Fin x0, Fin (u + d), Fin d) /\ v - u <= 2 ^ n * d /\ 0 < d /\ u <= x0 < u + d /\ before inc (f x0) p)) with (n := n) (s := (a, vadd a (Fin 1), Fin 1))
      as (m & s & (d & x0 & -> & _ & N0 & L01 & D1) & C0 & HW).
    { intros k s (d & x0 & -> & _ & Hd & _). cbn [fst snd]. rewrite CE1 by (apply W; lra). eauto. }
    { intros s (d & x0 & -> & H & Hd & _). cbn [fst snd]. rewrite CE1 by (apply W; lra). rewrite HI; [reflexivity|apply W; lra|]. simpl in H. lra. }
    { intros k s (d & x0 & -> & H & N0 & L & D). cbn [fst snd]. rewrite CE1 by (apply W; lra). intros C. injection C as C.
      apply bf_true in C. exists (2 * d), (u + d). rewrite Ea. cbn [fst snd vmul vsub vadd vneg]. repeat split; try lra.
      - simpl in H. lra. - exact C. }
    { exists 1, u. rewrite Ea. cbn [vneg vsub vadd]. repeat split; try lra. exact Bu. }
    cbn [fst snd] in C0. rewrite CE1 in C0 by (apply W; lra). injection C0 as C0. apply bf_false in C0.
    exists x0, (u + d), n. split; [repeat split; try (apply W; lra); try lra; assumption|].
    intros fuel Hfu. rewrite Ea, Eb in *. change (cand (ceq (Fin u) NInf) (ceq PInf PInf)) with (CB false).
    change (ceq (Fin u) NInf) with (CB false). change (ceq PInf PInf) with (CB true). unfold cif.
    rewrite HW by lia. reflexivity.
  - exists u, v, O. split; [repeat split; try apply Wu; try apply Wv; try assumption; apply nbefore; exact Bv|].
    intros fuel _. rewrite Ea, Eb. reflexivity.
Qed.
End B.

Lemma within_fin_l r b x : within (Fin r) b x -> r <= x.
Proof. intros [H _]. exact H. Qed.
Lemma within_fin_r a r x : within a (Fin r) x -> x <= r.
Proof. intros [_ H]. exact H. Qed.

Lemma solve_between inc f p x0 x1 : (forall x, continuous f x) -> x0 <= x1 ->
  ~ before inc p (f x0) -> ~ before inc (f x1) p -> exists x, x0 <= x <= x1 /\ f x = p.
Proof.
  intros C L B0 B1.
  destruct (Req_dec (f x0) p) as [E|N0]; [exists x0; split; [lra|exact E]|].
  destruct (Req_dec (f x1) p) as [E|N1]; [exists x1; split; [lra|exact E]|].
  assert (L' : x0 < x1). { destruct L as [L|L]; [exact L|]. subst x1. unfold before in *. destruct inc; lra. }
  assert (IV : forall g, (forall x, continuous g x) -> g x0 < 0 -> 0 < g x1 -> exists x, x0 <= x <= x1 /\ g x = 0).
  { intros g Cg G0 G1. destruct (Ranalysis5.IVT_interv g x0 x1) as (z & Hz & Ez); try assumption.
    - intros z _. apply continuity_pt_filterlim, Cg. - exists z. split; assumption. }
  destruct inc; cbn in B0, B1.
  - destruct (IV (fun x => f x - p)) as (z & Hz & Ez); [|lra|lra|exists z; split; [lra|lra]].
    intros x. apply (continuous_minus (V := R_NormedModule)); [apply C|apply continuous_const].
  - destruct (IV (fun x => p - f x)) as (z & Hz & Ez); [|lra|lra|exists z; split; [lra|lra]].
    intros x. apply (continuous_minus (V := R_NormedModule)); [apply continuous_const|apply C].
Qed.

Section P.
Lemma find_bracket_ok (func : val -> val) (f : R -> R) (p pa pb : R) (a b : val) (inc : bool) (nbisect : option nat) :
  (forall x, within a b x -> func (Fin x) = Fin (f x)) -> monotone inc a b f ->
  func a = Fin pa -> func b = Fin pb -> before inc pa p -> before inc p pb ->
  (exists u, within a b u /\ before inc (f u) p) -> (exists v, within a b v /\ before inc p (f v)) ->
  exists x0 x1 N, (forall fuel, (N < fuel)%nat -> find_bracket fuel func (Fin p) a b nbisect = Ok (Fin x0, Fin x1)) /\
    brackets inc f p a b x0 x1 /\
    ((forall x, continuous f x) -> exists x, x0 <= x <= x1 /\ f x = p).
Proof.
  intros Hf M Ea Eb Ba Bb (u & Wu & Bu) (v & Wv & Bv).
  set (n := match nbisect with None => 8%nat | Some n => n end).
  assert (K : exists u v, within a b u /\ within a b v /\ before inc (f u) p /\ before inc p (f v) /\ (a = NInf \/ a = Fin u) /\ (b = PInf \/ b = Fin v)).
  { destruct a as [ra| | | |] eqn:Ha; try (destruct Wu; contradiction).
    - assert (Wa : within (Fin ra) b ra).
      { destruct b; try (destruct Wu; contradiction); split; try exact I; try lra. destruct Wu. lra. }
      assert (Ba' : before inc (f ra) p). { pose proof (Hf _ Wa) as H1. rewrite Ea in H1. injection H1 as <-. exact Ba. }
      destruct b as [rb| | | |] eqn:Hb; try (destruct Wu; contradiction).
      + assert (Wb : within (Fin ra) (Fin rb) rb) by (split; [destruct Wa; lra|lra]).
        pose proof (Hf _ Wb) as H1. rewrite Eb in H1. injection H1 as H1. subst pb. exists ra, rb. repeat split; try assumption; try (now left); try (now right); destruct Wa, Wb; try lra.
      + exists ra, v. repeat split; try assumption; try (now left); try (now right); try (destruct Wv; lra).
    - destruct b as [rb| | | |] eqn:Hb; try (destruct Wu; contradiction).
      + assert (Wb : within NInf (Fin rb) rb) by (split; [exact I|lra]).
        pose proof (Hf _ Wb) as H1. rewrite Eb in H1. injection H1 as H1. subst pb. exists u, rb. repeat split; try assumption; try (now left); try (now right); try (destruct Wu; lra).
      + exists u, v. repeat split; try assumption; now left. }
  clear u v Wu Wv Bu Bv. destruct K as (u & v & Wu & Wv & Bu & Bv & Da & Db).
  destruct (expand_ok func f p a b inc Hf M u v Wu Wv Bu Bv Da Db) as (x0 & x1 & N & G & HE).
  destruct (refine_ok func f p a b inc Hf M n x0 x1 G) as (y0 & y1 & Er & L0 & L1 & _ & C).
  exists y0, y1, N. split; [|split].
  - intros fuel Hfu. unfold find_bracket. rewrite Ea, Eb. cbn [bindv].
    change (ceq (Fin p) (Fin pa)) with (CB (Reqb p pa)). change (ceq (Fin p) (Fin pb)) with (CB (Reqb p pb)).
    rewrite !Reqb_false by (unfold before in *; destruct inc; lra). cbn [cif].
    rewrite (sign_before inc pa pb p Ba Bb). rewrite HE by assumption. cbn [bind fst snd]. exact Er.
  - unfold brackets. destruct C as [(-> & W & E)|(W0 & W1 & L & B0 & B1)]; [split; [exact W|]; split; [exact W|]; left; tauto|].
    split; [exact W0|]; split; [exact W1|]; right; tauto.
  - intros Cf. destruct C as [(-> & W & E)|(W0 & W1 & L & B0 & B1)]; [exists y1; split; [lra|exact E]|].
    apply (solve_between inc); try assumption; [lra|]. apply nbefore in B0. exact B0.
Qed.

Lemma find_bracket_width (func : val -> val) (f : R -> R) (p a b : R) (inc : bool) (n : nat) :
  (forall x, a <= x <= b -> func (Fin x) = Fin (f x)) -> monotone inc (Fin a) (Fin b) f ->
  a < b -> before inc (f a) p -> before inc p (f b) ->
  exists x0 x1, (forall fuel, find_bracket fuel func (Fin p) (Fin a) (Fin b) (Some n) = Ok (Fin x0, Fin x1)) /\ x1 - x0 <= (b - a) / 2 ^ n.
Proof.
  intros Hf M L Ba Bb.
  assert (Hf' : forall x, within (Fin a) (Fin b) x -> func (Fin x) = Fin (f x)) by (intros x [? ?]; apply Hf; lra).
  assert (G : good f p (Fin a) (Fin b) inc a b).
  { unfold good, within. repeat split; try lra; [exact Ba|]. apply nbefore. exact Bb. }
  destruct (refine_ok func f p (Fin a) (Fin b) inc Hf' M n a b G) as (y0 & y1 & Er & L0 & L1 & Wd & C).
  exists y0, y1. split.
  - intros fuel. unfold find_bracket. rewrite !Hf by lra. cbn [bindv].
    change (ceq (Fin p) (Fin (f a))) with (CB (Reqb p (f a))). change (ceq (Fin p) (Fin (f b))) with (CB (Reqb p (f b))).
    rewrite !Reqb_false by (unfold before in *; destruct inc; lra). cbn [cif].
    rewrite (sign_before inc _ _ p Ba Bb). exact Er.
  - assert (P2 : 0 < 2 ^ n) by (apply pow_lt; lra). apply Rmult_le_reg_r with (2 ^ n); [exact P2|].
    unfold Rdiv. rewrite Rmult_assoc, Rinv_l by lra. lra.
Qed.

Lemma find_bracket_ends (fuel : nat) (func : val -> val) (p pb : R) (a b : val) (nbisect : option nat) :
  (func a = Fin p -> find_bracket fuel func (Fin p) a b nbisect = Ok (a, a)) /\
  (func a = Fin pb -> pb <> p -> func b = Fin p -> find_bracket fuel func (Fin p) a b nbisect = Ok (b, b)).
Proof.
  unfold find_bracket. split.
  - intros ->. cbn [bindv]. change (ceq (Fin p) (Fin p)) with (CB (Reqb p p)). rewrite Reqb_true by reflexivity. reflexivity.
  - intros -> N ->. cbn [bindv]. change (ceq (Fin p) (Fin p)) with (CB (Reqb p p)). change (ceq (Fin p) (Fin pb)) with (CB (Reqb p pb)).
    rewrite (Reqb_true p p) by reflexivity. rewrite (Reqb_false p pb) by congruence. reflexivity.
Qed.

Lemma direction_bad (fuel : nat) (func : val -> val) (p : val) (direction : Z) : direction <> 1%Z -> direction <> (-1)%Z ->
  find_bracket_neginf_inf fuel func p direction = Err ValueError /\ find_bracket_0_inf fuel func p direction = Err ValueError.
Proof.
  intros H1 H2. unfold find_bracket_neginf_inf, find_bracket_0_inf, bad_direction.
  rewrite (proj2 (Z.eqb_neq direction (-1))), (proj2 (Z.eqb_neq direction 1)) by assumption. split; reflexivity.
Qed.
End P.

Definition dirz (inc : bool) : Z := if inc then 1%Z else (-1)%Z.
Lemma dir_ok inc : bad_direction (dirz inc) = false.
Proof. destruct inc; reflexivity. Qed.
Lemma high_c inc func p x y : func x = Fin y -> not_high_enough func (Fin p) (dirz inc) x = CB (bf inc y p).
Proof. unfold not_high_enough. intros ->. destruct inc; reflexivity. Qed.
Lemma low_c inc func p x y : func x = Fin y -> not_low_enough func (Fin p) (dirz inc) x = CB (bf inc p y).
Proof. unfold not_low_enough. intros ->. destruct inc; reflexivity. Qed.

Section E.
Variables (func : val -> val) (f : R -> R) (p : R) (inc : bool) (D : R -> Prop).
Hypothesis Hf : forall x, D x -> func (Fin x) = Fin (f x).
Hypothesis M : forall x y, D x -> D y -> x <= y -> if inc then f x <= f y else f y <= f x.

Lemma high_loop v : D v -> (forall x, 1 <= x -> D x) -> ~ before inc (f v) p ->
  exists N x, 1 <= x /\ ~ before inc (f x) p /\ forall fuel, (N < fuel)%nat -> while fuel (not_high_enough func (Fin p) (dirz inc)) (fun x => vmul x (Fin (3/2))) (Fin 1) = Ok (Fin x).
Proof.
  intros Dv HD B. destruct (pow_big (3/2) 1 v) as [n Hn]; [lra|lra|].
  destruct (while_ind (not_high_enough func (Fin p) (dirz inc)) (fun x => vmul x (Fin (3/2)))
     (fun n s => exists x, s = Fin x /\ 1 <= x /\ v <= (3/2) ^ n * x)) with (n := n) (s := Fin 1)
    as (m & s & (x & -> & L & _) & C & HW).
  - intros k s (x & -> & L & _). rewrite (high_c inc func p (Fin x) (f x)) by (apply Hf, HD, L). eauto.
  - intros s (x & -> & L & H). rewrite (high_c inc func p (Fin x) (f x)) by (apply Hf, HD, L). f_equal. apply bf_false.
    intros Bx. apply B. specialize (M v x Dv (HD _ L)). simpl in H. unfold before in *. destruct inc; lra.
  - intros k s (x & -> & L & H) _. exists (x * (3/2)). cbn [vmul]. repeat split; [lra|]. simpl in H. lra.
  - exists 1. repeat split; lra.
  - rewrite (high_c inc func p (Fin x) (f x)) in C by (apply Hf, HD, L). injection C as C. apply bf_false in C.
    exists n, x. repeat split; assumption.
Qed.
Lemma low_loop u : D u -> (forall x, x <= -1 -> D x) -> ~ before inc p (f u) ->
  exists N x, x <= -1 /\ ~ before inc p (f x) /\ forall fuel, (N < fuel)%nat -> while fuel (not_low_enough func (Fin p) (dirz inc)) (fun x => vmul x (Fin (3/2))) (Fin (-1)) = Ok (Fin x).
Proof.
  intros Dv HD B. destruct (pow_big (3/2) 1 (- u)) as [n Hn]; [lra|lra|].
  destruct (while_ind (not_low_enough func (Fin p) (dirz inc)) (fun x => vmul x (Fin (3/2)))
     (fun n s => exists x, s = Fin x /\ x <= -1 /\ - u <= (3/2) ^ n * - x)) with (n := n) (s := Fin (-1))
    as (m & s & (x & -> & L & _) & C & HW).
  - intros k s (x & -> & L & _). rewrite (low_c inc func p (Fin x) (f x)) by (apply Hf, HD, L). eauto.
  - intros s (x & -> & L & H). rewrite (low_c inc func p (Fin x) (f x)) by (apply Hf, HD, L). f_equal. apply bf_false.
    intros Bx. apply B. specialize (M x u (HD _ L) Dv). simpl in H. unfold before in *. destruct inc; lra.
  - intros k s (x & -> & L & H) _. exists (x * (3/2)). cbn [vmul]. repeat split; [lra|]. simpl in H. lra.
  - exists (-1). repeat split; lra.
  - rewrite (low_c inc func p (Fin x) (f x)) in C by (apply Hf, HD, L). injection C as C. apply bf_false in C.
    exists n, x. repeat split; assumption.
Qed.
Lemma low0_loop u : D u -> (forall x, 0 < x <= 1 -> D x) -> 0 < u -> ~ before inc p (f u) ->
  exists N x, 0 < x <= 1 /\ ~ before inc p (f x) /\ forall fuel, (N < fuel)%nat ->
   while fuel (fun x => cand (cgt x (Fin 0)) (not_low_enough func (Fin p) (dirz inc) x)) (fun x => vmul x (Fin (1/2))) (Fin 1) = Ok (Fin x).
Proof.
  intros Dv HD Pu B. destruct (pow_small 1 u) as [n Hn]; [lra|lra|].
  assert (CC : forall x, 0 < x <= 1 -> cand (cgt (Fin x) (Fin 0)) (not_low_enough func (Fin p) (dirz inc) (Fin x)) = CB (bf inc p (f x))).
  { intros x Hx. rewrite (low_c inc func p (Fin x) (f x)) by (apply Hf, HD, Hx). cbn. rewrite Rltb_true by lra. reflexivity. }
  destruct (while_ind (fun x => cand (cgt x (Fin 0)) (not_low_enough func (Fin p) (dirz inc) x)) (fun x => vmul x (Fin (1/2)))
     (fun n s => exists x, s = Fin x /\ 0 < x <= 1 /\ (1/2) ^ n * x <= u)) with (n := n) (s := Fin 1)
    as (m & s & (x & -> & L & _) & C & HW).
  - intros k s (x & -> & L & _). rewrite CC by exact L. eauto.
  - intros s (x & -> & L & H). rewrite CC by exact L. f_equal. apply bf_false.
    intros Bx. apply B. specialize (M x u (HD _ L) Dv). simpl in H. unfold before in *. destruct inc; lra.
  - intros k s (x & -> & L & H) _. exists (x * (1/2)). cbn [vmul]. repeat split; [lra|lra|]. simpl in H. lra.
  - exists 1. repeat split; lra.
  - rewrite CC in C by exact L. injection C as C. apply bf_false in C.
    exists n, x. repeat split; try assumption; lra.
Qed.
End E.

Section P.
Lemma neginf_inf_ok (func : val -> val) (f : R -> R) (p : R) (inc : bool) :
  (forall x, func (Fin x) = Fin (f x)) -> monotone inc NInf PInf f ->
  (exists u, ~ before inc p (f u)) -> (exists v, ~ before inc (f v) p) ->
  exists x0 x1 N, (forall fuel, (N < fuel)%nat -> find_bracket_neginf_inf fuel func (Fin p) (if inc then 1 else -1)%Z = Ok (Fin x0, Fin x1)) /\
    x0 <= x1 /\ ~ before inc p (f x0) /\ ~ before inc (f x1) p /\ (x0 = x1 -> f x0 = p) /\
    ((forall x, continuous f x) -> exists x, x0 <= x <= x1 /\ f x = p).
Proof.
  intros Hf M (u & Bu) (v & Bv). change (if inc then 1 else -1)%Z with (dirz inc).
  assert (M' : forall x y, True -> True -> x <= y -> if inc then f x <= f y else f y <= f x) by (intros x y _ _ L; apply (M x y); try assumption; split; exact I).
  destruct (high_loop func f p inc (fun _ => True) (fun x _ => Hf x) M' v I (fun _ _ => I) Bv) as (N1 & h & Lh & Bh & Wh).
  destruct (low_loop func f p inc (fun _ => True) (fun x _ => Hf x) M' u I (fun _ _ => I) Bu) as (N2 & l & Ll & Bl & Wl).
  set (x1 := if bf inc (f 0) p then h else 0). set (x0 := if bf inc p (f 0) then l else 0).
  assert (B0 : ~ before inc p (f x0)). { unfold x0. destruct (bf inc p (f 0)) eqn:E; [exact Bl|]. apply bf_false, E. }
  assert (B1 : ~ before inc (f x1) p). { unfold x1. destruct (bf inc (f 0) p) eqn:E; [exact Bh|]. apply bf_false, E. }
  assert (L : x0 <= x1) by (unfold x0, x1; destruct (bf inc p (f 0)), (bf inc (f 0) p); lra).
  exists x0, x1, (N1 + N2)%nat. split; [|split; [exact L|split; [exact B0|split; [exact B1|split]]]].
  - intros fuel Hfu. unfold find_bracket_neginf_inf. rewrite dir_ok.
    rewrite (high_c inc func p (Fin 0) (f 0)) by apply Hf. rewrite (low_c inc func p (Fin 0) (f 0)) by apply Hf. unfold cif.
    unfold x1. destruct (bf inc (f 0) p).
    + rewrite Wh by lia. cbn [bind]. unfold x0. destruct (bf inc p (f 0)); [|reflexivity]. cbn [vneg]. 
      replace (Fin (-(1))) with (Fin (-1)) by (f_equal; ring). rewrite Wl by lia. reflexivity.
    + cbn [bind]. unfold x0. destruct (bf inc p (f 0)); [|reflexivity]. cbn [vneg]. 
      replace (Fin (-(1))) with (Fin (-1)) by (f_equal; ring). rewrite Wl by lia. reflexivity.
  - intros E. rewrite <- E in B1. unfold before in *. destruct inc; lra.
  - intros C. apply (solve_between inc); assumption.
Qed.

Lemma zero_inf_ok (func : val -> val) (f : R -> R) (p : R) (inc : bool) :
  (forall x, 0 < x -> func (Fin x) = Fin (f x)) -> (forall x y, 0 < x <= y -> if inc then f x <= f y else f y <= f x) ->
  (exists u, 0 < u /\ ~ before inc p (f u)) -> (exists v, 0 < v /\ ~ before inc (f v) p) ->
  exists x0 x1 N, (forall fuel, (N < fuel)%nat -> find_bracket_0_inf fuel func (Fin p) (if inc then 1 else -1)%Z = Ok (Fin x0, Fin x1)) /\
    0 < x0 <= x1 /\ ~ before inc p (f x0) /\ ~ before inc (f x1) p /\ (x0 = x1 -> f x0 = p) /\
    ((forall x, continuous f x) -> exists x, x0 <= x <= x1 /\ f x = p).
Proof.
  intros Hf M (u & Pu & Bu) (v & Pv & Bv). change (if inc then 1 else -1)%Z with (dirz inc).
  assert (M' : forall x y, 0 < x -> 0 < y -> x <= y -> if inc then f x <= f y else f y <= f x) by (intros x y ? _ L; apply (M x y); lra).
  destruct (high_loop func f p inc (fun x => 0 < x) Hf M' v Pv (fun x H => Rlt_le_trans _ _ _ Rlt_0_1 H) Bv) as (N1 & x1 & Lh & Bh & Wh).
  destruct (low0_loop func f p inc (fun x => 0 < x) Hf M' u Pu (fun x H => proj1 H) Pu Bu) as (N2 & x0 & Ll & Bl & Wl).
  exists x0, x1, (N1 + N2)%nat. split; [|split; [lra|split; [exact Bl|split; [exact Bh|split]]]].
  - intros fuel Hfu. unfold find_bracket_0_inf. rewrite dir_ok. cbv zeta. rewrite Wh by lia. cbn [bind]. rewrite Wl by lia. reflexivity.
  - intros E. rewrite <- E in Bh. unfold before in *. destruct inc; lra.
  - intros C. apply (solve_between inc); try assumption. lra.
Qed.

Lemma generic_inv_ok (findroot : (val -> val) -> val * val -> val) (func : val -> val) (f : R -> R) (p : R) (inc : bool) :
  (forall x, 0 < x -> func (Fin x) = Fin (f x)) -> (forall x y, 0 < x <= y -> if inc then f x <= f y else f y <= f x) ->
  (exists u, 0 < u /\ ~ before inc p (f u)) -> (exists v, 0 < v /\ ~ before inc (f v) p) -> (forall x, continuous f x) ->
  (forall l h, 0 < l <= h -> (exists x, l <= x <= h /\ f x - p = 0) ->
      exists x, l <= x <= h /\ findroot (fun k => vsub (func k) (Fin p)) (Fin l, Fin h) = Fin x /\ f x - p = 0) ->
  exists x N, 0 < x /\ f x = p /\ forall fuel, (N < fuel)%nat -> generic_inv fuel findroot func (Fin p) (if inc then 1 else -1)%Z = Fin x.
Proof.
  intros Hf M Hu Hv C FR. destruct (zero_inf_ok func f p inc Hf M Hu Hv) as (x0 & x1 & N & HN & L & _ & _ & _ & E).
  destruct (E C) as (x & Hx & Ex).
  destruct (FR x0 x1 L) as (y & Hy & Er & Ey); [exists x; split; [exact Hx|lra]|].
  exists y, N. split; [lra|]. split; [lra|].
  intros fuel Hfu. unfold generic_inv. rewrite (HN fuel Hfu). exact Er.
Qed.
End P.
