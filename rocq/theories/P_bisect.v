(** Proofs about mp_bisect and betaincinv. *)
From Coq Require Import Reals Lra Lia ZArith.
From Coquelicot Require Import Coquelicot.
From Flocq Require Import Core.
From Verif Require Import Values VTac SpecGrid M_sfun SFun IncLib P_bracket M_bisect.
Local Open Scope R_scope.
Set Bullet Behavior "Strict Subproofs".

Section G.
Variable prec : positive.
Notation F := (representable prec).
Notation fmt := (generic_format radix2 (FLX_exp (Zpos prec))).
#[local] Instance prec_pos : Prec_gt_0 (Zpos prec) := eq_refl.

Lemma F_fmt x : F x <-> fmt x.
Proof.
  split.
  - intros (m & e & Hm & ->). apply generic_format_FLX. exists (Float radix2 m e); [|exact Hm].
    unfold F2R. cbn [Fnum Fexp]. now rewrite bpow_powerRZ.
  - intros H. apply FLX_format_generic in H; [|reflexivity]. destruct H as [[m e] E Hm].
    exists m, e. split; [exact Hm|]. rewrite E. unfold F2R. cbn [Fnum Fexp]. now rewrite bpow_powerRZ.
Qed.
Lemma F_fl x : F (fl prec x).
Proof. apply F_fmt. unfold fl. apply generic_format_round; typeclasses eauto. Qed.
Lemma fl_F x : F x -> fl prec x = x.
Proof. intros H. apply F_fmt in H. unfold fl. apply round_generic; [typeclasses eauto|exact H]. Qed.
Lemma fl_near x g : F g -> Rabs (fl prec x - x) <= Rabs (g - x).
Proof. intros H. apply F_fmt in H. unfold fl. apply (round_N_pt radix2 (FLX_exp (Zpos prec)) (fun x => negb (Z.even x)) x). exact H. Qed.
Lemma F_scale x k : F x -> F (x * powerRZ 2 k).
Proof. intros (m & e & Hm & ->). exists m, (e + k)%Z. split; [exact Hm|]. rewrite powerRZ_add by lra. ring. Qed.
Lemma F_2 x : F x -> F (2 * x).
Proof. intros H. apply (F_scale x 1) in H. simpl powerRZ in H. replace (2 * x) with (x * (2 * 1)) by ring. exact H. Qed.
Lemma F_half x : F x -> F (x / 2).
Proof. intros H. apply (F_scale x (-1)) in H. simpl powerRZ in H. replace (x / 2) with (x * / (2 * 1)) by field. exact H. Qed.
Lemma F_0 : F 0.
Proof. exists 0%Z, 0%Z. split; [|ring]. simpl Z.abs. apply Z.pow_pos_nonneg; lia. Qed.
Lemma F_1 : F 1.
Proof. exists 1%Z, 0%Z. split; [|simpl; ring]. simpl Z.abs. apply Z.pow_gt_1; lia. Qed.

Definition mid (x0 x1 : R) : R := fl prec (x0 + x1) / 2.
Lemma mid_F x0 x1 : F (mid x0 x1).
Proof. apply F_half, F_fl. Qed.
Lemma mid_in x0 x1 : F x0 -> F x1 -> x0 <= x1 -> x0 <= mid x0 x1 <= x1.
Proof.
  intros H0 H1 L. unfold mid.
  pose proof (fl_near (x0 + x1) (2 * x0) (F_2 _ H0)) as N0. pose proof (fl_near (x0 + x1) (2 * x1) (F_2 _ H1)) as N1.
  set (r := fl prec (x0 + x1)) in *. unfold Rabs in *.
  destruct (Rcase_abs (r - (x0 + x1))), (Rcase_abs (2 * x0 - (x0 + x1))), (Rcase_abs (2 * x1 - (x0 + x1))); lra.
Qed.
Lemma mid_end x0 x1 : F x0 -> F x1 -> x0 < x1 -> mid x0 x1 = x0 \/ mid x0 x1 = x1 -> neighbours prec x0 x1.
Proof.
  intros H0 H1 L E. split; [exact H0|]. split; [exact H1|]. split; [exact L|]. intros g Hg [G0 G1].
  pose proof (fl_near (x0 + x1) (2 * g) (F_2 _ Hg)) as N. unfold mid in E.
  replace (fl prec (x0 + x1)) with (2 * (fl prec (x0 + x1) / 2)) in N by field.
  destruct E as [E|E]; rewrite E in N; unfold Rabs in N;
    destruct (Rcase_abs _) in N; destruct (Rcase_abs _) in N; lra.
Qed.

(** Above u > 0 the representable numbers are integer multiples of one positive step. *)
Lemma grid u : 0 < u -> exists d, 0 < d /\ forall x, F x -> u <= x -> exists k : Z, x = IZR k * d.
Proof.
  intros Hu. exists (bpow radix2 (cexp radix2 (FLX_exp (Zpos prec)) u)). split; [apply bpow_gt_0|].
  intros x Hx L. apply F_fmt in Hx. red in Hx. unfold F2R in Hx. cbn [Fnum Fexp] in Hx.
  set (m := Ztrunc _) in Hx. set (e := cexp radix2 (FLX_exp (Zpos prec)) x) in Hx. set (e0 := cexp radix2 (FLX_exp (Zpos prec)) u).
  assert (Le : (e0 <= e)%Z).
  { unfold e, e0, cexp, FLX_exp. pose proof (mag_le radix2 u x Hu L). lia. }
  exists (m * Zpower radix2 (e - e0))%Z. rewrite Hx. rewrite mult_IZR, IZR_Zpower by lia.
  rewrite Rmult_assoc, <- bpow_plus. do 2 f_equal. lia.
Qed.

Variables (func : val -> val) (f : R -> R).
Notation loop := (fun fuel x0 x1 y0 => bisect_loop fuel prec func (Fin x0) (Fin x1) (Fin y0)).

(** The signs: s = 1 or -1. *)
Definition sgn (s y : R) : Prop := 0 < s * y.
Lemma vsign_s s y : s = 1 \/ s = -1 -> sgn s y -> vsign (Fin y) = Fin s.
Proof.
  unfold sgn. intros [->| ->] H; cbn.
  - rewrite Rltb_true by lra. reflexivity. - rewrite Rltb_false, Rltb_true by lra. reflexivity.
Qed.

Definition outcome (s x0 x1 r : R) : Prop :=
  x0 <= r <= x1 /\ F r /\
  (f r = 0 \/ exists l h, x0 <= l /\ h <= x1 /\ neighbours prec l h /\ (r = l \/ r = h) /\ sgn s (f l) /\ sgn (- s) (f h)).

Lemma step x0 x1 s : (forall x, F x -> x0 <= x <= x1 -> func (Fin x) = Fin (f x)) -> s = 1 \/ s = -1 ->
  F x0 -> F x1 -> x0 < x1 -> sgn s (f x0) -> sgn (- s) (f x1) ->
  (outcome s x0 x1 (mid x0 x1) /\ forall n, loop (S n) x0 x1 (f x0) = Fin (mid x0 x1)) \/
  (x0 < mid x0 x1 < x1 /\
    ((sgn s (f (mid x0 x1)) /\ forall n, loop (S n) x0 x1 (f x0) = loop n (mid x0 x1) x1 (f (mid x0 x1))) \/
     (sgn (- s) (f (mid x0 x1)) /\ forall n, loop (S n) x0 x1 (f x0) = loop n x0 (mid x0 x1) (f x0)))).
Proof.
  intros Hf Hs H0 H1 L S0 S1.
  pose proof (mid_in x0 x1 H0 H1 ltac:(lra)) as Hm. pose proof (mid_F x0 x1) as Fm. pose proof (mid_end x0 x1 H0 H1 L) as He.
  assert (B : forall n, loop (S n) x0 x1 (f x0) =
     if Reqb (f (mid x0 x1)) 0 then Fin (mid x0 x1) else if Reqb (mid x0 x1) x0 then Fin (mid x0 x1) else if Reqb (mid x0 x1) x1 then Fin (mid x0 x1) else
     IF vsign (Fin (f (mid x0 x1))) =? vsign (Fin (f x0)) THEN loop n (mid x0 x1) x1 (f (mid x0 x1)) ELSE loop n x0 (mid x0 x1) (f x0)).
  { intros n. cbn [bisect_loop]. cbn [vadd vfl]. rewrite vdiv_Fin by lra. fold (mid x0 x1). cbv zeta. rewrite (Hf _ Fm Hm).
    change (ceq (Fin (f (mid x0 x1))) (Fin 0)) with (CB (Reqb (f (mid x0 x1)) 0)).
    change (ceq (Fin (mid x0 x1)) (Fin x0)) with (CB (Reqb (mid x0 x1) x0)). change (ceq (Fin (mid x0 x1)) (Fin x1)) with (CB (Reqb (mid x0 x1) x1)).
    destruct (Reqb (f (mid x0 x1)) 0), (Reqb (mid x0 x1) x0), (Reqb (mid x0 x1) x1); reflexivity. }
  set (m := mid x0 x1) in *.
  destruct (Reqb_spec (f m) 0) as [[E Eb]|[E Eb]]; rewrite Eb in B; clear Eb.
  { left. split; [|exact B]. split; [exact Hm|]. split; [exact Fm|]. left. exact E. }
  destruct (Reqb_spec m x0) as [[E0 Eb]|[E0 Eb]]; rewrite Eb in B; clear Eb.
  { left. split; [|exact B]. split; [exact Hm|]. split; [exact Fm|]. right. exists x0, x1. repeat (split; [first [lra | now apply He; left | now left | assumption]|]). assumption. }
  destruct (Reqb_spec m x1) as [[E1 Eb]|[E1 Eb]]; rewrite Eb in B; clear Eb.
  { left. split; [|exact B]. split; [exact Hm|]. split; [exact Fm|]. right. exists x0, x1. repeat (split; [first [lra | now apply He; right | now right | assumption]|]). assumption. }
  right. split; [lra|]. rewrite (vsign_s s (f x0)) in B by assumption.
  destruct (Rlt_le_dec 0 (s * f m)) as [P|P].
  - left. split; [exact P|]. rewrite (vsign_s s (f m)) in B by assumption. change (ceq (Fin s) (Fin s)) with (CB (Reqb s s)) in B.
    rewrite Reqb_true in B by reflexivity. exact B.
  - right. assert (Sm : sgn (- s) (f m)) by (unfold sgn; destruct Hs as [->| ->]; lra). split; [exact Sm|].
    rewrite (vsign_s (- s) (f m)) in B by (first [exact Sm | destruct Hs; [right|left]; lra]). change (ceq (Fin (- s)) (Fin s)) with (CB (Reqb (- s) s)) in B.
    rewrite Reqb_false in B by (destruct Hs; lra). exact B.
Qed.

Lemma outcome_sub s x0 x1 y0 y1 r : x0 <= y0 -> y1 <= x1 -> outcome s y0 y1 r -> outcome s x0 x1 r.
Proof.
  intros L0 L1 (Hr & Fr & D). split; [lra|]. split; [exact Fr|]. destruct D as [D|(l & h & A & B & C)]; [left; exact D|].
  right. exists l, h. repeat (split; [lra|]). exact C.
Qed.

Lemma loop_pos u d n : 0 < d -> (forall x, F x -> u <= x -> exists k : Z, x = IZR k * d) ->
  forall s x0 x1, (forall x, F x -> x0 <= x <= x1 -> func (Fin x) = Fin (f x)) -> s = 1 \/ s = -1 ->
  F x0 -> F x1 -> u <= x0 < x1 -> sgn s (f x0) -> sgn (- s) (f x1) -> x1 - x0 <= INR n * d ->
  exists r, outcome s x0 x1 r /\ forall fuel, (n < fuel)%nat -> loop fuel x0 x1 (f x0) = Fin r.
Proof.
  intros Hd Hg. induction n; intros s x0 x1 Hf Hs H0 H1 L S0 S1 W; [simpl in W; lra|].
  assert (Gap : forall x y, F x -> F y -> u <= x < y -> d <= y - x).
  { intros x y Fx Fy Lxy. destruct (Hg x Fx ltac:(lra)) as [i ->]. destruct (Hg y Fy ltac:(lra)) as [j ->].
    assert (K : (i + 1 <= j)%Z). { apply Zlt_le_succ. apply lt_IZR. apply Rmult_lt_reg_r with d; lra. }
    apply IZR_le in K. rewrite plus_IZR in K. nra. }
  pose proof (mid_F x0 x1) as Fm. rewrite S_INR in W.
  destruct (step x0 x1 s Hf Hs H0 H1 ltac:(lra) S0 S1) as [[O E]|[Lm [[Sm E]|[Sm E]]]].
  - exists (mid x0 x1). split; [exact O|]. intros [|k] Hk; [lia|]. apply E.
  - destruct (IHn s (mid x0 x1) x1) as (r & O & HR); try assumption.
    + intros x Fx Hx. apply Hf; [exact Fx|lra].
    + lra.
    + pose proof (Gap x0 (mid x0 x1) H0 Fm ltac:(lra)). lra.
    + exists r. split; [apply outcome_sub with (3 := O); lra|]. intros [|k] Hk; [lia|]. rewrite E. apply HR. lia.
  - destruct (IHn s x0 (mid x0 x1)) as (r & O & HR); try assumption.
    + intros x Fx Hx. apply Hf; [exact Fx|lra].
    + lra.
    + pose proof (Gap (mid x0 x1) x1 Fm H1 ltac:(lra)). lra.
    + exists r. split; [apply outcome_sub with (3 := O); lra|]. intros [|k] Hk; [lia|]. rewrite E. apply HR. lia.
Qed.

Lemma bound w d : 0 < d -> exists n, w <= INR n * d.
Proof.
  intros Hd. exists (Z.to_nat (Z.max 0 (up (w / d)))).
  rewrite INR_IZR_INZ, Z2Nat.id by lia. replace w with (w / d * d) at 1 by (field; lra). apply Rmult_le_compat_r; [lra|].
  apply Rle_trans with (IZR (up (w / d))); [left; apply Rgt_lt, archimed|apply IZR_le; lia].
Qed.
Lemma loop_from_pos s x0 x1 : (forall x, F x -> x0 <= x <= x1 -> func (Fin x) = Fin (f x)) -> s = 1 \/ s = -1 ->
  F x0 -> F x1 -> 0 < x0 < x1 -> sgn s (f x0) -> sgn (- s) (f x1) ->
  exists r N, outcome s x0 x1 r /\ forall fuel, (N < fuel)%nat -> loop fuel x0 x1 (f x0) = Fin r.
Proof.
  intros Hf Hs H0 H1 L S0 S1. destruct (grid x0 ltac:(lra)) as (d & Hd & Hg). destruct (bound (x1 - x0) d Hd) as [n Hn].
  destruct (loop_pos x0 d n Hd Hg s x0 x1) as (r & O & HR); try assumption; [lra|]. exists r, n. split; assumption.
Qed.
Lemma mid_0 x : F x -> mid 0 x = x / 2.
Proof. intros H. unfold mid. rewrite Rplus_0_l, fl_F by exact H. reflexivity. Qed.

Lemma loop_from_0 eps s n : 0 < eps -> s = 1 \/ s = -1 -> (forall x, 0 < x < eps -> sgn s (f x)) -> forall x1,
  (forall x, F x -> 0 <= x <= x1 -> func (Fin x) = Fin (f x)) ->
  F x1 -> 0 < x1 -> x1 < 2 ^ n * eps -> sgn s (f 0) -> sgn (- s) (f x1) ->
  exists r N, outcome s 0 x1 r /\ forall fuel, (N < fuel)%nat -> loop fuel 0 x1 (f 0) = Fin r.
Proof.
  intros He Hs Hn. induction n; intros x1 Hf H1 P1 B S0 S1.
  - exfalso. simpl in B. specialize (Hn x1 ltac:(lra)). unfold sgn in *. lra.
  - destruct (step 0 x1 s Hf Hs F_0 H1 P1 S0 S1) as [[O E]|[Lm [[Sm E]|[Sm E]]]].
    + exists (mid 0 x1), 0%nat. split; [exact O|]. intros [|k] Hk; [lia|]. apply E.
    + destruct (loop_from_pos s (mid 0 x1) x1) as (r & N & O & HR); try assumption.
      * intros x Fx Hx. apply Hf; [exact Fx|lra].
      * apply mid_F.
      * exists r, (S N). split; [apply outcome_sub with (3 := O); lra|]. intros [|k] Hk; [lia|]. rewrite E. apply HR. lia.
    + destruct (IHn (mid 0 x1)) as (r & N & O & HR); try assumption.
      * intros x Fx Hx. apply Hf; [exact Fx|lra].
      * apply mid_F.
      * lra.
      * rewrite mid_0 by exact H1. simpl in B. lra.
      * exists r, (S N). split; [apply outcome_sub with (3 := O); lra|]. intros [|k] Hk; [lia|]. rewrite E. apply HR. lia.
Qed.
End G.

Section P.
Lemma bisect_ends (fuel : nat) (prec : positive) (func : val -> val) (x0 x1 y0 y1 : R) :
  representable prec x0 -> representable prec x1 -> func (Fin x0) = Fin y0 -> func (Fin x1) = Fin y1 ->
  (y0 = 0 -> mp_bisect fuel prec func (Fin x0) (Fin x1) = Fin x0) /\
  (y0 <> 0 -> y1 = 0 -> mp_bisect fuel prec func (Fin x0) (Fin x1) = Fin x1) /\
  (0 < y0 * y1 -> mp_bisect fuel prec func (Fin x0) (Fin x1) = Exc ValueError).
Proof.
  intros H0 H1 E0 E1. unfold mp_bisect, vfl. rewrite (fl_F prec x0 H0), (fl_F prec x1 H1), E0, E1. cbv zeta.
  change (ceq (Fin y0) (Fin 0)) with (CB (Reqb y0 0)). change (ceq (Fin y1) (Fin 0)) with (CB (Reqb y1 0)).
  split; [|split].
  - intros ->. rewrite Reqb_true by reflexivity. reflexivity.
  - intros N ->. rewrite Reqb_false by exact N. rewrite Reqb_true by reflexivity. reflexivity.
  - intros P. assert (N0 : y0 <> 0) by nra. assert (N1 : y1 <> 0) by nra.
    rewrite !Reqb_false by assumption. cbn. destruct (Rlt_le_dec 0 y0).
    + rewrite !Rltb_true by nra. reflexivity.
    + rewrite (Rltb_false 0 y0), !Rltb_true by nra. reflexivity.
Qed.

Lemma bisect_ok (prec : positive) (func : val -> val) (f : R -> R) (x0 x1 : R) :
  (forall x, representable prec x -> x0 <= x <= x1 -> func (Fin x) = Fin (f x)) ->
  representable prec x0 -> representable prec x1 -> 0 <= x0 < x1 -> f x0 * f x1 < 0 ->
  (x0 = 0 -> exists eps, 0 < eps /\ forall x, 0 < x < eps -> 0 < f 0 * f x) ->
  exists r N, (forall fuel, (N < fuel)%nat -> mp_bisect fuel prec func (Fin x0) (Fin x1) = Fin r) /\
    x0 <= r <= x1 /\ representable prec r /\
    (f r = 0 \/ exists l h, x0 <= l /\ h <= x1 /\ neighbours prec l h /\ (r = l \/ r = h) /\ 0 < f l * f x0 /\ 0 < f h * f x1).
Proof.
  intros Hf H0 H1 L Sg Z.
  set (s := if Rltb 0 (f x0) then 1 else -1).
  assert (Hs : s = 1 \/ s = -1) by (unfold s; destruct (Rltb 0 (f x0)); auto).
  assert (N0 : f x0 <> 0) by (intros E; rewrite E in Sg; lra).
  assert (S0 : sgn s (f x0)). { unfold s, sgn. destruct (Rltb_spec 0 (f x0)) as [[? ->]|[? ->]]; nra. }
  assert (S1 : sgn (- s) (f x1)). { unfold s, sgn. destruct (Rltb_spec 0 (f x0)) as [[? ->]|[? ->]]; nra. }
  clearbody s.
  assert (K : exists r N, outcome prec f s x0 x1 r /\ forall fuel, (N < fuel)%nat -> bisect_loop fuel prec func (Fin x0) (Fin x1) (Fin (f x0)) = Fin r).
  { destruct L as [[Lx| <-] L].
    - apply loop_from_pos; try assumption. lra.
    - destruct (Z eq_refl) as (eps & He & Hn). destruct (pow_big 2 eps (x1 + 1)) as [n Bn]; [lra|exact He|].
      apply (loop_from_0 prec func f eps s n); try assumption.
      + intros x Hx. specialize (Hn x Hx). unfold sgn in *. destruct Hs as [Hs|Hs]; rewrite Hs in *; nra.
      + lra. }
  destruct K as (r & N & (Hr & Fr & D) & HR). exists r, N. split; [|split; [exact Hr|split; [exact Fr|]]].
  - intros fuel Hfu. unfold mp_bisect, vfl. rewrite (fl_F prec x0 H0), (fl_F prec x1 H1). cbv zeta. rewrite !Hf by (try assumption; lra).
    change (ceq (Fin (f x0)) (Fin 0)) with (CB (Reqb (f x0) 0)). change (ceq (Fin (f x1)) (Fin 0)) with (CB (Reqb (f x1) 0)).
    rewrite !Reqb_false by nra. cbn [cif].
    replace (cor _ _) with (CB false).
    + cbn [cif]. apply HR. exact Hfu.
    + cbn. destruct (Rlt_le_dec 0 (f x0)).
      * rewrite (Rltb_true 0 (f x0)), (Rltb_false 0 (f x1)), (Rltb_false (f x0) 0) by nra. reflexivity.
      * rewrite (Rltb_false 0 (f x0)), (Rltb_true (f x0) 0), (Rltb_false (f x1) 0) by nra. reflexivity.
  - destruct D as [D|(l & h & A & B & C & E & Sl & Sh)]; [left; exact D|]. right. exists l, h.
    repeat (split; [assumption|]). unfold sgn in *. destruct Hs as [Hs|Hs]; rewrite Hs in *; split; nra.
Qed.

Lemma bisect_straddling_zero (fuel : nat) (prec : positive) :
  mp_bisect fuel prec (fun x => x) (Fin (-1)) (Fin 2) = Exc NonTermination.
Proof.
  assert (F1 : representable prec 1) by apply F_1.
  assert (Fm : representable prec (-1)). { exists (-1)%Z, 0%Z. split; [|simpl; lra]. simpl Z.abs. apply Z.pow_gt_1; lia. }
  assert (Lp : forall n, forall a, 0 < a -> representable prec a -> representable prec (- a) ->
     bisect_loop n prec (fun x => x) (Fin (- a)) (Fin (2 * a)) (Fin (- a)) = Exc NonTermination /\
     bisect_loop n prec (fun x => x) (Fin (- a)) (Fin (a / 2)) (Fin (- a)) = Exc NonTermination).
  { induction n; intros a Pa Fa Fna; [split; reflexivity|].
    assert (Fh : representable prec (a / 2)) by (apply F_half; exact Fa).
    assert (Fn4 : representable prec (- (a / 4))). { replace (- (a / 4)) with (- a / 2 / 2) by field. apply F_half, F_half, Fna. }
    assert (F4 : representable prec (a / 4)). { replace (a / 4) with (a / 2 / 2) by field. apply F_half, Fh. }
    assert (Fnh : representable prec (- (a / 2))). { replace (- (a / 2)) with (- a / 2) by field. apply F_half, Fna. }
    split.
    - cbn [bisect_loop vadd vfl]. cbv zeta. replace (- a + 2 * a) with a by ring. rewrite fl_F by exact Fa. rewrite vdiv_Fin by lra.
      cbn. rewrite !Reqb_false by lra. cbn. rewrite (Rltb_true 0 (a / 2)), (Rltb_false 0 (- a)), (Rltb_true (- a) 0) by lra. cbn. rewrite Reqb_false by lra.
      cbn. apply IHn; assumption.
    - cbn [bisect_loop vadd vfl]. cbv zeta. replace (- a + a / 2) with (- (a / 2)) by field. rewrite fl_F by exact Fnh. rewrite vdiv_Fin by lra.
      replace (- (a / 2) / 2) with (- (a / 4)) by field.
      cbn. rewrite !Reqb_false by lra. cbn. rewrite (Rltb_false 0 (- (a / 4))), (Rltb_true (- (a / 4)) 0), (Rltb_false 0 (- a)), (Rltb_true (- a) 0) by lra. cbn. rewrite Reqb_true by lra.
      cbn. replace (a / 2) with (2 * (a / 4)) by field. apply IHn; try assumption. lra. }
  unfold mp_bisect, vfl. rewrite (fl_F prec _ Fm), (fl_F prec 2) by (replace 2 with (2 * 1) by ring; apply F_2, F1). cbv zeta.
  cbn. rewrite !Reqb_false by lra. cbn. rewrite (Rltb_false 0 (-1)), (Rltb_true (-1) 0), (Rltb_false 2 0) by lra. cbn.
  replace 2 with (2 * 1) by ring. replace (-1) with (- (1)) by ring. apply Lp; try assumption. lra.
Qed.
End P.

Definition Ifull (a b t : R) : R := if Reqb t 0 then 0 else if Reqb t 1 then 1 else Ireg a b t.
Lemma low_eval a b t : 0 < a -> 0 < b -> 0 <= t <= 1 -> vbetainc_lower (Fin a) (Fin b) (Fin t) = Fin (Ifull a b t).
Proof.
  intros Ha Hb Ht. unfold vbetainc_lower, Ifull, Ireg. rewrite (Rltb_true 0 a), (Rltb_true 0 b) by lra.
  destruct (Reqb_spec t 0) as [[E ->]|[E ->]]; [reflexivity|]. destruct (Reqb_spec t 1) as [[E1 ->]|[E1 ->]]; [reflexivity|].
  rewrite !Rltb_true by lra. reflexivity.
Qed.
Lemma up_eval a b t : 0 < a -> 0 < b -> 0 <= t <= 1 -> vbetainc_upper (Fin a) (Fin b) (Fin t) = Fin (1 - Ifull a b t).
Proof.
  intros Ha Hb Ht. unfold vbetainc_upper, Ifull, Ireg. rewrite (Rltb_true 0 a), (Rltb_true 0 b) by lra.
  destruct (Reqb_spec t 0) as [[E ->]|[E ->]]; [f_equal; ring|]. destruct (Reqb_spec t 1) as [[E1 ->]|[E1 ->]]; [f_equal; ring|].
  rewrite !Rltb_true by lra. f_equal. rewrite upper_beta_eq by lra. pose proof (Beta_pos a b Ha Hb). field. lra.
Qed.
Lemma If_0 a b : Ifull a b 0 = 0.
Proof. unfold Ifull. rewrite Reqb_true by reflexivity. reflexivity. Qed.
Lemma If_1 a b : Ifull a b 1 = 1.
Proof. unfold Ifull. rewrite Reqb_false, Reqb_true by lra. reflexivity. Qed.
Lemma If_near a b y : 0 < a -> 0 < b -> 0 < y -> exists eps, 0 < eps /\ forall t, 0 < t < eps -> Ifull a b t < y.
Proof.
  intros Ha Hb Hy. pose proof (Beta_pos a b Ha Hb) as HB. pose proof (lb_lo a b Ha Hb) as Hl.
  assert (P : locally 0 (fun v : R => v < y * Beta a b)).
  { exists (mkposreal (y * Beta a b) ltac:(apply Rmult_lt_0_compat; assumption)). intros v Hv. unfold ball in Hv. cbn in Hv. unfold AbsRing_ball, abs, minus, plus, opp in Hv. cbn in Hv. apply Rabs_def2 in Hv. lra. }
  specialize (Hl _ P). unfold filtermap, at_right, within in Hl. destruct Hl as [d Hd].
  exists (Rmin d 1). split; [apply Rmin_pos; [apply cond_pos|lra]|]. intros t [T0 T1].
  assert (t < d) by (apply Rlt_le_trans with (1 := T1), Rmin_l). assert (t < 1) by (apply Rlt_le_trans with (1 := T1), Rmin_r).
  unfold Ifull. rewrite !Reqb_false by lra. unfold Ireg. apply Rmult_lt_reg_r with (Beta a b); [exact HB|].
  unfold Rdiv. rewrite Rmult_assoc, Rinv_l by lra. rewrite Rmult_1_r. apply Hd; [|exact T0].
  unfold ball. cbn. unfold AbsRing_ball, abs, minus, plus, opp. cbn. apply Rabs_def1; lra.
Qed.

Lemma inv_simple fuel prec findroot a b y m c : 0 < y < 1 -> betaincinv fuel prec findroot (Fin a) (Fin b) (Fin y) m c =
  let func := betainc_func (Fin a) (Fin b) (Fin y) c in
  let root x0 := let y := catch (findroot func x0) in
    match y with Exc _ => y | _ => IF y <? Fin 0 THEN Exc RuntimeError ELSE y end in
  match m with
  | OtherMethod => Exc ValueError
  | Bisect => catch (mp_bisect fuel prec func (Fin 0) (Fin 1))
  | BisectFrom xa xb => catch (mp_bisect fuel prec func (vfl prec xa) (vfl prec xb))
  | Findroot => root (Fin (1/2))
  | FindrootAt x0 => root (vfl prec x0)
  end.
Proof.
  intros Hy. unfold betaincinv.
  change (cor (clt (Fin y) (Fin 0)) (cgt (Fin y) (Fin 1))) with (cor (CB (Rltb y 0)) (CB (Rltb 1 y))).
  change (ceq (Fin y) (Fin 0)) with (CB (Reqb y 0)). change (ceq (Fin y) (Fin 1)) with (CB (Reqb y 1)).
  rewrite (Rltb_false y 0), (Rltb_false 1 y), (Reqb_false y 0), (Reqb_false y 1) by lra. reflexivity.
Qed.

Section P.
Lemma betaincinv_lower (prec : positive) (findroot : (val -> val) -> val -> val) (a b y : R) :
  0 < a -> 0 < b -> 0 < y < 1 ->
  exists r N, (forall fuel, (N < fuel)%nat -> betaincinv fuel prec findroot (Fin a) (Fin b) (Fin y) Bisect false = Fin r) /\
    0 <= r <= 1 /\ representable prec r /\
    (vbetainc_lower (Fin a) (Fin b) (Fin r) = Fin y \/
     exists l h vl vh, neighbours prec l h /\ (r = l \/ r = h) /\ vbetainc_lower (Fin a) (Fin b) (Fin l) = Fin vl /\
       vbetainc_lower (Fin a) (Fin b) (Fin h) = Fin vh /\ vl < y < vh).
Proof.
  intros Ha Hb Hy.
  destruct (bisect_ok prec (betainc_func (Fin a) (Fin b) (Fin y) false) (fun t => Ifull a b t - y) 0 1) as (r & N & HR & Hr & Fr & D).
  - intros x _ Hx. unfold betainc_func. rewrite low_eval by assumption. reflexivity.
  - apply F_0. - apply F_1. - lra. - rewrite If_0, If_1. nra.
  - intros _. destruct (If_near a b y Ha Hb ltac:(lra)) as (eps & He & Hn). exists eps. split; [exact He|]. intros x Hx. rewrite If_0. specialize (Hn x Hx). nra.
  - exists r, N. split; [|split; [exact Hr|split; [exact Fr|]]].
    + intros fuel Hfu. rewrite inv_simple by exact Hy. cbv zeta. rewrite HR by exact Hfu. reflexivity.
    + rewrite If_0, If_1 in D. destruct D as [D|(l & h & Ll & Lh & Nb & E & Sl & Sh)].
      * left. rewrite low_eval by assumption. f_equal. lra.
      * right. pose proof Nb as (_ & _ & Llh & _). exists l, h, (Ifull a b l), (Ifull a b h). split; [exact Nb|]. split; [exact E|].
        rewrite !low_eval by lra. split; [reflexivity|]. split; [reflexivity|]. nra.
Qed.
Lemma betaincinv_upper (prec : positive) (findroot : (val -> val) -> val -> val) (a b y : R) :
  0 < a -> 0 < b -> 0 < y < 1 ->
  exists r N, (forall fuel, (N < fuel)%nat -> betaincinv fuel prec findroot (Fin a) (Fin b) (Fin y) Bisect true = Fin r) /\
    0 <= r <= 1 /\ representable prec r /\
    (vbetainc_upper (Fin a) (Fin b) (Fin r) = Fin y \/
     exists l h vl vh, neighbours prec l h /\ (r = l \/ r = h) /\ vbetainc_upper (Fin a) (Fin b) (Fin l) = Fin vl /\
       vbetainc_upper (Fin a) (Fin b) (Fin h) = Fin vh /\ vh < y < vl).
Proof.
  intros Ha Hb Hy.
  destruct (bisect_ok prec (betainc_func (Fin a) (Fin b) (Fin y) true) (fun t => 1 - Ifull a b t - y) 0 1) as (r & N & HR & Hr & Fr & D).
  - intros x _ Hx. unfold betainc_func. rewrite up_eval by assumption. reflexivity.
  - apply F_0. - apply F_1. - lra. - rewrite If_0, If_1. nra.
  - intros _. destruct (If_near a b (1 - y) Ha Hb ltac:(lra)) as (eps & He & Hn). exists eps. split; [exact He|]. intros x Hx. rewrite If_0. specialize (Hn x Hx). nra.
  - exists r, N. split; [|split; [exact Hr|split; [exact Fr|]]].
    + intros fuel Hfu. rewrite inv_simple by exact Hy. cbv zeta. rewrite HR by exact Hfu. reflexivity.
    + rewrite If_0, If_1 in D. destruct D as [D|(l & h & Ll & Lh & Nb & E & Sl & Sh)].
      * left. rewrite up_eval by assumption. f_equal. lra.
      * right. pose proof Nb as (_ & _ & Llh & _). exists l, h, (1 - Ifull a b l), (1 - Ifull a b h). split; [exact Nb|]. split; [exact E|].
        rewrite !up_eval by lra. split; [reflexivity|]. split; [reflexivity|]. nra.
Qed.
Lemma betaincinv_edges (fuel : nat) (prec : positive) (findroot : (val -> val) -> val -> val) (a b : val) (y : R) (m : method) :
  (y < 0 \/ 1 < y -> forall c, betaincinv fuel prec findroot a b (Fin y) m c = NaN) /\
  betaincinv fuel prec findroot a b (Fin 0) m false = Fin 0 /\ betaincinv fuel prec findroot a b (Fin 0) m true = Fin 1 /\
  betaincinv fuel prec findroot a b (Fin 1) m false = Fin 1 /\ betaincinv fuel prec findroot a b (Fin 1) m true = Fin 0.
Proof.
  split.
  - intros Hy c. unfold betaincinv. change (cor (clt (Fin y) (Fin 0)) (cgt (Fin y) (Fin 1))) with (cor (CB (Rltb y 0)) (CB (Rltb 1 y))).
    destruct Hy; [rewrite (Rltb_true y 0) by lra; reflexivity|]. rewrite (Rltb_false y 0), (Rltb_true 1 y) by lra. reflexivity.
  - unfold betaincinv. change (cor (clt (Fin 0) (Fin 0)) (cgt (Fin 0) (Fin 1))) with (cor (CB (Rltb 0 0)) (CB (Rltb 1 0))).
    change (cor (clt (Fin 1) (Fin 0)) (cgt (Fin 1) (Fin 1))) with (cor (CB (Rltb 1 0)) (CB (Rltb 1 1))).
    change (ceq (Fin 0) (Fin 0)) with (CB (Reqb 0 0)). change (ceq (Fin 1) (Fin 1)) with (CB (Reqb 1 1)). change (ceq (Fin 1) (Fin 0)) with (CB (Reqb 1 0)).
    rewrite (Rltb_false 0 0), (Rltb_false 1 0), (Rltb_false 1 1), (Reqb_true 0 0), (Reqb_true 1 1), (Reqb_false 1 0) by lra. repeat split; reflexivity.
Qed.
Lemma betaincinv_method (fuel : nat) (prec : positive) (findroot : (val -> val) -> val -> val) (a b y : R) (c : bool) :
  0 < y < 1 -> betaincinv fuel prec findroot (Fin a) (Fin b) (Fin y) OtherMethod c = Exc ValueError.
Proof. intros Hy. rewrite inv_simple by exact Hy. reflexivity. Qed.
Lemma betaincinv_bracket (fuel : nat) (prec : positive) (findroot : (val -> val) -> val -> val) (a b y xa xb va vb : R) :
  0 < a -> 0 < b -> 0 < y < 1 -> representable prec xa -> representable prec xb ->
  vbetainc_lower (Fin a) (Fin b) (Fin xa) = Fin va -> vbetainc_lower (Fin a) (Fin b) (Fin xb) = Fin vb ->
  (va < y /\ vb < y) \/ (y < va /\ y < vb) ->
  betaincinv fuel prec findroot (Fin a) (Fin b) (Fin y) (BisectFrom (Fin xa) (Fin xb)) false = Exc RuntimeError.
Proof.
  intros Ha Hb Hy Fa Fb Ea Eb D. rewrite inv_simple by exact Hy. cbv zeta. unfold vfl. rewrite (fl_F prec xa Fa), (fl_F prec xb Fb).
  destruct (bisect_ends fuel prec (betainc_func (Fin a) (Fin b) (Fin y) false) xa xb (va - y) (vb - y) Fa Fb) as (_ & _ & E).
  - unfold betainc_func. rewrite Ea. reflexivity.
  - unfold betainc_func. rewrite Eb. reflexivity.
  - rewrite E by (destruct D; nra). reflexivity.
Qed.
Lemma betaincinv_findroot (fuel : nat) (prec : positive) (findroot : (val -> val) -> val -> val) (a b y r : R) (c : bool) :
  0 < y < 1 -> findroot (betainc_func (Fin a) (Fin b) (Fin y) c) (Fin (1/2)) = Fin r ->
  betaincinv fuel prec findroot (Fin a) (Fin b) (Fin y) Findroot c = if Rltb r 0 then Exc RuntimeError else Fin r.
Proof.
  intros Hy E. rewrite inv_simple by exact Hy. cbv beta zeta. rewrite E. cbn. destruct (Rltb r 0); reflexivity.
Qed.
End P.
