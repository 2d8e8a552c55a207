(** Numeric inverses of distribution functions. *)
From Coq Require Import Reals Lra Lia List Bool ZArith.
From Coquelicot Require Import Coquelicot.
From Verif Require Import Values VTac Spec RLib DistLib SpecRoot SpecBracket SpecInv M_bracket P_bracket M_numinv.
Local Open Scope R_scope.
Set Bullet Behavior "Strict Subproofs".

Section Inv.
Variables (func : val -> val) (G : R -> R) (inc : bool) (lo hi : Rbar) (q : R -> R).
Hypothesis HG : forall x, func (Fin x) = Fin (G x).
Hypothesis G01 : forall x, 0 <= G x <= 1.
Hypothesis GM : forall x y, x <= y -> if inc then G x <= G y else G y <= G x.
Hypothesis Gq : forall p, 0 < p < 1 -> inside lo hi (q p) /\ G (q p) = p.
Hypothesis GI : forall p x, 0 < p < 1 -> G x = p -> x = q p.
Lemma G_le x y : G x < G y -> if inc then x < y else y < x.
Proof. intros H. destruct (Rle_lt_dec x y) as [L|L]; destruct (Rle_lt_dec y x) as [L'|L']; pose proof (GM x y) as A; pose proof (GM y x) as B; destruct inc; try lra; try (specialize (A ltac:(lra)); lra); specialize (B ltac:(lra)); lra. Qed.
Lemma G_cont x : continuity_pt G x.
Proof.
  intros eps E.
  assert (HI : exists u, (if inc then x < u else u < x) /\ forall y, (if inc then y < u else u < y) -> G y < G x + eps).
  { pose proof (G01 x). destruct (Rlt_le_dec 1 (G x + eps)) as [L|L].
    - exists (if inc then x + 1 else x - 1). split; [destruct inc; lra|]. intros y _. pose proof (G01 y). lra.
    - assert (P : 0 < G x + eps / 2 < 1) by lra. destruct (Gq _ P) as [_ Q]. exists (q (G x + eps / 2)). split; [apply G_le; lra|]. intros y Y. pose proof (GM y (q (G x + eps / 2))) as A. pose proof (GM (q (G x + eps / 2)) y) as B. destruct inc; [specialize (A ltac:(lra)); lra|specialize (B ltac:(lra)); lra]. }
  assert (LO : exists u, (if inc then u < x else x < u) /\ forall y, (if inc then u < y else y < u) -> G x - eps < G y).
  { pose proof (G01 x). destruct (Rlt_le_dec (G x - eps) 0) as [L|L].
    - exists (if inc then x - 1 else x + 1). split; [destruct inc; lra|]. intros y _. pose proof (G01 y). lra.
    - assert (P : 0 < G x - eps / 2 < 1) by lra. destruct (Gq _ P) as [_ Q]. exists (q (G x - eps / 2)). split; [apply (G_le (q (G x - eps / 2)) x); lra|]. intros y Y. pose proof (GM y (q (G x - eps / 2))) as A. pose proof (GM (q (G x - eps / 2)) y) as B. destruct inc; [specialize (B ltac:(lra)); lra|specialize (A ltac:(lra)); lra]. }
  destruct HI as [u [U HU]], LO as [v [V HV]]. exists (Rmin (Rabs (u - x)) (Rabs (v - x))). split.
  - apply Rmin_glb_lt; apply Rabs_pos_lt; destruct inc; lra.
  - intros y [_ D]. simpl in *. unfold R_dist in *. pose proof (Rmin_l (Rabs (u - x)) (Rabs (v - x))). pose proof (Rmin_r (Rabs (u - x)) (Rabs (v - x))).
    assert (Rabs (y - x) < Rabs (u - x)) as D1 by lra. assert (Rabs (y - x) < Rabs (v - x)) as D2 by lra.
    assert (G y < G x + eps). { apply HU. unfold Rabs in D1. destruct inc; destruct (Rcase_abs (y - x)), (Rcase_abs (u - x)); lra. }
    assert (G x - eps < G y). { apply HV. unfold Rabs in D2. destruct inc; destruct (Rcase_abs (y - x)), (Rcase_abs (v - x)); lra. }
    apply Rabs_def1; lra.
Qed.
(** Any bracket around the solution will do. *)
Lemma solve_in p x0 x1 : 0 < p < 1 -> x0 <= q p <= x1 ->
  (forall findroot, checked_solver findroot -> forall x, findroot (fun t => vsub (func t) (Fin p)) (Fin x0, Fin x1) = Fin x -> x = q p) /\
  (forall findroot, bracket_solver findroot -> findroot (fun t => vsub (func t) (Fin p)) (Fin x0, Fin x1) = Fin (q p)).
Proof.
  intros P B. destruct (Gq p P) as [QI QE]. split.
  - intros fr CS x E. apply CS in E. rewrite HG in E. injection E as E. apply GI; auto. lra.
  - intros fr BS. destruct (BS (fun t => vsub (func t) (Fin p)) (fun x => G x - p) x0 x1) as [r [R1 [R2 R3]]].
    + lra.
    + intros x _. rewrite HG. reflexivity.
    + intros x _. apply continuity_pt_minus; [apply G_cont|apply continuity_pt_const; intros u v; auto].
    + pose proof (GM x0 (q p) ltac:(lra)). pose proof (GM (q p) x1 ltac:(lra)). destruct inc; [left|right]; lra.
    + rewrite R1. f_equal. apply GI; auto. lra.
Qed.
Lemma bracket_in nb (a b : val) (pa pb : R) : func a = Fin pa -> func b = Fin pb -> pa = (if inc then 0 else 1) -> pb = (if inc then 1 else 0) ->
  (forall x, inside lo hi x -> within a b x) -> forall p, 0 < p < 1 -> exists x0 x1 N, (forall fuel, (N < fuel)%nat -> find_bracket fuel func (Fin p) a b nb = Ok (Fin x0, Fin x1)) /\ x0 <= q p <= x1.
Proof.
  intros A B PA PB W p P. destruct (Gq p P) as [QI QE].
  destruct (find_bracket_ok func G p pa pb a b inc nb) as (x0 & x1 & N & E & BR & _); auto.
  - intros x y _ _ L. apply GM; auto.
  - subst pa. unfold before. destruct inc; lra.
  - subst pb. unfold before. destruct inc; lra.
  - assert (P' : 0 < (if inc then p / 2 else (p + 1) / 2) < 1) by (destruct inc; lra). destruct (Gq _ P') as [QI' QE']. exists (q (if inc then p / 2 else (p + 1) / 2)). split; auto. rewrite QE'. unfold before. destruct inc; lra.
  - assert (P' : 0 < (if inc then (p + 1) / 2 else p / 2) < 1) by (destruct inc; lra). destruct (Gq _ P') as [QI' QE']. exists (q (if inc then (p + 1) / 2 else p / 2)). split; auto. rewrite QE'. unfold before. destruct inc; lra.
  - exists x0, x1, N. split; [exact E|].
    destruct BR as [_ [_ [[-> X]|[L [X Y]]]]]; [rewrite (GI p x1) by auto; lra|]. unfold before in X, Y. split.
    + apply Rnot_lt_le. intros Z. pose proof (GM (q p) x0 ltac:(lra)). destruct inc; lra.
    + apply Rnot_lt_le. intros Z. pose proof (GM x1 (q p) ltac:(lra)). assert (G x1 = p) by (destruct inc; lra). apply GI in H0; auto. lra.
Qed.
Lemma bracket_solve_ok nb (a b : val) (pa pb : R) : func a = Fin pa -> func b = Fin pb -> pa = (if inc then 0 else 1) -> pb = (if inc then 1 else 0) ->
  (forall x, inside lo hi x -> within a b x) -> solves func (fun fr fuel p => bracket_solve fr fuel nb func p a b) lo hi.
Proof.
  intros A B PA PB W p P. destruct (Gq p P) as [QI QE]. destruct (bracket_in nb a b pa pb A B PA PB W p P) as (x0 & x1 & N & E & IN).
  exists (q p), N. split; auto. split; [rewrite HG; f_equal; auto|]. split; [intros x X; rewrite HG in X; injection X as X; apply GI; auto|].
  destruct (solve_in p x0 x1 P IN) as [S1 S2]. unfold bracket_solve. split.
  + intros fr CS fuel x F. rewrite E by auto. cbn [fst snd]. change (ceq (Fin x0) (Fin x1)) with (CB (Reqb x0 x1)). destruct (Reqb_spec x0 x1) as [[L ->]|[L ->]]; cbn [cif]; [intros X; injection X as <-; lra|]. apply S1; auto.
  + intros fr BS fuel F. rewrite E by auto. cbn [fst snd]. change (ceq (Fin x0) (Fin x1)) with (CB (Reqb x0 x1)). destruct (Reqb_spec x0 x1) as [[L ->]|[L ->]]; cbn [cif]; [f_equal; lra|]. apply S2; auto.
Qed.
(** Without the early return. *)
Lemma bracket_call_ok nb (a b : val) (pa pb : R) : func a = Fin pa -> func b = Fin pb -> pa = (if inc then 0 else 1) -> pb = (if inc then 1 else 0) ->
  (forall x, inside lo hi x -> within a b x) -> solves func (fun fr fuel p => match find_bracket fuel func p a b nb with Err e => Exc e | Ok x => fr (fun t => vsub (func t) p) x end) lo hi.
Proof.
  intros A B PA PB W p P. destruct (Gq p P) as [QI QE]. destruct (bracket_in nb a b pa pb A B PA PB W p P) as (x0 & x1 & N & E & IN).
  exists (q p), N. split; auto. split; [rewrite HG; f_equal; auto|]. split; [intros x X; rewrite HG in X; injection X as X; apply GI; auto|].
  destruct (solve_in p x0 x1 P IN) as [S1 S2]. split.
  + intros fr CS fuel x F. rewrite E by auto. apply S1; auto.
  + intros fr BS fuel F. rewrite E by auto. apply S2; auto.
Qed.
Lemma generic_inv_ok : lo = Finite 0 -> hi = p_infty -> solves func (fun fr fuel p => generic_inv fuel fr func p (if inc then 1 else -1)%Z) lo hi.
Proof.
  intros L0 H0 p P. destruct (Gq p P) as [QI QE]. assert (QP : forall p, 0 < p < 1 -> 0 < q p) by (intros r R; destruct (Gq r R) as [[A _] _]; subst lo; exact A).
  destruct (zero_inf_ok func G p inc) as (x0 & x1 & N & E & L & B0 & B1 & _); auto.
  - intros x y [_ L]. apply GM; auto.
  - exists (q p). split; [auto|]. rewrite QE. unfold before. destruct inc; lra.
  - exists (q p). split; [auto|]. rewrite QE. unfold before. destruct inc; lra.
  - exists (q p), N. split; auto. split; [rewrite HG; f_equal; auto|]. split; [intros x X; rewrite HG in X; injection X as X; apply GI; auto|].
    assert (IN : x0 <= q p <= x1).
    { unfold before in B0, B1. split; apply Rnot_lt_le; intros Z.
      - pose proof (GM (q p) x0 ltac:(lra)). assert (X : G x0 = p) by (destruct inc; lra). apply GI in X; auto. lra.
      - pose proof (GM x1 (q p) ltac:(lra)). assert (X : G x1 = p) by (destruct inc; lra). apply GI in X; auto. lra. }
    destruct (solve_in p x0 x1 P IN) as [S1 S2]. unfold generic_inv. split.
    + intros fr CS fuel x F. rewrite E by auto. apply S1; auto.
    + intros fr BS fuel F. rewrite E by auto. apply S2; auto.
Qed.
End Inv.

(** For a certified distribution. *)
Section C.
Context {pdf logpdf cdf sf invcdf invsf : val -> val} {lo hi : Rbar} {F f Q : R -> R}.
Hypothesis C : cert pdf logpdf cdf sf invcdf invsf lo hi F f Q.
Definition Gv (c : val -> val) (x : R) := toR (c (Fin x)).
Lemma cv x : cdf (Fin x) = Fin (Gv cdf x) /\ sf (Fin x) = Fin (Gv sf x) /\ Gv sf x = 1 - Gv cdf x /\ 0 <= Gv cdf x <= 1.
Proof. destruct (cert_complementary C (Fin x) (ext_fin x)) as [c [B [E1 E2]]]. unfold Gv. rewrite E1, E2. simpl. auto. Qed.
Lemma cdf_mono x y : x <= y -> Gv cdf x <= Gv cdf y.
Proof. intros L. destruct (cert_nondecreasing C (Fin x) (Fin y) (ele_fin x y L)) as [cx [cy [E1 [E2 H]]]]. unfold Gv. rewrite E1, E2. exact H. Qed.
Lemma cdf_q p : 0 < p < 1 -> inside lo hi (Q p) /\ Gv cdf (Q p) = p.
Proof. intros P. destruct (ce_quant _ _ _ _ _ _ _ _ _ _ _ C p P) as [A B]. split; auto. unfold Gv. rewrite (proj1 (co_in _ _ _ _ _ (ce_core _ _ _ _ _ _ _ _ _ _ _ C) _ A)). exact B. Qed.
Lemma cdf_in x : 0 < Gv cdf x < 1 -> inside lo hi x.
Proof.
  intros P. destruct (Rbar_lt_le_dec lo x) as [A|H]; [destruct (Rbar_lt_le_dec x hi) as [B|H]; [split; auto|]|]; exfalso; unfold Gv in P.
  - rewrite (proj1 (co_above _ _ _ _ _ (ce_core _ _ _ _ _ _ _ _ _ _ _ C) _ H)) in P. simpl in P. lra.
  - rewrite (proj1 (co_below _ _ _ _ _ (ce_core _ _ _ _ _ _ _ _ _ _ _ C) _ H)) in P. simpl in P. lra.
Qed.
Lemma cdf_inj p x : 0 < p < 1 -> Gv cdf x = p -> x = Q p.
Proof.
  intros P E. assert (A : inside lo hi x) by (apply cdf_in; lra). destruct (ce_quant _ _ _ _ _ _ _ _ _ _ _ C p P) as [B EB].
  apply (F_inj lo hi F f (ce_smooth _ _ _ _ _ _ _ _ _ _ _ C)); auto. rewrite EB, <- E. unfold Gv. rewrite (proj1 (co_in _ _ _ _ _ (ce_core _ _ _ _ _ _ _ _ _ _ _ C) _ A)). reflexivity.
Qed.
Lemma cert_bracket_cdf nb a b : cdf a = Fin 0 -> cdf b = Fin 1 -> (forall x, inside lo hi x -> within a b x) ->
  solves cdf (fun fr fuel p => bracket_solve fr fuel nb cdf p a b) lo hi.
Proof.
  intros A B W. apply (bracket_solve_ok cdf (Gv cdf) true lo hi Q) with (pa := 0) (pb := 1); auto.
  - intros x. apply cv.
  - intros x. apply cv.
  - apply cdf_mono.
  - apply cdf_q.
  - apply cdf_inj.
Qed.
Lemma sf_q p : 0 < p < 1 -> inside lo hi (Q (1 - p)) /\ Gv sf (Q (1 - p)) = p.
Proof. intros P. destruct (cdf_q (1 - p) ltac:(lra)) as [A B]. split; auto. destruct (cv (Q (1 - p))) as [_ [_ [-> _]]]. lra. Qed.
Lemma sf_inj p x : 0 < p < 1 -> Gv sf x = p -> x = Q (1 - p).
Proof. intros P E. apply cdf_inj; [lra|]. destruct (cv x) as [_ [_ [H _]]]. lra. Qed.
Lemma cert_bracket_sf nb a b : sf a = Fin 1 -> sf b = Fin 0 -> (forall x, inside lo hi x -> within a b x) ->
  solves sf (fun fr fuel p => bracket_solve fr fuel nb sf p a b) lo hi.
Proof.
  intros A B W. apply (bracket_solve_ok sf (Gv sf) false lo hi (fun p => Q (1 - p))) with (pa := 1) (pb := 0); auto.
  - intros x. apply cv.
  - intros x. destruct (cv x) as [_ [_ [-> H]]]. lra.
  - intros x y L. destruct (cv x) as [_ [_ [-> _]]]. destruct (cv y) as [_ [_ [-> _]]]. pose proof (cdf_mono x y L). lra.
  - apply sf_q.
  - intros p x. apply sf_inj.
Qed.
Lemma cert_call_cdf nb a b : cdf a = Fin 0 -> cdf b = Fin 1 -> (forall x, inside lo hi x -> within a b x) ->
  solves cdf (fun fr fuel p => match find_bracket fuel cdf p a b nb with Err e => Exc e | Ok x => fr (fun t => vsub (cdf t) p) x end) lo hi.
Proof.
  intros A B W. apply (bracket_call_ok cdf (Gv cdf) true lo hi Q) with (pa := 0) (pb := 1); auto.
  - intros x. apply cv.
  - intros x. apply cv.
  - apply cdf_mono.
  - apply cdf_q.
  - apply cdf_inj.
Qed.
Lemma cert_call_sf nb a b : sf a = Fin 1 -> sf b = Fin 0 -> (forall x, inside lo hi x -> within a b x) ->
  solves sf (fun fr fuel p => match find_bracket fuel sf p a b nb with Err e => Exc e | Ok x => fr (fun t => vsub (sf t) p) x end) lo hi.
Proof.
  intros A B W. apply (bracket_call_ok sf (Gv sf) false lo hi (fun p => Q (1 - p))) with (pa := 1) (pb := 0); auto.
  - intros x. apply cv.
  - intros x. destruct (cv x) as [_ [_ [-> H]]]. lra.
  - intros x y L. destruct (cv x) as [_ [_ [-> _]]]. destruct (cv y) as [_ [_ [-> _]]]. pose proof (cdf_mono x y L). lra.
  - apply sf_q.
  - intros p x. apply sf_inj.
Qed.
Lemma cert_generic_cdf : lo = Finite 0 -> hi = p_infty -> solves cdf (fun fr fuel p => generic_inv fuel fr cdf p 1%Z) lo hi.
Proof.
  intros A B. apply (generic_inv_ok cdf (Gv cdf) true lo hi Q); auto.
  - intros x. apply cv.
  - intros x. apply cv.
  - apply cdf_mono.
  - apply cdf_q.
  - apply cdf_inj.
Qed.
Lemma cert_generic_sf : lo = Finite 0 -> hi = p_infty -> solves sf (fun fr fuel p => generic_inv fuel fr sf p (-1)%Z) lo hi.
Proof.
  intros A B. apply (generic_inv_ok sf (Gv sf) false lo hi (fun p => Q (1 - p))); auto.
  - intros x. apply cv.
  - intros x. destruct (cv x) as [_ [_ [-> H]]]. lra.
  - intros x y L. destruct (cv x) as [_ [_ [-> _]]]. destruct (cv y) as [_ [_ [-> _]]]. pose proof (cdf_mono x y L). lra.
  - apply sf_q.
  - intros p x. apply sf_inj.
Qed.
End C.
Lemma solves_ext func inv inv' lo hi : (forall fr fuel p, 0 < p < 1 -> inv fr fuel (Fin p) = inv' fr fuel (Fin p)) -> solves func inv' lo hi -> solves func inv lo hi.
Proof.
  intros E S p P. destruct (S p P) as (q & N & A & B & C & D & H). exists q, N. repeat split; auto; try apply A.
  - intros fr CS fuel x F X. rewrite E in X by auto. eapply D; eauto.
  - intros fr BS fuel F. rewrite E by auto. apply H; auto.
Qed.

(** A bracket that is a point is a solution: used where the bracket search starts from an interval
    that need not contain the solution. *)
Section Pt.
Variables (func : val -> val) (G : R -> R) (p : R).
Hypothesis HG : forall x, func (Fin x) = Fin (G x).
Lemma refine_pt n sign x0 x1 y0 y1 : x0 < x1 -> refine n func (Fin p) sign (Fin x0) (Fin x1) = Ok (y0, y1) ->
  exists r0 r1, y0 = Fin r0 /\ y1 = Fin r1 /\ (r0 < r1 \/ r0 = r1 /\ G r0 = p).
Proof.
  revert x0 x1. induction n as [|n IH]; intros x0 x1 L; cbn [refine].
  - intros E. injection E as <- <-. exists x0, x1. auto.
  - change (vadd (Fin x0) (Fin x1)) with (Fin (x0 + x1)). rewrite vdiv_Fin by lra. rewrite HG. cbn [bindv].
    change (ceq (Fin (G ((x0 + x1) / 2))) (Fin p)) with (CB (Reqb (G ((x0 + x1) / 2)) p)). destruct (Reqb_spec (G ((x0 + x1) / 2)) p) as [[E ->]|[E ->]]; cbn [cif].
    + intros H. injection H as <- <-. do 2 eexists. split; [reflexivity|]. split; [reflexivity|]. auto.
    + destruct (ceq _ sign) as [[|]|e]; cbn [cif]; [apply IH; lra|apply IH; lra|discriminate].
Qed.
Lemma expand_pt fuel sign x0 x1 : expand_bracket fuel func (Fin p) sign (Fin 0) PInf = Ok (x0, x1) -> exists r0 r1, x0 = Fin r0 /\ x1 = Fin r1 /\ r0 < r1.
Proof.
  unfold expand_bracket. change (cand (ceq (Fin 0) NInf) (ceq PInf PInf)) with (CB false). change (ceq (Fin 0) NInf) with (CB false). change (ceq PInf PInf) with (CB true). cbn [cif].
  match goal with |- bind (while _ ?c ?f _) _ = _ -> _ => set (cc := c); set (ff := f) end.
  assert (W : forall n u0 u1 s, u0 < u1 -> 0 < u1 -> while n cc ff (Fin u0, Fin u1, Fin u1) = Ok s -> exists r0 r1 t, s = (Fin r0, Fin r1, t) /\ r0 < r1).
  { induction n as [|n IH]; intros u0 u1 s L P; cbn [while]; [discriminate|]. destruct (cc (Fin u0, Fin u1, Fin u1)) as [[|]|e]; [|intros E; injection E as <-; eauto|discriminate].
    unfold ff at 2. cbn [fst snd]. change (vadd (Fin 0) (vmul (Fin 2) (Fin u1))) with (Fin (0 + 2 * u1)). rewrite Rplus_0_l. change (vmul (Fin 2) (Fin u1)) with (Fin (2 * u1)). apply IH; lra. }
  change (vadd (Fin 0) (Fin 1)) with (Fin (0 + 1)). rewrite Rplus_0_l. destruct (while fuel cc ff (Fin 0, Fin 1, Fin 1)) as [s|e] eqn:E; [|discriminate]. cbn [bind].
  destruct (W _ _ _ _ Rlt_0_1 Rlt_0_1 E) as (r0 & r1 & t & -> & L). cbn [fst]. intros H. injection H as <- <-. eauto.
Qed.
Lemma bracket_pt fuel nb x0 x1 r : func PInf <> Fin p -> find_bracket fuel func (Fin p) (Fin 0) PInf nb = Ok (x0, x1) ->
  cif (ceq x0 x1) x0 NaN = Fin r -> G r = p.
Proof.
  intros NB. unfold find_bracket. rewrite HG. cbn [bindv]. change (ceq (Fin p) (Fin (G 0))) with (CB (Reqb p (G 0))). destruct (Reqb_spec p (G 0)) as [[E ->]|[E ->]]; cbn [cif].
  - intros H. injection H as <- <-. change (ceq (Fin 0) (Fin 0)) with (CB (Reqb 0 0)). rewrite Reqb_true by auto. cbn [cif]. intros H. injection H as <-. auto.
  - destruct (func PInf) as [pb| | | |] eqn:EB; cbn [bindv]; [| | | |discriminate];
    match goal with |- cif ?c _ _ = _ -> _ => destruct c as [[|]|e] eqn:EC end; cbn [cif]; try discriminate.
    all: try (exfalso; simpl in EC; try discriminate; injection EC as EC; destruct (Reqb_spec p pb) as [[X Y]|[X Y]]; rewrite Y in EC; [apply NB; subst; auto|discriminate]).
    all: match goal with |- bind (expand_bracket ?a ?b ?c ?d ?e ?f) _ = _ -> _ => destruct (expand_bracket a b c d e f) as [[u0 u1]|ex] eqn:EX end; cbn [bind]; try discriminate.
    all: apply expand_pt in EX; destruct EX as (r0 & r1 & -> & -> & L); cbn [fst snd]; intros R; apply refine_pt in R; auto; destruct R as (v0 & v1 & -> & -> & D).
    all: change (ceq (Fin v0) (Fin v1)) with (CB (Reqb v0 v1)); destruct D as [D|[-> D]]; [rewrite Reqb_false by lra; cbn [cif]; discriminate|rewrite Reqb_true by auto; cbn [cif]; intros H; injection H as <-; auto].
Qed.
End Pt.
