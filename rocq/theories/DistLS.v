(** Location-scale families: laws of the standard member carried to every
    location and scale. *)
From Coq Require Import Reals Lra List Bool ZArith.
From Coquelicot Require Import Coquelicot.
From Verif Require Import Values VTac Spec RLib DistLib.
Local Open Scope R_scope.
Set Bullet Behavior "Strict Subproofs".

(** Facts about the standard member. *)
Record std (lo hi : Rbar) (F f Q : R -> R) : Prop := {
  st_smooth : smooth lo hi F f;
  st_cont : forall x, inside lo hi x -> continuous f x;
  st_quant : quantile lo hi F Q
}.

Definition ls (l s : R) (b : Rbar) : Rbar :=
  match b with Finite r => Finite (l + s * r) | p_infty => p_infty | m_infty => m_infty end.

Lemma ls_inside l s lo hi x : 0 < s -> inside (ls l s lo) (ls l s hi) x <-> inside lo hi ((x - l) / s).
Proof.
  intros S. assert (E : s * ((x - l) / s) = x - l) by (field; lra).
  unfold inside. destruct lo as [a| |], hi as [b| |]; simpl; split; intros [A B]; split; auto; try nra;
  (apply (Rmult_lt_reg_l s); [auto|]; lra).
Qed.
Lemma ls_inside_pt l s lo hi z : 0 < s -> inside lo hi z -> inside (ls l s lo) (ls l s hi) (l + s * z).
Proof.
  intros S H. apply ls_inside; auto. replace ((l + s * z - l) / s) with z by (field; lra). auto.
Qed.

Section LS.
Variables (lo hi : Rbar) (F f Q : R -> R).
Hypothesis ST : std lo hi F f Q.
Variables (l s : R).
Hypothesis S : 0 < s.
Notation F' := (fun x => F ((x - l) / s)).
Notation f' := (fun x => f ((x - l) / s) / s).
Notation Q' := (fun p => l + s * Q p).

Lemma ls_smooth : smooth (ls l s lo) (ls l s hi) F' f'.
Proof.
  destruct ST as [SM C HQ]. constructor.
  - pose proof (sm_lt _ _ _ _ SM). destruct lo, hi; simpl in *; auto. nra.
  - intros x H. apply ls_inside in H; auto. apply (sm_01 _ _ _ _ SM); auto.
  - intros x H. apply ls_inside in H; auto. pose proof (sm_der _ _ _ _ SM _ H) as D.
    replace (f ((x - l) / s) / s) with (scal (/ s) (f ((x - l) / s))) by (unfold scal; simpl; unfold mult; simpl; field; lra).
    apply (is_derive_comp F (fun x => (x - l) / s)); auto. auto_derive; auto. field. lra.
  - intros x H. apply ls_inside in H; auto. apply Rdiv_pos; auto. apply (sm_pos _ _ _ _ SM); auto.
Qed.
Lemma ls_cont x : inside (ls l s lo) (ls l s hi) x -> continuous f' x.
Proof.
  intros H. apply ls_inside in H; auto. pose proof (st_cont _ _ _ _ _ ST _ H) as C.
  apply (continuous_scal_l (fun x => f ((x - l) / s)) (/ s) x) in C || idtac.
  unfold Rdiv. apply (continuous_mult (fun x => f ((x - l) * / s)) (fun _ => / s)); [|apply continuous_const].
  apply (continuous_comp (fun x => (x - l) * / s) f); auto.
  apply ex_derive_cont. auto_derive. auto.
Qed.
Lemma ls_quant : quantile (ls l s lo) (ls l s hi) F' Q'.
Proof.
  intros p H. destruct (st_quant _ _ _ _ _ ST p H) as [A B]. split; [apply ls_inside_pt; auto|].
  replace ((l + s * Q p - l) / s) with (Q p) by (field; lra). auto.
Qed.
Lemma ls_cert pdf logpdf cdf sf invcdf invsf lo' hi' : lo' = ls l s lo -> hi' = ls l s hi ->
  core cdf sf lo' hi' F' ->
  (forall x, inside lo hi ((x - l) / s) -> pdf (Fin x) = Fin (f' x) /\ logpdf (Fin x) = Fin (ln (f' x))) ->
  (forall x : R, Rbar_lt x lo' \/ Rbar_lt hi' x -> pdf (Fin x) = Fin 0 /\ logpdf (Fin x) = NInf) ->
  (forall p, 0 < p < 1 -> invcdf (Fin p) = Fin (l + s * Q p) /\ invsf (Fin p) = Fin (l + s * Q (1 - p))) ->
  cert pdf logpdf cdf sf invcdf invsf lo' hi' F' f' Q'.
Proof.
  intros -> -> CO P O I. constructor; auto.
  - apply ls_smooth.
  - apply ls_cont.
  - apply ls_quant.
  - intros x H. apply P. apply ls_inside in H; auto.
Qed.
End LS.

Lemma loc_scale_from_cert (pdf logpdf cdf sf invcdf invsf : val -> val -> val -> val) lo hi F f Q :
  (forall l s, 0 < s -> cert (fun x => pdf x (Fin l) (Fin s)) (fun x => logpdf x (Fin l) (Fin s))
     (fun x => cdf x (Fin l) (Fin s)) (fun x => sf x (Fin l) (Fin s)) (fun p => invcdf p (Fin l) (Fin s))
     (fun p => invsf p (Fin l) (Fin s)) (ls l s lo) (ls l s hi)
     (fun x => F ((x - l) / s)) (fun x => f ((x - l) / s) / s) (fun p => l + s * Q p)) ->
  loc_scale_law pdf cdf sf invcdf invsf lo hi.
Proof.
  intros C l s S. pose proof (C l s S) as C1. pose proof (C 0 1 Rlt_0_1) as C0.
  assert (Z : forall z, (l + s * z - l) / s = z) by (intros; field; lra).
  assert (Z0 : forall z, (z - 0) / 1 = z) by (intros; field).
  split; [|split].
  - intros z. destruct (Rbar_trichotomy lo hi z) as [H|[H|H]].
    + assert (H1 : Rbar_le (Finite (l + s * z)) (ls l s lo)) by (destruct lo; simpl in *; auto; nra).
      assert (H0 : Rbar_le (Finite z) (ls 0 1 lo)) by (destruct lo; simpl in *; auto; lra).
      destruct (co_below _ _ _ _ _ (ce_core _ _ _ _ _ _ _ _ _ _ _ C1) _ H1) as [-> ->].
      destruct (co_below _ _ _ _ _ (ce_core _ _ _ _ _ _ _ _ _ _ _ C0) _ H0) as [-> ->]. auto.
    + assert (H1 : inside (ls l s lo) (ls l s hi) (l + s * z)) by (apply ls_inside_pt; auto).
      assert (H0 : inside (ls 0 1 lo) (ls 0 1 hi) z) by (apply ls_inside; [lra|rewrite Z0; auto]).
      destruct (co_in _ _ _ _ _ (ce_core _ _ _ _ _ _ _ _ _ _ _ C1) _ H1) as [-> ->].
      destruct (co_in _ _ _ _ _ (ce_core _ _ _ _ _ _ _ _ _ _ _ C0) _ H0) as [-> ->].
      rewrite Z, Z0. auto.
    + assert (H1 : Rbar_le (ls l s hi) (Finite (l + s * z))) by (destruct hi; simpl in *; auto; nra).
      assert (H0 : Rbar_le (ls 0 1 hi) (Finite z)) by (destruct hi; simpl in *; auto; lra).
      destruct (co_above _ _ _ _ _ (ce_core _ _ _ _ _ _ _ _ _ _ _ C1) _ H1) as [-> ->].
      destruct (co_above _ _ _ _ _ (ce_core _ _ _ _ _ _ _ _ _ _ _ C0) _ H0) as [-> ->]. auto.
  - intros z H.
    assert (H1 : inside (ls l s lo) (ls l s hi) (l + s * z)) by (apply ls_inside_pt; auto).
    assert (H0 : inside (ls 0 1 lo) (ls 0 1 hi) z) by (apply ls_inside; [lra|rewrite Z0; auto]).
    exists (f z). destruct (ce_pdf _ _ _ _ _ _ _ _ _ _ _ C1 _ H1) as [-> _].
    destruct (ce_pdf _ _ _ _ _ _ _ _ _ _ _ C0 _ H0) as [-> _]. rewrite Z, Z0. split; f_equal; field; lra.
  - intros p H. exists (Q p), (Q (1 - p)).
    destruct (ce_inv _ _ _ _ _ _ _ _ _ _ _ C1 _ H) as [-> ->].
    destruct (ce_inv _ _ _ _ _ _ _ _ _ _ _ C0 _ H) as [-> ->]. repeat split; f_equal; ring.
Qed.

(** Same with one fixed shape argument passed before loc and scale is obtained by
    partial application. *)

(** Gluing two functions at a point. *)
Lemma glue_derive (G H : R -> R) (c d : R) : G c = H c -> is_derive G c d -> is_derive H c d ->
  is_derive (fun x => if Rle_dec x c then G x else H x) c d.
Proof.
  intros E DG DH. apply is_derive_Reals in DG. apply is_derive_Reals in DH. apply is_derive_Reals.
  intros eps He. destruct (DG eps He) as [d1 H1]. destruct (DH eps He) as [d2 H2].
  assert (P : 0 < Rmin d1 d2) by (apply Rmin_glb_lt; apply cond_pos).
  exists (mkposreal _ P). intros h Hh Hd. simpl in Hd.
  destruct (Rle_dec c c) as [_|N]; [|lra].
  destruct (Rle_dec (c + h) c).
  - apply H1; auto. eapply Rlt_le_trans; [exact Hd|apply Rmin_l].
  - rewrite E. apply H2; auto. eapply Rlt_le_trans; [exact Hd|apply Rmin_r].
Qed.
Lemma glue_derive_l (G H : R -> R) (c x d : R) : x < c -> is_derive G x d ->
  is_derive (fun x => if Rle_dec x c then G x else H x) x d.
Proof.
  intros L D. apply (is_derive_ext_loc G); auto.
  assert (P : 0 < c - x) by lra. exists (mkposreal _ P). intros y B.
  unfold ball in B; simpl in B; unfold AbsRing_ball, abs, minus, plus, opp in B; simpl in B.
  apply Rabs_def2 in B. destruct (Rle_dec y c); auto. lra.
Qed.
Lemma glue_derive_r (G H : R -> R) (c x d : R) : c < x -> is_derive H x d ->
  is_derive (fun x => if Rle_dec x c then G x else H x) x d.
Proof.
  intros L D. apply (is_derive_ext_loc H); auto.
  assert (P : 0 < x - c) by lra. exists (mkposreal _ P). intros y B.
  unfold ball in B; simpl in B; unfold AbsRing_ball, abs, minus, plus, opp in B; simpl in B.
  apply Rabs_def2 in B. destruct (Rle_dec y c); auto. lra.
Qed.

(** Reflection. *)
Lemma inside_opp lo hi x : inside (Rbar_opp hi) (Rbar_opp lo) x <-> inside lo hi (- x).
Proof. unfold inside. destruct lo, hi; simpl; split; intros [A B]; split; auto; lra. Qed.
Lemma std_reflect lo hi F f Q : std lo hi F f Q ->
  std (Rbar_opp hi) (Rbar_opp lo) (fun z => 1 - F (- z)) (fun z => f (- z)) (fun p => - Q (1 - p)).
Proof.
  intros [SM C HQ]. constructor.
  - constructor.
    + pose proof (sm_lt _ _ _ _ SM). destruct lo, hi; simpl in *; auto.
    + intros x H. apply inside_opp in H. pose proof (sm_01 _ _ _ _ SM _ H). lra.
    + intros x H. apply inside_opp in H. pose proof (sm_der _ _ _ _ SM _ H) as D.
      evar_last.
      * apply (is_derive_minus (fun _ => 1) (fun z => F (- z))); [apply is_derive_const|].
        apply (is_derive_comp F Ropp); [exact D|]. apply (is_derive_opp (fun x : R => x)). apply (is_derive_id x).
      * unfold minus, plus, opp, scal, zero, one; simpl; unfold mult; simpl. ring.
    + intros x H. apply inside_opp in H. apply (sm_pos _ _ _ _ SM); auto.
  - intros x H. apply inside_opp in H. apply (continuous_comp Ropp f).
    + apply ex_derive_cont. auto_derive. auto.
    + apply C; auto.
  - intros p H. destruct (HQ (1 - p)) as [A B]; [lra|]. split.
    + apply inside_opp. rewrite Ropp_involutive. auto.
    + rewrite Ropp_involutive, B. ring.
Qed.

(** A distribution that is the mirror image of a certified one. *)
Lemma cert_reflect {pdf logpdf cdf sf invcdf invsf} (pdf' logpdf' cdf' sf' invcdf' invsf' : val -> val) {lo hi F f Q} :
  cert pdf logpdf cdf sf invcdf invsf lo hi F f Q ->
  (forall x : R, pdf' (Fin x) = pdf (Fin (- x)) /\ logpdf' (Fin x) = logpdf (Fin (- x))) ->
  (forall x, ext x -> cdf' x = sf (vneg x) /\ sf' x = cdf (vneg x)) ->
  (forall p, 0 < p < 1 -> invcdf' (Fin p) = vneg (invsf (Fin p)) /\ invsf' (Fin p) = vneg (invcdf (Fin p))) ->
  cert pdf' logpdf' cdf' sf' invcdf' invsf' (Rbar_opp hi) (Rbar_opp lo)
    (fun z => 1 - F (- z)) (fun z => f (- z)) (fun p => - Q (1 - p)).
Proof.
  intros [CO SM CN HQ P O I] HP HC HI.
  destruct (std_reflect lo hi F f Q (Build_std _ _ _ _ _ SM CN HQ)) as [SM' CN' HQ'].
  constructor; auto.
  - constructor.
    + intros x H. apply inside_opp in H. destruct (HC (Fin x) (ext_fin x)) as [-> ->]. cbn [vneg].
      destruct (co_in _ _ _ _ _ CO _ H) as [-> ->]. split; f_equal. ring.
    + intros x H. destruct (HC (Fin x) (ext_fin x)) as [-> ->]. cbn [vneg].
      assert (H' : Rbar_le hi (- x)) by (destruct hi; simpl in *; auto; lra).
      destruct (co_above _ _ _ _ _ CO _ H') as [-> ->]. auto.
    + intros x H. destruct (HC (Fin x) (ext_fin x)) as [-> ->]. cbn [vneg].
      assert (H' : Rbar_le (- x) lo) by (destruct lo; simpl in *; auto; lra).
      destruct (co_below _ _ _ _ _ CO _ H') as [-> ->]. auto.
    + destruct (HC NInf ext_ninf) as [-> ->]. cbn [vneg]. destruct (co_pinf _ _ _ _ _ CO) as [-> ->]. auto.
    + destruct (HC PInf ext_pinf) as [-> ->]. cbn [vneg]. destruct (co_ninf _ _ _ _ _ CO) as [-> ->]. auto.
  - intros x H. apply inside_opp in H. destruct (HP x) as [-> ->]. apply P; auto.
  - intros x H. destruct (HP x) as [-> ->]. apply O.
    destruct H as [H|H]; [right|left]; [destruct hi|destruct lo]; simpl in *; auto; lra.
  - intros p H. destruct (HI p H) as [-> ->]. destruct (I p H) as [-> ->]. cbn [vneg]. split; f_equal.
    f_equal. f_equal. ring.
Qed.
