(** Proofs about M_uniform. *)
From Coq Require Import Reals Lra List Lia.
From Coquelicot Require Import Coquelicot.
From Verif Require Import Values VTac Spec RLib DistLib PLib M_common M_uniform.
Import ListNotations.
Local Open Scope R_scope.
Set Bullet Behavior "Strict Subproofs".

Section P.
Variables a b : R.
Hypothesis Hab : a < b.

Ltac start := unfold pdf, logpdf, cdf, sf, invcdf, invsf, mean, median, var, validate, validate_p.

Definition F x := (x - a) / (b - a).
Definition f (x : R) := 1 / (b - a).
Definition Q p := a + p * (b - a).

Lemma CERT : cert (fun x => pdf x a b) (fun x => logpdf x a b) (fun x => cdf x a b)
  (fun x => sf x a b) (fun p => invcdf p a b) (fun p => invsf p a b) a b F f Q.
Proof.
  constructor.
  - constructor; try (start; veval; auto; fail).
    + intros x [H1 H2]. simpl in *. start. veval. unfold F. split; [reflexivity|]. f_equal. field. lra.
    + intros x H. simpl in H. start. destruct (Req_dec x a) as [->|N].
      * veval. split; f_equal; field; lra.
      * assert (x < a) by lra. veval. auto.
    + intros x H. simpl in H. start. destruct (Req_dec x b) as [->|N].
      * veval. split; f_equal; field; lra.
      * assert (b < x) by lra. veval. auto.
  - constructor; auto.
    + intros x [H1 H2]. simpl in *. unfold F. split.
      * apply Rdiv_nonneg; lra.
      * apply Rmult_le_reg_r with (b - a); [lra|]. unfold Rdiv. rewrite Rmult_assoc, Rinv_l; lra.
    + intros x [H1 H2]. unfold F, f. auto_derive; [auto|field; lra].
    + intros x _. unfold f. apply Rdiv_pos; lra.
  - intros x _. apply continuous_const.
  - intros p Hp. split; [split; simpl; unfold Q; nra|]. unfold F, Q. field. lra.
  - intros x [H1 H2]. simpl in *. start. veval. unfold f. split; [reflexivity|].
    rewrite ln_div, ln_1 by lra. f_equal. ring.
  - intros x [H|H]; simpl in H; start; veval; auto.
  - intros p Hp. start. veval. unfold Q. split; [reflexivity|]. f_equal. ring.
Qed.

Lemma log_all (x : R) : log_of (fun x => pdf x a b) (fun x => logpdf x a b) x.
Proof.
  revert x. apply (cert_log_ends CERT); intros x E; injection E as E; subst x;
  left; exists (1 / (b - a)); (split; [apply Rdiv_pos; lra|]); start; veval;
  (split; [reflexivity|]); rewrite ln_div, ln_1 by lra; f_equal; ring.
Qed.

Lemma ends : rejects_bad_p (fun p => invcdf p a b) /\ rejects_bad_p (fun p => invsf p a b) /\
  at_ends (fun p => invcdf p a b) a b /\ at_ends (fun p => invsf p a b) b a.
Proof.
  unfold invcdf, invsf, rejects_bad_p, at_ends.
  rewrite ?vpp_pinf, ?vpp_ninf.
  split; [|split; [|split]].
  - split; [intros p Hp; apply vpp_bad; auto|split; reflexivity].
  - split; [intros p Hp; apply vpp_bad; auto|split; reflexivity].
  - start. veval. split; f_equal; ring.
  - start. veval. split; f_equal; ring.
Qed.

(** Moments. *)
Lemma mean_ok : exists m, mean a b = Fin m /\
  is_RInt (fun t => t * toR (pdf t a b)) a b m.
Proof.
  exists ((a + b) / 2). split; [start; veval; reflexivity|].
  apply (is_RInt_ext (fun t => t * (1 / (b - a)))).
  - intros x Hx. rewrite Rmin_left, Rmax_right in Hx by lra. unfold pdf, validate. veval. reflexivity.
  - replace ((a + b) / 2) with (minus (b^2/2 * (1/(b-a))) (a^2/2 * (1/(b-a)))).
    + apply (is_RInt_derive (fun t => t^2/2 * (1/(b-a)))).
      * intros x _. auto_derive; [auto|field; lra].
      * intros x _. apply ex_derive_cont. auto_derive. lra.
    + unfold minus, plus, opp; simpl. field. lra.
Qed.

Lemma moment_sum (n : nat) :
  (b - a) * sum_f_R0 (fun i => a ^ i * b ^ (n - i)) n = b ^ (n + 1) - a ^ (n + 1).
Proof.
  induction n as [|n IH].
  - simpl. ring.
  - rewrite tech5. replace (S n - S n)%nat with 0%nat by lia.
    rewrite (sum_eq _ (fun i => (a ^ i * b ^ (n - i)) * b)).
    + rewrite <- scal_sum. replace (b ^ (S n + 1)) with (b * b ^ (n + 1)) by reflexivity.
      replace (a ^ (S n + 1)) with (a * a ^ (n + 1)) by reflexivity.
      replace (a ^ S n) with (a ^ (n + 1)) by (f_equal; lia). simpl (b ^ 0).
      transitivity (b * ((b - a) * sum_f_R0 (fun i => a ^ i * b ^ (n - i)) n) + (b - a) * a ^ (n + 1)); [ring|].
      rewrite IH. ring.
    + intros i Hi. replace (S n - i)%nat with (S (n - i)) by lia. simpl. ring.
Qed.

Lemma fsum_seq (g : nat -> R) n :
  vfsum (map (fun i => Fin (g i)) (seq 0 (S n))) = Fin (sum_f_R0 g n).
Proof.
  assert (G : forall k m, vfsum (map (fun i => Fin (g i)) (seq m (S k))) =
              Fin (sum_f_R0 (fun i => g (m + i)%nat) k)).
  { intros k; induction k as [|k IH]; intros m.
    - simpl. f_equal. replace (m + 0)%nat with m by lia. ring.
    - change (seq m (S (S k))) with (m :: seq (S m) (S k)).
      cbn [map vfsum]. rewrite IH. cbn [vadd]. f_equal.
      rewrite (decomp_sum _ (S k)) by lia. simpl pred.
      replace (m + 0)%nat with m by lia. f_equal. apply sum_eq. intros; f_equal; lia. }
  rewrite G. f_equal.
Qed.

Lemma moment_ok n : exists m, noncentral_moment n a b = Fin m /\
  is_RInt (fun t => t ^ n * toR (pdf t a b)) a b m.
Proof.
  exists ((b ^ (n + 1) - a ^ (n + 1)) / (INR n + 1) / (b - a)).
  assert (Hn : 0 <= INR n) by apply pos_INR.
  split.
  - unfold noncentral_moment, validate. vif.
    destruct n as [|n]; cbn [Nat.eqb].
    + f_equal. simpl. field. lra.
    + rewrite (map_ext _ (fun i => Fin (a ^ i * b ^ (S n - i))))
        by (intros i; varith; reflexivity).
      replace (S n + 1)%nat with (S (S n)) by lia.
      rewrite fsum_seq. varith. f_equal.
      replace (S (S n)) with (S n + 1)%nat by lia. rewrite <- moment_sum. field. lra.
  - apply (is_RInt_ext (fun t => t ^ n * (1 / (b - a)))).
    + intros x Hx. rewrite Rmin_left, Rmax_right in Hx by lra. unfold pdf, validate. veval. reflexivity.
    + replace ((b ^ (n + 1) - a ^ (n + 1)) / (INR n + 1) / (b - a)) with
        (minus (b^(n+1)/(INR n + 1) * (1/(b-a))) (a^(n+1)/(INR n + 1) * (1/(b-a))))
        by (unfold minus, plus, opp; simpl; field; lra).
      apply (is_RInt_derive (fun t => t^(n+1)/(INR n + 1) * (1/(b-a)))).
      * intros x _. auto_derive; [auto|]. rewrite plus_INR.
        replace (Init.Nat.pred (n + 1)) with n by lia. simpl (INR 1). field. lra.
      * intros x _. apply ex_derive_cont. auto_derive. lra.
Qed.

Lemma var_ok : exists v m, var a b = Fin v /\ mean a b = Fin m /\
  is_RInt (fun t => (t - m)^2 * toR (pdf t a b)) a b v.
Proof.
  exists ((b - a)^2 / 12), ((a + b) / 2). split; [start; veval; reflexivity|].
  split; [start; veval; reflexivity|].
  apply (is_RInt_ext (fun t => (t - (a+b)/2)^2 * (1 / (b - a)))).
  - intros x Hx. rewrite Rmin_left, Rmax_right in Hx by lra. unfold pdf, validate. veval. reflexivity.
  - replace ((b - a)^2 / 12) with
     (minus ((b - (a+b)/2)^3/3 * (1/(b-a))) ((a - (a+b)/2)^3/3 * (1/(b-a)))).
    + apply (is_RInt_derive (fun t => (t - (a+b)/2)^3/3 * (1/(b-a)))).
      * intros x _. auto_derive; [auto|field; lra].
      * intros x _. apply ex_derive_cont. auto_derive. lra.
    + unfold minus, plus, opp; simpl. field. lra.
Qed.

Lemma median_ok : exists m, median a b = Fin m /\ cdf m a b = Fin (1/2).
Proof. exists ((a+b)/2). start. veval. split; [reflexivity|]. f_equal. field. lra. Qed.

(** Entropy: minus the integral of f log f. *)
Lemma entropy_ok : exists h, entropy a b = Fin h /\
  is_RInt (fun t => - (toR (pdf t a b) * ln (toR (pdf t a b)))) a b h.
Proof.
  exists (ln (b - a)). split; [unfold entropy; start; veval; reflexivity|].
  apply (is_RInt_ext (fun t => ln (b - a) / (b - a))).
  - intros x Hx. rewrite Rmin_left, Rmax_right in Hx by lra. unfold pdf, validate. veval.
    simpl. rewrite ln_div, ln_1 by lra. field. lra.
  - replace (ln (b - a)) with (scal (b - a) (ln (b - a) / (b - a))) at 1
      by (unfold scal; simpl; unfold mult; simpl; field; lra).
    apply (is_RInt_const (V := R_NormedModule)).
Qed.
End P.

Lemma val_bad {A} `{CanRaise A} a b (k : A) : isnum a -> isnum b -> ext_le b a ->
  validate a b k = raise ValueError.
Proof.
  intros N1 N2 H1. unfold validate. inversion H1; subst; numcases; vif; reflexivity.
Qed.
Lemma bad_params a b : isnum a -> isnum b -> ext_le b a ->
  support a b = Err ValueError /\
  always_ValueError [ fun x => pdf x a b; fun x => logpdf x a b; fun x => cdf x a b;
    fun x => sf x a b; fun p => invcdf p a b; fun p => invsf p a b;
    fun _ => mean a b; fun _ => median a b; fun _ => var a b; fun _ => entropy a b ].
Proof.
  intros N1 N2 H. split; [|all_ve; intros x Hx];
  unfold support, pdf, logpdf, cdf, sf, invcdf, invsf, mean, median, var, entropy;
  rewrite ?val_bad by auto; try reflexivity; apply vpp_pass; auto.
Qed.
