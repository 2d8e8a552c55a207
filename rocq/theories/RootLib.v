(** A reference root finder satisfying SpecRoot.bracket_solver, and the doubling search. *)
From Coq Require Import Reals Lra Lia.
From Verif Require Import Values VTac SpecRoot.
Local Open Scope R_scope.
Set Bullet Behavior "Strict Subproofs".

Definition fv (func : val -> val) (s : R) (x : R) : R := match func (Fin x) with Fin y => s * y | _ => 0 end.
Definition below_set (func : val -> val) (s a b : R) (x : R) : Prop := a <= x <= b /\ fv func s x <= 0.
Lemma below_bound func s a b : bound (below_set func s a b).
Proof. exists b. intros x [H _]. lra. Qed.
Lemma below_start func s a b : a <= b -> fv func s a <= 0 -> exists x, below_set func s a b x.
Proof. intros. exists a. split; [lra|auto]. Qed.
(** The largest point of the bracket where the function (times s) is <= 0. *)
Definition sup_root (func : val -> val) (s a b : R) : R :=
  match Rle_dec a b with
  | left L => match Rle_dec (fv func s a) 0 with
              | left H => proj1_sig (completeness _ (below_bound func s a b) (below_start func s a b L H))
              | right _ => a
              end
  | right _ => a
  end.
Definition ref_root (func : val -> val) (x : val * val) : val :=
  match x with
  | (Fin a, Fin b) => if Rle_dec (fv func 1 a) 0 then (if Rle_dec 0 (fv func 1 b) then Fin (sup_root func 1 a b) else Fin (sup_root func (-1) a b)) else Fin (sup_root func (-1) a b)
  | _ => Exc ValueError
  end.
Lemma sup_ok func f s a b : a <= b -> (forall x, a <= x <= b -> func (Fin x) = Fin (f x)) -> (forall x, a <= x <= b -> continuity_pt f x) ->
  s * f a <= 0 <= s * f b -> a <= sup_root func s a b <= b /\ s * f (sup_root func s a b) = 0.
Proof.
  intros L E C S. assert (V : forall x, a <= x <= b -> fv func s x = s * f x) by (intros x Hx; unfold fv; rewrite E by auto; auto).
  unfold sup_root. destruct (Rle_dec a b) as [L'|]; [|lra]. destruct (Rle_dec (fv func s a) 0) as [H|H]; [|rewrite V in H by lra; lra].
  destruct (completeness _ _ _) as [m [UB LUB]]. simpl. assert (A : a <= m <= b). { split; [apply UB; split; [lra|auto]|]. apply LUB. intros x [X _]. lra. }
  split; auto.
  assert (C' : continuity_pt (fun x => s * f x) m) by (apply (continuity_pt_scal f s m), C; auto).
  destruct (Rtotal_order (s * f m) 0) as [G|[G|G]]; auto; exfalso.
  - assert (MB : m < b) by (destruct (Req_dec m b) as [->|]; [lra|lra]).
    destruct (C' (- (s * f m)) ltac:(lra)) as [d [D X]]. set (y := Rmin (m + d / 2) b). assert (m < y <= b) by (unfold y, Rmin; destruct (Rle_dec (m + d / 2) b); lra).
    assert (y - m < d) by (unfold y, Rmin; destruct (Rle_dec (m + d / 2) b); lra).
    assert (Y : dist R_met (s * f y) (s * f m) < - (s * f m)). { apply X. split; [split; [exact I|lra]|]. simpl. unfold R_dist. rewrite Rabs_pos_eq; lra. }
    simpl in Y. unfold R_dist in Y. apply Rabs_def2 in Y. assert (y <= m); [|lra]. apply UB. split; [lra|]. rewrite V; lra.
  - destruct (C' (s * f m) ltac:(lra)) as [d [D X]].
    assert (m <= m - d / 2); [|lra]. apply LUB. intros x [Hx F]. apply Rnot_lt_le. intros Q. assert (x <= m) by (apply UB; split; auto). rewrite V in F by auto.
    destruct (Req_dec x m) as [->|N]; [lra|].
    assert (Y : dist R_met (s * f x) (s * f m) < s * f m). { apply X. split; [split; [exact I|lra]|]. simpl. unfold R_dist. rewrite Rabs_left1; lra. }
    simpl in Y. unfold R_dist in Y. apply Rabs_def2 in Y. lra.
Qed.
Lemma ref_root_ok : bracket_solver ref_root.
Proof.
  intros func f a b L E C S. unfold ref_root. assert (V : forall x, a <= x <= b -> fv func 1 x = f x) by (intros x Hx; unfold fv; rewrite E by auto; ring). rewrite !V by lra.
  assert (P1 : f a <= 0 <= f b -> exists r, Fin (sup_root func 1 a b) = Fin r /\ a <= r <= b /\ f r = 0).
  { intros S1. destruct (sup_ok func f 1 a b) as [X Y]; auto; [lra|]. eexists. split; [reflexivity|]. split; auto. lra. }
  assert (P2 : f b <= 0 <= f a -> exists r, Fin (sup_root func (-1) a b) = Fin r /\ a <= r <= b /\ f r = 0).
  { intros S1. destruct (sup_ok func f (-1) a b) as [X Y]; auto; [lra|]. eexists. split; [reflexivity|]. split; auto. lra. }
  destruct (Rle_dec (f a) 0); [destruct (Rle_dec 0 (f b)); [apply P1; lra|]|]; apply P2; lra.
Qed.
