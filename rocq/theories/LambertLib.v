(** Lambert's function inverts w e^w on [-1, +inf). *)
From Coq Require Import Reals Lra.
From Coquelicot Require Import Coquelicot.
From Verif Require Import Values VTac RLib SFun2 M_sfun2.
Local Open Scope R_scope.
Set Bullet Behavior "Strict Subproofs".

Lemma wexp_incr u v : -1 <= u -> u < v -> u * exp u < v * exp v.
Proof.
  intros U UV. destruct (MVT_gen (fun w => w * exp w) u v (fun w => (1 + w) * exp w)) as [c [C E]].
  - intros w _. auto_derive; auto. ring.
  - intros w _. apply continuity_pt_filterlim. apply (ex_derive_continuous (V := R_NormedModule) (fun w => w * exp w)). auto_derive; auto.
  - rewrite Rmin_left, Rmax_right in C by lra. pose proof (exp_pos c).
    destruct (Rle_lt_dec (v * exp v) (u * exp u)) as [L|L]; auto. exfalso.
    assert (c = -1) by (destruct (Req_dec c (-1)); auto; assert (0 < (1 + c) * exp c) by (apply Rmult_lt_0_compat; lra); nra). 
    assert (u = -1) by lra. subst u.
    destruct (MVT_gen (fun w => w * exp w) ((-1 + v) / 2) v (fun w => (1 + w) * exp w)) as [d [D E']].
    + intros w _. auto_derive; auto. ring.
    + intros w _. apply continuity_pt_filterlim. apply (ex_derive_continuous (V := R_NormedModule) (fun w => w * exp w)). auto_derive; auto.
    + rewrite Rmin_left, Rmax_right in D by lra. pose proof (exp_pos d). assert (0 < (1 + d) * exp d) by (apply Rmult_lt_0_compat; lra).
      destruct (MVT_gen (fun w => w * exp w) (-1) ((-1 + v) / 2) (fun w => (1 + w) * exp w)) as [g [G E'']].
      * intros w _. auto_derive; auto. ring.
      * intros w _. apply continuity_pt_filterlim. apply (ex_derive_continuous (V := R_NormedModule) (fun w => w * exp w)). auto_derive; auto.
      * rewrite Rmin_left, Rmax_right in G by lra. pose proof (exp_pos g). assert (0 <= (1 + g) * exp g) by (apply Rmult_le_pos; lra). nra.
Qed.
Lemma LambertW_eq w : -1 <= w -> LambertW (w * exp w) = w.
Proof.
  intros W. unfold LambertW. assert (E : Lub_Rbar (fun u => u * exp u <= w * exp w) = Finite w); [|rewrite E; auto].
  apply is_lub_Rbar_unique. split.
  - intros u U. simpl. destruct (Rle_lt_dec u w); auto. pose proof (wexp_incr w u W ltac:(auto)). lra.
  - intros b B. apply B. lra.
Qed.
Lemma vlambertw_eq w : -1 <= w -> vlambertw (Fin (w * exp w)) = Fin w.
Proof.
  intros W. unfold vlambertw. rewrite LambertW_eq by auto. rewrite Rltb_false; auto.
  destruct (Req_dec w (-1)) as [->|]; [lra|pose proof (wexp_incr (-1) w ltac:(lra) ltac:(lra)); lra].
Qed.
