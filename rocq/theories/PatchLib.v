(** Distributions whose cdf and sf are wrong (nan) at +inf only: the laws at all other arguments,
    from a certificate for the corrected functions. *)
From Coq Require Import Reals Lra.
From Coquelicot Require Import Coquelicot.
From Verif Require Import Values VTac Spec RLib DistLib.
Local Open Scope R_scope.

Definition patch (f : val -> val) (v : val) : val -> val := fun x => match x with PInf => v | w => f w end.
Lemma ext_inf_dec x : {x = PInf} + {x <> PInf}.
Proof. destruct x; (left; reflexivity) || (right; discriminate). Qed.
Section S.
Context {pdf logpdf cdf sf invcdf invsf : val -> val} {lo : R} {F f Q : R -> R}.
Hypothesis C : cert pdf logpdf (patch cdf (Fin 1)) (patch sf (Fin 0)) invcdf invsf lo p_infty F f Q.
Lemma patch_eq g v x : x <> PInf -> patch g v x = g x.
Proof. destruct x; auto. congruence. Qed.
Lemma patch_compl x : ext x -> x <> PInf -> exists c, 0 <= c <= 1 /\ cdf x = Fin c /\ sf x = Fin (1 - c).
Proof. intros E N. destruct (cert_complementary C x E) as [c H]. rewrite !patch_eq in H by auto. eauto. Qed.
Lemma patch_mono x y : ext_le x y -> y <> PInf -> exists u v, cdf x = Fin u /\ cdf y = Fin v /\ u <= v.
Proof.
  intros E N. assert (x <> PInf) by (intros ->; inversion E; subst; congruence).
  destruct (cert_nondecreasing C x y E) as [u [v H1]]. rewrite !patch_eq in H1 by auto. eauto.
Qed.
Lemma patch_low x : ext_le x (Fin lo) -> cdf x = Fin 0.
Proof.
  intros E. assert (x <> PInf) by (intros ->; inversion E). rewrite <- (patch_eq cdf (Fin 1)) by auto. apply (cert_supported C). auto.
Qed.
Lemma patch_lim : filterlim (fun t => toR (cdf (Fin t))) (Rbar_locally p_infty) (locally 1).
Proof.
  pose proof (near_hi_filter p_infty) as FF. destruct C as [CO SM _ HQ _ _ _].
  apply (filterlim_ext_loc F); [|apply (lim_hi lo p_infty F f Q SM HQ)].
  exists lo. intros x X. pose proof (co_in _ _ _ _ _ CO x (conj X I)) as [E _]. simpl in E. rewrite E. auto.
Qed.
End S.
