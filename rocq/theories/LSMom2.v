(** Moments of a scaled law (no location). *)
From Coq Require Import Reals Lra Lia.
From Coquelicot Require Import Coquelicot.
From Verif Require Import Values VTac Spec RLib DistLib DistLS IntLib MomLib LSMom.
Local Open Scope R_scope.
Section S.
Variables (lo hi : Rbar) (F f Q : R -> R).
Hypothesis ST : std lo hi F f Q.
Variables (s : R) (pdf : val -> val) (lo' hi' : Rbar).
Hypothesis S : 0 < s.
Hypothesis ELO : lo' = ls 0 s lo.
Hypothesis EHI : hi' = ls 0 s hi.
Hypothesis PDF : forall x, inside lo' hi' x -> pdf (Fin x) = Fin (f ((x - 0) / s) / s).
Let LT : Rbar_lt lo hi := sm_lt _ _ _ _ (st_smooth _ _ _ _ _ ST).
Lemma scale_moment n v m : integrates_to (fun z => z ^ n * f z) lo hi v -> m = Fin (s ^ n * v) -> moment_is pdf lo' hi' n m.
Proof.
  intros H ->. eexists; split; [reflexivity|].
  apply (ls_expect lo hi F f Q ST 0 s pdf lo' hi' S ELO EHI PDF (fun z => (s * z) ^ n)).
  - apply (integrates_ext lo hi LT (fun z => s ^ n * (z ^ n * f z))).
    + intros z _. rewrite Rpow_mult_distr. ring.
    + apply integrates_scal. exact H.
  - intros x. f_equal. field. lra.
Qed.
End S.
