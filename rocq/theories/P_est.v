(** Lemmas shared by the proofs about estimators. *)
From Coq Require Import Reals Lra List.
From Verif Require Import Values VTac SpecStat SpecEst LLib RLib P_basic P_basic2.
From Verif Require M_basic.
Import ListNotations.
Local Open Scope R_scope.
Set Bullet Behavior "Strict Subproofs".

Lemma mean_of {A} (h : A -> val) (g : A -> R) l : l <> [] -> (forall a, In a l -> h a = Fin (g a)) ->
  M_basic.mean (map h l) None = Fin (sum (map g l) / INR (length l)).
Proof.
  intros N H. unfold M_basic.mean, vlen. rewrite map_length, (vfsum_map h g) by auto.
  pose proof (length_pos l N). rewrite vdiv_Fin by lra. reflexivity.
Qed.
Lemma mean_avg0 xs : xs <> [] -> M_basic.mean (map Fin xs) None = Fin (average xs).
Proof. intros N. rewrite (mean_of Fin (fun x => x)) by auto. rewrite map_id. reflexivity. Qed.
Lemma mean_sq xs : xs <> [] -> M_basic.mean (map (fun t => vpown t 2) (map Fin xs)) None =
  Fin (sumsq_dev xs / INR (length xs) + (average xs)^2).
Proof.
  intros N. rewrite map_map. rewrite (mean_of _ (fun x => x^2)) by (auto; intros; apply vpown_Fin).
  f_equal. pose proof (length_pos xs N).
  change (sumsq_dev xs) with (ss xs). change (average xs) with (mu xs).
  rewrite (ss_moments xs N). field. lra.
Qed.
Lemma avg_sq_diff xs : sumsq_dev xs / INR (length xs) + (average xs)^2 - (average xs)^2 = sumsq_dev xs / INR (length xs).
Proof. ring. Qed.
Lemma dev_pos xs : ~ constant xs -> 0 < sumsq_dev xs / INR (length xs).
Proof.
  intros C. assert (N : xs <> []) by (intros ->; apply C; intros a b []).
  pose proof (length_pos xs N). apply Rdiv_pos; auto.
  destruct (ss_nonneg xs) as [P|E]; auto. exfalso. apply C. intros a b. apply ss_zero. auto.
Qed.
Lemma const_nil xs : ~ constant xs -> xs <> [].
Proof. intros C ->. apply C. intros a b []. Qed.
Lemma loglik_fin (logpdf : val -> val) (g : R -> R) xs : (forall x, In x xs -> logpdf (Fin x) = Fin (g x)) ->
  loglik logpdf xs = Fin (sum (map g xs)).
Proof. intros H. unfold loglik. apply vfsum_map. auto. Qed.
(** n ln s + A/s is smallest at s = A/n. *)
Lemma scale_opt n a s : 0 < n -> 0 < a -> 0 < s -> n * ln (a / n) + n <= n * ln s + a / s.
Proof.
  intros N A S. set (t := a / n). assert (T : 0 < t) by (apply Rdiv_pos; auto).
  assert (H : ln (t / s) <= t / s - 1) by (apply ln_ineq; apply Rdiv_pos; auto).
  rewrite ln_div in H by auto. replace (a / s) with (n * (t / s)) by (unfold t; field; lra). nra.
Qed.
