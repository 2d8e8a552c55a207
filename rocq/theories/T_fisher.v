(** C01-C04: mpsci.stats.fisher_exact. *)
From Coq Require Import List Arith ZArith QArith String.
From Verif Require Import Values SpecInt M_fisher.
From Verif Require P_fisher2.
Import ListNotations.
Local Open Scope string_scope.

(** The call [fisher_exact([[t00, t01], [t10, t11]], alternative=alt)]. *)
Definition fisher (t : table) (alt : string) : res (oddsr * Q) :=
  fisher_exact (Z.of_nat (t00 t)) (Z.of_nat (t01 t)) (Z.of_nat (t10 t)) (Z.of_nat (t11 t)) alt.

(** The specification enumerates every table with the same margins exactly once. *)
Theorem C01_tables_enumerated : forall t,
  NoDup (tables_like t) /\ forall t', In t' (tables_like t) <-> same_margins t t'.
Proof. exact (fun t => conj (P_fisher2.tables_like_nodup t) (P_fisher2.tables_like_spec t)). Qed.
Print Assumptions C01_tables_enumerated.
Example C01_tables_enumerated_instance :
  tables_like (mkT 1 2 3 4) = [mkT 0 3 4 3; mkT 1 2 3 4; mkT 2 1 2 5; mkT 3 0 1 6].
Proof. reflexivity. Qed.

Theorem C01_two_sided : forall t, exists o p, fisher t "two-sided" = Ok (o, p) /\ p = Qred p /\
  (p == prob_of t (fun t' => Qle_bool (prob t') (prob t)))%Q.
Proof. exact P_fisher2.two_sided. Qed.
Print Assumptions C01_two_sided.
Example C01_two_sided_instance : fisher (mkT 8 2 1 5) "two-sided" = Ok (ORfrac (20 # 1), (5 # 143)%Q).
Proof. vm_compute. reflexivity. Qed.

Theorem C02_tails : forall t, exists o o' p p',
  fisher t "greater" = Ok (o, p) /\ fisher t "less" = Ok (o', p') /\
  (p == prob_of t (fun t' => (t00 t <=? t00 t')%nat))%Q /\
  (p' == prob_of t (fun t' => (t00 t' <=? t00 t)%nat))%Q /\
  (p + p' == 1 + prob t)%Q.
Proof. exact P_fisher2.tails. Qed.
Print Assumptions C02_tails.
Example C02_tails_instance : fisher (mkT 8 2 1 5) "greater" = Ok (ORfrac (20 # 1), (7 # 286)%Q)
  /\ fisher (mkT 8 2 1 5) "less" = Ok (ORfrac (20 # 1), (1143 # 1144)%Q).
Proof. split; vm_compute; reflexivity. Qed.

Theorem C03_probability : forall t alt, alt = "two-sided" \/ alt = "greater" \/ alt = "less" ->
  exists o p, fisher t alt = Ok (o, p) /\ (0 < p)%Q /\ (p <= 1)%Q.
Proof. exact P_fisher2.valid. Qed.
Print Assumptions C03_probability.
Example C03_probability_instance : fisher (mkT 0 0 0 0) "two-sided" = Ok (ORnan, 1%Q).
Proof. vm_compute. reflexivity. Qed.

Theorem C03_symmetries : forall t,
  (exists o o' p, fisher t "two-sided" = Ok (o, p) /\ fisher (transpose t) "two-sided" = Ok (o', p)) /\
  (exists o o' p, fisher t "two-sided" = Ok (o, p) /\ fisher (swap_rows t) "two-sided" = Ok (o', p)) /\
  (exists o o' p, fisher t "two-sided" = Ok (o, p) /\ fisher (swap_cols t) "two-sided" = Ok (o', p)).
Proof. exact P_fisher2.symmetric. Qed.
Print Assumptions C03_symmetries.
Theorem C03_exchange : forall t,
  (exists o o' p, fisher t "greater" = Ok (o, p) /\ fisher (swap_cols t) "less" = Ok (o', p)) /\
  (exists o o' p, fisher t "less" = Ok (o, p) /\ fisher (swap_cols t) "greater" = Ok (o', p)).
Proof. exact P_fisher2.exchange. Qed.
Print Assumptions C03_exchange.
Example C03_symmetries_instance : fisher (transpose (mkT 8 2 1 5)) "two-sided" = Ok (ORfrac (20 # 1), (5 # 143)%Q)
  /\ fisher (swap_cols (mkT 8 2 1 5)) "less" = Ok (ORfrac (1 # 20), (7 # 286)%Q).
Proof. split; vm_compute; reflexivity. Qed.

(** For arbitrary integers: the odds ratio of every call that returns. *)
Theorem C04_odds_ratio : forall a b c d alt o p, fisher_exact a b c d alt = Ok (o, p) ->
  ((b * c <> 0)%Z -> exists q, o = ORfrac q /\ (q * inject_Z (b * c) == inject_Z (a * d))%Q) /\
  ((b * c = 0)%Z -> (a * d <> 0)%Z -> o = ORinf) /\
  ((b * c = 0)%Z -> (a * d = 0)%Z -> o = ORnan).
Proof.
  exact (fun a b c d alt o p H => P_fisher2.odds_cases a b c d o (P_fisher2.odds_result a b c d alt o p H)).
Qed.
Print Assumptions C04_odds_ratio.
Theorem C04_unknown_alternative : forall a b c d alt,
  alt <> "two-sided" -> alt <> "greater" -> alt <> "less" ->
  fisher_exact a b c d alt = Err ValueError.
Proof. exact P_fisher2.unknown_alt. Qed.
Print Assumptions C04_unknown_alternative.
Example C04_instance : fisher (mkT 3 0 1 2) "less" = Ok (ORinf, 1%Q) /\
  fisher (mkT 3 0 1 2) "lesser" = Err ValueError.
Proof. split; vm_compute; reflexivity. Qed.
(** Negative entries are not validated: the failure is not a ValueError. *)
Theorem C04_negative_entries_refuted :
  exists a b c d, (a < 0)%Z /\ fisher_exact a b c d "two-sided" = Err NameError.
Proof. exact (ex_intro _ (-1)%Z (ex_intro _ 0%Z (ex_intro _ 0%Z (ex_intro _ 0%Z (conj eq_refl eq_refl))))). Qed.
Print Assumptions C04_negative_entries_refuted.
