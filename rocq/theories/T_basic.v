(** C07-C11: means and variances.  [Some ws] are weights, [None] is the
    unweighted call; [weighted], [avg], [power_mean], [good_weights] are in
    SpecStat. *)
From Coq Require Import Reals Lra List.
From Verif Require Import Values SpecStat M_basic.
From Verif Require P_basic P_basic2.
Import ListNotations.
Local Open Scope R_scope.

(** Weights as the caller passes them. *)
Notation wargs ow := (option_map (map Fin) ow).
Notation data xs := (map Fin xs).

(** ** C07 *)
Theorem C07_value : forall xs ow, good_weights xs ow ->
  mean (data xs) (wargs ow) = Fin (avg (fun x => x) (weighted xs ow)).
Proof. exact P_basic2.mean_id. Qed.
Print Assumptions C07_value.
Theorem C07_bounds : forall xs ow, good_weights xs ow -> forall lo hi, (forall x, In x xs -> lo <= x <= hi) ->
  exists m, mean (data xs) (wargs ow) = Fin m /\ lo <= m <= hi.
Proof. exact P_basic2.mean_bounds. Qed.
Print Assumptions C07_bounds.
Theorem C07_affine : forall xs ow a b, good_weights xs ow ->
  exists m, mean (data xs) (wargs ow) = Fin m /\
            mean (data (map (fun x => a * x + b) xs)) (wargs ow) = Fin (a * m + b).
Proof. exact P_basic2.mean_affine. Qed.
Print Assumptions C07_affine.
(** Integer weights count repetitions. *)
Theorem C07_repetition : forall (xs : list R) (ns : list nat), length ns = length xs ->
  let rep := concat (map (fun '(x, n) => repeat x n) (combine xs ns)) in
  rep <> [] -> mean (data xs) (Some (data (map INR ns))) = mean (data rep) None.
Proof. exact P_basic2.mean_repeat. Qed.
Print Assumptions C07_repetition.
Theorem C07_errors :
  (forall x w, length w <> length x -> mean x (Some w) = Exc ValueError) /\
  mean [] None = Exc ZeroDivisionError /\
  (forall xs ws, length ws = length xs -> sum ws = 0 -> mean (data xs) (Some (data ws)) = Exc ZeroDivisionError).
Proof. exact P_basic2.mean_errors. Qed.
Print Assumptions C07_errors.
Example C07_instance : good_weights [1; 5; -2] (Some [0; 2; 3]) /\
  concat (map (fun '(x, n) => repeat x n) (combine [7; 8] [2; 1]%nat)) = [7; 7; 8].
Proof.
  split; [|reflexivity]. split; [discriminate|]. split; [reflexivity|]. split.
  - intros v [<-|[<-|[<-|[]]]]; lra.
  - simpl. lra.
Qed.

(** ** C08 *)
Theorem C08_ordering : forall xs ow, good_weights xs ow -> (forall x, In x xs -> 0 < x) ->
  exists h g m, hmean (data xs) (wargs ow) = Fin h /\ gmean (data xs) (wargs ow) = Fin g /\
    mean (data xs) (wargs ow) = Fin m /\ 0 < h /\ h <= g /\ g <= m /\
    forall lo hi, (forall x, In x xs -> lo <= x <= hi) -> lo <= h /\ m <= hi.
Proof. exact P_basic2.ordering. Qed.
Print Assumptions C08_ordering.
Theorem C08_values : forall xs ow, good_weights xs ow -> (forall x, In x xs -> 0 < x) ->
  hmean (data xs) (wargs ow) = Fin (power_mean (-1) (weighted xs ow)) /\
  gmean (data xs) (wargs ow) = Fin (power_mean 0 (weighted xs ow)).
Proof. exact (fun xs ow G P => conj (P_basic2.hmean_pm xs ow G P) (P_basic2.gmean_pm xs ow G P)). Qed.
Print Assumptions C08_values.
Theorem C08_constant : forall xs ow c p, good_weights xs ow -> 0 < c -> (forall x, In x xs -> x = c) ->
  mean (data xs) (wargs ow) = Fin c /\ gmean (data xs) (wargs ow) = Fin c /\
  hmean (data xs) (wargs ow) = Fin c /\ pmean (data xs) (Fin p) (wargs ow) = Fin c.
Proof. exact P_basic2.constant_means. Qed.
Print Assumptions C08_constant.
Theorem C08_gmean_zero : forall xs, xs <> [] -> (forall x, In x xs -> 0 <= x) -> In 0 xs ->
  gmean (data xs) None = Fin 0.
Proof. exact P_basic2.gmean_zero. Qed.
Print Assumptions C08_gmean_zero.
Example C08_instance : good_weights [1; 5; 2] (Some [1; 2; 3]) /\ (forall x, In x [1; 5; 2] -> 0 < x).
Proof.
  split; [|intros v [<-|[<-|[<-|[]]]]; lra]. split; [discriminate|]. split; [reflexivity|]. split.
  - intros v [<-|[<-|[<-|[]]]]; lra.
  - simpl. lra.
Qed.

(** ** C09 *)
Theorem C09_formula : forall xs ow, good_weights xs ow -> (forall x, In x xs -> 0 < x) -> forall p,
  pmean (data xs) (Fin p) (wargs ow) = Fin (power_mean p (weighted xs ow)).
Proof. exact P_basic2.pmean_pm. Qed.
Print Assumptions C09_formula.
Theorem C09_infinite_order : forall xs ow, good_weights xs ow ->
  (exists m, pmean (data xs) PInf (wargs ow) = Fin m /\ is_max m xs) /\
  (exists m, pmean (data xs) NInf (wargs ow) = Fin m /\ is_min m xs).
Proof. exact P_basic2.pmean_inf. Qed.
Print Assumptions C09_infinite_order.
Theorem C09_homogeneous : forall xs ow p c, good_weights xs ow -> (forall x, In x xs -> 0 < x) -> 0 < c ->
  exists m, pmean (data xs) (Fin p) (wargs ow) = Fin m /\
    pmean (data (map (fun x => c * x) xs)) (Fin p) (wargs ow) = Fin (c * m).
Proof. exact P_basic2.pmean_homogeneous. Qed.
Print Assumptions C09_homogeneous.
Theorem C09_bounds : forall xs ow, good_weights xs ow -> (forall x, In x xs -> 0 < x) ->
  forall p lo hi, is_min lo xs -> is_max hi xs ->
  exists a, pmean (data xs) (Fin p) (wargs ow) = Fin a /\ lo <= a <= hi.
Proof. exact P_basic2.pmean_bounds. Qed.
Print Assumptions C09_bounds.
Theorem C09_monotone : forall xs ow, good_weights xs ow -> (forall x, In x xs -> 0 < x) ->
  forall p q, p <= q -> exists a b, pmean (data xs) (Fin p) (wargs ow) = Fin a /\
    pmean (data xs) (Fin q) (wargs ow) = Fin b /\ a <= b.
Proof. exact P_basic2.pmean_mono. Qed.
Print Assumptions C09_monotone.

(** ** C10 *)
Theorem C10_formula_partial : forall xs p, xs <> [] -> (forall x, In x xs -> 0 < x) -> p <> 1/2 ->
  lehmer_mean (data xs) (Fin p) None
  = Fin (sum (map (fun x => Rpower x p) xs) / sum (map (fun x => Rpower x (p - 1)) xs)).
Proof. exact P_basic2.lehmer_sums. Qed.
Print Assumptions C10_formula_partial.
Theorem C10_weighted_partial : forall xs ow, good_weights xs ow -> (forall x, In x xs -> 0 < x) ->
  forall p, p <> 1/2 -> lehmer_mean (data xs) (Fin p) (wargs ow)
  = Fin (avg (fun x => Rpower x p) (weighted xs ow) / avg (fun x => Rpower x (p - 1)) (weighted xs ow)).
Proof. exact P_basic2.lehmer_formula. Qed.
Print Assumptions C10_weighted_partial.
(** The missing order p = 1/2 is right for two values and wrong in general. *)
Theorem C10_half_two_values : forall a b, 0 < a -> 0 < b ->
  lehmer_mean [Fin a; Fin b] (Fin (1/2)) None
  = Fin ((Rpower a (1/2) + Rpower b (1/2)) / (Rpower a (1/2 - 1) + Rpower b (1/2 - 1))).
Proof. exact P_basic2.lehmer_half_two. Qed.
Print Assumptions C10_half_two_values.
Theorem C10_half_refuted : exists m, lehmer_mean [Fin 1; Fin 1; Fin 4] (Fin (1/2)) None = Fin m /\
  m <> sum (map (fun x => Rpower x (1/2)) [1; 1; 4]) / sum (map (fun x => Rpower x (1/2 - 1)) [1; 1; 4]).
Proof. exact P_basic2.lehmer_half_wrong. Qed.
Print Assumptions C10_half_refuted.
Theorem C10_infinite_order : forall xs ow, xs <> [] -> (forall x, In x xs -> 0 < x) ->
  (exists m, lehmer_mean (data xs) PInf ow = Fin m /\ is_max m xs) /\
  (exists m, lehmer_mean (data xs) NInf ow = Fin m /\ is_min m xs).
Proof. exact P_basic2.lehmer_inf. Qed.
Print Assumptions C10_infinite_order.
Theorem C10_nonpositive : forall xs p ow, (exists x, In x xs /\ x <= 0) ->
  lehmer_mean (data xs) p ow = Exc ValueError.
Proof. exact P_basic2.lehmer_bad. Qed.
Print Assumptions C10_nonpositive.

(** ** C11 *)
Theorem C11_laws : forall xs d, xs <> [] -> d < INR (length xs) ->
  exists v, var (data xs) (Fin d) = Fin v /\ 0 <= v /\
    (v = 0 <-> forall x y, In x xs -> In y xs -> x = y) /\
    std (data xs) (Fin d) = Fin (sqrt v) /\ (sqrt v)^2 = v /\
    (forall a b, var (data (map (fun x => a * x + b) xs)) (Fin d) = Fin (a^2 * v)).
Proof. exact P_basic2.var_laws. Qed.
Print Assumptions C11_laws.
Theorem C11_value : forall xs d, xs <> [] -> d <> INR (length xs) ->
  var (data xs) (Fin d)
  = Fin (sum (map (fun x => (x - sum xs / INR (length xs))^2) xs) / (INR (length xs) - d)).
Proof. exact P_basic2.var_fin. Qed.
Print Assumptions C11_value.
Theorem C11_moments : forall xs, xs <> [] -> exists v m m2, var (data xs) (Fin 0) = Fin v /\
  mean (data xs) None = Fin m /\ mean (data (map (fun x => x^2) xs)) None = Fin m2 /\ v = m2 - m^2.
Proof. exact P_basic2.var_moments. Qed.
Print Assumptions C11_moments.
Theorem C11_errors : (forall d, var [] d = Exc ZeroDivisionError) /\
  forall xs, xs <> [] -> var (data xs) (Fin (INR (length xs))) = Exc ZeroDivisionError.
Proof. exact P_basic2.var_errors. Qed.
Print Assumptions C11_errors.
Theorem C11_variation_scale : forall xs d, xs <> [] -> d < INR (length xs) -> 0 < sum xs / INR (length xs) ->
  forall c, 0 < c ->
  variation (data (map (fun x => c * x) xs)) (Fin d) = variation (data xs) (Fin d).
Proof. exact P_basic2.variation_scale. Qed.
Print Assumptions C11_variation_scale.
Example C11_instance : var (data [1; 3]) (Fin 1) = Fin 2.
Proof.
  rewrite C11_value; [|discriminate|simpl; lra]. f_equal. simpl. field.
Qed.
