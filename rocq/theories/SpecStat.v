(** Specification vocabulary for the statistics: sums and weighted averages of
    real data.  Independent of the model of mpsci. *)
From Coq Require Import Reals List.
Import ListNotations.
Local Open Scope R_scope.

Definition sum (l : list R) : R := fold_right Rplus 0 l.

(** The weight attached to each value: 1 when there are no weights. *)
Definition weighted (xs : list R) (ws : option (list R)) : list (R * R) :=
  match ws with None => map (fun x => (x, 1)) xs | Some w => combine xs w end.

(** The weighted average of [f x]. *)
Definition avg (f : R -> R) (l : list (R * R)) : R :=
  sum (map (fun '(x, w) => f x * w) l) / sum (map snd l).

(** Non-empty data; as many weights as values, non-negative and not all zero. *)
Definition good_weights (xs : list R) (ws : option (list R)) : Prop :=
  xs <> [] /\
  match ws with
  | None => True
  | Some w => length w = length xs /\ (forall v, In v w -> 0 <= v) /\ 0 < sum w
  end.

(** Power mean of order [p], geometric for p = 0. *)
Definition power_mean (p : R) (l : list (R * R)) : R :=
  if Req_EM_T p 0 then exp (avg ln l) else Rpower (avg (fun x => Rpower x p) l) (1 / p).

Definition is_max (m : R) (l : list R) := In m l /\ forall x, In x l -> x <= m.
Definition is_min (m : R) (l : list R) := In m l /\ forall x, In x l -> m <= x.

(** Plain average and sum of squared deviations from it. *)
Definition average (xs : list R) : R := sum xs / INR (length xs).
Definition sumsq_dev (xs : list R) : R := sum (map (fun x => (x - average xs)^2) xs).
Definition constant (xs : list R) := forall a b, In a xs -> In b xs -> a = b.

(** Pearson's product-moment correlation. *)
Definition correlation (xs ys : list R) : R :=
  sum (map (fun '(x, y) => (x - average xs) * (y - average ys)) (combine xs ys))
  / sqrt (sumsq_dev xs * sumsq_dev ys).

(** One-way analysis of variance: sums of squares and the F ratio. *)
Definition total_size (gs : list (list R)) : R := INR (length (concat gs)).
Definition between_ss (gs : list (list R)) : R :=
  sum (map (fun g => INR (length g) * (average g - average (concat gs))^2) gs).
Definition within_ss (gs : list (list R)) : R := sum (map sumsq_dev gs).
Definition F_ratio (gs : list (list R)) : R :=
  (between_ss gs / (INR (length gs) - 1)) / (within_ss gs / (total_size gs - INR (length gs))).

(** Goodness of fit statistics; a zero observed count contributes nothing to G. *)
Definition chi2_statistic (os es : list R) : R := sum (map (fun '(o, e) => (o - e)^2 / e) (combine os es)).
Definition G_statistic (os es : list R) : R :=
  sum (map (fun '(o, e) => if Req_EM_T o 0 then 0 else 2 * (o * ln (o / e))) (combine os es)).
