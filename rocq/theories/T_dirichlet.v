(** C53: the Dirichlet distribution.  [eps] is the tolerance of mpmath's almosteq at the working precision. *)
From Coq Require Import Reals Lra Lia List.
From Verif Require Import Values SpecStat SFun M_dirichlet.
From Verif Require P_dirichlet.
Import ListNotations.
Local Open Scope R_scope.

(** A parameter that is not positive is rejected by every function. *)
Theorem C53_dirichlet_invalid : forall eps al a x, In a al -> a <= 0 ->
  mean (map Fin al) = Err ValueError /\ cov (map Fin al) = Err ValueError /\ entropy (map Fin al) = Exc ValueError /\
  logpdf eps x (map Fin al) = Exc ValueError /\ pdf eps x (map Fin al) = Exc ValueError.
Proof. exact P_dirichlet.bad. Qed.
Print Assumptions C53_dirichlet_invalid.
Example C53_dirichlet_invalid_instance := C53_dirichlet_invalid 0 [1; 0; 2] 0 [Fin 1] ltac:(simpl; tauto) (Rle_refl 0).

(** The mean is the vector of normalised parameters: positive entries that sum to 1. *)
Theorem C53_dirichlet_mean : forall al, al <> [] -> (forall a, In a al -> 0 < a) ->
  exists ms, mean (map Fin al) = Ok (map Fin ms) /\ ms = map (fun a => a / sum al) al /\ (forall m, In m ms -> 0 < m) /\ sum ms = 1.
Proof. exact P_dirichlet.mean_ok. Qed.
Print Assumptions C53_dirichlet_mean.
Lemma al12 : forall a, In a [1; 2; 3] -> 0 < a.
Proof. intros a [<-|[<-|[<-|[]]]]; lra. Qed.
Example C53_dirichlet_mean_instance := C53_dirichlet_mean [1; 2; 3] ltac:(discriminate) al12.

(** The covariance matrix: its entries; symmetric; nonnegative diagonal; rows summing to 0;
    positive semidefinite. *)
Theorem C53_dirichlet_cov : forall al, al <> [] -> (forall a, In a al -> 0 < a) ->
  exists (m : mat) (c : nat -> nat -> R), cov (map Fin al) = Ok (length al, m) /\
  (forall i j, (i < length al)%nat -> (j < length al)%nat -> m i j = Fin (c i j) /\ c i j = c j i /\
     (i = j -> c i j = nth i al 0 / sum al * (1 - nth i al 0 / sum al) / (sum al + 1)) /\
     (i <> j -> c i j = - (nth i al 0 / sum al) * (nth j al 0 / sum al) / (sum al + 1))) /\
  (forall i, (i < length al)%nat -> 0 <= c i i /\ sum (map (c i) (seq 0 (length al))) = 0) /\
  (forall v : nat -> R, 0 <= sum (map (fun i => sum (map (fun j => v i * v j * c i j) (seq 0 (length al)))) (seq 0 (length al)))).
Proof. exact P_dirichlet.cov_ok. Qed.
Print Assumptions C53_dirichlet_cov.
Example C53_dirichlet_cov_instance := C53_dirichlet_cov [1; 2; 3] ltac:(discriminate) al12.

(** The density at an interior point of the simplex. *)
Theorem C53_dirichlet_pdf : forall al, al <> [] -> (forall a, In a al -> 0 < a) -> forall eps xs,
  0 <= eps -> length xs = length al -> (forall x, In x xs -> 0 < x) -> sum xs = 1 ->
  exists l, logpdf eps (map Fin xs) (map Fin al) = Fin l /\ pdf eps (map Fin xs) (map Fin al) = Fin (exp l) /\
  exp l = fold_right Rmult 1 (map (fun '(x, a) => Rpower x (a - 1)) (combine xs al)) * Gamma (sum al) / fold_right Rmult 1 (map Gamma al).
Proof. exact P_dirichlet.pdf_ok. Qed.
Print Assumptions C53_dirichlet_pdf.
Lemma x12 : forall x, In x [1/2; 1/4; 1/4] -> 0 < x.
Proof. intros a [<-|[<-|[<-|[]]]]; lra. Qed.
Lemma s12 : sum [1/2; 1/4; 1/4] = 1.
Proof. unfold sum. simpl. lra. Qed.
Example C53_dirichlet_pdf_instance := C53_dirichlet_pdf [1; 2; 3] ltac:(discriminate) al12 0 [1/2; 1/4; 1/4] (Rle_refl 0) eq_refl x12 s12.

(** A point off the simplex, or of the wrong dimension, is rejected. *)
Theorem C53_dirichlet_invalid_x : forall al, (forall a, In a al -> 0 < a) -> forall eps xs, 0 < eps ->
  (exists x, In x xs /\ x < 0) \/ Rabs (sum xs - 1) > eps * Rmax 1 (Rabs (sum xs)) \/ length xs <> length al ->
  logpdf eps (map Fin xs) (map Fin al) = Exc ValueError.
Proof. exact P_dirichlet.pdf_bad. Qed.
Print Assumptions C53_dirichlet_invalid_x.
Example C53_dirichlet_invalid_x_instance : logpdf (1/10) (map Fin [1/2; 1/2]) (map Fin [1; 2; 3]) = Exc ValueError.
Proof. apply C53_dirichlet_invalid_x; [exact al12|lra|]. right. right. simpl. lia. Qed.
