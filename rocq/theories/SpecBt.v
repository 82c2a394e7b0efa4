(** Specification vocabulary for the paired comparison models: win counts,
    likelihoods and their derivatives over the reals. *)
From Coq Require Import List ZArith Bool Arith Reals.
From Verif Require Import PyBase Num ExtReal NumPy SpecMos.
Import ListNotations.
Local Open Scope list_scope.
Local Open Scope R_scope.

(** f 0 + ... + f (m-1). *)
Definition total (m : nat) (f : nat -> R) : R := Rsum (map f (seq 0 m)).

(** The array holds the counts w: video i won w i j times against video j. *)
Definition counts (a : arr2 ef) (m : nat) (w : nat -> nat -> R) : Prop :=
  n0 a = m /\ n1 a = m /\ forall i j, (i < m)%nat -> (j < m)%nat -> at2 a i j = Fin (w i j).

(** The vector p as an array. *)
Definition vec (m : nat) (p : nat -> R) : list ef := map (fun i => Fin (p i)) (seq 0 m).

Definition wins (m : nat) (w : nat -> nat -> R) (i : nat) : R := total m (w i).
Definition games (w : nat -> nat -> R) (i j : nat) : R := w i j + w j i.

(** Counts are not negative, and every video won at least once. *)
Definition nonneg_counts (m : nat) (w : nat -> nat -> R) : Prop :=
  forall i j, (i < m)%nat -> (j < m)%nat -> 0 <= w i j.
Definition each_won (m : nat) (w : nat -> nat -> R) : Prop :=
  forall i, (i < m)%nat -> 0 < wins m w i.
(** No video was compared with itself. *)
Definition no_self (m : nat) (w : nat -> nat -> R) : Prop := forall i, (i < m)%nat -> w i i = 0.

Definition positive (m : nat) (p : nat -> R) : Prop := forall i, (i < m)%nat -> 0 < p i.
Definition probabilities (m : nat) (p : nat -> R) : Prop := positive m p /\ total m p = 1.

(** How often the votes of a paired comparison array prefer video i to j. *)
Definition preferences (a : arr3 ef) (i j : nat) : R := Rsum (presents (map (at3 a i j) (seq 0 (dR a)))).
(** Euclidean distance. *)
Definition distance (m : nat) (p q : nat -> R) : R := sqrt (total m (fun i => (p i - q i) * (p i - q i))).

(** ** Bradley-Terry: i beats j with probability p i / (p i + p j). *)
Definition beats (p : nat -> R) (i j : nat) : R := p i / (p i + p j).
Definition bt_likelihood (m : nat) (w : nat -> nat -> R) (p : nat -> R) : R :=
  total m (fun i => total m (fun j => w i j * ln (beats p i j))).
(** Number of wins of i expected by the model. *)
Definition expected (m : nat) (w : nat -> nat -> R) (p : nat -> R) (i : nat) : R :=
  total m (fun j => games w i j * beats p i j).

(** ** Partial derivatives of a function of m variables *)
Definition upd (p : nat -> R) (i : nat) (t : R) (k : nat) : R := if Nat.eqb k i then t else p k.
Definition partial (F : (nat -> R) -> R) (i : nat) (p : nat -> R) (d : R) : Prop :=
  derivable_pt_lim (fun t => F (upd p i t)) (p i) d.
Definition stationary (m : nat) (F : (nat -> R) -> R) (p : nat -> R) : Prop :=
  forall i, (i < m)%nat -> partial F i p 0.
(** h is the mixed second derivative at p, on the domain D. *)
Definition second_partial (D : (nat -> R) -> Prop) (F : (nat -> R) -> R) (i j : nat) (p : nat -> R) (h : R) : Prop :=
  exists G, (forall q, D q -> partial F i q (G q)) /\ partial G j p h.

(** ** Bradley-Terry with strengths exp (g i) *)
Definition bt_log_likelihood (m : nat) (w : nat -> nat -> R) (g : nat -> R) : R :=
  bt_likelihood m w (fun i => exp (g i)).

(** ** Thurstone: i beats j with probability F (v i - v j). *)
Definition th_likelihood (F : R -> R) (m : nat) (w : nat -> nat -> R) (v : nat -> R) : R :=
  total m (fun i => total m (fun j => w i j * ln (F (v i - v j)))).

(** The standard normal density, and what is used of its distribution
    function. *)
Definition gauss (x : R) : R := exp (- (x * x) / 2) / sqrt (2 * PI).
Definition normal_cdf (F : R -> R) : Prop :=
  (forall x, 0 < F x < 1) /\ (forall x, F (- x) = 1 - F x) /\ forall x, derivable_pt_lim F x (gauss x).
(** c computes F on finite numbers. *)
Definition computes (c : ef -> ef) (F : R -> R) : Prop := forall x, c (Fin x) = Fin (F x).

(** ** Relabelling: video i of the new numbering is video s i of the old. *)
Definition relabelled_counts (s : nat -> nat) (a b : arr2 ef) : Prop :=
  n0 b = n0 a /\ n1 b = n1 a /\
  forall i j, (i < n0 a)%nat -> (j < n0 a)%nat -> at2 b i j = at2 a (s i) (s j).
Definition relabelled {T} (m : nat) (s : nat -> nat) (v u : list T) : Prop :=
  length v = m /\ length u = m /\ forall i, (i < m)%nat -> nth_error u i = nth_error v (s i).

(** Relabelling of a square matrix of size m + 1 that keeps the last row and
    column in place. *)
Definition keep_last (m : nat) (s : nat -> nat) (i : nat) : nat := if Nat.ltb i m then s i else i.
Definition relabelled_matrix (m : nat) (s : nat -> nat) (x y : arr2 ef) : Prop :=
  n0 y = n0 x /\ n1 y = n1 x /\
  forall i j, (i < S m)%nat -> (j < S m)%nat -> at2 y i j = at2 x (keep_last m s i) (keep_last m s j).
(** Both calls fail alike, or both return and the results are related. *)
Definition same_outcome {A B} (rel : A -> B -> Prop) (x : res A) (y : res B) : Prop :=
  match x, y with Ok a, Ok b => rel a b | Err e, Err e' => e = e' | _, _ => False end.
(** The pseudo-inverse of the relabelled matrix is the relabelled
    pseudo-inverse. *)
Definition equivariant (m : nat) (s : nat -> nat) (pinv : arr2 ef -> res (arr2 ef)) : Prop :=
  forall x y : arr2 ef, (n0 x = S m)%nat -> (n1 x = S m)%nat -> relabelled_matrix m s x y ->
    same_outcome (relabelled_matrix m s) (pinv x) (pinv y).

(** Second derivative of the logarithm of F, for F' = gauss. *)
Definition curvature (F : R -> R) (z : R) : R := (- z * F z * gauss z - gauss z * gauss z) / (F z * F z).

(** c is the Newton step at g with the last score held fixed: the matrix that
    pinv returns for the second derivatives, times the gradient. *)
Definition newton_step (pinv : arr2 ef -> res (arr2 ef)) (m : nat) (w : nat -> nat -> R) (g c : nat -> R) : Prop :=
  exists x h, pinv x = Ok h /\ n0 x = (m - 1)%nat /\ n1 x = (m - 1)%nat /\
    (forall i k, (i < m - 1)%nat -> (k < m - 1)%nat ->
       exists d, at2 x i k = Fin d /\ second_partial (fun _ => True) (bt_log_likelihood m w) i k g d) /\
    exists H d, (forall i k, (i < m - 1)%nat -> (k < m - 1)%nat -> at2 h i k = Fin (H i k)) /\
      (forall k, (k < m - 1)%nat -> partial (bt_log_likelihood m w) k g (d k)) /\
      (forall i, (i < m - 1)%nat -> c i = total (m - 1) (fun k => H i k * d k)) /\
      c (m - 1)%nat = 0.

(** The matrix x is bordered by ones with a zero corner; m is the size without
    the border. *)
Definition ones_border (m : nat) (x : arr2 ef) : Prop :=
  n0 x = S m /\ n1 x = S m /\ at2 x m m = Fin 0 /\ forall i, (i < m)%nat -> at2 x i m = Fin 1 /\ at2 x m i = Fin 1.
