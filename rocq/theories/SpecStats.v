(** Specification for claims C87 and C88: histograms, counts, the logistic
    density and the convolution of two densities.  Nothing here mentions the model. *)
From Coq Require Import Reals List Bool Arith ZArith Lra.
From Verif Require Import ExtReal.
Import ListNotations.
Local Open Scope R_scope.

(** Range of a histogram: smallest and largest value, a half to both sides of a
    single value. *)
Definition spans (l : list R) (lo hi : R) : Prop :=
  exists a b, In a l /\ In b l /\ (forall v, In v l -> a <= v <= b) /\
    (a < b -> lo = a /\ hi = b) /\ (a = b -> lo = a - / 2 /\ hi = a + / 2).

(** The k-th of n+1 equally spaced limits. *)
Definition limit (lo hi : R) (n k : nat) : R := lo + INR k * ((hi - lo) / INR n).

(** Share of the values strictly below x; in the k-th of n cells. *)
Definition share_below (l : list R) (x : R) : R :=
  INR (length (filter (fun v => if Rlt_dec v x then true else false) l)) / INR (length l).
Definition in_cell (lo hi : R) (n k : nat) (v : R) : Prop :=
  limit lo hi n k <= v /\ (v < limit lo hi n (S k) \/ (S k = n /\ v <= hi)).

(** [c] of the values satisfy P. *)
Inductive number {A} (P : A -> Prop) : list A -> nat -> Prop :=
| number_nil : number P [] 0
| number_yes : forall v l c, P v -> number P l c -> number P (v :: l) (S c)
| number_no : forall v l c, ~ P v -> number P l c -> number P (v :: l) c.

(** The entries without later repetitions, in order of first appearance. *)
Definition ef_dec : forall a b : ef, {a = b} + {a <> b}.
Proof.
  intros [a| | |] [b| | |]; try (right; discriminate); try (left; reflexivity).
  destruct (Req_EM_T a b) as [->|D]; [left; reflexivity|right; intros [= E]; contradiction].
Defined.
Fixpoint first_seen (l : list ef) : list ef :=
  match l with
  | [] => []
  | x :: r => x :: filter (fun y => if ef_dec y x then false else true) (first_seen r)
  end.

(** Distribution function of the logistic distribution. *)
Definition logistic_cdf (m s x : R) : R := / (1 + exp (- ((x - m) / s))).

(** ** Convolution on a grid of N points -reach, -reach + delta, ... *)
Definition point (reach delta : R) (k : nat) : R := - reach + INR k * delta.
(** Middle of the k-th cell and the mass a density has there by the trapezoidal
    rule (the last cell has no right end: its left value counts). *)
Definition middle (reach delta : R) (k : nat) : R := point reach delta k + delta / 2.
Definition cell_mass (f : R -> R) (reach delta : R) (N k : nat) : R :=
  delta * ((f (point reach delta k) + (if Nat.eqb (S k) N then f (point reach delta k) else f (point reach delta (S k)))) / 2).
(** Mass of the sum of two independent variables that sit at the middles. *)
Definition sum_mass (f g : R -> R) (reach delta : R) (N : nat) (y : R) : R :=
  Rsum (map (fun i => Rsum (map (fun j =>
    if Req_EM_T (middle reach delta i + middle reach delta j) y
    then cell_mass f reach delta N i * cell_mass g reach delta N j else 0) (seq 0 N))) (seq 0 N)).
(** N cells of width delta are needed for a length of 2 reach. *)
Definition covers (reach delta : R) (N : nat) : Prop := 2 * reach <= INR N * delta < 2 * reach + delta.

(** Two densities f and g on the real numbers whose inverses at the truncations
    are a and b, and a grid of N points. *)
Definition conv_case {E} (f g : R -> R) (F G : ef -> ef) (ceil : ef -> nat) (inverse : (ef -> ef) -> ef -> E)
    (found : ef -> E) (delta ft gt a b : R) (N : nat) : Prop :=
  (forall x, F (Fin x) = Fin (f x)) /\ (forall x, G (Fin x) = Fin (g x)) /\
  inverse F (Fin ft) = found (Fin a) /\ inverse G (Fin gt) = found (Fin b) /\ 0 < a /\ 0 < b /\ 0 < delta /\
  ceil (Fin (2 * Rmax a b / delta)) = N /\ covers (Rmax a b) delta N.
