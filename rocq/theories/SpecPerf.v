(** Specification vocabulary for the metrics, the coverage percentage and the
    density of a sum of two uniform variables. *)
From Coq Require Import List ZArith Bool Arith Reals.
From Verif Require Import PyBase Num ExtReal SpecMos Perf.
Import ListNotations.
Local Open Scope R_scope.

(** Length of the overlap of two intervals of widths s1 and s2 whose centres are
    z apart, over the product of the widths: the density at z of the sum of two
    independent centred uniform variables of widths s1 and s2. *)
Definition overlap (s1 s2 z : R) : R :=
  Rmax 0 (Rmin (s1 / 2) (z + s2 / 2) - Rmax (- s1 / 2) (z - s2 / 2)) / (s1 * s2).

(** Root of the mean squared difference. *)
Definition distance (g p : list R) : R :=
  sqrt (Rsum (map (fun q => (fst q - snd q) * (fst q - snd q)) (combine g p)) / INR (length g)).

(** The truths as numbers. *)
Definition plain (l : list R) : list (truth ef) := map (fun x => Aggregate (Fin x)) l.

Definition smallest (m : R) (l : list R) : Prop := In m l /\ forall x, In x l -> m <= x.
Definition largest (m : R) (l : list R) : Prop := In m l /\ forall x, In x l -> x <= m.

(** f is strictly increasing on the values of l. *)
Definition increasing_on (l : list R) (f : R -> R) : Prop := forall x y, In x l -> In y l -> x < y -> f x < f y.

Definition decreasing_on (l : list R) (f : R -> R) : Prop := forall x y, In x l -> In y l -> x < y -> f y < f x.

(** Position i: x lies in [y - l, y + u]. *)
Definition covered (xs ys l u : list ef) (i : nat) : Prop :=
  exists x y a b, nth_error xs i = Some x /\ nth_error ys i = Some y /\ nth_error l i = Some a /\ nth_error u i = Some b /\
    ef_leb (ef_sub y a) x = true /\ ef_leb x (ef_add y b) = true.
(** c lists exactly the covered positions among the first n. *)
Definition covered_positions (xs ys l u : list ef) (n : nat) (c : list nat) : Prop :=
  NoDup c /\ forall i, In i c <-> (i < n)%nat /\ covered xs ys l u i.
(** Margins l' are at least l. *)
Definition wider (l l' : list R) : Prop := Forall2 Rle l l'.

(** Sign of the difference y - x. *)
Definition sgn (x y : R) : R := if Rlt_dec x y then 1 else if Rlt_dec y x then -1 else 0.

(** The logistic curve from lo to hi, centre a, scale b. *)
Definition logistic (lo hi a b x : R) : R := lo + (hi - lo) / (1 + exp (- (x - a) / b)).
(** Whenever the least-squares routine answers, the coefficients are numbers and
    the slope satisfies P. *)
Definition slope (lstsq : list (ef * ef) -> list ef -> res (ef * ef)) (P : R -> Prop) : Prop :=
  forall A v ab, lstsq A v = Ok ab -> exists a b, ab = (Fin a, Fin b) /\ P b.

(** Average rank of x in l: one more than the number of smaller values, ties
    sharing the mean of their places. *)
Definition avg_rank (l : list R) (x : R) : R :=
  INR (length (filter (fun y => if Rlt_dec y x then true else false) l)) +
  (INR (length (filter (fun y => if Req_EM_T y x then true else false) l)) + 1) / 2.
