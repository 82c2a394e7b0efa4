(** Vocabulary for claim C138: integrals over the whole line, and the density of
    a sum of two independent numbers. *)
From Coq Require Import Reals.
From Coquelicot Require Import Coquelicot.
From Verif Require Import ExtReal.
Local Open Scope R_scope.

(** The integrals of f over longer and longer intervals tend to m. *)
Definition whole (f : R -> R) (m : R) : Prop :=
  forall eps, 0 < eps -> exists A, forall a b, a <= - A -> A <= b -> exists v, is_RInt f a b v /\ Rabs (v - m) < eps.
(** A density with its mean and its variance. *)
Definition density (f : R -> R) : Prop := (forall x, 0 < f x) /\ whole f 1.
Definition has_mean (f : R -> R) (m : R) : Prop := whole (fun x => x * f x) m.
Definition has_variance (f : R -> R) (m v : R) : Prop := whole (fun x => (x - m) * (x - m) * f x) v.
(** v is the value at x of the density of the sum of two independent numbers
    with densities f and g. *)
Definition sum_density (f g : R -> R) (x v : R) : Prop := whole (fun t => f t * g (x - t)) v.
(** The densities of the normal distribution with mean m and standard deviation s
    and of the logistic distribution with mean m and scale s. *)
Definition normal_density (m s x : R) : R := exp (- ((x - m) * (x - m)) / (2 * (s * s))) / (s * sqrt (2 * PI)).
Definition logistic_density_at (m s x : R) : R := exp (- ((x - m) / s)) / (s * ((1 + exp (- ((x - m) / s))) * (1 + exp (- ((x - m) / s))))).
(** The function computed. *)
Definition computes (code : ef -> ef) (f : R -> R) : Prop := forall x, code (Fin x) = Fin (f x).
