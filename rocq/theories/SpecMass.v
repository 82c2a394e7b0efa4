(** Vocabulary for claim C137: mass and mean of a density, and the density of a
    sum of independent numbers. *)
From Coq Require Import Reals.
From Coquelicot Require Import Coquelicot.
From Verif Require Import ExtReal.
Local Open Scope R_scope.

(** f vanishes outside [lo, hi]; its integral and that of x f(x). *)
Definition mass (f : R -> R) (lo hi m : R) : Prop :=
  (forall x, x < lo \/ hi < x -> f x = 0) /\ forall a b, a <= lo -> hi <= b -> is_RInt f a b m.
Definition first_moment (f : R -> R) (lo hi m : R) : Prop := mass (fun x => x * f x) lo hi m.
Definition second_moment (f : R -> R) (lo hi m : R) : Prop := mass (fun x => x * x * f x) lo hi m.
(** The uniform density of width s around l. *)
Definition box (l s x : R) : R := if Rlt_dec (Rabs (x - l)) (s / 2) then / s else 0.
(** v is the value at x of the convolution of f and g; f vanishes outside [lo, hi]. *)
Definition convolved (f g : R -> R) (lo hi x v : R) : Prop := mass (fun t => f t * g (x - t)) lo hi v.
(** The function computed. *)
Definition computes (code : ef -> ef) (f : R -> R) : Prop := forall x, code (Fin x) = Fin (f x).
