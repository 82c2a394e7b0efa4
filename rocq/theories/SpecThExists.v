(** Specification of what the Thurstone solver looks for (C129, C130). *)
From Coq Require Import List ZArith Bool Arith Reals.
From Verif Require Import PyBase Num ExtReal NumPy SpecMos PairedComp SpecBt SpecBtLimit.
Import ListNotations.
Local Open Scope R_scope.

(** The objective handed to the optimiser takes its least value at v. *)
Definition least_objective (cdf : ef -> ef) (a : arr2 ef) (m : nat) (v : nat -> R) : Prop :=
  exists x, th_nll cdf a (vec m v) = Fin x /\ forall u, exists y, th_nll cdf a (vec m u) = Fin y /\ x <= y.

(** The number of comparisons. *)
Definition comparisons (m : nat) (w : nat -> nat -> R) : R := total m (fun i => total m (fun j => w i j)).

(** No outcome that was observed is rarer than one comparison in 26. *)
Definition no_rare_win (m : nat) (w : nat -> nat -> R) : Prop :=
  forall i k, (i < m)%nat -> (k < m)%nat -> 0 < w i k -> comparisons m w <= 26 * w i k.
