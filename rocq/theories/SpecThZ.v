(** Specification for claim C142: z-scored paired comparison scores. *)
From Coq Require Import List Reals.
From Verif Require Import ExtReal SpecBt.
Local Open Scope R_scope.

(** Two videos have different scores. *)
Definition spread_out (m : nat) (x : nat -> R) : Prop := exists i j, (i < m)%nat /\ (j < m)%nat /\ x i <> x j.

(** z is x moved by mu and divided by d, with mean 0 and variance 1. *)
Definition standardized (m : nat) (mu d : R) (x z : nat -> R) : Prop :=
  0 < d /\ (forall i, (i < m)%nat -> z i = (x i - mu) / d) /\ total m z = 0 /\ total m (fun i => z i * z i) = INR m.
