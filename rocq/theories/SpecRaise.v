(** Specification vocabulary for claim C132: two arrays of votes that differ in
    one vote. *)
From Coq Require Import List Arith Reals.
From Verif Require Import PyBase Num ExtReal NumPy SpecMos.
Local Open Scope R_scope.

(** The array [a'] is [a] with the vote at (e0, s0, r0) raised from x to x'. *)
Definition raised (a a' : arr3 ef) (e0 s0 r0 : nat) (x x' : R) : Prop :=
  dE a' = dE a /\ dS a' = dS a /\ dR a' = dR a /\ inside a e0 s0 r0 /\
  at3 a e0 s0 r0 = Fin x /\ at3 a' e0 s0 r0 = Fin x' /\ x < x' /\
  forall e s r, inside a e s r -> (e, s, r) <> (e0, s0, r0) -> at3 a' e s r = at3 a e s r.

(** Subject s voted for video e in the repetition r only. *)
Definition only_vote (a : arr3 ef) (e s r : nat) : Prop :=
  forall r', inside a e s r' -> r' <> r -> at3 a e s r' = NaN.

(** Number e of the two lists are numbers, and the second is not lower. *)
Definition not_lower (q q' : list ef) (e : nat) : Prop :=
  exists v v', nth_error q e = Some (Fin v) /\ nth_error q' e = Some (Fin v') /\ v <= v'.

(** Number e of the two lists are numbers, and the second is lower. *)
Definition lower (q q' : list ef) (e : nat) : Prop :=
  exists v v', nth_error q e = Some (Fin v) /\ nth_error q' e = Some (Fin v') /\ v' < v.
