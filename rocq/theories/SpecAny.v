(** Specification vocabulary for claims that hold in every arithmetic. *)
From Coq Require Import List.
From Verif Require Import NumPy Preproc.
Import ListNotations.

(** run_modeling() without options. *)
Definition plain {T} : kwargs T := KW false false false false None false None.

(** Video e of one array has the votes of video e' of another one, subject by
    subject and repetition by repetition. *)
Definition same_votes {T} (a : arr3 T) (e : nat) (a' : arr3 T) (e' : nat) : Prop :=
  e < dE a /\ e' < dE a' /\ dS a = dS a' /\ dR a = dR a' /\
  forall s r, s < dS a -> r < dR a -> at3 a e s r = at3 a' e' s r.

(** Two arrays of one shape with the same entries. *)
Definition same_array {T} (a a' : arr3 T) : Prop :=
  dE a = dE a' /\ dS a = dS a' /\ dR a = dR a' /\
  forall e s r, e < dE a -> s < dS a -> r < dR a -> at3 a e s r = at3 a' e s r.
