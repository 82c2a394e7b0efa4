(** Vocabulary for claims C135 and C136: colour maps, processes, clocks. *)
From Coq Require Import String.
From Coq Require Import List ZArith Reals.
From Verif Require Import Extras.
Import ListNotations.
Local Open Scope R_scope.

(** Colour k of a map is at q, between 0 and 1: at the position given, in
    hundredths, or evenly spaced. *)
Definition stop_at (m : list (option Z * string)) (k : nat) (name : string) (q : R) : Prop :=
  (exists z, nth_error m k = Some (Some z, name) /\ q = IZR z / 100) \/
  (nth_error m k = Some (None, name) /\ q = INR k / INR (length m - 1)).
(** What matplotlib asks for: from 0 to 1, going up. *)
Definition proper_map (m : list (option Z * string)) : Prop :=
  (2 <= length m)%nat /\ (exists n, stop_at m 0 n 0) /\ (exists n, stop_at m (length m - 1) n 1) /\
  (forall k, (k < length m)%nat -> exists n q, stop_at m k n q) /\
  forall k n q n' q', stop_at m k n q -> stop_at m (S k) n' q' -> q < q'.
(** White in the middle, at one half. *)
Definition white_middle (m : list (option Z * string)) : Prop :=
  exists k n, length m = (2 * k + 1)%nat /\ stop_at m k n (1 / 2) /\ (n = "w" \/ n = "white")%string.
(** Colours as far from either end are as far from the middle. *)
Definition mirrored (m : list (option Z * string)) : Prop :=
  forall k n q n' q', (k < length m)%nat -> stop_at m k n q -> stop_at m (length m - 1 - k) n' q' -> q + q' = 1.
