(** Specification vocabulary for comparing models by their likelihood. *)
From Coq Require Import String.
From Coq Require Import List ZArith Bool Arith Reals.
From Verif Require Import PyBase Num ExtReal NumPy Dataset Preproc Mos SpecMos.
Import ListNotations.
Local Open Scope R_scope.

(** Some vote was cast. *)
Definition some_vote (x : arr3 ef) : Prop := exists e s r v, inside x e s r /\ at3 x e s r = Fin v.
(** No video has votes that are all the same. *)
Definition all_spread (x : arr3 ef) : Prop := forall e, (e < dE x)%nat -> video_votes x e <> [] ->
  exists u v, In u (video_votes x e) /\ In v (video_votes x e) /\ u <> v.
(** The two classes compared. *)
Definition compared (c : mosclass) : Prop := c = MOS \/ c = BR_MOS.

(** Half the logarithm of the circle number times 2. *)
Definition half_ln_2pi : R := ln (2 * PI) / 2.
(** Log-likelihood of n values with the standard deviation s, in closed form. *)
Definition closed_ll (n s : R) : R := - (n - 1) / 2 - n * ln s - n * half_ln_2pi.
