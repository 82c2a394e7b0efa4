(** Theorems for claim C143: z-scored output of the Newton-Raphson Bradley-Terry model. *)
From Coq Require Import List ZArith Bool Arith Reals Lra Lia.
From Verif Require Import PyBase Num ExtReal NumPy PairedComp SpecMos SpecBt BtWitness SpecThZ NrZProofs.
Import ListNotations.
Local Open Scope R_scope.

(** C143: asking for z-scores changes neither failure nor the error raised. *)
Theorem C143_errors : forall pinv fuel (a : arr2 ef) e, nr_resolve pinv fuel true a = Err e <-> nr_resolve pinv fuel false a = Err e.
Proof. exact nr_z_errors. Qed.
Print Assumptions C143_errors.

(** C143 for the scores: those of the plain run are finite, the last one 0. *)
Theorem C143_scores : forall pinv fuel (a : arr2 ef) q, nr_resolve pinv fuel false a = Ok q ->
  exists x, q = vec (n0 a) x /\ x (n0 a - 1)%nat = 0 /\
    (spread_out (n0 a) x -> exists mu d z, nr_resolve pinv fuel true a = Ok (vec (n0 a) z) /\ standardized (n0 a) mu d x z /\ z (n0 a - 1)%nat = - mu / d) /\
    (~ spread_out (n0 a) x -> nr_resolve pinv fuel true a = Ok (map (fun _ => NaN) (seq 0 (n0 a)))).
Proof. exact nr_z_scores. Qed.
Print Assumptions C143_scores.

(** C143 for the ranking. *)
Theorem C143_order : forall pinv fuel (a : arr2 ef) q, nr_resolve pinv fuel false a = Ok q ->
  exists x, q = vec (n0 a) x /\ (spread_out (n0 a) x -> exists z, nr_resolve pinv fuel true a = Ok (vec (n0 a) z) /\
    forall i j, (i < n0 a)%nat -> (j < n0 a)%nat -> z i < z j <-> x i < x j).
Proof. exact nr_z_order. Qed.
Print Assumptions C143_order.

(** Runs that meet the hypotheses: two videos with scores ln 2 and 0, and one video alone. *)
Example C143_met : nr_resolve jump 2 false wb_arr = Ok (vec (n0 wb_arr) wb_g) /\ spread_out (n0 wb_arr) wb_g.
Proof. exact (conj jump_resolve wz_two). Qed.
Example C143_alone_met : nr_resolve jump 1 false wz_one = Ok (vec 1 (fun _ => 0)) /\ ~ spread_out 1 (fun _ => 0).
Proof. exact wz_alone. Qed.
Example C143_error_met : nr_resolve (fun _ => Err LinAlgError) 1 false wb_arr = Err LinAlgError.
Proof. reflexivity. Qed.
