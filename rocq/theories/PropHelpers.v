(** Theorems for claims C135 and C136: colour maps, processes, clocks. *)
From Coq Require Import String.
From Coq Require Import List ZArith Reals.
From Verif Require Import PyBase Num ExtReal Dataset Extras SpecHelpers HelpersProofs.
Import ListNotations.
Local Open Scope list_scope.

(** C135: there are two maps, from 0 to 1 and white at one half. *)
Theorem C135_known : forall name, (exists m, cmap_factory name = Ok m) <-> (name = "red2green" \/ name = "red2green2")%string.
Proof. exact cmap_known. Qed.
Print Assumptions C135_known.
Theorem C135_other : forall name, name <> "red2green"%string -> name <> "red2green2"%string -> cmap_factory name = Err AssertionError.
Proof. exact cmap_other. Qed.
Print Assumptions C135_other.
Theorem C135_proper : forall name m, cmap_factory name = Ok m -> proper_map m /\ white_middle m.
Proof. exact cmap_proper. Qed.
Print Assumptions C135_proper.
(** C135: the first is symmetric, the second is not. *)
Theorem C135_mirrored_partial : forall m, cmap_factory "red2green" = Ok m -> mirrored m.
Proof. exact cmap_mirrored. Qed.
Print Assumptions C135_mirrored_partial.
Theorem C135_mirrored_refuted : exists m, cmap_factory "red2green2" = Ok m /\ ~ mirrored m.
Proof. exact cmap_not_mirrored. Qed.
Print Assumptions C135_mirrored_refuted.
Example C135_nonvacuous : exists m, cmap_factory "red2green2" = Ok m /\ stop_at m 5 "green" (IZR 90 / 100).
Proof. eexists. split; [reflexivity|]. left. eexists. split; reflexivity. Qed.

(** C136: a process has run iff it ended with 0; other codes and processes that did
    not start are different errors. *)
Theorem C136_ran : forall p, run_process p = Ok 0%Z <-> p = Exits 0%Z.
Proof. exact process_zero. Qed.
Print Assumptions C136_ran.
Theorem C136_code : forall c, c <> 0%Z -> run_process (Exits c) = Err AssertionError.
Proof. exact process_other. Qed.
Print Assumptions C136_code.
Theorem C136_start : forall e, run_process (CannotStart e) = Err e.
Proof. exact process_start. Qed.
Print Assumptions C136_start.
(** C136: a method overrides one of the interface or is an error; the time of a block
    is the difference of the clocks. *)
Theorem C136_override : forall i m, (In m i -> override i m = Ok m) /\ (~ In m i -> override i m = Err AssertionError).
Proof. exact override_ok. Qed.
Print Assumptions C136_override.
Theorem C136_timer : forall s e x, timer_interval (Fin s) (Fin e) = Fin x <-> (s + x = e)%R.
Proof. exact timer_ok. Qed.
Print Assumptions C136_timer.
Example C136_nonvacuous : run_process (Exits 2) = Err AssertionError /\ run_process (Exits (-9)) = Err AssertionError /\
  override ["speak"; "run"]%string "run"%string = Ok "run"%string.
Proof. repeat split; reflexivity. Qed.
