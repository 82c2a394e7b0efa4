(** Specification of the parameters and averages of the validation script
    (C117-C119). *)
From Coq Require Import String.
From Coq Require Import List ZArith Arith Reals.
From Verif Require Import PyBase Num ExtReal NumPy Runs SpecMos Script.
Import ListNotations.
Local Open Scope R_scope.

(** As many draws as asked for: uniform ones in [0, 1), normal ones finite. *)
Definition proper_vectors {G} (rg : vrng ef G) : Prop :=
  forall n g, (exists us, fst (v_uniform rg n g) = map Fin us /\ length us = n /\ Forall (fun u => 0 <= u < 1) us) /\
              (exists zs, fst (v_normal rg n g) = map Fin zs /\ length zs = n).
(** [n] numbers with property [P]. *)
Definition numbers (o : option (list ef)) (n : nat) (P : R -> Prop) : Prop :=
  exists l, o = Some (map Fin l) /\ length l = n /\ Forall P l.
Definition zeros (o : option (list ef)) (n : nat) : Prop := o = Some (repeat (Fin 0) n).

(** Ambiguous videos, subjects without bias and inconsistency, neutral contents. *)
Definition ambiguity_scenario (d : params ef) : Prop :=
  numbers (p_quality d) 79 (fun q => 1 <= q < 5) /\ zeros (p_bias d) 30 /\ zeros (p_incons d) 30 /\ zeros (p_cbias d) 9 /\ zeros (p_camb d) 9 /\
  exists l, p_qamb d = Some (map Fin l) /\ length l = 79%nat /\ Forall (fun a => 0 <= a < 1) l /\ p_qstd d = Some (map (fun a => Fin (a / sqrt 30)) l).
(** Subjects only; their biases add up to zero if this is forced. *)
Definition observer_scenario (force : bool) (d : params ef) : Prop :=
  numbers (p_quality d) 79 (fun q => 1 <= q < 5) /\ numbers (p_incons d) 30 (fun v => 0 <= v < 1) /\ zeros (p_cbias d) 9 /\ zeros (p_camb d) 9 /\
  p_qamb d = None /\ p_qstd d = None /\
  exists b, p_bias d = Some (map Fin b) /\ length b = 30%nat /\ (force = true -> Rsum b = 0).
(** The same parameters but for the biases of the subjects. *)
Definition same_but_bias (d d' : params ef) : Prop :=
  p_quality d' = p_quality d /\ p_incons d' = p_incons d /\ p_cbias d' = p_cbias d /\ p_camb d' = p_camb d /\ p_qamb d' = p_qamb d /\ p_qstd d' = p_qstd d.

Section Averages.
  Context {G : Type} (rg : vrng ef G) (validate : list string -> params ef -> option (list string) -> bool -> option nat -> G -> res (vdict ef * G)).
  (** The results come from the validation of Runs.v. *)
  Definition validations : Prop := forall c d ax eb n g v g', validate c d ax eb n g = Ok (v, g') -> exists p models syn, validate_results p models syn = Ok v.
  (** What the call for seed [k] returns, whatever the generator was before it. *)
  Definition run_of (cls o : string) (k : nat) (v : vdict ef) : Prop := exists d c g1, forall g0,
    validate_wrapper rg _ validate [cls] (WrapOpts true true (Z.of_nat k) true (SynStr o) None) g0 = Ok (d, v, c, g1).
End Averages.
(** The entry of model [ty] holds the percentage [p]. *)
Definition shows (ty : string) (key : percents ef -> option ef) (d : vdict ef) (p : R) : Prop :=
    exists r pc, dget String.eqb d ty = Some (r, pc) /\ key pc = Some (Fin p) /\ 0 <= p <= 100.
