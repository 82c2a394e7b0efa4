(** Specification for claim C92: the reference programs. *)
From Coq Require Import String.
From Coq Require Import List ZArith Bool Arith.
From Verif Require Import PyBase Num NumPy Preproc Mos AP Demo.
Import ListNotations.

Section SpecDemo.
  Context {T : Type}.
  Variable parse : string -> res T.
  (** The rows of a file are a table of J times I votes. *)
  Definition table (file : list (list string)) (J I : nat) (a : nat -> nat -> T) : Prop :=
    List.length file = J /\ (forall row, In row file -> List.length row = I) /\
    forall j i, (j < J)%nat -> (i < I)%nat -> exists row cell, nth_error file j = Some row /\ nth_error row i = Some cell /\ parse cell = Ok (a j i).

  Definition comma : list string := [""; ""]%string.
  (** Tables of the same size, a row with a single comma between two of them. *)
  Inductive tables (J I : nat) : list (list string) -> list (nat -> nat -> T) -> Prop :=
  | tables_last : forall file a, table file J I a -> ~ In comma file -> tables J I file [a]
  | tables_more : forall file a rest l, table file J I a -> ~ In comma file -> tables J I rest l -> tables J I (file ++ comma :: rest) (a :: l).

  (** The same votes. *)
  Definition same2 (o o' : arr2 T) : Prop :=
    n0 o = n0 o' /\ n1 o = n1 o' /\ forall j i, (j < n0 o)%nat -> (i < n1 o)%nat -> at2 o j i = at2 o' j i.
  Definition same3 (u u' : arr3 T) : Prop :=
    dE u = dE u' /\ dS u = dS u' /\ dR u = dR u' /\
    forall j i r, (j < dE u)%nat -> (i < dS u)%nat -> (r < dR u)%nat -> at3 u j i r = at3 u' j i r.
  (** One repetition. *)
  Definition once (o : arr2 T) : arr3 T := Arr3 (n0 o) (n1 o) 1 (fun j i _ => at2 o j i).
  (** What the package reports of the same quantities. *)
  Definition projected (m : apres T) : demo_result T := DemoResult (ap_quality m) (ap_quality_std m) (ap_bias m) (ap_incons m).
End SpecDemo.
