(** Specification of the final options on scores per subject (C116). *)
From Coq Require Import List Arith Reals.
From Verif Require Import PyBase Num ExtReal NumPy SpecMos.
Import ListNotations.
Local Open Scope R_scope.

(** A coefficient that is not given counts as zero. *)
Definition coef (o : option R) : R := match o with Some x => x | None => 0 end.
(** The polynomial of a score.  A missing score stays missing if it is used. *)
Definition polynomial (p2 p1 p0 : option R) (x : ef) (y : ef) : Prop :=
  match x with
  | Fin a => y = Fin (coef p2 * a * a + coef p1 * a + coef p0)
  | NaN => (p2 <> None \/ p1 <> None) /\ y = NaN \/ p2 = None /\ p1 = None /\ y = Fin (coef p0)
  | _ => False
  end.
(** Same shape, and related number by number. *)
Definition cellwise (P : ef -> ef -> Prop) (a b : arr3 ef) : Prop :=
  dE b = dE a /\ dS b = dS a /\ dR b = dR a /\ forall e s r, inside a e s r -> P (at3 a e s r) (at3 b e s r).
(** No vote is missing. *)
Definition none_missing (a : arr3 ef) : Prop := forall e s r, inside a e s r -> exists x, at3 a e s r = Fin x.
