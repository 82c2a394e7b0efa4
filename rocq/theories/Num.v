(** Numbers as the code uses them: a record of operations without any law.
    Model functions are written once over this record.  It stands for Python
    floats and numpy float64 scalars (all numeric code in /repo/sureal). *)
From Coq Require Import List ZArith Bool.
Import ListNotations.

Class Num (T : Type) := {
  nofZ : Z -> T;                         (* float(z) *)
  nadd : T -> T -> T;
  nsub : T -> T -> T;
  nmul : T -> T -> T;
  ndiv : T -> T -> T;                    (* numpy division: no exception *)
  nneg : T -> T;
  nabs : T -> T;
  nsqrt : T -> T;                        (* np.sqrt *)
  nexp : T -> T;                         (* np.exp *)
  nln : T -> T;                          (* np.log *)
  nltb : T -> T -> bool;                 (* <, False with NaN *)
  nleb : T -> T -> bool;                 (* <= *)
  neqb : T -> T -> bool;                 (* == *)
  nisnan : T -> bool;                    (* np.isnan *)
  nisinf : T -> bool;                    (* np.isinf *)
  nnan : T;                              (* float('NaN') *)
  npi : T                                (* np.pi *)
}.

Declare Scope num_scope.
Delimit Scope num_scope with num.
Notation "x + y" := (nadd x y) : num_scope.
Notation "x - y" := (nsub x y) : num_scope.
Notation "x * y" := (nmul x y) : num_scope.
Notation "x / y" := (ndiv x y) : num_scope.
Notation "- x" := (nneg x) : num_scope.
Notation "x <? y" := (nltb x y) : num_scope.
Notation "x <=? y" := (nleb x y) : num_scope.
Notation "x =? y" := (neqb x y) : num_scope.

Section Derived.
  Context {T : Type} {N : Num T}.
  Local Open Scope num_scope.

  (** Literal 0, 1 and decimal literals p/q (e.g. 1.95996 in
      sureal/subjective_model.py:391-392 is [ndec 195996 100000]). *)
  Definition nzero : T := nofZ 0.
  Definition none_ : T := nofZ 1.
  Definition ndec (p q : Z) : T := nofZ p / nofZ q.
  Definition nofnat (n : nat) : T := nofZ (Z.of_nat n).

  (** [x ** 2], [x ** 4] written as products. *)
  Definition nsq (x : T) : T := x * x.
  Definition npow4 (x : T) : T := nsq x * nsq x.
  Definition npow8 (x : T) : T := npow4 x * npow4 x.

  (** np.maximum: propagates NaN. *)
  Definition nmaximum (x y : T) : T :=
    if nisnan x then x else if nisnan y then y else if y <? x then x else y.
  Definition nminimum (x y : T) : T :=
    if nisnan x then x else if nisnan y then y else if x <? y then x else y.

  (** Python comparison x > y. *)
  Definition ngtb (x y : T) : bool := y <? x.
  Definition ngeb (x y : T) : bool := y <=? x.
End Derived.
