(** Specification for claims C89, C90 and C91. *)
From Coq Require Import Ascii String.
From Coq Require Import List ZArith Bool Arith.
Import ListNotations.
Local Open Scope string_scope.

(** The character does not occur in the string. *)
Definition free (c : ascii) (s : string) : Prop := ~ In c (list_ascii_of_string s).
(** Some character of the string is another one. *)
Definition not_only (c : ascii) (s : string) : Prop := exists a, In a (list_ascii_of_string s) /\ a <> c.
(** Nothing but c. *)
Definition only (c : ascii) (s : string) : Prop := forall a, In a (list_ascii_of_string s) -> a = c.

Definition version_alphabet : string := "abcdefghijklmnopqrstuvwxyzABCDEFGHIJKLMNOPQRSTUVWXYZ0123456789._-".
(** A version string as the message of sureal/core/mixin.py:38 describes it. *)
Definition proper_version (s : string) : Prop :=
  s <> "" /\ forall a, In a (list_ascii_of_string s) -> In a (list_ascii_of_string version_alphabet).
Definition line_feed : string := String (Ascii.ascii_of_nat 10) "".

(** The argument after the first occurrence of an option. *)
Inductive option_value (o : string) : list string -> option string -> Prop :=
| ov_none : option_value o [] None
| ov_here_last : option_value o [o] None
| ov_here : forall x l, option_value o (o :: x :: l) (Some x)
| ov_skip : forall y l r, y <> o -> option_value o l r -> option_value o (y :: l) r.

(** p is file in the directory d. *)
Definition joins (d file p : string) : Prop :=
  (d = "" \/ exists e, d = e ++ "/") /\ p = d ++ file \/
  (d <> "" /\ ~ exists e, d = e ++ "/") /\ p = d ++ "/" ++ file.
