(** Specification for claim C91: what the commands are to do. *)
From Coq Require Import String.
From Coq Require Import List ZArith Bool Arith.
From Verif Require Import PyBase Classes Commands SpecTools SpecNames.
Import ListNotations.

(** The effects of sureal/cmd_deprecated.py when nothing fails. *)
Inductive deprecated_plan (c : nat) (path : string) (plots : list string) (printing : Prop) (there : string -> bool) : option string -> list effect -> Prop :=
| dp_show : forall shown, (printing -> shown = [ResultShown]) -> (~ printing -> shown = []) ->
    deprecated_plan c path plots printing there None ([ModelRun [c] path plots RatingReader] ++ shown ++ [FiguresShown])
| dp_write : forall shown dir made file, (printing -> shown = [ResultShown]) -> (~ printing -> shown = []) ->
    (there dir = true -> made = []) -> (there dir = false -> made = [DirectoryMade dir]) -> joins dir "sureal.json" file ->
    deprecated_plan c path plots printing there (Some dir) ([ModelRun [c] path plots RatingReader] ++ shown ++ made ++ [FiguresSaved dir; FileWritten file]).

(** The effects of sureal/__main__.py when nothing fails. *)
Inductive main_plan (cs : list nat) (path : string) (plots : list string) (reader : reader_class) : option string -> list effect -> Prop :=
| mp_show : main_plan cs path plots reader None [ModelRun cs path plots reader; ResultShown; FiguresShown]
| mp_write : forall dir file, joins dir "output.json" file ->
    main_plan cs path plots reader (Some dir) [ModelRun cs path plots reader; DirectoryMade dir; FileWritten file; FiguresSaved dir].

(** What the operation behind an effect returns. *)
Definition operation (show print : res unit) (makedirs save dump : string -> res unit) (e : effect) : res unit :=
  match e with
  | ResultShown => print
  | FiguresShown => show
  | DirectoryMade dir => makedirs dir
  | FiguresSaved dir => save dir
  | FileWritten path => dump path
  | _ => Ok tt
  end.

(** The plan carried out with 0, or exactly what precedes the first effect whose
    operation raises, with that exception. *)
Definition follows (op : effect -> res unit) (plan : list effect) (a : act Z) : Prop :=
  ((forall e, In e plan -> op e = Ok tt) /\ a = (plan, Ok 0%Z)) \/
  (exists before e after x, plan = before ++ e :: after /\ (forall e', In e' before -> op e' = Ok tt) /\ op e = Err x /\ a = (before, Err x)).
