(** Specifications for claims C110-C115, without the functions of Extras.v. *)
From Coq Require Import Ascii String.
From Coq Require Import List ZArith Bool Arith Reals.
From Verif Require Import PyBase Num ExtReal Dataset SpecMocked Extras.
Import ListNotations.
Local Open Scope list_scope.

(** ** Files *)
(** The public part of a dataset: everything but attributes that are not public. *)
Definition public_part {T K} (d d' : dataset T K) : Prop :=
  ds_refs d' = ds_refs d /\ ds_dis d' = ds_dis d /\ ds_name d' = ds_name d /\ ds_ref_score d' = ds_ref_score d /\
  forall k v, In (k, v) (ds_attrs d') <-> In (k, v) (ds_attrs d) /\ public k.
(** Only the file under [path] may have changed. *)
Definition others_kept {T} (path : string) (f f' : files T) : Prop := forall q, q <> path -> f' q = f q.
(** The file at [path] holds the public part of [d]. *)
Definition holds {T} (f : files T) (path : string) (d : dataset T string) : Prop := exists d', f path = Some (inl d') /\ public_part d d'.
Definition holds_pc {T} (f : files T) (path : string) (d : dataset T (string * Z)) : Prop := exists d', f path = Some (inr d') /\ public_part d d'.

(** ** Figures *)
(** [path] names the file [file] in [dir]. *)
Definition in_dir (dir file path : string) : Prop :=
  ((dir = "" \/ exists d, dir = d ++ "/") /\ path = dir ++ file \/
   dir <> "" /\ (forall d, dir <> d ++ "/") /\ path = dir ++ "/" ++ file)%string.
(** The numbers and the paths of the figures saved, in order. *)
Definition saved_numbers (ev : list shown) : list nat := flat_map (fun e => match e with SavedFigure n _ _ => [n] | _ => [] end) ev.
Definition saved_paths (ev : list shown) : list string := flat_map (fun e => match e with SavedFigure _ p _ => [p] | _ => [] end) ev.

(** ** Warnings *)
(** What a DeprecationWarning meets: the first filter for it. *)
Definition concerns (c : category) : Prop := c = Deprecation \/ c = AnyWarning.
Definition meets (fs : list (action * category)) (a : action) : Prop :=
  (exists l1 c l2, fs = l1 ++ (a, c) :: l2 /\ concerns c /\ Forall (fun x => ~ concerns (snd x)) l1) \/
  (a = Default /\ Forall (fun x => ~ concerns (snd x)) fs).

(** ** Comparisons of a test *)
Local Open Scope R_scope.
(** How far the two numbers may be apart: delta, or half a unit of the last digit. *)
Definition tolerance (x : almost ef) : R :=
  match al_delta x with
  | Some d => toR d
  | None => / 2 * / 10 ^ (match al_places x with Some p => p | None => 7%nat end)
  end.
(** Numbers are equal or close; infinities are equal; NaN is close to nothing. *)
Definition close (x : almost ef) : Prop :=
  match al_first x, al_second x with
  | Fin a, Fin b => a = b \/ Rabs (a - b) <= tolerance x
  | PInf, PInf | NInf, NInf => True
  | _, _ => False
  end.
(** A delta, if there is one, is a number, and is not given along with places. *)
Definition proper (x : almost ef) : Prop :=
  match al_delta x with Some d => isfin d /\ al_places x = None | None => True end.
(** Two different numbers with both a delta and places. *)
Definition confused (x : almost ef) : Prop :=
  al_delta x <> None /\ al_places x <> None /\ neqb (al_first x) (al_second x) = false.
