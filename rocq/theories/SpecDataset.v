(** Specification vocabulary for rating datasets.  Nothing here uses the
    functions of Dataset.v; it only reads the data types. *)
From Coq Require Import String.
From Coq Require Import List ZArith Bool Arith Sorted Permutation.
From Verif Require Import PyBase Dataset.
Import ListNotations.
Local Open Scope list_scope.

Section Spec.
  Context {T : Type}.

  (** [vote_value v xs]: the vote [v] stands for the sequence of numbers [xs]
      (one number, or the repetitions in order). *)
  Inductive vote_value : pyv T -> list T -> Prop :=
  | vv_num : forall x, vote_value (PNum x) [x]
  | vv_seq : forall b xs, vote_value (PSeq b (map PNum xs)) xs
  | vv_arr : forall x, vote_value (PArr [x]) [x].

  (** The ordering of subject names used for columns. *)
  Definition str_lt (a b : string) : Prop := str_leb a b = true /\ a <> b.

  (** Every video of the dataset is list-style with S entries. *)
  Definition list_style (dvs : list (dvideo T string)) (S : nat) : Prop :=
    Forall (fun dv => exists b l, dv_os dv = Some (OSeq b l) /\ length l = S) dvs.

  (** Every video is dict-style (and, as Python guarantees, has distinct keys). *)
  Definition dict_style (dvs : list (dvideo T string)) : Prop :=
    Forall (fun dv => exists d, dv_os dv = Some (ODict d) /\ NoDup (map fst d)) dvs.

  (** [names] is the list of subjects that voted at least once, in increasing
      order without repetition. *)
  Definition observer_names (dvs : list (dvideo T string)) (names : list string) : Prop :=
    StronglySorted str_lt names /\
    forall n, In n names <->
      exists dv d v, In dv dvs /\ dv_os dv = Some (ODict d) /\ In (n, v) d.

  (** Observer number s recorded the votes xs on this list-style video. *)
  Definition voted_list (dv : dvideo T string) (s : nat) (xs : list T) : Prop :=
    exists b l v, dv_os dv = Some (OSeq b l) /\ nth_error l s = Some v /\ vote_value v xs.

  (** The subject called [name] recorded the votes xs on this dict-style video;
      no entry means no votes. *)
  Definition voted_dict (dv : dvideo T string) (name : string) (xs : list T) : Prop :=
    exists d, dv_os dv = Some (ODict d) /\
      ((exists v, In (name, v) d /\ vote_value v xs) \/ (~ In name (map fst d) /\ xs = [])).

  (** Every recorded vote is a number or a sequence of numbers. *)
  Definition votes_wf (dvs : list (dvideo T string)) : Prop :=
    Forall (fun dv =>
      match dv_os dv with
      | Some (OSeq _ l) => Forall (fun v => exists xs, vote_value v xs) l
      | Some (ODict d) => Forall (fun kv => exists xs, vote_value (snd kv) xs) d
      | _ => True
      end) dvs.

  (** A vote value occurring somewhere in the dataset. *)
  Definition some_vote (dvs : list (dvideo T string)) (v : pyv T) : Prop :=
    exists dv, In dv dvs /\
      ((exists b l, dv_os dv = Some (OSeq b l) /\ In v l) \/
       (exists d n, dv_os dv = Some (ODict d) /\ In (n, v) d)).

  (** R is the largest number of repetitions, and at least 1. *)
  Definition max_repetitions (dvs : list (dvideo T string)) (R : nat) : Prop :=
    1 <= R /\
    (forall v xs, some_vote dvs v -> vote_value v xs -> length xs <= R) /\
    (R = 1 \/ exists v xs, some_vote dvs v /\ vote_value v xs /\ length xs = R).

  (** The same dict entered in another order. *)
  Definition same_votes (dv dv' : dvideo T string) : Prop :=
    exists d d', dv_os dv = Some (ODict d) /\ dv_os dv' = Some (ODict d') /\ Permutation d d'.

  (** The dataset with its videos, and the subjects within each video, listed
      in another order. *)
  Definition reordered (dvs dvs' : list (dvideo T string)) : Prop :=
    exists mid, Permutation dvs mid /\ Forall2 same_votes mid dvs'.

  (** What a well-formed raw dataset is (claim C03). *)
  Definition raw_dataset_ok {K} (ds : dataset T K) : Prop :=
    ds_refs ds <> [] /\ ds_dis ds <> [] /\
    (forall r, In r (ds_refs ds) -> (0 <= rv_cid r)%Z) /\
    (forall dv, In dv (ds_dis ds) -> exists r, In r (ds_refs ds) /\ rv_cid r = dv_cid dv) /\
    (forall dv, In dv (ds_dis ds) ->
       exists o, dv_os dv = Some o /\ o <> OOther) /\
    (forall dv0 rest b l0, ds_dis ds = dv0 :: rest -> dv_os dv0 = Some (OSeq b l0) ->
       forall dv o, In dv rest -> dv_os dv = Some o ->
         (exists b' l, o = OSeq b' l /\ length l = length l0) \/
         (exists d, o = ODict d /\ length d = length l0)).
End Spec.
