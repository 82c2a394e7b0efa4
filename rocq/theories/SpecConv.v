(** Specification vocabulary for the dataset conversions (claims C04-C08). *)
From Coq Require Import String.
From Coq Require Import List ZArith Bool Arith Permutation.
From Verif Require Import PyBase Num Dataset SpecDataset.
Import ListNotations.
Local Open Scope list_scope.

Section Spec.
  Context {T : Type} {N : Num T}.
  Notation dv_t := (dvideo T string).
  Notation ds_t := (dataset T string).

  (** The same video: identifiers, path and other keys. *)
  Definition same_video {K K'} (dv : dvideo T K) (dv' : dvideo T K') : Prop :=
    dv_cid dv' = dv_cid dv /\ dv_aid dv' = dv_aid dv /\ dv_path dv' = dv_path dv /\ dv_extra dv' = dv_extra dv.

  (** The groundtruth entry that stands for a score. *)
  Inductive score_entry : score T -> gtval T -> Prop :=
  | se_num : forall x, score_entry (SNum x) (GNum x)
  | se_one : forall x, score_entry (SArr [x]) (GNum x)
  | se_list : forall l, length l <> 1 -> score_entry (SArr l) (GList l).

  (** Name, reference score and every public attribute are kept; the three
      keyword arguments override the attribute of the same name. *)
  Definition attributes_kept {K K'} (ds : dataset T K) (kw : convkw T) (ds' : dataset T K') : Prop :=
    ds_name ds' = ds_name ds /\ ds_ref_score ds' = ds_ref_score ds /\
    forall k,
      let old := if String.prefix "__" k then None else dget String.eqb (ds_attrs ds) k in
      let given := if String.eqb k "quality_width" then kw_quality_width kw
                   else if String.eqb k "quality_height" then kw_quality_height kw
                   else if String.eqb k "resampling_type" then kw_resampling_type kw else None in
      dget String.eqb (ds_attrs ds') k = match given with Some x => Some x | None => old end.

  (** The scores of video dv that become entries of the per-subject dataset. *)
  Inductive persubject_votes (dv : dv_t) (qs : list (score T)) : nat -> list (score T) -> Prop :=
  | pv_list : forall b l, dv_os dv = Some (OSeq b l) -> persubject_votes dv qs (length l) qs
  | pv_dict : forall d, dv_os dv = Some (ODict d) ->
      persubject_votes dv qs (length d)
        (filter (fun s => match s with SNum x => negb (nisnan x) | SArr l => negb (nisnan (nth 0 l nnan)) end) qs).
  (** An entry of the per-subject dataset: the video with one vote as groundtruth. *)
  Definition persubject_entry (dv : dv_t) (s : score T) (dv' : dv_t) : Prop :=
    same_video dv dv' /\ dv_os dv' = None /\ dv_gtstd dv' = dv_gtstd dv /\ exists g, dv_gt dv' = Some g /\ score_entry s g.
  Definition scalar (s : score T) : Prop := exists x, s = SNum x.

  (** The dict form of a list of votes: one entry per position, in order, with
      pairwise different names. *)
  Definition named_votes (name : string) (l : list (pyv T)) (d : list (string * pyv T)) : Prop :=
    map snd d = l /\ NoDup (map fst d) /\
    forall i k v, nth_error d i = Some (k, v) -> k = (name ++ "_subject" ++ str_of_nat i)%string.

  (** Votes recorded for a subject under a dict entry that may be a number or a
      list (not a tuple) of numbers. *)
  Definition list_votes (dvs : list dv_t) : Prop :=
    forall dv d n v, In dv dvs -> dv_os dv = Some (ODict d) -> In (n, v) d ->
      (exists x, v = PNum x) \/ (exists xs, v = PSeq true (map PNum xs)).

  (** What Python guarantees of dicts: a key occurs once. *)
  Definition no_dup_keys (dvs : list dv_t) : Prop := forall dv d, In dv dvs -> dv_os dv = Some (ODict d) -> NoDup (map fst d).

  (** The pairs of videos with the same path, in the order of the two loops. *)
  Definition same_path_pairs (l1 l2 : list dv_t) : list (dv_t * dv_t) :=
    flat_map (fun v1 => map (fun v2 => (v1, v2)) (filter (fun v2 => String.eqb (dv_path v1) (dv_path v2)) l2)) l1.

  (** The combined video of a pair: the first video with, for every subject,
      the votes of the first followed by the votes of the second. *)
  Definition combined (v1 v2 v : dv_t) : Prop :=
    dv_aid v = dv_aid v1 /\ dv_path v = dv_path v1 /\ dv_gt v = dv_gt v1 /\ dv_gtstd v = dv_gtstd v1 /\
    dv_extra v = dv_extra v1 /\
    (exists d, dv_os v = Some (ODict d) /\ NoDup (map fst d)) /\
    (forall name d1 d2 d, dv_os v1 = Some (ODict d1) -> dv_os v2 = Some (ODict d2) -> dv_os v = Some (ODict d) ->
       (In name (map fst d) <-> In name (map fst d1) \/ In name (map fst d2))) /\
    forall name xs1 xs2, voted_dict v1 name xs1 -> voted_dict v2 name xs2 -> voted_dict v name (xs1 ++ xs2).

  (** A subject of both videos has a list of votes in the first and something
      else than a list in the second. *)
  Definition appends (v1 v2 : dv_t) : Prop :=
    exists d1 d2 n l v, dv_os v1 = Some (ODict d1) /\ dv_os v2 = Some (ODict d2) /\
      In (n, PSeq true l) d1 /\ In (n, v) d2 /\ forall l2, v <> PSeq true l2.
End Spec.
