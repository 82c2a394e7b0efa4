(** Specification vocabulary for claim C133: the same votes, with the videos and
    the subjects listed in another order. *)
From Coq Require Import String.
From Coq Require Import List Arith.
From Verif Require Import PyBase Num ExtReal NumPy Dataset Preproc SpecDataset SpecMos.

(** Video e and subject s of [a'] are video p e and subject q s of [a]. *)
Definition rearranged (p q : nat -> nat) (a a' : arr3 ef) : Prop :=
  dE a' = dE a /\ dS a' = dS a /\ dR a' = dR a /\ permutes (dE a) p /\ permutes (dS a) q /\
  forall e s r, inside a e s r -> at3 a' e s r = at3 a (p e) (q s) r.

(** Entry i of the second list is entry p i of the first; both have n entries. *)
Definition relisted {A} (n : nat) (p : nat -> nat) (l l' : list A) : Prop :=
  length l = n /\ length l' = n /\ forall i, (i < n)%nat -> nth_error l' i = nth_error l (p i).

(** What the differential scores read of a video. *)
Definition video_key (dv : dvideo ef string) : BinNums.Z * string := (dv_cid dv, dv_path dv).

(** Both readers hold the same videos, with the same references and the same
    reference score; those of the second are listed in the order p. *)
Definition same_videos (p : nat -> nat) (rd rd' : reader ef) : Prop :=
  ds_refs (rd_ds rd') = ds_refs (rd_ds rd) /\ ds_ref_score (rd_ds rd') = ds_ref_score (rd_ds rd) /\
  rd_dvs rd = ds_dis (rd_ds rd) /\ rd_dvs rd' = ds_dis (rd_ds rd') /\
  relisted (length (rd_dvs rd)) p (map video_key (rd_dvs rd)) (map video_key (rd_dvs rd')).

(** The entries on the subjects: none in both results, or in the order q. *)
Definition same_bias (q : nat -> nat) (n : nat) (o o' : option (list ef)) : Prop :=
  match o, o' with None, None => True | Some b, Some b' => relisted n q b b' | _, _ => False end.
Definition same_lists (q : nat -> nat) (n : nat) (o o' : option (list bool * list ef * list ef)) : Prop :=
  match o, o' with
  | None, None => True
  | Some (f, s1, s2), Some (f', s1', s2') => relisted n q f f' /\ relisted n q s1 s1' /\ relisted n q s2 s2'
  | _, _ => False
  end.

(** The votes of a video in two datasets: lists of n votes, the second in the
    order q; or the same dict, entered in any order. *)
Definition same_list_votes (n : nat) (q : nat -> nat) (dv dv' : dvideo ef string) : Prop :=
  exists b b' l l', dv_os dv = Some (OSeq b l) /\ dv_os dv' = Some (OSeq b' l') /\ relisted n q l l'.
Definition same_dict_votes (dv dv' : dvideo ef string) : Prop :=
  same_votes dv dv' /\ forall d, dv_os dv = Some (ODict d) -> NoDup (map fst d).

(** The videos of the second dataset are those of the first in the order p, with
    votes related by V. *)
Definition same_dataset (p : nat -> nat) (V : dvideo ef string -> dvideo ef string -> Prop) (ds ds' : dataset ef string) : Prop :=
  ds_refs ds' = ds_refs ds /\ ds_ref_score ds' = ds_ref_score ds /\ length (ds_dis ds') = length (ds_dis ds) /\
  permutes (length (ds_dis ds)) p /\
  forall e dv dv', nth_error (ds_dis ds) (p e) = Some dv -> nth_error (ds_dis ds') e = Some dv' ->
    (e < length (ds_dis ds))%nat -> video_key dv' = video_key dv /\ V dv dv'.
