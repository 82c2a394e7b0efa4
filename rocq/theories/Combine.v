(** Model of sureal/dataset_reader.py:528-581 to_combined_overlap_dataset,
    with the aliasing between the produced dataset and the first dataset.

    Simplified: the list objects stored as votes are assumed not to be shared
    between two entries of the input datasets, nor between the two datasets. *)
From Coq Require Import String.
From Coq Require Import List ZArith Bool Arith.
From Verif Require Import PyBase Num NumPy Dataset.
Import ListNotations.
Local Open Scope list_scope.

(** Position of an element, list.index (sureal/dataset_reader.py:551, 559). *)
Fixpoint index_of (x : Z) (l : list Z) : nat :=
  match l with [] => 0 | y :: l' => if Z.eqb x y then 0 else S (index_of x l') end.

Section Combine.
  Context {T : Type} {N : Num T}.
  Notation dv_t := (dvideo T string).
  Notation ds_t := (dataset T string).
  Notation votes := (list (string * pyv T)).

  (** A vote of the produced video: a value of its own, or the very list object
      stored in the first dataset's video under the given subject
      (sureal/dataset_reader.py:575-576). *)
  Inductive cell := Own (v : pyv T) | AliasOf (name : string).

  (** sureal/dataset_reader.py:566-576: one subject of the second video.  [d1]
      is the first dataset's dict, possibly changed in place by append. *)
  Definition combine_key (st : votes * list (string * cell)) (kv : string * pyv T)
    : votes * list (string * cell) :=
    let '(d1, new) := st in
    let '(k, v2) := kv in
    match dget String.eqb d1 k with
    | None => (d1, new)
    | Some (PSeq true l1) =>
        match v2 with
        | PSeq true l2 => (d1, dset String.eqb new k (Own (PSeq true (l1 ++ l2))))
        | _ => (dset String.eqb d1 k (PSeq true (l1 ++ [v2])), dset String.eqb new k (AliasOf k))
        end
    | Some v1 =>
        match v2 with
        | PSeq true l2 => (d1, dset String.eqb new k (Own (PSeq true (v1 :: l2))))
        | _ => (d1, dset String.eqb new k (Own (PSeq true [v1; v2])))
        end
    end.

  (** sureal/dataset_reader.py:561-578: deep copy of the first video's dict,
      update with the second's, then the shared subjects. *)
  Definition combine_os (d1 d2 : votes) : votes * list (string * cell) :=
    let new := map (fun kv => (fst kv, Own (snd kv))) d1 in
    let new := fold_left (fun d kv => dset String.eqb d (fst kv) (Own (snd kv))) d2 new in
    fold_left combine_key d2 (d1, new).

  (** The values seen through the aliases once the first dataset's dict has
      reached its final state (an alias always names a present subject). *)
  Definition resolve (d1 : votes) (new : list (string * cell)) : votes :=
    map (fun kc => (fst kc, match snd kc with
                            | Own v => v
                            | AliasOf k => match dget String.eqb d1 k with Some v => v | None => PSeq true [] end
                            end)) new.

  (** sureal/dataset_reader.py:549-559: renumbering of the content; the first
      reference video with the content id is copied. *)
  Definition renumber (refs1 : list rvideo) (c : Z) (st : list Z * list rvideo) : list Z * list rvideo :=
    let '(cids, refs) := st in
    if memb Z.eqb c cids then (cids, refs)
    else
      let cids' := cids ++ [c] in
      let refs' := match find (fun r => Z.eqb (rv_cid r) c) refs1 with
                   | Some r => refs ++ [RVideo (Z.of_nat (index_of c cids')) (rv_path r) (rv_extra r)]
                   | None => refs
                   end in
      (cids', refs').

  (** State of the inner loop for one first video. *)
  Record inner := Inner { in_cids : list Z; in_refs : list rvideo; in_d1 : votes;
                          in_new : list (Z * list (string * cell)) }.

  (** sureal/dataset_reader.py:545-580, one pair of videos. *)
  Definition combine_pair (refs1 : list rvideo) (vid1 : dv_t) (st : inner) (vid2 : dv_t) : res inner :=
    if String.eqb (dv_path vid1) (dv_path vid2) then
      do d2 <- os_dict vid2;
      let '(cids, refs) := renumber refs1 (dv_cid vid1) (in_cids st, in_refs st) in
      let '(d1, new) := combine_os (in_d1 st) d2 in
      Ok (Inner cids refs d1 (in_new st ++ [(Z.of_nat (index_of (dv_cid vid1) cids), new)]))
    else Ok st.

  (** State of the outer loop: contents, references, produced videos, first
      dataset's videos as they are left. *)
  Record outer := Outer { out_cids : list Z; out_refs : list rvideo; out_dis : list dv_t; out_first : list dv_t }.

  (** dis_video with content_id and os replaced. *)
  Definition with_cid_os (dv : dv_t) (c : Z) (d : votes) : dv_t :=
    DVideo c (dv_aid dv) (dv_path dv) (Some (ODict d)) (dv_gt dv) (dv_gtstd dv) (dv_extra dv).

  (** sureal/dataset_reader.py:544-580, one video of the first dataset. *)
  Definition combine_first (refs1 : list rvideo) (second : list dv_t) (st : outer) (vid1 : dv_t) : res outer :=
    do d1 <- os_dict vid1;
    do i <- foldM (combine_pair refs1 vid1) second (Inner (out_cids st) (out_refs st) d1 []);
    Ok (Outer (in_cids i) (in_refs i)
          (out_dis st ++ map (fun cn => with_cid_os vid1 (fst cn) (resolve (in_d1 i) (snd cn))) (in_new i))
          (out_first st ++ [with_os vid1 (ODict (in_d1 i))])).

  (** What happens to the reader's own dataset: its dicts are the converted
      ones when it is dict-style (sureal/dataset_reader.py:588-591); otherwise
      the converted dict holds the same vote objects in list order
      (sureal/dataset_reader.py:603-605). *)
  Definition write_back (dv : dv_t) (after : dv_t) : dv_t :=
    match dv_os dv, dv_os after with
    | Some (OSeq b _), Some (ODict d) => with_os dv (OSeq b (dvals d))
    | _, Some (ODict d) => with_os dv (ODict d)
    | _, _ => dv
    end.

  (** sureal/dataset_reader.py:528-581.  Returns the produced dataset and the
      first reader's dataset after the call.  The second reader's dataset is
      only read. *)
  Definition to_combined_overlap_dataset (ds1 ds2 : ds_t) (kw : convkw T) : res (ds_t * ds_t) :=
    do first <- to_dictionary_style_dataset ds1 (ds_dis ds1) no_kw;
    do second <- to_dictionary_style_dataset ds2 (ds_dis ds2) no_kw;
    do o <- foldM (combine_first (ds_refs first) (ds_dis second)) (ds_dis first) (Outer [] [] [] []);
    Ok (prepare_new_dataset ds1 kw (out_refs o) (out_dis o),
        Dataset (ds_refs ds1) (map (fun p => write_back (fst p) (snd p)) (combine (ds_dis ds1) (out_first o)))
                (ds_name ds1) (ds_ref_score ds1) (ds_attrs ds1)).
End Combine.
Arguments cell : clear implicits.
