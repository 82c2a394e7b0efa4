(** Model of sureal/dataset_reader.py:15-342 and 528-615: datasets, validation,
    the opinion score array and the conversions that keep ratings. *)
From Coq Require Import String.
From Coq Require Import List ZArith Bool Arith.
Local Open Scope string_scope.
From Verif Require Import PyBase Num NumPy.
Import ListNotations.
Local Open Scope list_scope.

(** A vote as it can appear in a dataset file: a number, a list or tuple of
    votes (repetitions), or a numpy vector (written by
    sureal/dataset_reader.py:644-645). *)
Inductive pyv (T : Type) :=
| PNum (x : T)
| PSeq (is_list : bool) (l : list (pyv T))   (* true: list, false: tuple *)
| PArr (l : list T).
Arguments PNum {T} x.
Arguments PSeq {T} is_list l.
Arguments PArr {T} l.

(** dis_video['os'] (sureal/dataset_reader.py:130-132): list, tuple, dict or
    something else.  [K] is the key type: subject name for ratings,
    (subject, asset_id) for paired comparisons. *)
Inductive osval (T K : Type) :=
| OSeq (is_list : bool) (l : list (pyv T))
| ODict (d : list (K * pyv T))
| OOther.
Arguments OSeq {T K} is_list l.
Arguments ODict {T K} d.
Arguments OOther {T K}.

(** Reference video: keys content_id and path, other keys kept by their repr. *)
Record rvideo := RVideo { rv_cid : Z; rv_path : string; rv_extra : list (string * string) }.

(** A groundtruth entry (sureal/dataset_reader.py:251-257). *)
Inductive gtval (T : Type) := GNum (x : T) | GList (l : list T).
Arguments GNum {T} x.
Arguments GList {T} l.

(** Distorted video; keys used by the code are fields, other keys are kept by
    their repr. *)
Record dvideo (T K : Type) := DVideo {
  dv_cid : Z; dv_aid : Z; dv_path : string;
  dv_os : option (osval T K);
  dv_gt : option (gtval T); dv_gtstd : option T;
  dv_extra : list (string * string) }.
Arguments DVideo {T K}.
Arguments dv_cid {T K}. Arguments dv_aid {T K}. Arguments dv_path {T K}.
Arguments dv_os {T K}. Arguments dv_gt {T K}. Arguments dv_gtstd {T K}.
Arguments dv_extra {T K}.

(** Dataset module/object: ref_videos, dis_videos, dataset_name, ref_score
    (absent, None or a number) and all other attributes by their repr. *)
Record dataset (T K : Type) := Dataset {
  ds_refs : list rvideo;
  ds_dis : list (dvideo T K);
  ds_name : option string;
  ds_ref_score : option (option T);
  ds_attrs : list (string * string) }.
Arguments Dataset {T K}.
Arguments ds_refs {T K}. Arguments ds_dis {T K}. Arguments ds_name {T K}.
Arguments ds_ref_score {T K}. Arguments ds_attrs {T K}.

(** sureal/dataset_reader.py:24-30, np.max(cids): ValueError when empty. *)
Definition zmax_list (l : list Z) : res Z :=
  match l with [] => Err ValueError | x :: l' => Ok (fold_left Z.max l' x) end.

Section Reader.
  Context {T : Type} {N : Num T} {K : Type}.

  (** sureal/dataset_reader.py:21-36 DatasetReader._assert_dataset.  [dvs] is
      the dis_videos property (overridden by the video-selecting reader). *)
  Definition assert_dataset_base (refs : list rvideo) (dvs : list (dvideo T K)) : res unit :=
    let cids := map rv_cid refs in
    do m <- zmax_list cids;
    do _ <- forM_ (fun cid => assert_ ((0 <=? cid)%Z && (cid <? m + 1)%Z)) cids;
    forM_ (fun dv => assert_ (memb Z.eqb (dv_cid dv) cids)) dvs.

  (** isinstance(os, (list, tuple)). *)
  Definition os_is_seq (o : osval T K) : bool := match o with OSeq _ _ => true | _ => false end.
  (** isinstance(os, dict). *)
  Definition os_is_dict (o : osval T K) : bool := match o with ODict _ => true | _ => false end.
  (** len(os). *)
  Definition os_len (o : osval T K) : res nat :=
    match o with
    | OSeq _ l => Ok (length l) | ODict d => Ok (length d) | OOther => Err TypeError
    end.

  (** dis_video['os']. *)
  Definition get_os (dv : dvideo T K) : res (osval T K) :=
    match dv_os dv with Some o => Ok o | None => Err KeyError end.

  (** self.dis_videos[0]['os']. *)
  Definition first_os (dvs : list (dvideo T K)) : res (osval T K) :=
    do dv <- py_index dvs 0; get_os dv.

  (** sureal/dataset_reader.py:121-143 RawDatasetReader._assert_dataset. *)
  Definition assert_dataset_raw (refs : list rvideo) (dvs : list (dvideo T K)) : res unit :=
    do _ <- assert_dataset_base refs dvs;
    do _ <- forM_ (fun dv => match dv_os dv with
                             | None => Err AssertionError
                             | Some o => assert_ (os_is_seq o || os_is_dict o)
                             end) dvs;
    do o0 <- first_os dvs;
    if os_is_seq o0 then
      do n <- os_len o0;
      forM_ (fun dv => do o <- get_os dv; do m <- os_len o; assert_ (Nat.eqb n m)) (tl dvs)
    else Ok tt.

  (** sureal/dataset_reader.py:62-64 content_id_of_dis_videos. *)
  Definition content_id_of_dis_videos (dvs : list (dvideo T K)) : list Z := map dv_cid dvs.

  (** sureal/dataset_reader.py:66-71 _contentid_to_refvideo_map: later entries
      replace earlier ones. *)
  Definition contentid_to_refvideo_map (refs : list rvideo) : list (Z * rvideo) :=
    fold_left (fun d r => dset Z.eqb d (rv_cid r) r) refs [].

  (** sureal/dataset_reader.py:73-79 disvideo_is_refvideo. *)
  Definition disvideo_is_refvideo (refs : list rvideo) (dvs : list (dvideo T K)) : res (list bool) :=
    let d := contentid_to_refvideo_map refs in
    mapM (fun dv => do r <- dget_res Z.eqb d (dv_cid dv);
                    Ok (String.eqb (rv_path r) (dv_path dv))) dvs.
End Reader.

(** Ratings: keys are subject names. *)
Section Raw.
  Context {T : Type} {N : Num T}.
  Notation dv_t := (dvideo T string).
  Notation ds_t := (dataset T string).

  (** The dict stored in os; assertion error otherwise
      (sureal/dataset_reader.py:163-164). *)
  Definition os_dict (dv : dv_t) : res (list (string * pyv T)) :=
    do o <- get_os dv;
    match o with ODict d => Ok d | _ => Err AssertionError end.

  (** sureal/dataset_reader.py:161-170 _get_list_observers. *)
  Definition get_list_observers (dvs : list dv_t) : res (list string) :=
    do ds <- mapM os_dict dvs;
    Ok (get_unique_sorted_list String.eqb str_leb (flat_map dkeys ds)).

  (** sureal/dataset_reader.py:145-155 _get_num_observers. *)
  Definition get_num_observers (dvs : list dv_t) : res nat :=
    do o0 <- first_os dvs;
    match o0 with
    | OSeq _ l => Ok (length l)
    | ODict _ => do obs <- get_list_observers dvs; Ok (length obs)
    | OOther => Err AssertionError
    end.

  (** dis_video['os'][i] with an integer index: a dict keyed by names raises
      KeyError. *)
  Definition os_index (dv : dv_t) (i : nat) : res (pyv T) :=
    do o <- get_os dv;
    match o with
    | OSeq _ l => py_index l i
    | ODict _ => Err KeyError
    | OOther => Err TypeError
    end.

  (** isinstance(scores, list) or isinstance(scores, tuple): number of
      repetitions (sureal/dataset_reader.py:184, 218-221). *)
  Definition reps_of (v : pyv T) : nat :=
    match v with PSeq _ l => length l | _ => 1 end.

  (** len(scores) > max_reps update (sureal/dataset_reader.py:184-186). *)
  Definition bump_reps (m : nat) (v : pyv T) : nat :=
    match v with
    | PSeq _ l => if Nat.ltb m (length l) then length l else m
    | _ => m
    end.

  (** sureal/dataset_reader.py:172-200 _get_max_repetitions; [nobs] is the
      num_observers property, which subclasses override. *)
  Definition get_max_repetitions (dvs : list dv_t) (nobs : res nat) : res nat :=
    do o0 <- first_os dvs;
    match o0 with
    | OSeq _ _ =>
        foldM (fun m dv =>
                 do n <- nobs;
                 foldM (fun m i => do v <- os_index dv i; Ok (bump_reps m v)) (seq 0 n) m)
              dvs 1
    | ODict _ =>
        foldM (fun m dv =>
                 do o <- get_os dv;
                 match o with
                 | ODict d => Ok (fold_left bump_reps (dvals d) m)
                 | _ => Err AttributeError
                 end) dvs 1
    | OOther => Err AssertionError
    end.

  (** Numbers in a list; a nested list is not a number. *)
  Fixpoint nums (l : list (pyv T)) : option (list T) :=
    match l with
    | [] => Some []
    | PNum x :: l' => match nums l' with Some r => Some (x :: r) | None => None end
    | _ :: _ => None
    end.

  (** score_mtx[i, s, :reps] = v on a row of R NaNs
      (sureal/dataset_reader.py:218-222, 228-232).  numpy raises ValueError when
      the value does not fit the slice.  Simplified: a nested sequence is
      always rejected. *)
  Definition assign_reps (R : nat) (v : pyv T) : res (list T) :=
    match v with
    | PNum x => match R with O => Ok [] | S r => Ok (x :: repeat nnan r) end
    | PSeq _ l =>
        match nums l with
        | None => Err ValueError
        | Some xs => if Nat.leb (length xs) R then Ok (xs ++ repeat nnan (R - length xs))
                     else Err ValueError
        end
    | PArr l =>
        match l, R with
        | [x], S r => Ok (x :: repeat nnan r)
        | _, _ => Err ValueError
        end
    end.

  (** sureal/dataset_reader.py:206-235 opinion_score_3darray.  Each (i, s) is
      assigned at most once, so the loop over cells is written as a map.
      [nobs] is the num_observers property used by the list-style loop; the
      array itself is allocated with _get_num_observers. *)
  Definition opinion_rows (dvs : list dv_t) (nobs : res nat)
    : res (nat * nat * list (list (list T))) :=
    do W <- get_num_observers dvs;
    do R <- get_max_repetitions dvs nobs;
    do o0 <- first_os dvs;
    match o0 with
    | OSeq _ _ =>
        do rows <- mapM (fun dv =>
                do n <- nobs;
                do cells <- mapM (fun s => do v <- os_index dv s; assign_reps R v) (seq 0 n);
                Ok (cells ++ repeat (repeat nnan R) (W - n))) dvs;
        Ok (W, R, rows)
    | ODict _ =>
        do obs <- get_list_observers dvs;
        do rows <- mapM (fun dv =>
                do d <- os_dict dv;
                mapM (fun name => match dget String.eqb d name with
                                  | Some v => assign_reps R v
                                  | None => Ok (repeat nnan R)
                                  end) obs) dvs;
        Ok (W, R, rows)
    | OOther => Err AssertionError
    end.

  (** View nested lists as an array (NaN never read outside the shape). *)
  Definition arr3_of_rows (E W R : nat) (rows : list (list (list T))) : arr3 T :=
    Arr3 E W R (fun e s r => nth r (nth s (nth e rows []) []) nnan).

  (** The array with num_observers as given by [nobs]. *)
  Definition opinion_score_3darray_with (dvs : list dv_t) (nobs : res nat) : res (arr3 T) :=
    do wr <- opinion_rows dvs nobs;
    let '(W, R, rows) := wr in
    Ok (arr3_of_rows (length dvs) W R rows).

  (** RawDatasetReader(dataset).opinion_score_3darray: construction
      (sureal/dataset_reader.py:17-19) then the property. *)
  Definition raw_reader_3darray (ds : ds_t) : res (arr3 T) :=
    do _ <- assert_dataset_raw (ds_refs ds) (ds_dis ds);
    opinion_score_3darray_with (ds_dis ds) (get_num_observers (ds_dis ds)).

  (** key.startswith('__') (sureal/dataset_reader.py:96, 280). *)
  Definition dunder (k : string) : bool := String.prefix "__" k.

  (** Optional keyword arguments of the conversions. *)
  Record convkw := ConvKw {
    kw_quality_width : option string; kw_quality_height : option string;
    kw_resampling_type : option string;
    kw_scores_std : option (list T);
    kw_content_ids : option (list Z); kw_asset_ids : option (list Z) }.
  Definition no_kw : convkw := ConvKw None None None None None None.

  (** setattr if the argument is given. *)
  Definition set_opt (a : list (string * string)) (k : string) (v : option string) :=
    match v with Some x => dset String.eqb a k x | None => a end.

  (** sureal/dataset_reader.py:276-294 _prepare_new_dataset: copies every
      attribute that is not dunder; the [elif] branches set an attribute that
      was already copied.  ref_videos and dis_videos are copied too and then
      replaced by the callers. *)
  Definition prepare_new_dataset (ds : ds_t) (kw : convkw) (refs : list rvideo) {K'}
             (dvs : list (dvideo T K')) : dataset T K' :=
    let a := filter (fun kv => negb (dunder (fst kv))) (ds_attrs ds) in
    let a := set_opt a "quality_width" (kw_quality_width kw) in
    let a := set_opt a "quality_height" (kw_quality_height kw) in
    let a := set_opt a "resampling_type" (kw_resampling_type kw) in
    Dataset refs dvs (ds_name ds) (ds_ref_score ds) a.

  (** A score passed to the aggregation: a scalar or a numpy vector. *)
  Inductive score := SNum (x : T) | SArr (l : list T).

  (** sureal/dataset_reader.py:251-257: groundtruth from a score. *)
  Definition gt_of_score (s : score) : gtval T :=
    match s with
    | SNum x => GNum x
    | SArr [x] => GNum x
    | SArr l => GList l
    end.

  (** sureal/dataset_reader.py:248-258: copy without os, with groundtruth. *)
  Definition with_gt (dv : dv_t) (g : gtval T) : dv_t :=
    DVideo (dv_cid dv) (dv_aid dv) (dv_path dv) None (Some g) (dv_gtstd dv) (dv_extra dv).
  Definition with_gtstd (dv : dv_t) (x : T) : dv_t :=
    DVideo (dv_cid dv) (dv_aid dv) (dv_path dv) (dv_os dv) (dv_gt dv) (Some x) (dv_extra dv).

  (** sureal/dataset_reader.py:237-274 to_aggregated_dataset; [dvs] is the
      reader's dis_videos property. *)
  Definition to_aggregated_dataset (ds : ds_t) (dvs : list dv_t) (scores : list score)
             (kw : convkw) : res ds_t :=
    do _ <- assert_ (Nat.eqb (length dvs) (length scores));
    let dvs1 := map (fun p => with_gt (fst p) (gt_of_score (snd p))) (combine dvs scores) in
    do dvs2 <- match kw_scores_std kw with
               | None => Ok dvs1
               | Some st =>
                   do _ <- assert_ (Nat.eqb (length dvs1) (length st));
                   Ok (map (fun p => with_gtstd (fst p) (snd p)) (combine dvs1 st))
               end;
    let dvs3 := match kw_content_ids kw with
                | None => dvs2
                | Some ids => filter (fun dv => memb Z.eqb (dv_cid dv) ids) dvs2 end in
    let dvs4 := match kw_asset_ids kw with
                | None => dvs3
                | Some ids => filter (fun dv => memb Z.eqb (dv_aid dv) ids) dvs3 end in
    Ok (prepare_new_dataset ds kw (ds_refs ds) dvs4).

  (** A per-video row of processed per-subject scores: a vector of numbers
      (no repetitions) or of vectors (3-d quality scores). *)
  Definition score_isnan (s : score) : res bool :=
    match s with
    | SNum x => Ok (nisnan x)
    | SArr [x] => Ok (nisnan x)      (* math.isnan accepts a size-1 array *)
    | SArr _ => Err TypeError
    end.

  (** filter(lambda x: not math.isnan(x), quality_score). *)
  Fixpoint filter_notnan (l : list score) : res (list score) :=
    match l with
    | [] => Ok []
    | s :: l' =>
        do b <- score_isnan s;
        do r <- filter_notnan l';
        Ok (if b then r else s :: r)
    end.

  (** sureal/dataset_reader.py:311-335: one video's block. *)
  Definition persubject_block (dv : dv_t) (qs : list score) : res (list dv_t) :=
    do o <- match dv_os dv with Some o => Ok o | None => Err AssertionError end;
    do qs' <- (if os_is_dict o then filter_notnan qs else Ok qs);
    do n <- os_len o;
    do _ <- assert_ (Nat.eqb n (length qs'));
    Ok (map (fun s => with_gt dv (gt_of_score s)) qs').

  (** sureal/dataset_reader.py:300-338 to_persubject_dataset (zip truncates to
      the shorter of the two lists). *)
  Definition to_persubject_dataset (ds : ds_t) (dvs : list dv_t) (qss : list (list score))
             (kw : convkw) : res ds_t :=
    do blocks <- mapM (fun p => persubject_block (fst p) (snd p)) (combine dvs qss);
    Ok (prepare_new_dataset ds kw (ds_refs ds) (concat blocks)).

  (** dis_video with its os replaced. *)
  Definition with_os {K K'} (dv : dvideo T K) (o : osval T K') : dvideo T K' :=
    DVideo (dv_cid dv) (dv_aid dv) (dv_path dv) (Some o) (dv_gt dv) (dv_gtstd dv) (dv_extra dv).

  (** enumerate(l). *)
  Definition enumerate {A} (l : list A) : list (nat * A) := combine (seq 0 (length l)) l.

  (** dict built by successive assignments. *)
  Definition dict_of {V} (l : list (string * V)) : list (string * V) :=
    fold_left (fun d kv => dset String.eqb d (fst kv) (snd kv)) l [].

  (** sureal/dataset_reader.py:587-611 to_dictionary_style_dataset.  Iterating a
      dict-style os (later video) yields its keys, i.e. strings; that is not a
      vote and is reported as a TypeError here (simplified). *)
  Definition to_dictionary_style_dataset (ds : ds_t) (dvs : list dv_t) (kw : convkw) : res ds_t :=
    do o0 <- first_os dvs;
    if os_is_dict o0 then
      do _ <- forM_ (fun dv => do o <- get_os dv; assert_ (os_is_dict o)) dvs;
      Ok ds
    else
      do dvs' <- mapM (fun dv =>
          do o <- get_os dv;
          match o with
          | OSeq _ l =>
              do name <- match ds_name ds with
                         | Some n => Ok n
                         | None => match l with [] => Ok EmptyString | _ => Err AttributeError end
                         end;
              Ok (with_os dv (ODict (dict_of
                  (map (fun iv => (name ++ "_subject" ++ str_of_nat (fst iv), snd iv)%string)
                       (enumerate l)))))
          | _ => Err TypeError
          end) dvs;
      Ok (prepare_new_dataset ds kw (ds_refs ds) dvs').
End Raw.
Arguments convkw : clear implicits.
Arguments score : clear implicits.
