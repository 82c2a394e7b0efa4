(** Model of sureal/dataset_reader.py:618-992, the readers that simulate or
    select data, and of write_out_dataset (88-115) with import_python_file
    (sureal/tools/misc.py:109-122).  Random draws are arguments. *)
From Coq Require Import String.
From Coq Require Import List ZArith Bool Arith.
Local Open Scope string_scope.
From Verif Require Import PyBase Num NumPy Dataset.
Import ListNotations.
Local Open Scope list_scope.

Section Mocked.
  Context {T : Type} {N : Num T}.
  Notation dv_t := (dvideo T string).
  Notation ds_t := (dataset T string).
  Local Open Scope num_scope.

  (** RawDatasetReader.opinion_score_3darray as inherited by the readers below
      that do not override num_observers (sureal/dataset_reader.py:206-235). *)
  Definition plain_3darray (dvs : list dv_t) : res (arr3 T) :=
    opinion_score_3darray_with dvs (get_num_observers dvs).

  (** sureal/dataset_reader.py:628-647 MockedRawDatasetReader.to_dataset.
      [list(scores)] of an (S, R) array is a list of S vectors of length R. *)
  Definition mocked_to_dataset (ds : ds_t) (dvs : list dv_t) (arr : res (arr3 T)) : res ds_t :=
    do a <- arr;
    do _ <- assert_ (Nat.eqb (dE a) (length dvs));
    let dvs' := map (fun p =>
        with_os (snd p) (OSeq true
          (map (fun s => PArr (map (fun r => at3 a (fst p) s r) (seq 0 (dR a))))
               (seq 0 (dS a))))) (enumerate dvs) in
    Ok (Dataset (ds_refs ds) dvs' (ds_name ds) (ds_ref_score ds) (ds_attrs ds)).

  (** sureal/dataset_reader.py:764-782 MissingDataRawDatasetReader: the
      constructor's checks, then the array.  [u e s r] is the uniform draw for
      that entry; the two masked assignments are made one after the other. *)
  Definition missing_mask (p u : T) : T :=
    let m := if ngtb u p then none_ else u in
    if m <=? p then nnan else m.
  Definition missing_3darray (ds : ds_t) (p : option T) (u : nat -> nat -> nat -> T) : res (arr3 T) :=
    do _ <- assert_dataset_raw (ds_refs ds) (ds_dis ds);
    match p with
    | None => Err AssertionError
    | Some p =>
        do a <- plain_3darray (ds_dis ds);
        Ok (map3 (fun e s r x => x * missing_mask p (u e s r)) a)
    end.

  (** [subject in range(n)] (sureal/dataset_reader.py:798, 830, 871). *)
  Definition in_range (n : nat) (z : Z) : bool := ((0 <=? z)%Z && (z <? Z.of_nat n)%Z)%bool.

  (** score_mtx[:, l, :] for a list of indices (numpy: IndexError out of
      bounds, negative indices count from the end). *)
  Definition take_columns (a : arr3 T) (l : list Z) : res (arr3 T) :=
    do idx <- mapM (fun z => match py_norm_index (dS a) z with
                             | Some i => Ok i | None => Err IndexError end) l;
    Ok (Arr3 (dE a) (length idx) (dR a) (fun e s r => at3 a e (nth s idx 0) r)).

  (** sureal/dataset_reader.py:785-814 SelectSubjectRawDatasetReader; the
      overridden num_observers is the number of selected subjects. *)
  Definition select_subject_3darray (ds : ds_t) (sel : option (list Z)) : res (arr3 T) :=
    do _ <- assert_dataset_raw (ds_refs ds) (ds_dis ds);
    match sel with
    | None => Err AssertionError
    | Some sel =>
        do n <- get_num_observers (ds_dis ds);
        do _ <- forM_ (fun z => assert_ (in_range n z)) sel;
        do a <- opinion_score_3darray_with (ds_dis ds) (Ok (length sel));
        take_columns a sel
    end.

  (** sureal/dataset_reader.py:828-834: the dict built from asset ids, looked
      up with the selected entries. *)
  Definition select_dis_videos (dvs : list dv_t) (sel : list Z) : res (list dv_t) :=
    let d := fold_left (fun d dv => dset Z.eqb d (dv_aid dv) dv) dvs [] in
    mapM (dget_res Z.eqb d) sel.

  (** sureal/dataset_reader.py:817-834 SelectDisVideoRawDatasetReader:
      construction (dataset checks first, on the selected videos; then the
      selection check) and the array; returns the dis_videos property too. *)
  Definition select_dis_video_reader (ds : ds_t) (sel : option (list Z)) : res (list dv_t * res (arr3 T)) :=
    match sel with
    | None => Err KeyError
    | Some sel =>
        do dvs <- select_dis_videos (ds_dis ds) sel;
        do _ <- assert_dataset_raw (ds_refs ds) dvs;
        do _ <- forM_ (fun z => assert_ (in_range (length (ds_dis ds)) z)) sel;
        Ok (dvs, plain_3darray dvs)
    end.

  (** np.nanmin / np.nanmax of an array: ValueError when it has no entries,
      NaN when all are missing (sureal/dataset_reader.py:902-903). *)
  Definition np_nanext (pick : T -> T -> T) (l : list T) : res T :=
    match l with
    | [] => Err ValueError
    | _ => match notnan l with [] => Ok nnan | x :: l' => Ok (fold_left pick l' x) end
    end.
  Definition np_nanmin : list T -> res T := np_nanext (fun x y => if y <? x then y else x).
  Definition np_nanmax : list T -> res T := np_nanext (fun x y => if x <? y then y else x).

  (** 'corrupt_behavior' (sureal/dataset_reader.py:857, 965-969). *)
  Inductive behavior := Shuffle | Flip | BMin | BMid | BMax | Constant | OtherBehavior.

  (** Draws of one run: for the k-th selected subject, the uniform draw per
      video, the permutation of n rows (row i becomes row [cperm k n i]) and the
      uniform [0,1) draw behind np.random.uniform(min, max). *)
  Record corrupt_rng := CorruptRng {
    cu : nat -> nat -> T; cperm : nat -> nat -> nat -> nat; cconst : nat -> T }.

  (** Position of an element in a list. *)
  Fixpoint index_of (x : nat) (l : list nat) : nat :=
    match l with [] => 0 | y :: l' => if Nat.eqb x y then 0 else S (index_of x l') end.

  (** sureal/dataset_reader.py:893, 907, ...: the videos of the k-th selected
      subject that are changed; all of them without a probability. *)
  Definition corrupt_videos (E : nat) (prob : option T) (g : corrupt_rng) (k : nat) : list nat :=
    match prob with
    | None => seq 0 E
    | Some p => filter (fun e => cu g k e <? p) (seq 0 E)
    end.

  (** score_mtx[:, subject, :] = new column. *)
  Definition set_column (a : arr3 T) (subj : nat) (c : nat -> nat -> T) : arr3 T :=
    Arr3 (dE a) (dS a) (dR a) (fun e s r => if Nat.eqb s subj then c e r else at3 a e s r).

  (** The new column of one subject, given the old one and which videos change
      (sureal/dataset_reader.py:894-896, 908-910, 921-923, 936-938, 949-951,
      965-967). *)
  Definition rows_set (videos : list nat) (c new : nat -> nat -> T) : nat -> nat -> T :=
    fun e r => if existsb (Nat.eqb e) videos then new e r else c e r.
  Definition rows_permuted (videos : list nat) (p : nat -> nat) (c : nat -> nat -> T) : nat -> nat -> T :=
    rows_set videos c (fun e r => c (nth (p (index_of e videos)) videos 0) r).

  (** The loop over selected subjects (e.g. sureal/dataset_reader.py:889-896). *)
  Definition corrupt_loop (f : nat -> (nat -> nat -> T) -> nat -> nat -> T) (sel : list nat) (a : arr3 T) : arr3 T :=
    fold_left (fun a p => set_column a (snd p) (f (fst p) (fun e r => at3 a e (snd p) r)))
              (enumerate sel) a.

  (** sureal/dataset_reader.py:874-956 opinion_score_3darray, after the
      underlying array. *)
  Definition corrupt_array (b : behavior) (prob : option T) (sel : list nat) (g : corrupt_rng)
             (a : arr3 T) : res (arr3 T) :=
    let vs := corrupt_videos (dE a) prob g in
    match b with
    | Shuffle =>
        Ok (corrupt_loop (fun k c => rows_permuted (vs k) (cperm g k (length (vs k))) c) sel a)
    | Flip =>
        do lo <- np_nanmin (flat3 a); do hi <- np_nanmax (flat3 a);
        Ok (corrupt_loop (fun k c => rows_set (vs k) c (fun e r => hi + lo - c e r)) sel a)
    | BMin =>
        do lo <- np_nanmin (flat3 a);
        Ok (corrupt_loop (fun k c => rows_set (vs k) c (fun _ _ => lo)) sel a)
    | BMid =>
        do lo <- np_nanmin (flat3 a); do hi <- np_nanmax (flat3 a);
        let mid := (lo + hi) / nofZ 2 in
        Ok (corrupt_loop (fun k c => rows_set (vs k) c (fun _ _ => mid)) sel a)
    | BMax =>
        do hi <- np_nanmax (flat3 a);
        Ok (corrupt_loop (fun k c => rows_set (vs k) c (fun _ _ => hi)) sel a)
    | Constant =>
        do lo <- np_nanmin (flat3 a); do hi <- np_nanmax (flat3 a);
        Ok (corrupt_loop (fun k c => rows_set (vs k) c (fun _ _ => lo + (hi - lo) * cconst g k)) sel a)
    | OtherBehavior => Err AssertionError
    end.

  (** sureal/dataset_reader.py:840-873, 958-969 CorruptSubjectRawDatasetReader:
      construction checks, then the array.  A behaviour of None is 'shuffle'. *)
  Definition corrupt_subject_3darray (ds : ds_t) (sel : option (list Z)) (b : option behavior)
             (prob : option T) (g : corrupt_rng) : res (arr3 T) :=
    do _ <- assert_dataset_raw (ds_refs ds) (ds_dis ds);
    match sel with
    | None => Err AssertionError
    | Some sel =>
        do _ <- assert_ (Nat.eqb (length (undup Z.eqb sel)) (length sel));
        do n <- get_num_observers (ds_dis ds);
        do _ <- forM_ (fun z => assert_ (in_range n z)) sel;
        let b := match b with Some b => b | None => Shuffle end in
        do _ <- assert_ (match b with OtherBehavior => false | _ => true end);
        do a <- plain_3darray (ds_dis ds);
        corrupt_array b prob (map Z.to_nat sel) g a
    end.

  (** sureal/dataset_reader.py:972-992 CorruptDataRawDatasetReader: [u] the mask
      draws, [w] the draws behind np.random.uniform(1, ref_score). *)
  Definition corrupt_data_3darray (ds : ds_t) (p : option T) (u w : nat -> nat -> nat -> T) : res (arr3 T) :=
    do _ <- assert_dataset_raw (ds_refs ds) (ds_dis ds);
    match p with
    | None => Err AssertionError
    | Some p =>
        do a <- plain_3darray (ds_dis ds);
        match ds_ref_score ds with
        | None => Err AttributeError
        | Some None => Err TypeError
        | Some (Some rs) =>
            Ok (map3 (fun e s r x => if nisnan (missing_mask p (u e s r))
                                     then none_ + (rs - none_) * w e s r else x) a)
        end
    end.

  (** input_dict of the synthetic readers (sureal/dataset_reader.py:663-680);
      numpy vectors, a missing key is None. *)
  Record synth_in := SynthIn {
    si_quality : option (list T); si_obias : option (list T); si_oinc : option (list T);
    si_cbias : option (list T); si_camb : option (list T); si_qamb : option (list T) }.

  Definition get_key {A} (o : option A) : res A :=
    match o with Some x => Ok x | None => Err AssertionError end.

  (** sureal/dataset_reader.py:656-680: construction checks. *)
  Definition synth_assert (ds : ds_t) (i : synth_in) : res unit :=
    do _ <- assert_dataset_raw (ds_refs ds) (ds_dis ds);
    do q <- get_key (si_quality i); do ob <- get_key (si_obias i); do oi <- get_key (si_oinc i);
    do cb <- get_key (si_cbias i); do ca <- get_key (si_camb i);
    do _ <- assert_ (Nat.eqb (length oi) (length ob));
    do _ <- assert_ (Nat.eqb (length ca) (length cb));
    do _ <- assert_ (Nat.eqb (length q) (length (ds_dis ds)));
    assert_ (Nat.eqb (length cb) (length (ds_refs ds))).

  (** mu_c[i] for the content id of each distorted video
      (sureal/dataset_reader.py:710-713). *)
  Definition per_content (c : list T) (dvs : list dv_t) : res (list T) :=
    mapM (fun dv => match py_norm_index (length c) (dv_cid dv) with
                    | Some i => Ok (vat c i) | None => Err IndexError end) dvs.

  (** sureal/dataset_reader.py:682-725 SyntheticRawDatasetReader; [g1 g2 g3] are
      the standard normal draws of the three np.random.normal calls.  [oscale]
      and [cscale] scale the inconsistency and ambiguity: identity here,
      division by pi/sqrt(3) for the logistic reader (728-761), which also
      refuses quality_ambiguity. *)
  Definition synth_array (scale : T -> T) (refuse_qamb : bool) (ds : ds_t) (i : synth_in)
             (g1 g2 g3 : nat -> nat -> T) : res (arr3 T) :=
    do _ <- synth_assert ds i;
    do q <- get_key (si_quality i); do ob <- get_key (si_obias i); do oi <- get_key (si_oinc i);
    do cb <- get_key (si_cbias i); do ca <- get_key (si_camb i);
    do mu <- per_content cb (ds_dis ds);
    do delta <- per_content ca (ds_dis ds);
    let z := fun e s => vat q e + (vat ob s + g1 e s * scale (vat oi s))
                        + (vat mu e + g2 e s * scale (vat delta e)) in
    do z' <- match si_qamb i with
             | None => Ok z
             | Some phi =>
                 do _ <- assert_ (negb refuse_qamb);
                 do _ <- assert_ (Nat.eqb (length phi) (length (ds_dis ds)));
                 Ok (fun e s => z e s + g3 e s * vat phi e)
             end;
    Ok (Arr3 (length (ds_dis ds)) (length ob) 1 (fun e s _ => z' e s)).
  Definition synthetic_3darray := synth_array (fun x => x) false.
  Definition synthetic_logistic_3darray := synth_array (fun x => x / (npi / nsqrt (nofZ 3))) true.
End Mocked.
Arguments corrupt_rng : clear implicits.
Arguments synth_in : clear implicits.

(** ** Writing a dataset to a file and importing it
    A dataset object is its __dict__; values are abstract, [repr] and [pformat]
    give their texts and [eval] the value of a text (None: not an expression).
    Simplified: the file is kept as its list of assignment statements, in order;
    Python executes them one after the other into the module's __dict__. *)
Section WriteOut.
  Context {V : Type} (repr pformat : V -> string) (eval : string -> option V).
  Notation attrs := (list (string * V)).

  (** sureal/dataset_reader.py:94-115. *)
  Definition write_out_dataset (d : attrs) : res (list (string * string)) :=
    do _ <- assert_ (dmem String.eqb d "ref_videos");
    do _ <- assert_ (dmem String.eqb d "dis_videos");
    let plain := filter (fun kv => negb (String.eqb (fst kv) "ref_videos") &&
                                   negb (String.eqb (fst kv) "dis_videos") &&
                                   negb (String.eqb (fst kv) "subjects") &&
                                   negb (dunder (fst kv)))%bool d in
    do r <- dget_res String.eqb d "ref_videos";
    do v <- dget_res String.eqb d "dis_videos";
    let opt k := match dget String.eqb d k with Some x => [(k, pformat x)] | None => [] end in
    Ok (map (fun kv => (fst kv, repr (snd kv))) plain
        ++ [("ref_videos", pformat r); ("dis_videos", pformat v)]
        ++ opt "subjects" ++ opt "license").

  (** sureal/tools/misc.py:109-122: the public part of the module's __dict__. *)
  Definition import_file (stmts : list (string * string)) : option attrs :=
    fold_left (fun acc st =>
      match acc, eval (snd st) with
      | Some d, Some v => Some (dset String.eqb d (fst st) v)
      | _, _ => None
      end) stmts (Some []).
End WriteOut.
