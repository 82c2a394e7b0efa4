(** Converting a wide table of ratings: resource/util/mos_to_sureal.py. *)
From Coq Require Import Ascii String.
From Coq Require Import List ZArith QArith Bool Arith.
From Verif Require Import PyBase Num Dataset Names Commands.
Import ListNotations.
Local Open Scope string_scope.
Local Open Scope list_scope.

(** A cell as pandas reads it: an integer, a float, a missing value, or text.
    Infinite floats are left out. *)
Inductive cell := CInt (z : Z) | CFloat (q : Q) | CNan | CText (s : string).
(** pd.read_csv: distinct column names and rows of as many cells. *)
Record frame := Frame { fr_columns : list string; fr_rows : list (list cell) }.
(** to_dict(orient="records") *)
Definition records (fr : frame) : list (list (string * cell)) := map (combine (fr_columns fr)) (fr_rows fr).

(** How a step ends: with a value, by sys.exit, or with an exception. *)
Inductive outcome (A : Type) := Done (a : A) | Exits (code : Z) | Raises (e : exn).
Arguments Done {A} a. Arguments Exits {A} code. Arguments Raises {A} e.
Definition then_ {A B} (m : outcome A) (k : A -> outcome B) : outcome B :=
  match m with Done a => k a | Exits c => Exits c | Raises e => Raises e end.
Fixpoint each {A B} (f : A -> outcome B) (l : list A) : outcome (list B) :=
  match l with [] => Done [] | a :: l' => then_ (f a) (fun b => then_ (each f l') (fun bs => Done (b :: bs))) end.
(** mos_to_sureal.py:40-42 log_error: a message to stderr and sys.exit(1) *)
Definition log_error {A} : outcome A := Exits 1.

(** str.strip() on ASCII text *)
Definition space (a : ascii) : bool :=
  let n := nat_of_ascii a in (Nat.leb 9 n && Nat.leb n 13) || (Nat.leb 28 n && Nat.leb n 32).
Fixpoint lstrip (s : string) : string := match s with String a r => if space a then lstrip r else s | _ => s end.
Fixpoint rstrip (s : string) : string :=
  match s with
  | EmptyString => EmptyString
  | String a r => match rstrip r with EmptyString => if space a then EmptyString else String a EmptyString | r' => String a r' end
  end.
Definition strip (s : string) : string := rstrip (lstrip s).
(** str.lower() on ASCII text *)
Definition lower_char (a : ascii) : ascii :=
  let n := nat_of_ascii a in if Nat.leb 65 n && Nat.leb n 90 then ascii_of_nat (n + 32) else a.
Fixpoint lower (s : string) : string := match s with EmptyString => EmptyString | String a r => String (lower_char a) (lower r) end.
(** re.search(r"\d+", s).group(0) and int() of it, on ASCII text; no match is
    None, which has no group. *)
Definition digit (a : ascii) : option Z :=
  let n := nat_of_ascii a in if Nat.leb 48 n && Nat.leb n 57 then Some (Z.of_nat n - 48)%Z else None.
Fixpoint digits_from (acc : Z) (s : string) : Z :=
  match s with
  | String a r => match digit a with Some d => digits_from (10 * acc + d) r | None => acc end
  | EmptyString => acc
  end.
Fixpoint first_int (s : string) : outcome Z :=
  match s with
  | EmptyString => Raises AttributeError
  | String a r => match digit a with Some d => Done (digits_from d r) | None => first_int r end
  end.
(** os.path.join(dir, file), mos_to_sureal.py:116, 144: a file that starts with a
    slash stays as it is. *)
Definition os_join (dir file : string) : string := if String.prefix "/" file then file else path_join dir file.

Section Converter.
  (** int() of text in a column of ratings, and the order in which a set built by
      adding the given strings is iterated. *)
  Variable text_int : string -> res Z.
  Variable order : list string -> list string.

  (** int(val), mos_to_sureal.py:70: towards zero; nan is refused *)
  Definition int_of (c : cell) : res Z :=
    match c with
    | CInt z => Ok z
    | CFloat q => Ok (Z.quot (Qnum q) (Zpos (Qden q)))
    | CNan => Err ValueError
    | CText s => text_int s
    end.

  (** mos_to_sureal.py:45-52 get_ids_from_pvs; only text can be stripped *)
  Definition get_ids_from_pvs (c : cell) : outcome (string * string * string * string) :=
    match c with
    | CText s =>
        let t := strip s in
        match split_on "_" t with [db; src; hrc] => Done (t, db, src, hrc) | _ => log_error end
    | _ => Raises AttributeError
    end.

  (** mos_to_sureal.py:62-69: the columns skipped and those not known *)
  Definition skipped (key : string) : bool := memb String.eqb (lower key) ["pvs_id"; "mos"; "ci"; "n"].
  Definition known (key : string) : bool := existsb (fun s => String.prefix s (lower key)) ["user"; "s"; "subject"].
  (** mos_to_sureal.py:55-72 extract_scores_from_record: the columns for which a
      line is printed, and the ratings. *)
  Fixpoint extract_scores_from_record (record : list (string * cell)) (ratings : list (string * Z)) : list string * res (list (string * Z)) :=
    match record with
    | [] => ([], Ok ratings)
    | (key, val) :: record' =>
        if skipped key then extract_scores_from_record record' ratings
        else if negb (known key) then
          let '(said, r) := extract_scores_from_record record' ratings in (key :: said, r)
        else match int_of val with
             | Err e => ([], Err e)
             | Ok z => extract_scores_from_record record' (dset String.eqb ratings key z)
             end
    end.

  (** The dictionary written as JSON; the directories in it are always empty
      (mos_to_sureal.py:94-95). *)
  Record conv_ref := ConvRef { cr_content_id : Z; cr_content_name : string; cr_path : string }.
  Record conv_dis := ConvDis { cd_content_id : Z; cd_asset_id : Z; cd_os : list (string * Z); cd_path : string }.
  Record conv_out := ConvOut {
    co_dataset_name : string; co_yuv_fmt : string; co_width : Z; co_height : Z;
    co_ref_dir : string; co_dis_dir : string; co_ref_videos : list conv_ref; co_dis_videos : list conv_dis }.
  (** What the program prints: a line for an unknown column, or the JSON text. *)
  Inductive printed := Unknown (column : string) | Json (o : conv_out).

  (** mos_to_sureal.py:126-136: the scores of the first record of the PVS *)
  Fixpoint ratings_of (pvs_id : string) (recs : list (list (string * cell))) : list string * outcome (option (list (string * Z))) :=
    match recs with
    | [] => ([], Done None)
    | record :: recs' =>
        match dget String.eqb record "PVS_ID" with
        | None => ([], Raises KeyError)
        | Some c =>
            match get_ids_from_pvs c with
            | Done (t, _, _, _) =>
                if String.eqb pvs_id t then
                  let '(said, r) := extract_scores_from_record record [] in
                  (said, match r with Ok x => Done (Some x) | Err e => Raises e end)
                else ratings_of pvs_id recs'
            | Exits c => ([], Exits c)
            | Raises e => ([], Raises e)
            end
        end
    end.

  (** mos_to_sureal.py:120-147: one distorted video *)
  Definition dis_video (dis_dir def_ext : string) (recs : list (list (string * cell))) (pvs_id : string) : list string * outcome conv_dis :=
    match get_ids_from_pvs (CText pvs_id) with
    | Exits c => ([], Exits c)
    | Raises e => ([], Raises e)
    | Done (t, _, src, hrc) =>
        let '(said, r) := ratings_of t recs in
        (said, then_ r (fun ratings =>
                 match ratings with
                 | None | Some [] => log_error
                 | Some os =>
                     then_ (first_int src) (fun cid => then_ (first_int hrc) (fun aid =>
                       Done (ConvDis cid aid os (os_join dis_dir (t ++ def_ext)%string))))
                 end))
    end.
  Fixpoint dis_videos (dis_dir def_ext : string) (recs : list (list (string * cell))) (ids : list string) : list string * outcome (list conv_dis) :=
    match ids with
    | [] => ([], Done [])
    | id :: ids' =>
        let '(said, r) := dis_video dis_dir def_ext recs id in
        match r with
        | Done d => let '(said', r') := dis_videos dis_dir def_ext recs ids' in
                    (said ++ said', then_ r' (fun ds => Done (d :: ds)))
        | Exits c => (said, Exits c)
        | Raises e => (said, Raises e)
        end
    end.
  (** mos_to_sureal.py:109-117: one reference video *)
  Definition ref_video (ref_dir def_ext src : string) : outcome conv_ref :=
    then_ (first_int src) (fun cid => Done (ConvRef cid src (os_join ref_dir (src ++ def_ext)%string))).

  (** The column PVS_ID: mos_to_sureal.py:97-98, 105-107 *)
  Definition pvs_column (fr : frame) : option (list cell) :=
    if memb String.eqb "PVS_ID" (fr_columns fr)
    then Some (map (fun r => match dget String.eqb r "PVS_ID" with Some c => c | None => CNan end) (records fr))
    else None.

  (** mos_to_sureal.py:75-150 convert_file: what is printed, and how it ends.  The
      frame is read twice with the same result; ref_score is not kept here. *)
  Definition convert_file (input_file : string) (fr : frame) (yuv_fmt : string) (width height : Z) (ref_dir dis_dir def_ext : string) : list printed * outcome unit :=
    match pvs_column fr with
    | None => ([], log_error)
    | Some cells =>
        match each get_ids_from_pvs cells with
        | Exits c => ([], Exits c)
        | Raises e => ([], Raises e)
        | Done ids =>
            let pvs_ids := order (map (fun p => fst (fst (fst p))) ids) in
            let src_ids := order (map (fun p => snd (fst p)) ids) in
            match each (ref_video ref_dir def_ext) src_ids with
            | Exits c => ([], Exits c)
            | Raises e => ([], Raises e)
            | Done refs =>
                let '(said, r) := dis_videos dis_dir def_ext (records fr) pvs_ids in
                match r with
                | Exits c => (map Unknown said, Exits c)
                | Raises e => (map Unknown said, Raises e)
                | Done ds =>
                    (map Unknown said ++
                     [Json (ConvOut (fst (splitext (last_part "/" input_file))) yuv_fmt width height "" "" refs ds)], Done tt)
                end
            end
        end
    end.

  (** The dataset read back (sureal/tools/misc.py:95-110): the votes as numbers;
      ref_score as given on the command line. *)
  Definition loaded {T} {N : Num T} (ref_score : T) (o : conv_out) : dataset T string :=
    Dataset (map (fun r => RVideo (cr_content_id r) (cr_path r) [("content_name", cr_content_name r)]) (co_ref_videos o))
            (map (fun d => DVideo (cd_content_id d) (cd_asset_id d) (cd_path d)
                             (Some (ODict (map (fun p => (fst p, PNum (nofZ (snd p)))) (cd_os d)))) None None []) (co_dis_videos o))
            (Some (co_dataset_name o)) (Some (Some ref_score))
            [("yuv_fmt", co_yuv_fmt o); ("ref_dir", co_ref_dir o); ("dis_dir", co_dis_dir o)].
End Converter.
