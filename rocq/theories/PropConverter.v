(** Claims C94 and C95: converting a table of ratings. *)
From Coq Require Import Ascii String.
From Coq Require Import List ZArith QArith Bool Arith Sorted.
From Verif Require Import PyBase Num ExtReal NumPy Dataset Names Converter SpecDataset SpecNames SpecConverter Converter2Proofs Converter3Proofs.
Import ListNotations.
Local Open Scope string_scope.
Local Open Scope list_scope.

(** C94: one distorted video per PVS, with the ratings of its first row, and one reference video per source. *)
Theorem C94_result : forall text_int order, set_order order -> forall input fr yuv w h ref_dir dis_dir ext out, frame_ok fr ->
  convert_file text_int order input fr yuv w h ref_dir dis_dir ext = (out, Done tt) ->
  exists said refs ds ids srcs,
    out = map Unknown said ++ [Json (ConvOut (get_file_name_without_extension input) yuv w h "" "" refs ds)] /\
    (forall k, In k said <-> fr_rows fr <> [] /\ In k (fr_columns fr) /\ unknown_column k) /\
    NoDup ids /\ (forall t, In t ids <-> exists row, In row (fr_rows fr) /\ pvs_row fr row t) /\
    Forall2 (fun t d => dis_entry text_int fr dis_dir ext t d /\ cd_os d <> []) ids ds /\
    NoDup srcs /\ (forall s, In s srcs <-> exists t db hrc, In t ids /\ three t db s hrc) /\
    Forall2 (ref_entry ref_dir ext) srcs refs.
Proof. exact c94_result. Qed.
Print Assumptions C94_result.
Example C94_result_ex : set_order by_first /\ frame_ok small_fr /\
  convert_file no_text by_first "data/scores.csv" small_fr "yuv420p" 0 0 "ref" "" ".yuv" = ([Json small_out], Done tt).
Proof. split; [exact by_first_ok|]. split; [exact (proj1 small_ok)|exact small_run]. Qed.
(** C94: a table with well-formed rows is converted. *)
Theorem C94_total : forall text_int order, set_order order -> forall input fr yuv w h ref_dir dis_dir ext, table_ok text_int fr ->
  exists out, convert_file text_int order input fr yuv w h ref_dir dis_dir ext = (out, Done tt).
Proof. exact c94_total. Qed.
Print Assumptions C94_total.
(** C94: the readers accept the result and give each subject's rating of each PVS, with the subjects sorted by name. *)
Theorem C94_reader : forall text_int order, set_order order -> forall T (N : Num T) (ref_score : T) input fr yuv w h ref_dir dis_dir ext, table_ok text_int fr -> fr_rows fr <> [] ->
  exists said o a ids names, convert_file text_int order input fr yuv w h ref_dir dis_dir ext = (map Unknown said ++ [Json o], Done tt) /\
    raw_reader_3darray (loaded ref_score o) = Ok a /\
    NoDup ids /\ (forall t, In t ids <-> exists row, In row (fr_rows fr) /\ pvs_row fr row t) /\ dE a = List.length ids /\
    StronglySorted str_lt names /\ (forall n, In n names <-> In n (fr_columns fr) /\ rating_column n) /\ dS a = List.length names /\ dR a = 1%nat /\
    forall e t s n, nth_error ids e = Some t -> nth_error names s = Some n ->
      exists d z, nth_error (co_dis_videos o) e = Some d /\ dis_entry text_int fr dis_dir ext t d /\ In (n, z) (cd_os d) /\ at3 a e s 0 = nofZ z.
Proof. exact c94_reader. Qed.
Print Assumptions C94_reader.
Example C94_reader_ex : table_ok no_text small_fr /\ fr_rows small_fr <> [].
Proof. split; [exact small_ok|discriminate]. Qed.
(** C94: tables that are refused. *)
Theorem C94_no_column : forall text_int order input fr yuv w h ref_dir dis_dir ext, ~ In "PVS_ID" (fr_columns fr) ->
  convert_file text_int order input fr yuv w h ref_dir dis_dir ext = ([], Exits 1).
Proof. exact c94_no_column. Qed.
Print Assumptions C94_no_column.
Theorem C94_malformed : forall text_int order input fr yuv w h ref_dir dis_dir ext, frame_ok fr -> In "PVS_ID" (fr_columns fr) ->
  (forall row, In row (fr_rows fr) -> exists s, pvs_cell fr row (CText s)) ->
  (exists row t, In row (fr_rows fr) /\ pvs_row fr row t /\ forall db src hrc, ~ three t db src hrc) ->
  convert_file text_int order input fr yuv w h ref_dir dis_dir ext = ([], Exits 1).
Proof. exact c94_malformed. Qed.
Print Assumptions C94_malformed.
Theorem C94_no_number : forall text_int order, set_order order -> forall input fr yuv w h ref_dir dis_dir ext, frame_ok fr -> In "PVS_ID" (fr_columns fr) ->
  (forall row, In row (fr_rows fr) -> exists t db src hrc, pvs_row fr row t /\ three t db src hrc) ->
  (exists row t db src hrc, In row (fr_rows fr) /\ pvs_row fr row t /\ three t db src hrc /\ forall z, ~ first_number src z) ->
  convert_file text_int order input fr yuv w h ref_dir dis_dir ext = ([], Raises AttributeError).
Proof. exact c94_no_number. Qed.
Print Assumptions C94_no_number.
Theorem C94_no_ratings : forall text_int order, set_order order -> forall input fr yuv w h ref_dir dis_dir ext out, frame_ok fr -> fr_rows fr <> [] ->
  (forall k, In k (fr_columns fr) -> ~ rating_column k) -> convert_file text_int order input fr yuv w h ref_dir dis_dir ext <> (out, Done tt).
Proof. exact c94_no_ratings. Qed.
Print Assumptions C94_no_ratings.
Example C94_refused_ex :
  convert (Frame ["pvs_id"; "S1"] []) = ([], Exits 1) /\ convert (Frame ["PVS_ID"; "S1"] [[CText "SRC01_HRC01"; CInt 3]]) = ([], Exits 1) /\
  convert (Frame ["PVS_ID"; "S1"] [[CText "DB_SRC_HRC01"; CInt 3]]) = ([], Raises AttributeError) /\
  convert (Frame ["PVS_ID"; "MOS"] [[CText "DB_SRC1_HRC01"; CInt 3]]) = ([], Exits 1).
Proof. vm_compute. repeat split; reflexivity. Qed.

(** C95: every row is kept if no PVS has two rows; the second row is lost otherwise. *)
Theorem C95_rows_partial : forall text_int order, set_order order -> forall input fr yuv w h ref_dir dis_dir ext out said o, frame_ok fr -> out = map Unknown said ++ [Json o] ->
  convert_file text_int order input fr yuv w h ref_dir dis_dir ext = (out, Done tt) ->
  (forall a b c r r' t, fr_rows fr = a ++ r :: b ++ r' :: c -> pvs_row fr r t -> ~ pvs_row fr r' t) ->
  forall row t, In row (fr_rows fr) -> pvs_row fr row t ->
  exists d, In d (co_dis_videos o) /\ dis_entry text_int fr dis_dir ext t d /\ votes text_int (fr_columns fr) row (cd_os d).
Proof. exact c95_rows. Qed.
Print Assumptions C95_rows_partial.
Theorem C95_rows_refuted : exists o d, convert again_fr = ([Json o], Done tt) /\ In [CText "DB01_SRC01_HRC01"; CInt 2] (fr_rows again_fr) /\
  co_dis_videos o = [d] /\ cd_os d = [("S1", 4%Z)].
Proof. destruct again_run as (o & d & A & B & C). exists o, d. split; [exact A|]. split; [right; left; reflexivity|]. auto. Qed.
Print Assumptions C95_rows_refuted.
(** C95: the pair of ids tells two PVSs apart if the numbers in their names do; not across databases. *)
Theorem C95_ids_partial : forall text_int order, set_order order -> forall input fr yuv w h ref_dir dis_dir ext out said o, frame_ok fr -> out = map Unknown said ++ [Json o] ->
  convert_file text_int order input fr yuv w h ref_dir dis_dir ext = (out, Done tt) ->
  (forall r r' t t' db db' src src' hrc hrc' z a, In r (fr_rows fr) -> In r' (fr_rows fr) -> pvs_row fr r t -> pvs_row fr r' t' -> three t db src hrc -> three t' db' src' hrc' ->
     first_number src z -> first_number src' z -> first_number hrc a -> first_number hrc' a -> t = t') ->
  NoDup (map (fun d => (cd_content_id d, cd_asset_id d)) (co_dis_videos o)).
Proof. exact c95_ids. Qed.
Print Assumptions C95_ids_partial.
Theorem C95_ids_refuted : exists fr o d d', convert fr = ([Json o], Done tt) /\ co_dis_videos o = [d; d'] /\ cd_path d <> cd_path d' /\
  cd_content_id d = cd_content_id d' /\ cd_asset_id d = cd_asset_id d'.
Proof. exists twin_fr. exact twin_run. Qed.
Print Assumptions C95_ids_refuted.
(** C95: standard output is the JSON text alone exactly if no column is unknown. *)
Theorem C95_stdout_partial : forall text_int order, set_order order -> forall input fr yuv w h ref_dir dis_dir ext out, frame_ok fr -> fr_rows fr <> [] ->
  convert_file text_int order input fr yuv w h ref_dir dis_dir ext = (out, Done tt) ->
  ((exists o, out = [Json o]) <-> forall k, In k (fr_columns fr) -> ~ unknown_column k).
Proof. exact c95_stdout. Qed.
Print Assumptions C95_stdout_partial.
Theorem C95_stdout_refuted : exists fr o, convert fr = ([Unknown "Age"; Json o], Done tt).
Proof. exists ages_fr. exact ages_run. Qed.
Print Assumptions C95_stdout_refuted.
(** C95: fractions are dropped, and any column starting with s is a subject. *)
Theorem C95_exact_refuted : exists o d, convert half_fr = ([Json o], Done tt) /\ fr_rows half_fr = [[CText "DB01_SRC01_HRC01"; CFloat (9 # 2); CFloat (1 # 2)]] /\
  co_dis_videos o = [d] /\ cd_os d = [("S1", 4%Z); ("Std", 0%Z)].
Proof. destruct half_run as (o & d & A & B & C). exists o, d. split; [exact A|]. split; [reflexivity|]. auto. Qed.
Print Assumptions C95_exact_refuted.
Example C95_ex : frame_ok small_fr /\ convert_file no_text by_first "data/scores.csv" small_fr "yuv420p" 0 0 "ref" "" ".yuv" = ([Json small_out], Done tt) /\
  NoDup (map (fun d => (cd_content_id d, cd_asset_id d)) (co_dis_videos small_out)).
Proof. split; [exact (proj1 small_ok)|]. split; [exact small_run|]. repeat constructor; cbn [In map co_dis_videos small_out]; intuition discriminate. Qed.
