(** Lemmas for claims C94 and C95: failures, and what is kept. *)
From Coq Require Import Ascii String.
From Coq Require Import List ZArith QArith Bool Arith Lia.
From Verif Require Import PyBase Num NumPy Dataset Names Commands Converter SpecDataset SpecNames SpecConverter BaseProofs DatasetProofs NamesProofs CommandsProofs ConverterProofs Converter2Proofs.
Import ListNotations.
Local Open Scope string_scope.
Local Open Scope list_scope.

Lemma each_raises : forall A B (f : A -> outcome B) l e, (forall a, In a l -> (exists b, f a = Done b) \/ f a = Raises e) -> (exists a, In a l /\ f a = Raises e) -> each f l = Raises e.
Proof.
  induction l as [|a l IH]; intros e H (x & Hx & E); [contradiction|]. cbn [each]. destruct (H a (or_introl eq_refl)) as [[b Q]|Q]; rewrite Q; cbn [then_]; [|reflexivity].
  rewrite (IH e); [reflexivity|intros y Hy; apply H; right; exact Hy|]. destruct Hx as [<-|Hx]; [congruence|eauto].
Qed.
Section S.
  Variable text_int : string -> res Z.
  Variable order : list string -> list string.
  Hypothesis HO : set_order order.
  Lemma rating_fun : forall c z z', rating text_int c z -> rating text_int c z' -> z = z'.
  Proof. intros c z z' A B. apply int_of_spec in A. apply int_of_spec in B. congruence. Qed.
  Lemma votes_fun : forall cols row os os', votes text_int cols row os -> votes text_int cols row os' -> os = os'.
  Proof.
    intros cols row os os' V. revert os'. induction V as [|k c z cols row os R I V IH|k c cols row os R V IH]; intros os' V'.
    - inversion V'. reflexivity.
    - inversion V' as [|? ? z' ? ? os0 R' I' V0|? ? ? ? ? R' V0]; subst; [|contradiction]. rewrite (rating_fun _ _ _ I I'), (IH _ V0). reflexivity.
    - inversion V' as [|? ? z' ? ? os0 R' I' V0|? ? ? ? ? R' V0]; subst; [contradiction|]. exact (IH _ V0).
  Qed.
  (** A source without a digit. *)
  Lemma c94_no_number : forall input fr yuv w h ref_dir dis_dir ext, frame_ok fr -> In "PVS_ID" (fr_columns fr) ->
    (forall row, In row (fr_rows fr) -> exists t db src hrc, pvs_row fr row t /\ three t db src hrc) ->
    (exists row t db src hrc, In row (fr_rows fr) /\ pvs_row fr row t /\ three t db src hrc /\ forall z, ~ first_number src z) ->
    convert_file text_int order input fr yuv w h ref_dir dis_dir ext = ([], Raises AttributeError).
  Proof.
    intros input fr yuv w h ref_dir dis_dir ext OK Hin HT (row & t & db & src & hrc & Hr & P & T3 & NN). unfold convert_file. destruct (pvs_column fr) as [cells|] eqn:PC.
    2:{ unfold pvs_column in PC. rewrite (proj2 (memb_In _ String.eqb String.eqb_eq "PVS_ID" (fr_columns fr)) Hin) in PC. discriminate. }
    destruct (pvs_column_some fr cells OK PC) as [_ FC]. destruct (Forall2_in _ _ _ _ _ FC) as [C1 C2].
    destruct (each_complete _ _ get_ids_from_pvs cells) as [ids G].
    { intros c Hc. destruct (C2 c Hc) as (r & Hr' & Pc). destruct (HT r Hr') as (t' & db' & src' & hrc' & (s & Ps & S) & T3'). assert (c = CText s) by (apply (pvs_cell_fun fr OK r); assumption). subst c.
      exists (t', db', src', hrc'). apply ids_spec. eauto. }
    rewrite G. apply each_sound in G. destruct (Forall2_in _ _ _ _ _ G) as [G1 _].
    rewrite (each_raises _ _ (ref_video ref_dir ext) (order (map (fun p => snd (fst p)) ids)) AttributeError); [reflexivity| |].
    - intros s _. unfold ref_video. destruct (first_int s) as [z|e|e] eqn:E; cbn [then_]; [eauto| |].
      + exfalso. clear -E. induction s as [|a s IH]; [discriminate|]. cbn [first_int] in E. destruct (digit a); [discriminate|auto].
      + right. assert (e = AttributeError); [|congruence]. clear -E. induction s as [|a s IH]; [cbn in E; congruence|]. cbn [first_int] in E. destruct (digit a); [discriminate|auto].
    - exists src. split; [|unfold ref_video; rewrite (first_int_err src NN); reflexivity]. apply (proj2 (HO _)). destruct (C1 row Hr) as (c & Hc & Pc). destruct P as (s & Ps & S). assert (c = CText s) by (apply (pvs_cell_fun fr OK row); assumption). subst c.
      destruct (G1 _ Hc) as (p & Hp & Q). rewrite (proj2 (ids_spec (CText s) t db src hrc)) in Q by eauto. injection Q as <-. apply in_map_iff. exists (t, db, src, hrc). auto.
  Qed.
  (** No column with ratings. *)
  Lemma c94_no_ratings : forall input fr yuv w h ref_dir dis_dir ext out, frame_ok fr -> fr_rows fr <> [] -> (forall k, In k (fr_columns fr) -> ~ rating_column k) ->
    convert_file text_int order input fr yuv w h ref_dir dis_dir ext <> (out, Done tt).
  Proof.
    intros input fr yuv w h ref_dir dis_dir ext out OK NE HK H. destruct (c94_result text_int order HO _ _ _ _ _ _ _ _ _ OK H) as (said & refs & ds & ids & srcs & _ & _ & _ & Hids & FD & _).
    destruct (Forall2_in _ _ _ _ _ FD) as [F1 _]. destruct ids as [|t ids].
    - unfold convert_file in H. destruct (pvs_column fr) as [cells|] eqn:PC; [|discriminate]. destruct (pvs_column_some fr cells OK PC) as [_ FC]. destruct (each get_ids_from_pvs cells) as [is|e|e] eqn:G; try discriminate.
      apply each_sound in G. destruct (fr_rows fr) as [|row rows] eqn:R; [congruence|]. destruct (Forall2_in _ _ _ _ _ FC) as [C1 _]. destruct (C1 row (or_introl eq_refl)) as (c & Hc & P).
      destruct (Forall2_in _ _ _ _ _ G) as [G1 _]. destruct (G1 c Hc) as ([[[t db] src] hrc] & _ & Q). apply ids_spec in Q as (s & -> & S & _).
      destruct (proj2 (Hids t)). exists row. split; [left; reflexivity|]. exists s. auto.
    - destruct (F1 t (or_introl eq_refl)) as (d & _ & (db & src & hrc & before & row & after & _ & _ & _ & _ & _ & _ & V & _) & ND). destruct (cd_os d) as [|[k z] os] eqn:E; [congruence|].
      destruct (proj1 (votes_names text_int _ _ _ V k) (or_introl eq_refl)) as [A B]. exact (HK k A B).
  Qed.
  (** ** What is kept *)
  Lemma c95_rows : forall input fr yuv w h ref_dir dis_dir ext out said o, frame_ok fr -> out = map Unknown said ++ [Json o] ->
    convert_file text_int order input fr yuv w h ref_dir dis_dir ext = (out, Done tt) ->
    (forall a b c r r' t, fr_rows fr = a ++ r :: b ++ r' :: c -> pvs_row fr r t -> ~ pvs_row fr r' t) ->
    forall row t, In row (fr_rows fr) -> pvs_row fr row t -> exists d, In d (co_dis_videos o) /\ dis_entry text_int fr dis_dir ext t d /\ votes text_int (fr_columns fr) row (cd_os d).
  Proof.
    intros input fr yuv w h ref_dir dis_dir ext out said o OK EO H HU row t Hr P. destruct (c94_result text_int order HO _ _ _ _ _ _ _ _ _ OK H) as (said' & refs & ds & ids & srcs & E & _ & _ & Hids & FD & _).
    rewrite EO in E. apply app_inj_tail in E as [_ E]. injection E as ->. cbn [co_dis_videos]. destruct (Forall2_in _ _ _ _ _ FD) as [F1 _].
    destruct (F1 t) as (d & Hd & Q & _); [apply Hids; eauto|]. exists d. split; [exact Hd|]. split; [exact Q|].
    destruct Q as (db & src & hrc & before & row' & after & _ & _ & _ & E & P' & NB & V & _). assert (row = row'); [|subst; exact V].
    rewrite E in Hr. apply in_app_iff in Hr as [Hr|[Hr|Hr]]; [destruct (NB row Hr P)|congruence|]. exfalso. apply in_split in Hr as (x & y & Ey).
    apply (HU before x y row' row t); [rewrite E, Ey; reflexivity|exact P'|exact P].
  Qed.
  Lemma c95_ids : forall input fr yuv w h ref_dir dis_dir ext out said o, frame_ok fr -> out = map Unknown said ++ [Json o] ->
    convert_file text_int order input fr yuv w h ref_dir dis_dir ext = (out, Done tt) ->
    (forall r r' t t' db db' src src' hrc hrc' z a, In r (fr_rows fr) -> In r' (fr_rows fr) -> pvs_row fr r t -> pvs_row fr r' t' -> three t db src hrc -> three t' db' src' hrc' ->
       first_number src z -> first_number src' z -> first_number hrc a -> first_number hrc' a -> t = t') ->
    NoDup (map (fun d => (cd_content_id d, cd_asset_id d)) (co_dis_videos o)).
  Proof.
    intros input fr yuv w h ref_dir dis_dir ext out said o OK EO H HU. destruct (c94_result text_int order HO _ _ _ _ _ _ _ _ _ OK H) as (said' & refs & ds & ids & srcs & E & _ & ND & Hids & FD & _).
    rewrite EO in E. apply app_inj_tail in E as [_ E]. injection E as ->. cbn [co_dis_videos]. clear H EO.
    assert (G : forall l l', incl l ids -> NoDup l -> Forall2 (fun t d => dis_entry text_int fr dis_dir ext t d /\ cd_os d <> []) l l' -> NoDup (map (fun d => (cd_content_id d, cd_asset_id d)) l')).
    { intros l l' HI HN F. induction F as [|t d l l' [Q _] F IH]; cbn [map]; [constructor|]. inversion HN as [|? ? N1 N2]; subst. constructor; [|apply IH; [intros x Hx; apply HI; right; exact Hx|exact N2]].
      intro X. apply in_map_iff in X as (d' & Ed & Hd'). injection Ed as Ec Ea. destruct (Forall2_in _ _ _ _ _ F) as [_ F2]. destruct (F2 d' Hd') as (t' & Ht' & Q' & _).
      destruct Q as (db & src & hrc & b1 & r1 & a1 & T3 & N & A & E1 & P1 & _). destruct Q' as (db' & src' & hrc' & b2 & r2 & a2 & T3' & N' & A' & E2 & P2 & _). apply N1.
      rewrite (HU r1 r2 t t' db db' src src' hrc hrc' (cd_content_id d) (cd_asset_id d)); auto.
      - rewrite E1. apply in_elt.
      - rewrite E2. apply in_elt.
      - rewrite <- Ec. exact N'.
      - rewrite <- Ea. exact A'. }
    exact (G ids ds (incl_refl _) ND FD).
  Qed.
  Lemma c95_stdout : forall input fr yuv w h ref_dir dis_dir ext out, frame_ok fr -> fr_rows fr <> [] ->
    convert_file text_int order input fr yuv w h ref_dir dis_dir ext = (out, Done tt) ->
    ((exists o, out = [Json o]) <-> forall k, In k (fr_columns fr) -> ~ unknown_column k).
  Proof.
    intros input fr yuv w h ref_dir dis_dir ext out OK NE H. destruct (c94_result text_int order HO _ _ _ _ _ _ _ _ _ OK H) as (said & refs & ds & ids & srcs & -> & U & _). split.
    - intros (o & E) k Hk Q. assert (X : In k said) by (apply U; auto). destruct said as [|x said]; [destruct X|]. cbn [map app] in E. discriminate.
    - intro Q. destruct said as [|x said]; [eexists; reflexivity|]. destruct (proj1 (U x) (or_introl eq_refl)) as (_ & Hx & B). destruct (Q x Hx B).
  Qed.
End S.

(** ** A table *)
Definition by_first (l : list string) : list string := nodup string_dec l.
Lemma by_first_ok : set_order by_first.
Proof. intro l. split; [apply NoDup_nodup|]. intro x. apply nodup_In. Qed.
Definition no_text (s : string) : res Z := Err ValueError.
Definition small_fr : frame := Frame ["PVS_ID"; "S1"; "User2"; "MOS"]
  [[CText "DB01_SRC01_HRC02 "; CInt 4; CInt 5; CFloat (9 # 2)]; [CText "DB01_SRC03_HRC10"; CInt 2; CFloat (3 # 1); CFloat (5 # 2)]].
Definition small_out : conv_out := ConvOut "scores" "yuv420p" 0 0 "" ""
  [ConvRef 1 "SRC01" "ref/SRC01.yuv"; ConvRef 3 "SRC03" "ref/SRC03.yuv"]
  [ConvDis 1 2 [("S1", 4%Z); ("User2", 5%Z)] "DB01_SRC01_HRC02.yuv"; ConvDis 3 10 [("S1", 2%Z); ("User2", 3%Z)] "DB01_SRC03_HRC10.yuv"].
Lemma small_run : convert_file no_text by_first "data/scores.csv" small_fr "yuv420p" 0 0 "ref" "" ".yuv" = ([Json small_out], Done tt).
Proof. vm_compute. reflexivity. Qed.
Lemma mos_other : other_column "MOS" /\ ~ rating_column "MOS".
Proof. assert (O : other_column "MOS") by (apply skipped_spec; reflexivity). split; [exact O|]. intros [H _]. contradiction. Qed.
Lemma small_row : forall s t db src hrc z a c1 c2 c3 v1 v2, In [CText s; c1; c2; c3] (fr_rows small_fr) -> strip s = t -> split_on "_" t = [db; src; hrc] -> first_int src = Done z -> first_int hrc = Done a ->
  int_of no_text c1 = Ok v1 -> int_of no_text c2 = Ok v2 -> row_ok no_text small_fr [CText s; c1; c2; c3].
Proof.
  intros s t db src hrc z a c1 c2 c3 v1 v2 _ S T F1 F2 I1 I2. exists t, db, src, hrc, z, a, [("S1", v1); ("User2", v2)].
  split; [exists s; split; [exists 0%nat; split; reflexivity|apply strips_iff; exact S]|]. split; [apply three_spec; exact T|]. split; [apply first_int_iff; exact F1|]. split; [apply first_int_iff; exact F2|].
  cbn [fr_columns small_fr]. apply votes_other; [intro Q; apply rating_column_dec in Q as [Q _]; discriminate Q|].
  apply votes_rating; [apply rating_column_dec; split; reflexivity|apply int_of_spec; exact I1|]. apply votes_rating; [apply rating_column_dec; split; reflexivity|apply int_of_spec; exact I2|].
  apply votes_other; [apply mos_other|constructor].
Qed.
Lemma small_ok : table_ok no_text small_fr.
Proof.
  split; [|split; [left; reflexivity|split]].
  - split; [cbn [fr_columns small_fr]; repeat constructor; cbn [In]; intuition discriminate|]. intros row [<-|[<-|[]]]; reflexivity.
  - exists "S1". split; [right; left; reflexivity|]. apply rating_column_dec. split; reflexivity.
  - intros row [<-|[<-|[]]]; eapply small_row; try reflexivity; cbn; tauto.
Qed.
(** Two databases with the same numbers; a PVS rated in two rows; a column with
    ages; half points. *)
Definition twin_fr : frame := Frame ["PVS_ID"; "S1"] [[CText "DB01_SRC01_HRC01"; CInt 4]; [CText "DB02_SRC01_HRC01"; CInt 2]].
Definition again_fr : frame := Frame ["PVS_ID"; "S1"] [[CText "DB01_SRC01_HRC01"; CInt 4]; [CText "DB01_SRC01_HRC01"; CInt 2]].
Definition ages_fr : frame := Frame ["PVS_ID"; "Age"; "S1"] [[CText "DB01_SRC01_HRC01"; CInt 30; CInt 4]].
Definition half_fr : frame := Frame ["PVS_ID"; "S1"; "Std"] [[CText "DB01_SRC01_HRC01"; CFloat (9 # 2); CFloat (1 # 2)]].
Notation convert fr := (convert_file no_text by_first "scores.csv" fr "yuv420p" 0 0 "" "" ".yuv").
Lemma twin_run : exists o d d', convert twin_fr = ([Json o], Done tt) /\ co_dis_videos o = [d; d'] /\ cd_path d <> cd_path d' /\
  cd_content_id d = cd_content_id d' /\ cd_asset_id d = cd_asset_id d'.
Proof. do 3 eexists. split; [vm_compute; reflexivity|]. split; [reflexivity|]. split; [discriminate|]. split; reflexivity. Qed.
Lemma again_run : exists o d, convert again_fr = ([Json o], Done tt) /\ co_dis_videos o = [d] /\ cd_os d = [("S1", 4%Z)].
Proof. do 2 eexists. split; [vm_compute; reflexivity|]. split; reflexivity. Qed.
Lemma ages_run : exists o, convert ages_fr = ([Unknown "Age"; Json o], Done tt).
Proof. eexists. vm_compute. reflexivity. Qed.
Lemma half_run : exists o d, convert half_fr = ([Json o], Done tt) /\ co_dis_videos o = [d] /\ cd_os d = [("S1", 4%Z); ("Std", 0%Z)].
Proof. do 2 eexists. split; [vm_compute; reflexivity|]. split; reflexivity. Qed.
