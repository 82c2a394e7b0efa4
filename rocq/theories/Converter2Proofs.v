(** Lemmas for claims C94 and C95: tables. *)
From Coq Require Import Ascii String.
From Coq Require Import List ZArith QArith Bool Arith Lia Sorted Permutation.
From Verif Require Import PyBase Num NumPy Dataset Names Commands Converter SpecDataset SpecNames SpecConverter BaseProofs DatasetProofs NamesProofs CommandsProofs ConverterProofs.
Import ListNotations.
Local Open Scope string_scope.
Local Open Scope list_scope.

Lemma ids_spec : forall c t db src hrc, get_ids_from_pvs c = Done (t, db, src, hrc) <-> exists s, c = CText s /\ strips s t /\ three t db src hrc.
Proof.
  intros c t db src hrc. split.
  - destruct c as [| | |s]; try discriminate. cbn [get_ids_from_pvs]. intro H. exists s. destruct (split_on "_" (strip s)) as [|a [|b [|d [|e l]]]] eqn:E; try discriminate.
    injection H as <- <- <- <-. split; [reflexivity|]. split; [apply strip_spec|]. apply three_spec. exact E.
  - intros (s & -> & S & H). apply strip_fun in S. cbn [get_ids_from_pvs]. rewrite S. apply three_spec in H. rewrite H. reflexivity.
Qed.
Lemma each_sound : forall A B (f : A -> outcome B) l bs, each f l = Done bs -> Forall2 (fun a b => f a = Done b) l bs.
Proof.
  induction l as [|a l IH]; intros bs H; cbn [each] in H; [injection H as <-; constructor|]. destruct (f a) eqn:E; cbn [then_] in H; try discriminate.
  destruct (each f l); cbn [then_] in H; try discriminate. injection H as <-. constructor; [exact E|]. apply IH. reflexivity.
Qed.
Lemma each_complete : forall A B (f : A -> outcome B) l, (forall a, In a l -> exists b, f a = Done b) -> exists bs, each f l = Done bs.
Proof.
  induction l as [|a l IH]; intro H; cbn [each]; [eauto|]. destruct (H a (or_introl eq_refl)) as [b ->]. cbn [then_].
  destruct IH as [bs ->]; [intros x Hx; apply H; right; exact Hx|]. cbn [then_]. eauto.
Qed.
Lemma Forall2_in : forall A B (R : A -> B -> Prop) l l', Forall2 R l l' -> (forall a, In a l -> exists b, In b l' /\ R a b) /\ (forall b, In b l' -> exists a, In a l /\ R a b).
Proof.
  induction 1 as [|a b l l' H F [IH1 IH2]]; [split; intros ? []|]. split.
  - intros x [<-|Hx]; [exists b; split; [left; reflexivity|exact H]|]. destruct (IH1 x Hx) as (y & Hy & Q). exists y. split; [right; exact Hy|exact Q].
  - intros y [<-|Hy]; [exists a; split; [left; reflexivity|exact H]|]. destruct (IH2 y Hy) as (x & Hx & Q). exists x. split; [right; exact Hx|exact Q].
Qed.
Lemma Forall2_imp : forall A B (R R' : A -> B -> Prop) l l', (forall a b, In a l -> R a b -> R' a b) -> Forall2 R l l' -> Forall2 R' l l'.
Proof. induction 2 as [|a b l l' Q F IH]; constructor; [apply H; [left; reflexivity|exact Q]|]. apply IH. intros x y Hx. apply H. right. exact Hx. Qed.

Lemma dget_row : forall cols (row : list cell) k c, NoDup cols -> List.length row = List.length cols ->
  (dget String.eqb (combine cols row) k = Some c <-> exists i, nth_error cols i = Some k /\ nth_error row i = Some c).
Proof.
  induction cols as [|x cols IH]; intros row k c ND L.
  - cbn. split; [discriminate|]. intros (i & H & _). destruct i; discriminate.
  - destruct row as [|y row]; [discriminate|]. inversion ND as [|? ? N1 N2]; subst. cbn [combine dget]. destruct (String.eqb_spec k x) as [->|D].
    + split; [intro H; injection H as <-; exists 0%nat; auto|]. intros (i & H & H'). destruct i as [|i]; [cbn in H'; congruence|]. cbn [nth_error] in H. destruct N1. eapply nth_error_In. exact H.
    + rewrite (IH row k c N2) by (cbn in L; congruence). split; intros (i & H & H'); [exists (S i); auto|]. destruct i as [|i]; [cbn in H; congruence|]. exists i. auto.
Qed.

Section Tables.
  Variable text_int : string -> res Z.
  Lemma int_of_spec : forall c z, int_of text_int c = Ok z <-> rating text_int c z.
  Proof.
    intros c z. split.
    - destruct c as [y|q| |s]; cbn [int_of]; intro H; try discriminate.
      + injection H as <-. constructor.
      + injection H as <-. destruct q as [n d]. cbn [Qnum Qden]. assert (E := Z.quot_rem' n (Zpos d)). destruct (Z_le_gt_dec 0 n) as [P|P].
        * assert (B := Z.rem_bound_pos n (Zpos d) P ltac:(lia)). apply rating_up; unfold Qle, Qlt, inject_Z; cbn [Qnum Qden]; nia.
        * assert (B := Z.rem_bound_pos_neg n (Zpos d) ltac:(lia) ltac:(lia)). apply rating_down; unfold Qle, Qlt, inject_Z; cbn [Qnum Qden]; nia.
      + constructor. exact H.
    - intro H. inversion H as [y|q y A B C|q y A B C|s y E]; subst; cbn [int_of]; [reflexivity| | |exact E]; f_equal; destruct q as [n d]; unfold Qle, Qlt, inject_Z in *; cbn [Qnum Qden] in *.
      + assert (E := Z.quot_rem' n (Zpos d)). assert (B' := Z.rem_bound_pos n (Zpos d) ltac:(lia) ltac:(lia)). nia.
      + assert (E := Z.quot_rem' n (Zpos d)). assert (B' := Z.rem_bound_pos_neg n (Zpos d) ltac:(lia) ltac:(lia)). nia.
  Qed.
  Lemma not_rating : forall k, skipped k = true \/ known k = false -> ~ rating_column k.
  Proof. intros k H R. apply rating_column_dec in R as [A B]. destruct H; congruence. Qed.

  Lemma extract_sound : forall cols row acc said r, NoDup cols -> (forall k, In k cols -> ~ In k (map fst acc)) -> List.length row = List.length cols ->
    extract_scores_from_record text_int (combine cols row) acc = (said, Ok r) ->
    exists os, r = acc ++ os /\ votes text_int cols row os /\ forall k, In k said <-> In k cols /\ unknown_column k.
  Proof.
    induction cols as [|k cols IH]; intros row acc said r ND HA L H.
    - destruct row; [|discriminate]. cbn in H. injection H as <- <-. exists []. split; [symmetry; apply app_nil_r|]. split; [constructor|]. intro k. cbn [In]. tauto.
    - destruct row as [|c row]; [discriminate|]. inversion ND as [|? ? N1 N2]; subst. assert (L' : List.length row = List.length cols) by (cbn in L; congruence).
      cbn [combine extract_scores_from_record] in H. destruct (skipped k) eqn:S.
      + destruct (IH row acc said r N2 ltac:(intros x Hx; apply HA; right; exact Hx) L' H) as (os & E & V & U). exists os. split; [exact E|].
        split; [constructor; [apply not_rating; left; exact S|exact V]|]. intro x. rewrite U. cbn [In]. split; [tauto|]. intros [[<-|Hx] Q]; [|tauto].
        apply unknown_column_dec in Q. destruct Q; congruence.
      + destruct (known k) eqn:K; cbn [negb] in H.
        * destruct (int_of text_int c) as [z|e] eqn:I; [|discriminate]. assert (Hk : ~ In k (map fst acc)) by (apply HA; left; reflexivity).
          rewrite (dset_keys_notmem String.eqb String.eqb_eq acc k z Hk) in H.
          destruct (IH row (acc ++ [(k, z)]) said r N2) as (os & E & V & U); [|exact L'|exact H|].
          { intros x Hx. rewrite map_app, in_app_iff. cbn [map fst In]. intros [Q|[<-|[]]]; [apply (HA x); [right; exact Hx|exact Q]|contradiction]. }
          exists ((k, z) :: os). split; [rewrite E, <- app_assoc; reflexivity|]. split; [constructor; [apply rating_column_dec; auto|apply int_of_spec; exact I|exact V]|].
          intro x. rewrite U. cbn [In]. split; [tauto|]. intros [[<-|Hx] Q]; [|tauto]. apply unknown_column_dec in Q. destruct Q; congruence.
        * destruct (extract_scores_from_record text_int (combine cols row) acc) as [said' r'] eqn:X. injection H as <- ->.
          destruct (IH row acc said' r N2 ltac:(intros x Hx; apply HA; right; exact Hx) L' X) as (os & E & V & U). exists os. split; [exact E|].
          split; [constructor; [apply not_rating; right; exact K|exact V]|]. intro x. cbn [In]. rewrite U. split.
          -- intros [<-|[Hx Q]]; [split; [left; reflexivity|apply unknown_column_dec; auto]|tauto].
          -- intros [[<-|Hx] Q]; [left; reflexivity|right; split; assumption].
  Qed.
  Lemma extract_complete : forall cols row os acc, NoDup cols -> (forall k, In k cols -> ~ In k (map fst acc)) -> votes text_int cols row os ->
    exists said, extract_scores_from_record text_int (combine cols row) acc = (said, Ok (acc ++ os)).
  Proof.
    intros cols row os acc ND HA V. revert acc ND HA. induction V as [|k c z cols row os R I V IH|k c cols row os R V IH]; intros acc ND HA.
    - exists []. cbn. rewrite app_nil_r. reflexivity.
    - inversion ND as [|? ? N1 N2]; subst. cbn [combine extract_scores_from_record]. apply rating_column_dec in R as [-> ->]. cbn [negb].
      apply int_of_spec in I. rewrite I. rewrite (dset_keys_notmem String.eqb String.eqb_eq acc k z ltac:(apply HA; left; reflexivity)).
      destruct (IH (acc ++ [(k, z)]) N2) as [said E]; [|exists said; rewrite E, <- app_assoc; reflexivity].
      intros x Hx. rewrite map_app, in_app_iff. cbn [map fst In]. intros [Q|[<-|[]]]; [apply (HA x); [right; exact Hx|exact Q]|contradiction].
    - inversion ND as [|? ? N1 N2]; subst. cbn [combine extract_scores_from_record]. destruct (IH acc N2 ltac:(intros x Hx; apply HA; right; exact Hx)) as [said E].
      destruct (skipped k) eqn:S; [eauto|]. destruct (known k) eqn:K; cbn [negb]; [destruct R; apply rating_column_dec; auto|]. rewrite E. eauto.
  Qed.
  Lemma votes_names : forall cols row os, votes text_int cols row os -> forall k, In k (map fst os) <-> In k cols /\ rating_column k.
  Proof.
    induction 1 as [|k c z cols row os R I V IH|k c cols row os R V IH]; intro x; cbn [map fst In]; [tauto| |].
    - rewrite IH. split; [intros [<-|H]; tauto|]. intros [[<-|H] Q]; tauto.
    - rewrite IH. split; [tauto|]. intros [[<-|H] Q]; tauto.
  Qed.
  Lemma votes_nodup : forall cols row os, NoDup cols -> votes text_int cols row os -> NoDup (map fst os).
  Proof.
    intros cols row os ND V. induction V as [|k c z cols row os R I V IH|k c cols row os R V IH]; cbn [map fst]; [constructor| |]; inversion ND as [|? ? N1 N2]; subst; [|auto].
    constructor; [|auto]. intro H. apply (votes_names _ _ _ V) in H. tauto.
  Qed.

  (** ** Rows *)
  Section Rows.
    Variable fr : frame.
    Hypothesis OK : frame_ok fr.
    Lemma pvs_cell_dget : forall row c, In row (fr_rows fr) -> (dget String.eqb (combine (fr_columns fr) row) "PVS_ID" = Some c <-> pvs_cell fr row c).
    Proof. intros row c H. destruct OK as [ND L]. apply dget_row; [exact ND|apply L; exact H]. Qed.
    Lemma pvs_cell_fun : forall row c c', In row (fr_rows fr) -> pvs_cell fr row c -> pvs_cell fr row c' -> c = c'.
    Proof. intros row c c' H A B. apply pvs_cell_dget in A; [|exact H]. apply pvs_cell_dget in B; [|exact H]. congruence. Qed.
    Lemma pvs_row_fun : forall row t t', In row (fr_rows fr) -> pvs_row fr row t -> pvs_row fr row t' -> t = t'.
    Proof.
      intros row t t' H (s & A & B) (s' & A' & B'). assert (E := pvs_cell_fun _ _ _ H A A'). injection E as <-. apply strip_fun in B. apply strip_fun in B'. congruence.
    Qed.
    Lemma ratings_sound : forall t rows pre said o, fr_rows fr = pre ++ rows -> (forall r, In r pre -> ~ pvs_row fr r t) ->
      ratings_of text_int t (map (combine (fr_columns fr)) rows) = (said, Done o) ->
      match o with
      | Some os => exists before row after, fr_rows fr = before ++ row :: after /\ pvs_row fr row t /\ (forall r, In r before -> ~ pvs_row fr r t) /\ votes text_int (fr_columns fr) row os /\
                   forall k, In k said <-> In k (fr_columns fr) /\ unknown_column k
      | None => forall r, In r (fr_rows fr) -> ~ pvs_row fr r t
      end.
    Proof.
      intros t rows. induction rows as [|row rows IH]; intros pre said o E HP H.
      - cbn in H. injection H as <- <-. rewrite E, app_nil_r. exact HP.
      - cbn [map ratings_of] in H. assert (Hrow : In row (fr_rows fr)) by (rewrite E; apply in_elt).
        destruct (dget String.eqb (combine (fr_columns fr) row) "PVS_ID") as [c|] eqn:D; [|discriminate]. apply pvs_cell_dget in D; [|exact Hrow].
        destruct (get_ids_from_pvs c) as [[[[t' db] src] hrc]|e|e] eqn:G; try discriminate. apply ids_spec in G as (s & -> & St & T3).
        destruct (String.eqb_spec t t') as [<-|Dt].
        + destruct (extract_scores_from_record text_int (combine (fr_columns fr) row) []) as [said' r'] eqn:X. injection H as <- H. destruct r' as [r'|]; [|discriminate]. injection H as <-.
          destruct OK as [ND L]. destruct (extract_sound _ _ [] _ _ ND (fun k _ Q => Q) (L row Hrow) X) as (os & -> & V & U).
          exists pre, row, rows. split; [exact E|]. split; [exists s; auto|]. split; [exact HP|]. split; [exact V|exact U].
        + apply (IH (pre ++ [row]) said o); [rewrite E, <- app_assoc; reflexivity| |exact H]. intros r Hr. apply in_app_iff in Hr as [Hr|[<-|[]]]; [apply HP; exact Hr|].
          intro Q. apply Dt. apply (pvs_row_fun row); [exact Hrow|exact Q|exists s; auto].
    Qed.
    Lemma ratings_complete : forall t rows, (forall r, In r rows -> In r (fr_rows fr) /\ row_ok text_int fr r) -> (exists r, In r rows /\ pvs_row fr r t) ->
      exists said os, ratings_of text_int t (map (combine (fr_columns fr)) rows) = (said, Done (Some os)).
    Proof.
      intros t rows. induction rows as [|row rows IH]; intros HR (r & Hr & Q); [contradiction|]. destruct (HR row (or_introl eq_refl)) as [Hin (t' & db & src & hrc & c & a & os & P & T3 & _ & _ & V)].
      cbn [map ratings_of]. destruct P as (s & Pc & Ps). assert (D := proj2 (pvs_cell_dget row _ Hin) Pc). rewrite D.
      rewrite (proj2 (ids_spec (CText s) t' db src hrc)) by eauto. destruct (String.eqb_spec t t') as [<-|Dt].
      - destruct OK as [ND L]. destruct (extract_complete _ _ _ [] ND (fun k _ Q => Q) V) as [said ->]. eauto.
      - apply IH; [intros x Hx; apply HR; right; exact Hx|]. exists r. destruct Hr as [<-|Hr]; [|auto]. destruct Dt. apply (pvs_row_fun row); [exact Hin|exact Q|exists s; auto].
    Qed.

    Variables (dis_dir ext : string).
    Lemma dis_sound : forall t said d, dis_video text_int dis_dir ext (records fr) t = (said, Done d) -> strip t = t -> dis_entry text_int fr dis_dir ext t d /\ cd_os d <> [] /\
      forall k, In k said <-> In k (fr_columns fr) /\ unknown_column k.
    Proof.
      intros t said d H St. unfold dis_video in H. destruct (get_ids_from_pvs (CText t)) as [[[[t' db] src] hrc]|e|e] eqn:G; try discriminate.
      apply ids_spec in G as (s & E & S & T3). injection E as <-. apply strip_fun in S. assert (Et : t' = t) by congruence. clear S. subst t'.
      destruct (ratings_of text_int t (records fr)) as [said' r] eqn:R. injection H as <- H. destruct r as [o|e|e]; try discriminate. cbn [then_] in H.
      assert (Q := ratings_sound t (fr_rows fr) [] said' o eq_refl ltac:(intros r []) R). destruct o as [[|p os]|]; try discriminate.
      destruct (first_int src) as [cid|e|e] eqn:F1; try discriminate. cbn [then_] in H. destruct (first_int hrc) as [aid|e|e] eqn:F2; try discriminate. cbn [then_] in H. injection H as <-.
      destruct Q as (before & row & after & E & P & N & V & U). split; [|split; [discriminate|exact U]].
      exists db, src, hrc, before, row, after. cbn [cd_content_id cd_asset_id cd_os cd_path]. split; [exact T3|]. split; [apply first_int_iff; exact F1|]. split; [apply first_int_iff; exact F2|].
      split; [exact E|]. split; [exact P|]. split; [exact N|]. split; [exact V|]. apply os_join_spec.
    Qed.
    Lemma dis_complete : forall t, (forall r, In r (fr_rows fr) -> row_ok text_int fr r) -> (exists k, In k (fr_columns fr) /\ rating_column k) -> (exists r, In r (fr_rows fr) /\ pvs_row fr r t) ->
      exists said d, dis_video text_int dis_dir ext (records fr) t = (said, Done d).
    Proof.
      intros t HR HK (r & Hr & P). destruct (HR r Hr) as (t' & db & src & hrc & c & a & os & P' & T3 & F1 & F2 & V).
      assert (t' = t) by (apply (pvs_row_fun r); assumption). subst t'. unfold dis_video.
      assert (St : strip t = t) by (destruct P as (s & _ & S); apply strip_fun in S; rewrite <- S; apply strip_strip).
      rewrite (proj2 (ids_spec (CText t) t db src hrc)) by (exists t; split; [reflexivity|split; [apply strips_iff; exact St|exact T3]]).
      destruct (ratings_complete t (fr_rows fr) ltac:(intros x Hx; auto) (ex_intro _ r (conj Hr P))) as (said & os' & E). unfold records. rewrite E.
      assert (Q := ratings_sound t (fr_rows fr) [] said (Some os') eq_refl ltac:(intros x []) E). cbn beta iota in Q. destruct Q as (before & row & after & _ & _ & _ & V' & _).
      cbn [then_]. destruct os' as [|p os'].
      - destruct HK as (k & Hk & Rk). destruct (proj2 (votes_names _ _ _ V' k) (conj Hk Rk)).
      - apply first_int_iff in F1. apply first_int_iff in F2. rewrite F1, F2. cbn [then_]. eauto.
    Qed.
    Lemma diss_sound : forall ids said ds, (forall t, In t ids -> strip t = t) -> dis_videos text_int dis_dir ext (records fr) ids = (said, Done ds) ->
      Forall2 (fun t d => dis_entry text_int fr dis_dir ext t d /\ cd_os d <> []) ids ds /\ (forall k, In k said -> In k (fr_columns fr) /\ unknown_column k) /\
      (ids <> [] -> forall k, In k (fr_columns fr) -> unknown_column k -> In k said).
    Proof.
      induction ids as [|t ids IH]; intros said ds HS H; cbn [dis_videos] in H.
      - injection H as <- <-. split; [constructor|]. split; [intros k []|congruence].
      - destruct (dis_video text_int dis_dir ext (records fr) t) as [s1 r1] eqn:D. destruct r1 as [d|e|e]; try discriminate.
        destruct (dis_videos text_int dis_dir ext (records fr) ids) as [s2 r2] eqn:X. injection H as <- H. destruct r2 as [ds'|e|e]; try discriminate. injection H as <-.
        destruct (dis_sound t s1 d D ltac:(apply HS; left; reflexivity)) as (A & B & C). destruct (IH s2 ds' ltac:(intros x Hx; apply HS; right; exact Hx) eq_refl) as (F & U & _).
        split; [constructor; auto|]. split.
        + intros k Hk. apply in_app_iff in Hk as [Hk|Hk]; [apply C; exact Hk|apply U; exact Hk].
        + intros _ k Hk Q. apply in_app_iff. left. apply C. auto.
    Qed.
    Lemma diss_complete : forall ids, (forall t, In t ids -> exists said d, dis_video text_int dis_dir ext (records fr) t = (said, Done d)) ->
      exists said ds, dis_videos text_int dis_dir ext (records fr) ids = (said, Done ds).
    Proof.
      induction ids as [|t ids IH]; intro H; cbn [dis_videos]; [eauto|]. destruct (H t (or_introl eq_refl)) as (s & d & ->).
      destruct IH as (s' & ds & ->); [intros x Hx; apply H; right; exact Hx|]. cbn [then_]. eauto.
    Qed.
  End Rows.

  Lemma pvs_column_some : forall fr cells, frame_ok fr -> pvs_column fr = Some cells -> In "PVS_ID" (fr_columns fr) /\ Forall2 (pvs_cell fr) (fr_rows fr) cells.
  Proof.
    intros fr cells OK H. unfold pvs_column in H. destruct (memb String.eqb "PVS_ID" (fr_columns fr)) eqn:M; [|discriminate]. injection H as <-. apply (memb_In _ String.eqb String.eqb_eq) in M. split; [exact M|].
    unfold records. rewrite map_map. assert (G : forall rows, incl rows (fr_rows fr) -> Forall2 (pvs_cell fr) rows
      (map (fun x => match dget String.eqb (combine (fr_columns fr) x) "PVS_ID" with Some c => c | None => CNan end) rows)); [|apply G; apply incl_refl].
    induction rows as [|row rows IH]; intro I; [constructor|]. assert (Hr : In row (fr_rows fr)) by (apply I; left; reflexivity). cbn [map]. constructor; [|apply IH; intros x Hx; apply I; right; exact Hx].
    destruct (dget String.eqb (combine (fr_columns fr) row) "PVS_ID") as [c|] eqn:D; [apply (pvs_cell_dget fr OK); assumption|].
    exfalso. destruct OK as [ND L]. apply In_nth_error in M as [i Hi]. destruct (nth_error row i) as [c|] eqn:E.
    - rewrite (proj2 (dget_row (fr_columns fr) row "PVS_ID" c ND (L row Hr))) in D; [discriminate|eauto].
    - apply nth_error_None in E. rewrite (L row Hr) in E. assert (i < List.length (fr_columns fr))%nat by (apply nth_error_Some; congruence). lia.
  Qed.

  Variable order : list string -> list string.
  Hypothesis HO : set_order order.
  Lemma c94_result : forall input fr yuv w h ref_dir dis_dir ext out, frame_ok fr ->
    convert_file text_int order input fr yuv w h ref_dir dis_dir ext = (out, Done tt) ->
    exists said refs ds ids srcs,
      out = map Unknown said ++ [Json (ConvOut (get_file_name_without_extension input) yuv w h "" "" refs ds)] /\
      (forall k, In k said <-> fr_rows fr <> [] /\ In k (fr_columns fr) /\ unknown_column k) /\
      NoDup ids /\ (forall t, In t ids <-> exists row, In row (fr_rows fr) /\ pvs_row fr row t) /\
      Forall2 (fun t d => dis_entry text_int fr dis_dir ext t d /\ cd_os d <> []) ids ds /\
      NoDup srcs /\ (forall s, In s srcs <-> exists t db hrc, In t ids /\ three t db s hrc) /\
      Forall2 (ref_entry ref_dir ext) srcs refs.
  Proof.
    intros input fr yuv w h ref_dir dis_dir ext out OK H. unfold convert_file in H. destruct (pvs_column fr) as [cells|] eqn:PC; [|discriminate].
    destruct (pvs_column_some fr cells OK PC) as [Hin FC]. destruct (each get_ids_from_pvs cells) as [ids|e|e] eqn:G; try discriminate. apply each_sound in G.
    set (pvs := map (fun p => fst (fst (fst p))) ids) in H. set (srcs := map (fun p => snd (fst p)) ids) in H.
    destruct (each (ref_video ref_dir ext) (order srcs)) as [refs|e|e] eqn:RF; try discriminate. apply each_sound in RF.
    destruct (dis_videos text_int dis_dir ext (records fr) (order pvs)) as [said r] eqn:D. destruct r as [ds|e|e]; try discriminate. injection H as <-.
    destruct (HO pvs) as [ND Hp]. destruct (HO srcs) as [ND' Hs].
    assert (PV : forall t, In t pvs <-> exists row, In row (fr_rows fr) /\ pvs_row fr row t).
    { intro t. destruct (Forall2_in _ _ _ _ _ FC) as [C1 C2]. destruct (Forall2_in _ _ _ _ _ G) as [G1 G2]. unfold pvs. rewrite in_map_iff. split.
      - intros ([[[t' db] src] hrc] & E & Hp'). cbn [fst] in E. subst t'. destruct (G2 _ Hp') as (c & Hc & Q). apply ids_spec in Q as (s & -> & S & _). destruct (C2 _ Hc) as (row & Hr & P).
        exists row. split; [exact Hr|]. exists s. auto.
      - intros (row & Hr & s & P & S). destruct (C1 row Hr) as (c & Hc & P'). assert (c = CText s) by (apply (pvs_cell_fun fr OK row); assumption). subst c.
        destruct (G1 _ Hc) as ([[[t' db] src] hrc] & Hi & Q). exists (t', db, src, hrc). split; [|exact Hi]. cbn [fst]. apply ids_spec in Q as (s' & E & S' & _). injection E as <-.
        apply strip_fun in S. apply strip_fun in S'. congruence. }
    assert (ST : forall t, In t (order pvs) -> strip t = t).
    { intros t Ht. apply Hp in Ht. apply PV in Ht as (row & _ & s & _ & S). apply strip_fun in S. rewrite <- S. apply strip_strip. }
    destruct (diss_sound fr OK dis_dir ext (order pvs) said ds ST D) as (FD & U1 & U2).
    exists said, refs, ds, (order pvs), (order srcs). split; [reflexivity|]. split; [|split; [exact ND|]; split; [intro t; rewrite Hp; apply PV|]; split; [exact FD|]; split; [exact ND'|]; split].
    - intro k. split.
      + intro Hk. split; [|apply U1; exact Hk]. intro E. assert (N : order pvs = []).
        { destruct (order pvs) as [|t l] eqn:O; [reflexivity|]. assert (In t pvs) by (apply Hp; left; reflexivity). apply PV in H as (row & Hr & _). rewrite E in Hr. destruct Hr. }
        rewrite N in D. cbn in D. injection D as <- _. destruct Hk.
      + intros (E & Hk & Q). apply U2; [|exact Hk|exact Q]. intro N. destruct (fr_rows fr) as [|row rows] eqn:R; [congruence|].
        destruct (Forall2_in _ _ _ _ _ FC) as [C1 _]. destruct (C1 row (or_introl eq_refl)) as (c & Hc & P). destruct (Forall2_in _ _ _ _ _ G) as [G1 _].
        destruct (G1 c Hc) as ([[[t db] src] hrc] & Hi & _). assert (In t (order pvs)) by (apply Hp; unfold pvs; apply in_map_iff; exists (t, db, src, hrc); auto). rewrite N in H. destruct H.
    - intro s. rewrite Hs. unfold srcs. rewrite in_map_iff. destruct (Forall2_in _ _ _ _ _ G) as [_ G2]. split.
      + intros ([[[t db] src] hrc] & E & Hi). cbn [fst snd] in E. subst src. exists t, db, hrc. split; [apply Hp; unfold pvs; apply in_map_iff; exists (t, db, s, hrc); auto|].
        destruct (G2 _ Hi) as (c & _ & Q). apply ids_spec in Q as (_ & _ & _ & T3). exact T3.
      + intros (t & db & hrc & Ht & T3). apply Hp in Ht. unfold pvs in Ht. apply in_map_iff in Ht as ([[[t' db'] src'] hrc'] & E & Hi). cbn [fst] in E. subst t'.
        exists (t, db', src', hrc'). split; [|exact Hi]. cbn [fst snd]. destruct (G2 _ Hi) as (c & _ & Q). apply ids_spec in Q as (_ & _ & _ & T3'). destruct (three_fun _ _ _ _ _ _ _ T3 T3') as (_ & -> & _). reflexivity.
    - eapply Forall2_imp; [|exact RF]. intros s r _ Q. unfold ref_video in Q. destruct (first_int s) as [cid|e|e] eqn:F; try discriminate. cbn [then_] in Q. injection Q as <-.
      split; [reflexivity|]. split; [apply first_int_iff; exact F|apply os_join_spec].
  Qed.

  Lemma c94_total : forall input fr yuv w h ref_dir dis_dir ext, table_ok text_int fr -> exists out, convert_file text_int order input fr yuv w h ref_dir dis_dir ext = (out, Done tt).
  Proof.
    intros input fr yuv w h ref_dir dis_dir ext (OK & Hin & HK & HR). unfold convert_file. destruct (pvs_column fr) as [cells|] eqn:PC.
    2:{ unfold pvs_column in PC. rewrite (proj2 (memb_In _ String.eqb String.eqb_eq "PVS_ID" (fr_columns fr)) Hin) in PC. discriminate. }
    destruct (pvs_column_some fr cells OK PC) as [_ FC]. destruct (Forall2_in _ _ _ _ _ FC) as [C1 C2].
    assert (GC : forall c, In c cells -> exists t db src hrc row z a, get_ids_from_pvs c = Done (t, db, src, hrc) /\ In row (fr_rows fr) /\ pvs_row fr row t /\ first_number src z /\ first_number hrc a).
    { intros c Hc. destruct (C2 c Hc) as (row & Hr & P). destruct (HR row Hr) as (t & db & src & hrc & z & a & os & (s & P' & S) & T3 & F1 & F2 & V). assert (c = CText s) by (apply (pvs_cell_fun fr OK row); assumption). subst c.
      exists t, db, src, hrc, row, z, a. split; [apply ids_spec; eauto|]. split; [exact Hr|]. split; [exists s; auto|]. auto. }
    destruct (each_complete _ _ get_ids_from_pvs cells) as [ids G]; [intros c Hc; destruct (GC c Hc) as (t & db & src & hrc & _ & _ & _ & E & _); eauto|]. rewrite G. apply each_sound in G.
    destruct (Forall2_in _ _ _ _ _ G) as [_ G2].
    destruct (each_complete _ _ (ref_video ref_dir ext) (order (map (fun p => snd (fst p)) ids))) as [refs RF].
    { intros s Hs. apply (proj1 (proj2 (HO _) s)) in Hs. apply in_map_iff in Hs as (p & E & Hp). destruct (G2 p Hp) as (c & Hc & Q). destruct (GC c Hc) as (t & db & src & hrc & row & z & a & E' & _ & _ & F1 & _).
      rewrite E' in Q. injection Q as <-. cbn [fst snd] in E. subst s. unfold ref_video. apply first_int_iff in F1. rewrite F1. cbn [then_]. eauto. }
    rewrite RF. destruct (diss_complete fr dis_dir ext (order (map (fun p => fst (fst (fst p))) ids))) as (said & ds & D); [|rewrite D; eauto].
    intros t Ht. apply (proj1 (proj2 (HO _) t)) in Ht. apply in_map_iff in Ht as (p & E & Hp). destruct (G2 p Hp) as (c & Hc & Q). destruct (GC c Hc) as (t' & db & src & hrc & row & z & a & E' & Hr & P & _).
    rewrite E' in Q. injection Q as <-. cbn [fst] in E. subst t'. apply dis_complete; eauto.
  Qed.

  Lemma c94_no_column : forall input fr yuv w h ref_dir dis_dir ext, ~ In "PVS_ID" (fr_columns fr) -> convert_file text_int order input fr yuv w h ref_dir dis_dir ext = ([], Exits 1).
  Proof.
    intros input fr yuv w h ref_dir dis_dir ext H. unfold convert_file, pvs_column. destruct (memb String.eqb "PVS_ID" (fr_columns fr)) eqn:M; [|reflexivity].
    apply (memb_In _ String.eqb String.eqb_eq) in M. contradiction.
  Qed.
  Lemma c94_malformed : forall input fr yuv w h ref_dir dis_dir ext, frame_ok fr -> In "PVS_ID" (fr_columns fr) -> (forall row, In row (fr_rows fr) -> exists s, pvs_cell fr row (CText s)) ->
    (exists row t, In row (fr_rows fr) /\ pvs_row fr row t /\ forall db src hrc, ~ three t db src hrc) -> convert_file text_int order input fr yuv w h ref_dir dis_dir ext = ([], Exits 1).
  Proof.
    intros input fr yuv w h ref_dir dis_dir ext OK Hin HT (row & t & Hr & P & N). unfold convert_file. destruct (pvs_column fr) as [cells|] eqn:PC; [|reflexivity].
    destruct (pvs_column_some fr cells OK PC) as [_ FC]. replace (each get_ids_from_pvs cells) with (@Exits (list (string * string * string * string)) 1); [reflexivity|]. symmetry.
    assert (G : forall c, In c cells -> (exists p, get_ids_from_pvs c = Done p) \/ get_ids_from_pvs c = Exits 1).
    { intros c Hc. destruct (Forall2_in _ _ _ _ _ FC) as [_ C2]. destruct (C2 c Hc) as (r & Hr' & P'). destruct (HT r Hr') as (s & Ps). assert (c = CText s) by (apply (pvs_cell_fun fr OK r); assumption). subst c.
      cbn [get_ids_from_pvs]. destruct (split_on "_" (strip s)) as [|x [|y [|z [|u l]]]]; eauto. }
    assert (B : exists c, In c cells /\ get_ids_from_pvs c = Exits 1).
    { destruct (Forall2_in _ _ _ _ _ FC) as [C1 _]. destruct (C1 row Hr) as (c & Hc & Pc). destruct P as (s & Ps & S). assert (c = CText s) by (apply (pvs_cell_fun fr OK row); assumption). subst c.
      exists (CText s). split; [exact Hc|]. destruct (G _ Hc) as [[[[[t' db] src] hrc] E]|E]; [|exact E]. apply ids_spec in E as (s' & Q & S' & T3). injection Q as <-. apply strip_fun in S. apply strip_fun in S'.
      destruct (N db src hrc). congruence. }
    clear FC PC. induction cells as [|c cells IH]; [destruct B as (c & [] & _)|]. cbn [each]. destruct (G c (or_introl eq_refl)) as [[p E]|E]; rewrite E; cbn [then_]; [|reflexivity].
    rewrite IH; [reflexivity|intros x Hx; apply G; right; exact Hx|]. destruct B as (x & [<-|Hx] & Q); [congruence|eauto].
  Qed.
  (** ** Reading the result *)
  Lemma c94_reader : forall T (N : Num T) (ref_score : T) input fr yuv w h ref_dir dis_dir ext, table_ok text_int fr -> fr_rows fr <> [] ->
    exists said o a ids names, convert_file text_int order input fr yuv w h ref_dir dis_dir ext = (map Unknown said ++ [Json o], Done tt) /\
      raw_reader_3darray (loaded ref_score o) = Ok a /\
      NoDup ids /\ (forall t, In t ids <-> exists row, In row (fr_rows fr) /\ pvs_row fr row t) /\ dE a = List.length ids /\
      StronglySorted str_lt names /\ (forall n, In n names <-> In n (fr_columns fr) /\ rating_column n) /\ dS a = List.length names /\ dR a = 1%nat /\
      forall e t s n, nth_error ids e = Some t -> nth_error names s = Some n ->
        exists d z, nth_error (co_dis_videos o) e = Some d /\ dis_entry text_int fr dis_dir ext t d /\ In (n, z) (cd_os d) /\ at3 a e s 0 = nofZ z.
  Proof.
    intros T N ref_score input fr yuv w h ref_dir dis_dir ext HT HN. destruct (c94_total input fr yuv w h ref_dir dis_dir ext HT) as [out E]. destruct HT as (OK & Hin & HK & HR).
    destruct (c94_result _ _ _ _ _ _ _ _ _ OK E) as (said & refs & ds & ids & srcs & -> & U & ND & Hids & FD & NDs & Hsrcs & FR).
    set (o := ConvOut (get_file_name_without_extension input) yuv w h "" "" refs ds) in *. set (dset_ := loaded ref_score o).
    destruct (Forall2_in _ _ _ _ _ FD) as [FD1 FD2]. destruct (Forall2_in _ _ _ _ _ FR) as [FR1 FR2].
    assert (NE : ids <> []). { destruct (fr_rows fr) as [|row rows] eqn:R; [congruence|]. destruct (HR row (or_introl eq_refl)) as (t & db & src & hrc & c & a & os & P & _). intro Z.
      assert (X : In t ids) by (apply Hids; exists row; split; [left; reflexivity|exact P]). rewrite Z in X. destruct X. }
    assert (LD : List.length ids = List.length ds) by (clear -FD; induction FD; cbn; congruence).
    assert (NDS : ds <> []) by (intro Z; apply NE; rewrite Z in LD; destruct ids; [reflexivity|discriminate]).
    assert (Hdis : forall dv, In dv (ds_dis dset_) -> exists d t, In d ds /\ In t ids /\ dis_entry text_int fr dis_dir ext t d /\
      dv = DVideo (cd_content_id d) (cd_asset_id d) (cd_path d) (Some (ODict (map (fun p => (fst p, PNum (nofZ (snd p)))) (cd_os d)))) None None []).
    { intros dv Hdv. unfold dset_, loaded in Hdv. cbn [ds_dis co_dis_videos o] in Hdv. apply in_map_iff in Hdv as (d & <- & Hd). destruct (FD2 d Hd) as (t & Ht & Q & _). exists d, t. auto. }
    assert (Rawok : raw_dataset_ok dset_).
    { split; [|split; [|split; [|split; [|split]]]].
      - unfold dset_, loaded. cbn [ds_refs co_ref_videos o]. destruct ids as [|t ids']; [congruence|]. destruct (proj1 (Hids t) (or_introl eq_refl)) as (row & Hr & P).
        destruct (FD1 t (or_introl eq_refl)) as (d & _ & (db & src & hrc & _ & _ & _ & T3 & _) & _). assert (Hs : In src srcs) by (apply Hsrcs; exists t, db, hrc; split; [left; reflexivity|exact T3]).
        destruct (FR1 src Hs) as (r & Hr' & _). destruct refs; [destruct Hr'|discriminate].
      - unfold dset_, loaded. cbn [ds_dis co_dis_videos o]. destruct ds; [congruence|discriminate].
      - intros r Hr. unfold dset_, loaded in Hr. cbn [ds_refs co_ref_videos o] in Hr. apply in_map_iff in Hr as (r' & <- & Hr). destruct (FR2 r' Hr) as (src & _ & _ & F & _). cbn [rv_cid].
        destruct F as (p & dd & q & _ & _ & Nm & _). clear -Nm. induction Nm as [a z [D _]|s y a z _ IH [D _]]; lia.
      - intros dv Hdv. destruct (Hdis dv Hdv) as (d & t & Hd & Ht & (db & src & hrc & before & row & after & T3 & F1 & _) & ->). cbn [dv_cid].
        assert (Hs : In src srcs) by (apply Hsrcs; eauto). destruct (FR1 src Hs) as (r & Hr & _ & F & _). exists (RVideo (cr_content_id r) (cr_path r) [("content_name", cr_content_name r)]).
        split; [unfold dset_, loaded; cbn [ds_refs co_ref_videos o]; apply in_map_iff; eauto|]. cbn [rv_cid]. apply first_int_iff in F. apply first_int_iff in F1. congruence.
      - intros dv Hdv. destruct (Hdis dv Hdv) as (d & t & _ & _ & _ & ->). cbn [dv_os]. eexists. split; [reflexivity|discriminate].
      - intros dv0 rest b l0 E0 Q. exfalso. destruct (Hdis dv0) as (d & t & _ & _ & _ & ->); [rewrite E0; left; reflexivity|]. cbn [dv_os] in Q. discriminate. }
    assert (HD : dict_style (ds_dis dset_)).
    { apply Forall_forall. intros dv Hdv. destruct (Hdis dv Hdv) as (d & t & _ & _ & (db & src & hrc & before & row & after & _ & _ & _ & _ & _ & _ & V & _) & ->). cbn [dv_os]. eexists. split; [reflexivity|].
      rewrite map_map. cbn [fst]. destruct OK as [NDc _]. exact (votes_nodup _ _ _ NDc V). }
    assert (NDD : ds_dis dset_ <> []) by exact (proj1 (proj2 Rawok)).
    assert (VW : votes_wf (ds_dis dset_)).
    { apply Forall_forall. intros dv Hdv. destruct (Hdis dv Hdv) as (d & t & _ & _ & _ & ->). cbn [dv_os]. apply Forall_forall. intros kv Hkv. apply in_map_iff in Hkv as (p & <- & _). cbn [snd]. eexists. constructor. }
    destruct (proj2 (assert_dataset_raw_iff dset_) Rawok) as [u AU].
    destruct (array_dict_total (ds_dis dset_) (get_num_observers (ds_dis dset_)) NDD HD VW) as [a AA].
    destruct (get_list_observers_dict (ds_dis dset_) HD) as (names & _ & ON).
    destruct (array_dict_sound (ds_dis dset_) names _ a NDD HD ON AA) as (DE & DS & MR & AT).
    assert (R1 : dR a = 1%nat).
    { destruct MR as (_ & _ & [Q|(v & xs & (dv & Hdv & [(b & l & Q & _)|(d' & n & Q & Hn)]) & VV & L)]); [exact Q| |]; destruct (Hdis dv Hdv) as (d & t & _ & _ & _ & ->); cbn [dv_os] in Q; [discriminate|].
      injection Q as <-. apply in_map_iff in Hn as (p & Ep & _). injection Ep as _ <-. inversion VV; subst. exact (eq_sym L). }
    exists said, o, a, ids, names. split; [exact E|]. split; [unfold raw_reader_3darray; fold dset_; rewrite AU; exact AA|]. split; [exact ND|]. split; [exact Hids|].
    split; [rewrite DE; unfold dset_, loaded; cbn [ds_dis co_dis_videos o]; rewrite map_length; congruence|].
    destruct ON as [SS ON]. split; [exact SS|].
    assert (NM : forall n, In n names <-> In n (fr_columns fr) /\ rating_column n).
    { intro n. rewrite ON. split.
      - intros (dv & d' & v & Hdv & Q & Hn). destruct (Hdis dv Hdv) as (d & t & _ & _ & (db & src & hrc & before & row & after & _ & _ & _ & _ & _ & _ & V & _) & ->). cbn [dv_os] in Q. injection Q as <-.
        apply in_map_iff in Hn as (p & Ep & Hp). injection Ep as <- _. apply (votes_names _ _ _ V). apply in_map. exact Hp.
      - intros Hn. destruct ds as [|d ds'] eqn:Eds; [congruence|]. destruct (FD2 d (or_introl eq_refl)) as (t & Ht & (db & src & hrc & before & row & after & T1 & T2 & T4 & T5 & T6 & T7 & V & T8) & _).
        apply (votes_names _ _ _ V) in Hn. apply in_map_iff in Hn as (p & <- & Hp).
        exists (DVideo (cd_content_id d) (cd_asset_id d) (cd_path d) (Some (ODict (map (fun p => (fst p, PNum (nofZ (snd p)))) (cd_os d)))) None None []), (map (fun p => (fst p, PNum (nofZ (snd p)))) (cd_os d)), (PNum (nofZ (snd p))).
        split; [unfold dset_, loaded; cbn [ds_dis co_dis_videos o map]; left; reflexivity|]. split; [reflexivity|]. apply in_map_iff. exists p. auto. }
    split; [exact NM|]. split; [exact DS|]. split; [exact R1|]. intros e t s n He Hs.
    assert (Dd : exists d, nth_error ds e = Some d /\ dis_entry text_int fr dis_dir ext t d).
    { clear -FD He. revert e He. induction FD as [|x d l l' [Q _] F IH]; intros [|e] He; try discriminate; [injection He as <-; exists d; auto|]. apply IH. exact He. }
    destruct Dd as (d & Hd & Q). assert (Hdv : nth_error (ds_dis dset_) e = Some (DVideo (cd_content_id d) (cd_asset_id d) (cd_path d) (Some (ODict (map (fun p => (fst p, PNum (nofZ (snd p)))) (cd_os d)))) None None [])).
    { unfold dset_, loaded. cbn [ds_dis co_dis_videos o]. apply map_nth_error with (f := fun d => DVideo (cd_content_id d) (cd_asset_id d) (cd_path d) (Some (ODict (map (fun p => (fst p, PNum (nofZ (snd p)))) (cd_os d)))) None None []) in Hd. exact Hd. }
    destruct (AT e _ s n Hdv Hs) as (xs & (d' & Ed & VD) & XS). cbn [dv_os] in Ed. injection Ed as <-.
    assert (Q' := Q). destruct Q' as (db & src & hrc & before & row & after & _ & _ & _ & _ & _ & _ & V & _).
    assert (Hn : In n (map fst (cd_os d))) by (apply (votes_names _ _ _ V); apply NM; eapply nth_error_In; exact Hs).
    destruct VD as [(v & Hv & VV)|[Abs _]]; [|rewrite map_map in Abs; cbn [fst] in Abs; contradiction].
    apply in_map_iff in Hv as (p & Ep & Hp). injection Ep as <- <-. inversion VV; subst xs. exists d, (snd p). split; [exact Hd|]. split; [exact Q|]. split; [destruct p; exact Hp|].
    rewrite (XS 0%nat) by lia. reflexivity.
  Qed.
End Tables.
