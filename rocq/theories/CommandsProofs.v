(** Lemmas for claim C91. *)
From Coq Require Import Ascii String.
From Coq Require Import List ZArith Bool Arith Lia.
From Verif Require Import PyBase Classes Tools Names Commands SpecTools SpecNames SpecCommands ClassesProofs Tools2Proofs NamesProofs BaseProofs.
Import ListNotations.
Local Open Scope list_scope.

(** ** Options *)
Lemma holds_nat : forall argv i x, holds_at argv (Z.of_nat i) x <-> nth_error argv i = Some x.
Proof. intros. unfold holds_at. rewrite Nat2Z.id. split; [intros [[_ H]|[H _]]; [exact H|lia]|intro H; left; split; [lia|exact H]]. Qed.
Lemma value_cases : forall o l r, option_value o l r ->
  (~ In o l /\ r = None) \/ exists pre post, l = pre ++ o :: post /\ ~ In o pre /\ r = hd_error post.
Proof.
  intros o l r H. induction H as [| | x l|y l r D H IH].
  - left. split; [intros []|reflexivity].
  - right. exists [], []. repeat split. intros [].
  - right. exists [], (x :: l). repeat split. intros [].
  - destruct IH as [[N ->]|[pre [post [-> [N ->]]]]].
    + left. split; [intros [E|I]; contradiction|reflexivity].
    + right. exists (y :: pre), post. repeat split. intros [E|I]; contradiction.
Qed.
Lemma value_total : forall o l, exists r, option_value o l r.
Proof.
  induction l as [|y l [r IH]]; [exists None; constructor|]. destruct (string_dec y o) as [->|D].
  - destruct l as [|x l]; [exists None; constructor|exists (Some x); constructor].
  - exists r. constructor; assumption.
Qed.
Section Argv.
  Variables (p m d : string) (rest : list string).
  Let argv := p :: m :: d :: rest.
  Lemma argv_at : forall i, nth_error argv (3 + i) = nth_error rest i.
  Proof. reflexivity. Qed.
  Lemma argv_len : Z.of_nat (List.length argv) = (3 + Z.of_nat (List.length rest))%Z.
  Proof. unfold argv. cbn [List.length]. lia. Qed.
  Lemma argv_holds : forall i x, (3 <= i)%Z -> (holds_at argv i x <-> nth_error rest (Z.to_nat (i - 3)) = Some x).
  Proof.
    intros i x L. replace i with (Z.of_nat (3 + Z.to_nat (i - 3))) at 1 by lia. rewrite holds_nat, argv_at. tauto.
  Qed.
  Lemma cmd_option : forall o r, option_value o rest r -> get_cmd_option argv 3 (Z.of_nat (List.length argv)) o = Ok r.
  Proof.
    intros o r V. destruct (value_cases o rest r V) as [[N ->]|[pre [post [E [N ->]]]]].
    - apply c58_absent; [intro; split; [lia|lia]|]. intros i [L U] H. apply argv_holds in H; [|exact L]. apply N. eapply nth_error_In. exact H.
    - assert (F : first_at argv 3 (Z.of_nat (List.length argv)) (3 + Z.of_nat (List.length pre)) o).
      { rewrite argv_len, E, app_length. cbn [List.length]. split; [lia|]. split.
        - apply argv_holds; [lia|]. rewrite E. replace (Z.to_nat (3 + Z.of_nat (List.length pre) - 3)) with (List.length pre) by lia.
          rewrite nth_error_app2 by lia. rewrite Nat.sub_diag. reflexivity.
        - intros j [L U] H. apply argv_holds in H; [|exact L]. rewrite E, nth_error_app1 in H by lia. apply N. eapply nth_error_In. exact H. }
      destruct post as [|x post]; cbn [hd_error].
      + apply c58_last; [lia|]. replace (Z.of_nat (List.length argv) - 1)%Z with (3 + Z.of_nat (List.length pre))%Z; [exact F|].
        rewrite argv_len, E, app_length. cbn [List.length]. lia.
      + apply (c58_found argv 3 _ _ o x ltac:(lia) F).
        * rewrite argv_len, E, app_length. cbn [List.length]. lia.
        * apply argv_holds; [lia|]. rewrite E. replace (Z.to_nat (3 + Z.of_nat (List.length pre) + 1 - 3)) with (S (List.length pre)) by lia.
          rewrite nth_error_app2 by lia. replace (S (List.length pre) - List.length pre)%nat with 1%nat by lia. reflexivity.
  Qed.
  Lemma cmd_exists : forall o, cmd_option_exists argv 3 (Z.of_nat (List.length argv)) o = Ok (if in_dec string_dec o rest then true else false).
  Proof.
    intro o. destruct (c58_exists argv 3 (Z.of_nat (List.length argv)) o) as [T F]; [intro; split; lia|].
    destruct (in_dec string_dec o rest) as [I|N].
    - apply T. apply In_nth_error in I as [n H]. exists (3 + Z.of_nat n)%Z. assert (n < List.length rest)%nat by (apply nth_error_Some; congruence).
      rewrite argv_len. split; [lia|]. apply argv_holds; [lia|]. replace (Z.to_nat (3 + Z.of_nat n - 3)) with n by lia. exact H.
    - apply F. intros i [L U] H. apply argv_holds in H; [|exact L]. apply N. eapply nth_error_In. exact H.
  Qed.
End Argv.

(** ** Paths *)
Lemma ends_dec : forall d, (exists e, d = (e ++ "/")%string) <-> exists i, rfind "/"%char d = Some i /\ S i = String.length d.
Proof.
  intro d. split.
  - intros [e ->]. exists (String.length e). rewrite (rfind_app "/"%char e ""%string (free_nil _)), length_app_s. split; [reflexivity|]. cbn [String.length]. lia.
  - intros [i [R L]]. destruct (split_last "/"%char d) as [F|[s [n [-> F]]]]; [rewrite (rfind_free _ _ F) in R; discriminate|].
    rewrite (rfind_app _ _ _ F) in R. injection R as <-. rewrite length_app_s in L. cbn [String.length] in L. destruct n; [|cbn [String.length] in L; lia].
    exists s. reflexivity.
Qed.
Lemma join_spec : forall d f, joins d f (path_join d f).
Proof.
  intros d f. unfold joins, path_join. destruct (rfind "/"%char d) as [i|] eqn:E.
  - destruct (Nat.eqb_spec (S i) (String.length d)) as [L|L].
    + left. split; [|reflexivity]. right. apply ends_dec. exists i. split; assumption.
    + right. split; [|reflexivity]. split; [intros ->; discriminate|]. rewrite ends_dec. intros [j [R K]]. rewrite E in R. injection R as ->. contradiction.
  - destruct (String.eqb_spec d "") as [->|D]; [left; split; [left; reflexivity|reflexivity]|]. right. split; [|reflexivity]. split; [exact D|].
    rewrite ends_dec. intros [j [R _]]. rewrite E in R. discriminate.
Qed.
Lemma joins_fun : forall d f p q, joins d f p -> joins d f q -> p = q.
Proof. intros d f p q [[A ->]|[[A B] ->]] [[C ->]|[[C D] ->]]; try reflexivity; exfalso; tauto. Qed.

(** ** Sequences of effects *)
Lemma follows_done : forall op, follows op [] (done 0%Z).
Proof. intro op. left. split; [intros e []|reflexivity]. Qed.
Lemma follows_perform : forall op e r plan (k : unit -> act Z), op e = r -> follows op plan (k tt) -> follows op (e :: plan) (andThen (perform e r) k).
Proof.
  intros op e r plan k E F. unfold perform, andThen. destruct r as [[]|x]; cbn [fst snd].
  - destruct F as [[A ->]|(b & e' & l & x & P & A & X & ->)]; cbn [fst snd app].
    + left. split; [intros u [<-|U]; auto|reflexivity].
    + right. exists (e :: b), e', l, x. split; [rewrite P; reflexivity|]. split; [intros u [<-|U]; auto|]. auto.
  - right. exists [], e, plan, x. split; [reflexivity|]. split; [intros u []|]. auto.
Qed.
Lemma follows_emit : forall op e plan (k : unit -> act Z), op e = Ok tt -> follows op plan (k tt) -> follows op (e :: plan) (andThen (emit e) k).
Proof. intros op e plan k E F. exact (follows_perform op e (Ok tt) plan k E F). Qed.
Lemma follows_skip : forall op plan (k : unit -> act Z), follows op plan (k tt) -> follows op plan (andThen (done tt) k).
Proof. intros op plan k F. unfold andThen, done. cbn [snd fst app]. destruct (k tt). exact F. Qed.
Lemma lift_ok : forall A B (a : A) (k : A -> act B), andThen (lift (Ok a)) k = k a.
Proof. intros. unfold andThen, lift. cbn [fst snd app]. destruct (k a). reflexivity. Qed.
Lemma lift_err : forall A B e (k : A -> act B), andThen (lift (Err e)) k = ([], Err e).
Proof. reflexivity. Qed.

(** ** sureal/cmd_deprecated.py *)
Section Deprecated.
  Context {R : Type}.
  Variables (models : list nat -> string -> list string -> reader_class -> res R)
            (show : res unit) (there : string -> bool) (makedirs save : string -> res unit)
            (h : hierarchy) (base : nat) (print_json : R -> res unit) (dump : string -> R -> res unit).
  Let command := deprecated_main models show there makedirs save h base print_json dump.

  Lemma c91_usage : forall argv, (List.length argv < 3)%nat -> command argv = ([UsageShown], Ok 2%Z).
  Proof. intros argv L. unfold command, deprecated_main. apply Nat.ltb_lt in L. rewrite L. reflexivity. Qed.
  Lemma deprecated_unfold : forall p m d rest dir, option_value "--output-dir" rest dir -> command (p :: m :: d :: rest) =
    match find_subclass h base m with
    | Err _ => ([ErrorShown], Ok 1%Z)
    | Ok c =>
        andThen (lift (models [c] d (deprecated_plots m) RatingReader)) (fun r =>
        andThen (emit (ModelRun [c] d (deprecated_plots m) RatingReader)) (fun _ =>
        andThen (if (if in_dec string_dec "--print"%string rest then true else false) then perform ResultShown (print_json r) else done tt) (fun _ =>
        match dir with
        | None => andThen (perform FiguresShown show) (fun _ => done 0%Z)
        | Some dir =>
            andThen (if there dir then done tt else perform (DirectoryMade dir) (makedirs dir)) (fun _ =>
            andThen (perform (FiguresSaved dir) (save dir)) (fun _ =>
            andThen (perform (FileWritten (path_join dir "sureal.json")) (dump (path_join dir "sureal.json") r)) (fun _ =>
            done 0%Z)))
        end)))
    end.
  Proof.
    intros p m d rest dir V. unfold command, deprecated_main. replace (Nat.ltb (List.length (p :: m :: d :: rest)) 3) with false by reflexivity.
    change (py_index (p :: m :: d :: rest) 1) with (Ok m : res string). change (py_index (p :: m :: d :: rest) 2) with (Ok d : res string).
    rewrite !lift_ok. rewrite (cmd_option p m d rest _ dir V), lift_ok, (cmd_exists p m d rest), lift_ok. destruct (find_subclass h base m); reflexivity.
  Qed.

  Hypotheses (Hord : defined_in_order h) (Htree : tree_below h base).
  Lemma c91_unknown : forall p m d rest, (forall c, ~ only_typed h base m c) -> command (p :: m :: d :: rest) = ([ErrorShown], Ok 1%Z).
  Proof.
    intros p m d rest N. destruct (value_total "--output-dir"%string rest) as [dir V]. rewrite (deprecated_unfold p m d rest dir V).
    rewrite (c56_rejected h Hord base m Htree N). reflexivity.
  Qed.
  Lemma c91_raises : forall p m d rest c e, only_typed h base m c -> models [c] d (deprecated_plots m) RatingReader = Err e ->
    command (p :: m :: d :: rest) = ([], Err e).
  Proof.
    intros p m d rest c e T E. destruct (value_total "--output-dir"%string rest) as [dir V]. rewrite (deprecated_unfold p m d rest dir V).
    rewrite (proj2 (c56_found h Hord base m c Htree) T), E. reflexivity.
  Qed.
  Lemma c91_runs : forall p m d rest c r dir plan, only_typed h base m c -> models [c] d (deprecated_plots m) RatingReader = Ok r ->
    option_value "--output-dir" rest dir -> deprecated_plan c d (deprecated_plots m) (In "--print"%string rest) there dir plan ->
    follows (operation show (print_json r) makedirs save (fun x => dump x r)) plan (command (p :: m :: d :: rest)) /\
    ((exists r', print_json r = Ok r') -> show = Ok tt -> (forall x, makedirs x = Ok tt) -> (forall x, save x = Ok tt) -> (forall x, dump x r = Ok tt) ->
     command (p :: m :: d :: rest) = (plan, Ok 0%Z)).
  Proof.
    intros p m d rest c r dir plan T E V P. rewrite (deprecated_unfold p m d rest dir V), (proj2 (c56_found h Hord base m c Htree) T), E, lift_ok. split.
    - destruct P as [shown S1 S2|shown dir made file S1 S2 M1 M2 J].
      + cbn [app]. apply follows_emit; [reflexivity|]. destruct (in_dec string_dec "--print"%string rest) as [I|N].
        * rewrite (S1 I). cbn [app]. apply follows_perform; [reflexivity|]. apply follows_perform; [reflexivity|]. apply follows_done.
        * rewrite (S2 N). cbn [app]. apply follows_skip. apply follows_perform; [reflexivity|]. apply follows_done.
      + rewrite (joins_fun _ _ _ _ J (join_spec _ _)). cbn [app]. apply follows_emit; [reflexivity|].
        assert (F : follows (operation show (print_json r) makedirs save (fun x => dump x r)) (made ++ [FiguresSaved dir; FileWritten (path_join dir "sureal.json")])
          (andThen (if there dir then done tt else perform (DirectoryMade dir) (makedirs dir)) (fun _ =>
            andThen (perform (FiguresSaved dir) (save dir)) (fun _ =>
            andThen (perform (FileWritten (path_join dir "sureal.json")) (dump (path_join dir "sureal.json") r)) (fun _ => done 0%Z))))).
        { destruct (there dir).
          - rewrite (M1 eq_refl). cbn [app]. apply follows_skip. apply follows_perform; [reflexivity|]. apply follows_perform; [reflexivity|]. apply follows_done.
          - rewrite (M2 eq_refl). cbn [app]. apply follows_perform; [reflexivity|]. apply follows_perform; [reflexivity|]. apply follows_perform; [reflexivity|]. apply follows_done. }
        destruct (in_dec string_dec "--print"%string rest) as [I|N].
        * rewrite (S1 I). cbn [app]. apply follows_perform; [reflexivity|]. exact F.
        * rewrite (S2 N). cbn [app]. apply follows_skip. exact F.
    - intros [[] PJ] SH MK SV DP. unfold perform. rewrite PJ, SH. destruct P as [shown S1 S2|shown dir made file S1 S2 M1 M2 J].
      + destruct (in_dec string_dec "--print"%string rest) as [I|N]; [rewrite (S1 I)|rewrite (S2 N)]; reflexivity.
      + rewrite MK, SV, DP, (joins_fun _ _ _ _ J (join_spec _ _)).
        destruct (there dir); [rewrite (M1 eq_refl)|rewrite (M2 eq_refl)]; destruct (in_dec string_dec "--print"%string rest) as [I|N]; [rewrite (S1 I)|rewrite (S2 N)|rewrite (S1 I)|rewrite (S2 N)]; reflexivity.
  Qed.
  Lemma c91_plan_exists : forall c path plots rest dir, exists plan, deprecated_plan c path plots (In "--print"%string rest) there dir plan.
  Proof.
    intros c path plots rest dir.
    assert (S : exists shown : list effect, (In "--print"%string rest -> shown = [ResultShown]) /\ (~ In "--print"%string rest -> shown = [])).
    { destruct (in_dec string_dec "--print"%string rest) as [I|N]; [exists [ResultShown]|exists []]; split; intro; try reflexivity; contradiction. }
    destruct S as [shown [S1 S2]]. destruct dir as [dir|]; [|eexists; apply dp_show; eassumption].
    eexists. apply (dp_write c path plots _ there shown dir (if there dir then [] else [DirectoryMade dir]) (path_join dir "sureal.json") S1 S2); [| |apply join_spec].
    - intros ->. reflexivity.
    - intros ->. reflexivity.
  Qed.
End Deprecated.

Lemma c91_plots : forall m x, (In x (deprecated_plots m) <->
    x = "raw_scores"%string \/ x = "quality_scores"%string \/
    (x = "subject_scores"%string /\ In m ["MLE"; "MLE_CO"; "MLE_CO_AP"; "MLE_CO_AP2"; "DMOS_MLE"; "DMOS_MLE_CO"]%string) \/
    (x = "content_scores"%string /\ In m ["MLE"; "DMOS_MLE"]%string)) /\ NoDup (deprecated_plots m).
Proof.
  intros m x. unfold deprecated_plots.
  assert (K : forall l, memb String.eqb m l = true <-> In m l) by (intro l; apply (memb_In _ String.eqb String.eqb_eq)).
  set (a := ["MLE"; "MLE_CO"; "MLE_CO_AP"; "MLE_CO_AP2"; "DMOS_MLE"; "DMOS_MLE_CO"]%string) in *. set (b := ["MLE"; "DMOS_MLE"]%string) in *.
  assert (Ka := K a). assert (Kb := K b). destruct (memb String.eqb m a), (memb String.eqb m b); split.
  all: try (cbn [app In]; intuition congruence).
  all: repeat constructor; cbn [In app]; intuition discriminate.
Qed.

(** The names that are accepted. *)
Lemma c91_listed : forall t, In t SUBJECTIVE_MODELS -> exists c, find_subclass package_deprecated subjective_model t = Ok c /\ find_subclass package subjective_model t = Ok c.
Proof.
  intros t I. unfold SUBJECTIVE_MODELS in I. cbn [In] in I.
  repeat (destruct I as [<-|I]; [eexists; split; vm_compute; reflexivity|]). destruct I.
Qed.
Lemma deprecated_ordered : defined_in_order package_deprecated. Proof. apply ordered_b_ok. vm_compute. reflexivity. Qed.
Lemma deprecated_tree : tree_below package_deprecated subjective_model. Proof. apply tree_b_ok; vm_compute; reflexivity. Qed.
Lemma c91_accepted : forall t, (exists c, find_subclass package_deprecated subjective_model t = Ok c) <-> In t rating_names.
Proof.
  intro t. split.
  - intros [c F]. destruct (c56_sound _ deprecated_ordered _ _ _ F) as (_ & (k & E & U) & _).
    assert (A : forallb (fun k => match k_type k with Some u => memb String.eqb u rating_names | None => true end) package_deprecated = true) by (vm_compute; reflexivity).
    rewrite forallb_forall in A. specialize (A k (nth_error_In _ _ E)). rewrite U in A. apply memb_str. exact A.
  - intro I. assert (A : forallb (fun t => match find_subclass package_deprecated subjective_model t with Ok _ => true | Err _ => false end) rating_names = true) by (vm_compute; reflexivity).
    rewrite forallb_forall in A. specialize (A t I). destruct (find_subclass package_deprecated subjective_model t) as [c|]; [exists c; reflexivity|discriminate].
Qed.

(** ** sureal/__main__.py *)
Section Main.
  Context {R O : Type}.
  Variables (models : list nat -> string -> list string -> reader_class -> res R)
            (show : res unit) (makedirs save : string -> res unit)
            (h : hierarchy) (base pc : nat) (format : R -> res O) (print_json : O -> res unit) (dump : string -> O -> res unit).
  Let command := main_command models show makedirs save h base pc format print_json dump.

  Lemma main_accepts : forall reader ms cs, defined_in_order h -> tree_below h base -> ms <> [] ->
    (reader = RatingReader /\ Forall2 (rating_named h base pc) ms cs) \/ (reader = PairedReader /\ Forall2 (paired_named h base pc) ms cs) ->
    main_classes h base pc ms = Ok (cs, reader).
  Proof. intros reader ms cs D T N [[-> F]|[-> F]]; [apply c57_rating|apply c57_paired]; auto. Qed.
  Lemma c91_main_raises : forall o reader cs e, defined_in_order h -> tree_below h base -> o_models o <> [] ->
    (reader = RatingReader /\ Forall2 (rating_named h base pc) (o_models o) cs) \/ (reader = PairedReader /\ Forall2 (paired_named h base pc) (o_models o) cs) ->
    models cs (o_dataset o) (main_plots o reader) reader = Err e -> command o = ([], Err e).
  Proof.
    intros o reader cs e D T N A E. unfold command, main_command. rewrite (main_accepts reader _ cs D T N A), lift_ok. cbn [fst snd]. rewrite E. reflexivity.
  Qed.
  Lemma c91_main_unformatted : forall o reader cs r e, defined_in_order h -> tree_below h base -> o_models o <> [] ->
    (reader = RatingReader /\ Forall2 (rating_named h base pc) (o_models o) cs) \/ (reader = PairedReader /\ Forall2 (paired_named h base pc) (o_models o) cs) ->
    models cs (o_dataset o) (main_plots o reader) reader = Ok r -> format r = Err e ->
    command o = ([ModelRun cs (o_dataset o) (main_plots o reader) reader], Err e).
  Proof.
    intros o reader cs r e D T N A E F. unfold command, main_command. rewrite (main_accepts reader _ cs D T N A), lift_ok. cbn [fst snd]. rewrite E, lift_ok, F. reflexivity.
  Qed.
  Lemma c91_main_runs : forall o reader cs r out plan, defined_in_order h -> tree_below h base -> o_models o <> [] ->
    (reader = RatingReader /\ Forall2 (rating_named h base pc) (o_models o) cs) \/ (reader = PairedReader /\ Forall2 (paired_named h base pc) (o_models o) cs) ->
    models cs (o_dataset o) (main_plots o reader) reader = Ok r -> format r = Ok out ->
    main_plan cs (o_dataset o) (main_plots o reader) reader (o_output_dir o) plan ->
    follows (operation show (print_json out) makedirs save (fun x => dump x out)) plan (command o) /\
    (print_json out = Ok tt -> show = Ok tt -> (forall x, makedirs x = Ok tt) -> (forall x, save x = Ok tt) -> (forall x, dump x out = Ok tt) -> command o = (plan, Ok 0%Z)).
  Proof.
    intros o reader cs r out plan D T N A E F P. unfold command, main_command. rewrite (main_accepts reader _ cs D T N A), lift_ok. cbn [fst snd]. rewrite E, lift_ok, F. split.
    - inversion P as [Q1 Q2|dir file J Q1 Q2].
      + apply follows_emit; [reflexivity|]. rewrite lift_ok. apply follows_perform; [reflexivity|]. apply follows_perform; [reflexivity|]. apply follows_done.
      + apply follows_emit; [reflexivity|]. rewrite lift_ok. rewrite (joins_fun _ _ _ _ J (join_spec _ _)). apply follows_perform; [reflexivity|]. apply follows_perform; [reflexivity|]. apply follows_perform; [reflexivity|]. apply follows_done.
    - intros PJ SH MK SV DP. unfold andThen, lift, emit, perform. cbn [fst snd app]. inversion P as [Q1 Q2|dir file J Q1 Q2]; [rewrite PJ, SH; reflexivity|].
      rewrite MK, SV, DP, (joins_fun _ _ _ _ J (join_spec _ _)). reflexivity.
  Qed.
  Lemma c91_main_refused : forall o, defined_in_order h -> tree_below h base ->
    (~ exists cs, o_models o <> [] /\ Forall2 (rating_named h base pc) (o_models o) cs) ->
    (~ exists cs, o_models o <> [] /\ Forall2 (paired_named h base pc) (o_models o) cs) -> command o = ([], Err AssertionError).
  Proof. intros o D T N1 N2. unfold command, main_command. rewrite (c57_rejected h base pc D T (o_models o) N1 N2). reflexivity. Qed.
End Main.

Lemma c91_main_plots : forall o reader x, (In x (main_plots o reader) <->
    (x = "raw_scores"%string /\ o_raw_data o = true) \/
    ((x = "raw_counts"%string \/ x = "raw_counts_per_subject"%string) /\ o_raw_data o = true /\ reader = RatingReader) \/
    (x = "quality_scores"%string /\ o_dis_videos o = true) \/ (x = "subject_scores"%string /\ o_observers o = true)) /\ NoDup (main_plots o reader).
Proof.
  intros [d ms od [] [] []] [] x; unfold main_plots; cbn [o_raw_data o_dis_videos o_observers app In]; split; try (intuition congruence).
  all: repeat constructor; cbn [In]; intuition discriminate.
Qed.
Lemma option_value_fun : forall o l, (exists r, option_value o l r) /\ forall r r', option_value o l r -> option_value o l r' -> r = r'.
Proof.
  intros o l. split; [apply value_total|]. intros r r' H. revert r'. induction H as [| | x l|y l r D H IH]; intros r' H'; inversion H'; subst; try reflexivity; try contradiction.
  apply IH. assumption.
Qed.

(** A world for the examples. *)
Definition w_world (argv : list string) : act Z :=
  deprecated_main (fun cs path plots _ => if String.eqb path "bad.py"%string then Err KeyError else Ok (List.length plots)) (Ok tt) (fun _ => false) (fun _ => Ok tt) (fun _ => Ok tt)
    package_deprecated subjective_model (fun _ => Ok tt) (fun _ _ => Ok tt) argv.
