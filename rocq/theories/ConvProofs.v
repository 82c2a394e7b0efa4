(** Proofs for the dataset conversions (claims C04-C06). *)
From Coq Require Import String Ascii.
From Coq Require Import List ZArith Bool Arith Lia Permutation Reals.
From Verif Require Import PyBase Num ExtReal NumPy Dataset Preproc Mos BaseProofs SpecDataset SpecMos SpecConv DatasetProofs
  RecordedProofs MosProofs.
Import ListNotations.
Local Open Scope list_scope.

Section Conv.
  Context {T : Type} {N : Num T}.
  Notation dv_t := (dvideo T string).
  Notation ds_t := (dataset T string).

  Lemma score_entry_fun : forall s : score T, score_entry s (gt_of_score s).
  Proof.
    intros [x|l]; [constructor|]. destruct l as [|x [|y l]]; [|constructor|]; constructor; simpl; lia.
  Qed.

  Lemma dget_filter_key : forall V (f : string -> bool) (d : list (string * V)) k,
    dget String.eqb (filter (fun kv => f (fst kv)) d) k = if f k then dget String.eqb d k else None.
  Proof.
    intros V f d k. induction d as [|[k' v] d IH]; simpl; [destruct (f k); reflexivity|].
    destruct (f k') eqn:E; simpl; rewrite ?IH; destruct (String.eqb k k') eqn:E2; try reflexivity.
    - apply String.eqb_eq in E2. subst. rewrite E. reflexivity.
    - apply String.eqb_eq in E2. subst. rewrite E. reflexivity.
  Qed.
  Lemma dget_set_opt : forall a k v k', dget String.eqb (set_opt a k v) k' =
    match v with Some x => if String.eqb k' k then Some x else dget String.eqb a k' | None => dget String.eqb a k' end.
  Proof. intros a k [x|] k'; [|reflexivity]. unfold set_opt. apply (dget_dset String.eqb string_eqb_spec). Qed.

  Lemma attributes_prepared : forall (ds : ds_t) kw refs K' (dvs : list (dvideo T K')),
    attributes_kept ds kw (prepare_new_dataset ds kw refs dvs).
  Proof.
    intros ds kw refs K' dvs. split; [reflexivity|]. split; [reflexivity|]. intro k. cbn zeta.
    unfold prepare_new_dataset. cbn [ds_attrs]. rewrite !dget_set_opt.
    rewrite (dget_filter_key _ (fun k => negb (dunder k))). unfold dunder.
    destruct (String.eqb k "quality_width") eqn:E1.
    { apply String.eqb_eq in E1. subst k. cbn. destruct (kw_quality_width kw), (kw_quality_height kw), (kw_resampling_type kw); reflexivity. }
    destruct (String.eqb k "quality_height") eqn:E2.
    { apply String.eqb_eq in E2. subst k. cbn. destruct (kw_quality_width kw), (kw_quality_height kw), (kw_resampling_type kw); reflexivity. }
    destruct (String.eqb k "resampling_type") eqn:E3.
    { destruct (kw_resampling_type kw), (kw_quality_height kw), (kw_quality_width kw), (String.prefix "__" k); reflexivity. }
    destruct (kw_resampling_type kw), (kw_quality_height kw), (kw_quality_width kw), (String.prefix "__" k); reflexivity.
  Qed.

  (** ** C04 *)
  Lemma nth_combine : forall A B (l : list A) (l' : list B) i a b,
    nth_error l i = Some a -> nth_error l' i = Some b -> nth_error (combine l l') i = Some (a, b).
  Proof.
    induction l as [|x l IH]; intros [|y l'] [|i] a b H1 H2; simpl in *; try discriminate.
    - injection H1 as <-. injection H2 as <-. reflexivity.
    - apply IH; assumption.
  Qed.

  Lemma aggregated_spec : forall (ds : ds_t) dvs scores kw ds', to_aggregated_dataset ds dvs scores kw = Ok ds' ->
    ds_refs ds' = ds_refs ds /\ attributes_kept ds kw ds' /\
    exists full sel, length full = length dvs /\ length scores = length dvs /\
      (forall i dv s, nth_error dvs i = Some dv -> nth_error scores i = Some s ->
         exists dv', nth_error full i = Some dv' /\ same_video dv dv' /\ dv_os dv' = None /\
           (exists g, dv_gt dv' = Some g /\ score_entry s g) /\
           match kw_scores_std kw with None => dv_gtstd dv' = dv_gtstd dv
           | Some st => exists x, nth_error st i = Some x /\ dv_gtstd dv' = Some x end) /\
      ds_dis ds' = filter sel full /\
      forall dv, sel dv = true <->
        (forall ids, kw_content_ids kw = Some ids -> In (dv_cid dv) ids) /\
        (forall ids, kw_asset_ids kw = Some ids -> In (dv_aid dv) ids).
  Proof.
    intros ds dvs scores kw ds' H. unfold to_aggregated_dataset in H.
    destruct (Nat.eqb_spec (length dvs) (length scores)) as [HL|]; [|discriminate]. cbn [assert_ bind] in H.
    set (dvs1 := map (fun p => with_gt (fst p) (gt_of_score (snd p))) (combine dvs scores)) in *.
    assert (L1 : length dvs1 = length dvs) by (unfold dvs1; rewrite map_length, combine_length; lia).
    match type of H with bind ?m _ = _ => destruct m as [dvs2|] eqn:E2; [|discriminate] end. cbn [bind] in H.
    apply (f_equal (fun x => match x with Ok a => Some a | Err _ => None end)) in H. cbn beta iota in H. injection H as <-.
    split; [reflexivity|]. split; [apply attributes_prepared|].
    exists dvs2, (fun dv => (match kw_content_ids kw with None => true | Some ids => memb Z.eqb (dv_cid dv) ids end &&
                             match kw_asset_ids kw with None => true | Some ids => memb Z.eqb (dv_aid dv) ids end)%bool).
    assert (A : length dvs2 = length dvs /\
      (forall i dv s, nth_error dvs i = Some dv -> nth_error scores i = Some s ->
         exists dv', nth_error dvs2 i = Some dv' /\ same_video dv dv' /\ dv_os dv' = None /\
           (exists g, dv_gt dv' = Some g /\ score_entry s g) /\
           match kw_scores_std kw with None => dv_gtstd dv' = dv_gtstd dv
           | Some st => exists x, nth_error st i = Some x /\ dv_gtstd dv' = Some x end)).
    { assert (B : forall i dv s, nth_error dvs i = Some dv -> nth_error scores i = Some s ->
        nth_error dvs1 i = Some (with_gt dv (gt_of_score s))).
      { intros i dv s Hd Hs. unfold dvs1. rewrite nth_error_map, (nth_combine _ _ _ _ _ _ _ Hd Hs). reflexivity. }
      destruct (kw_scores_std kw) as [st|].
      - destruct (Nat.eqb_spec (length dvs1) (length st)) as [HL2|]; [|discriminate]. injection E2 as <-.
        split; [rewrite map_length, combine_length; lia|]. intros i dv s Hd Hs.
        destruct (nth_error st i) as [x|] eqn:Ex.
        + eexists. rewrite nth_error_map, (nth_combine _ _ _ _ _ _ _ (B i dv s Hd Hs) Ex). split; [reflexivity|].
          split; [repeat split|]. split; [reflexivity|]. split; [eexists; split; [reflexivity|apply score_entry_fun]|].
          exists x. split; reflexivity.
        + apply nth_error_None in Ex. assert (i < length dvs) by (apply nth_error_Some; congruence). lia.
      - injection E2 as <-. split; [exact L1|]. intros i dv s Hd Hs. eexists. rewrite (B i dv s Hd Hs). split; [reflexivity|].
        split; [repeat split|]. split; [reflexivity|]. split; [eexists; split; [reflexivity|apply score_entry_fun]|reflexivity]. }
    destruct A as [A1 A2]. split; [exact A1|]. split; [congruence|]. split; [exact A2|]. split.
    - cbn [prepare_new_dataset ds_dis]. clear. destruct (kw_content_ids kw) as [c|], (kw_asset_ids kw) as [a|];
        induction dvs2 as [|d dvs2 IH]; simpl; try reflexivity.
      + destruct (memb Z.eqb (dv_cid d) c); simpl; [destruct (memb Z.eqb (dv_aid d) a); simpl|]; rewrite IH; reflexivity.
      + destruct (memb Z.eqb (dv_cid d) c); simpl; rewrite IH; reflexivity.
      + f_equal. exact IH.
    - intro dv. rewrite andb_true_iff. split.
      + intros [S1 S2]. split; intros ids E; rewrite E in *; apply (memb_In Z Z.eqb Z_eqb_spec); assumption.
      + intros [S1 S2]. split; [destruct (kw_content_ids kw)|destruct (kw_asset_ids kw)]; try reflexivity;
          apply (memb_In Z Z.eqb Z_eqb_spec); auto.
  Qed.

  Lemma aggregated_outcome : forall (ds : ds_t) dvs scores kw,
    (length scores = length dvs /\ (forall st, kw_scores_std kw = Some st -> length st = length dvs) ->
       exists ds', to_aggregated_dataset ds dvs scores kw = Ok ds') /\
    (length scores <> length dvs \/ (exists st, kw_scores_std kw = Some st /\ length st <> length dvs) ->
       to_aggregated_dataset ds dvs scores kw = Err AssertionError).
  Proof.
    intros ds dvs scores kw. unfold to_aggregated_dataset.
    destruct (Nat.eqb_spec (length dvs) (length scores)) as [HL|HL]; cbn [assert_ bind].
    - assert (L1 : length (map (fun p => with_gt (fst p) (gt_of_score (snd p))) (combine dvs scores)) = length dvs)
        by (rewrite map_length, combine_length; lia).
      rewrite L1. destruct (kw_scores_std kw) as [st|].
      + split.
        * intros [_ H]. rewrite (H st eq_refl), Nat.eqb_refl. cbn. eexists; reflexivity.
        * intros [H|(st' & [= <-] & H)]; [congruence|]. destruct (Nat.eqb_spec (length dvs) (length st)); [congruence|reflexivity].
      + split; [intros _; eexists; reflexivity|]. intros [H|(st' & E & _)]; [congruence|discriminate].
    - split; [intros [H _]; congruence|reflexivity].
  Qed.

  (** ** C05 *)
  Lemma filter_notnan_scalar : forall qs : list (score T), Forall scalar qs ->
    filter_notnan qs = Ok (filter (fun s => match s with SNum x => negb (nisnan x) | SArr l => negb (nisnan (nth 0 l nnan)) end) qs).
  Proof.
    induction qs as [|s qs IH]; intro H; [reflexivity|]. inversion H as [|? ? (x & ->) H']; subst.
    simpl. rewrite IH by assumption. simpl. destruct (nisnan x); reflexivity.
  Qed.
  Lemma filter_notnan_gen : forall (qs qs' : list (score T)), filter_notnan qs = Ok qs' ->
    qs' = filter (fun s => match s with SNum x => negb (nisnan x) | SArr l => negb (nisnan (nth 0 l nnan)) end) qs.
  Proof.
    induction qs as [|s qs IH]; intros qs' H; [injection H as <-; reflexivity|].
    simpl in H. destruct (score_isnan s) as [b|] eqn:Eb; [|discriminate]. cbn [bind] in H.
    destruct (filter_notnan qs) as [r|]; [|discriminate]. cbn [bind] in H. injection H as <-. rewrite (IH r eq_refl).
    destruct s as [x|[|x [|y l]]]; cbn in Eb; try discriminate; injection Eb as <-; cbn; destruct (nisnan x); reflexivity.
  Qed.


  Lemma block_inv : forall dv qs bl, persubject_block dv qs = Ok bl ->
    exists n vs, persubject_votes dv qs n vs /\ length vs = n /\ Forall2 (persubject_entry dv) vs bl.
  Proof.
    intros dv qs bl H. unfold persubject_block in H.
    destruct (dv_os dv) as [o|] eqn:Eo; [|discriminate]. cbn [bind] in H.
    match type of H with bind ?m _ = _ => destruct m as [qs'|] eqn:Eq; [|discriminate] end. cbn [bind] in H.
    destruct (os_len o) as [n|] eqn:En; [|discriminate]. cbn [bind] in H.
    destruct (Nat.eqb_spec n (length qs')) as [El|]; [|discriminate]. cbn [bind assert_] in H.
    assert (EB : bl = map (fun s => with_gt dv (gt_of_score s)) qs') by congruence. subst bl. clear H.
    exists n, qs'. split.
    - destruct o as [b l|d|]; cbn in En, Eq; try discriminate.
      + injection En as <-. injection Eq as <-. apply (pv_list dv qs b l Eo).
      + injection En as <-. rewrite (filter_notnan_gen _ _ Eq). apply (pv_dict dv qs d Eo).
    - split; [symmetry; exact El|]. clear. induction qs' as [|s qs IH]; constructor; [|exact IH].
      repeat split. eexists. split; [reflexivity|apply score_entry_fun].
  Qed.
  Lemma block_ok : forall dv qs n vs, persubject_votes dv qs n vs -> Forall scalar qs ->
    (length vs = n -> exists bl, persubject_block dv qs = Ok bl) /\ (length vs <> n -> persubject_block dv qs = Err AssertionError).
  Proof.
    intros dv qs n vs H Hs. unfold persubject_block. destruct H as [b l E|d E]; rewrite E; cbn [bind os_is_dict os_len].
    - split; intro H; [rewrite H, Nat.eqb_refl; eexists; reflexivity|].
      destruct (Nat.eqb_spec (length l) (length qs)); [congruence|reflexivity].
    - rewrite filter_notnan_scalar by exact Hs. cbn [bind].
      match goal with |- context [filter ?f qs] => set (g := filter f qs) end.
      split; intro H; [rewrite H, Nat.eqb_refl; eexists; reflexivity|].
      destruct (Nat.eqb_spec (length d) (length g)); [congruence|reflexivity].
  Qed.

  (** What is produced whenever the conversion succeeds: entries of the i-th
      video, for the videos that have a row of scores, in order. *)
  Lemma persubject_spec : forall (ds : ds_t) dvs qss kw ds', to_persubject_dataset ds dvs qss kw = Ok ds' ->
    ds_refs ds' = ds_refs ds /\ attributes_kept ds kw ds' /\
    exists blocks, ds_dis ds' = concat blocks /\ length blocks = Nat.min (length dvs) (length qss) /\
      forall i dv qs, nth_error dvs i = Some dv -> nth_error qss i = Some qs ->
        exists bl n vs, nth_error blocks i = Some bl /\ persubject_votes dv qs n vs /\ length vs = n /\
          Forall2 (persubject_entry dv) vs bl.
  Proof.
    intros ds dvs qss kw ds' H. unfold to_persubject_dataset in H.
    match type of H with bind ?m _ = _ => destruct m as [bls|] eqn:E; [|discriminate] end. cbn [bind] in H.
    assert (ED : ds' = prepare_new_dataset ds kw (ds_refs ds) (concat bls)) by congruence. subst ds'. clear H.
    split; [reflexivity|]. split; [apply attributes_prepared|]. exists bls. split; [reflexivity|].
    split; [rewrite (mapM_length _ _ _ _ _ E), combine_length; reflexivity|]. intros i dv qs Hd Hq.
    destruct (mapM_nth _ _ _ _ _ i (dv, qs) E (nth_combine _ _ _ _ _ _ _ Hd Hq)) as (bl & Hbl & Hb). cbn in Hb.
    destruct (block_inv _ _ _ Hb) as (n & vs & P). exists bl, n, vs. tauto.
  Qed.

  Lemma persubject_outcome : forall (ds : ds_t) dvs qss kw, Forall (Forall scalar) qss ->
    (forall dv, In dv dvs -> exists o, dv_os dv = Some o /\ o <> OOther) ->
    ((forall i dv qs n vs, nth_error dvs i = Some dv -> nth_error qss i = Some qs -> persubject_votes dv qs n vs -> length vs = n) ->
       exists ds', to_persubject_dataset ds dvs qss kw = Ok ds') /\
    ((exists i dv qs n vs, nth_error dvs i = Some dv /\ nth_error qss i = Some qs /\ persubject_votes dv qs n vs /\ length vs <> n) ->
       to_persubject_dataset ds dvs qss kw = Err AssertionError).
  Proof.
    intros ds dvs qss kw Hs Ho. unfold to_persubject_dataset.
    assert (PV : forall dv qs, In dv dvs -> exists n vs, persubject_votes dv qs n vs).
    { intros dv qs Hin. destruct (Ho dv Hin) as (o & E & Hn). destruct o as [b l|d|]; [| |contradiction].
      - do 2 eexists. apply (pv_list dv qs b l E).
      - do 2 eexists. apply (pv_dict dv qs d E). }
    split.
    - intro H. destruct (mapM_total _ _ (fun p => persubject_block (fst p) (snd p)) (combine dvs qss)) as (bls & E).
      + intros [dv qs] Hin. cbn [fst snd]. apply In_nth_error in Hin as (i & Hi).
        assert (Hd : nth_error dvs i = Some dv /\ nth_error qss i = Some qs).
        { clear - Hi. revert qss i Hi. induction dvs as [|x dvs IH]; intros [|y qss] [|i] Hi; simpl in *; try discriminate.
          - injection Hi as <- <-. split; reflexivity.
          - apply IH; exact Hi. }
        destruct Hd as [Hd Hq]. destruct (PV dv qs (nth_error_In _ _ Hd)) as (n & vs & P).
        apply (proj1 (block_ok _ _ _ _ P ltac:(rewrite Forall_forall in Hs; apply Hs; eapply nth_error_In; exact Hq))).
        eapply H; eassumption.
      + rewrite E. eexists; reflexivity.
    - intros (i & dv & qs & n & vs & Hd & Hq & P & Hne).
      assert (E : mapM (fun p => persubject_block (fst p) (snd p)) (combine dvs qss) = Err AssertionError).
      { revert qss i Hs Hd Hq. induction dvs as [|x dvs IH]; intros [|y qss] i Hs Hd Hq; try (destruct i; discriminate).
        cbn [combine mapM fst snd]. inversion Hs; subst.
        destruct (PV x y (or_introl eq_refl)) as (n' & vs' & P').
        destruct (block_ok _ _ _ _ P' H1) as [B1 B2].
        destruct (Nat.eq_dec (length vs') n') as [En|En]; [|rewrite B2 by exact En; reflexivity].
        destruct (B1 En) as (bl & Hb). rewrite Hb. cbn [bind].
        destruct i as [|i].
        - cbn in Hd, Hq. injection Hd as ->. injection Hq as ->.
          assert (persubject_block dv qs = Err AssertionError) by (apply (block_ok _ _ _ _ P H1); exact Hne). congruence.
        - rewrite (IH (fun dv H => Ho dv (or_intror H)) (fun dv qs H => PV dv qs (or_intror H)) qss i H2 Hd Hq). reflexivity. }
      rewrite E. reflexivity.
  Qed.
End Conv.

(** ** Decimal numerals are injective *)
Fixpoint str_val (s : string) (acc : nat) : nat :=
  match s with EmptyString => acc | String c s' => str_val s' (10 * acc + (nat_of_ascii c - 48)) end.
Lemma str_val_digit : forall d, d < 10 -> nat_of_ascii (digit d) - 48 = d.
Proof. intros d H. unfold digit. rewrite nat_ascii_embedding by lia. lia. Qed.
Lemma str_nat_aux_val : forall fuel n acc, n < fuel -> str_val (str_nat_aux fuel n acc) 0 = str_val acc n.
Proof.
  induction fuel as [|f IH]; intros n acc H; [lia|]. cbn [str_nat_aux].
  destruct (Nat.ltb_spec n 10) as [Hn|Hn].
  - cbn [str_val]. rewrite Nat.mod_small by exact Hn. rewrite str_val_digit by exact Hn. f_equal.
  - rewrite IH.
    + cbn [str_val]. rewrite str_val_digit by (apply Nat.mod_upper_bound; lia). f_equal. symmetry. apply Nat.div_mod. lia.
    + assert (n / 10 < n) by (apply Nat.div_lt; lia). lia.
Qed.
Lemma str_of_nat_inj : forall n m, str_of_nat n = str_of_nat m -> n = m.
Proof.
  intros n m H. apply (f_equal (fun s => str_val s 0)) in H. unfold str_of_nat in H.
  rewrite !str_nat_aux_val in H by lia. exact H.
Qed.
Lemma append_inj : forall a b c, (a ++ b)%string = (a ++ c)%string -> b = c.
Proof. induction a as [|x a IH]; intros b c H; [exact H|]. cbn in H. injection H as H. apply IH; exact H. Qed.
Lemma subject_name_inj : forall name i j,
  (name ++ "_subject" ++ str_of_nat i)%string = (name ++ "_subject" ++ str_of_nat j)%string -> i = j.
Proof. intros name i j H. apply append_inj in H. apply append_inj in H. apply str_of_nat_inj. exact H. Qed.

(** ** C06 *)
Lemma fold_dset_fresh : forall V (l : list (string * V)) d, NoDup (map fst l) -> (forall k, In k (map fst l) -> ~ In k (map fst d)) ->
  fold_left (fun d kv => dset String.eqb d (fst kv) (snd kv)) l d = d ++ l.
Proof.
  intros V l. induction l as [|[k v] l IH]; intros d ND Hf; [rewrite app_nil_r; reflexivity|].
  cbn [fold_left fst snd]. rewrite (dset_keys_notmem String.eqb string_eqb_spec) by (apply Hf; left; reflexivity).
  inversion ND; subst. rewrite IH; [rewrite <- app_assoc; reflexivity|assumption|].
  intros k' Hk'. rewrite map_app, in_app_iff. intros [H|[<-|[]]]; [apply (Hf k'); [right; exact Hk'|exact H]|contradiction].
Qed.
Lemma dict_of_fresh : forall V (l : list (string * V)), NoDup (map fst l) -> dict_of l = l.
Proof. intros V l H. unfold dict_of. rewrite fold_dset_fresh; [reflexivity|exact H|intros k _ []]. Qed.
Lemma enumerate_nth : forall A (l : list A) i, nth_error (enumerate l) i = option_map (fun x => (i, x)) (nth_error l i).
Proof.
  intros A l. unfold enumerate. assert (G : forall k i, nth_error (combine (seq k (length l)) l) i = option_map (fun x => (k + i, x)) (nth_error l i)).
  { induction l as [|x l IH]; intros k [|i]; try reflexivity.
    - cbn. rewrite Nat.add_0_r. reflexivity.
    - cbn [length seq combine nth_error]. rewrite IH. destruct (nth_error l i); [|reflexivity]. cbn. do 2 f_equal. lia. }
  intro i. rewrite G. reflexivity.
Qed.
Lemma enumerate_fst : forall A (l : list A), map fst (enumerate l) = seq 0 (length l).
Proof. intros. unfold enumerate. generalize 0. induction l as [|x l IH]; intro k; [reflexivity|]. cbn. rewrite IH. reflexivity. Qed.
Lemma enumerate_snd : forall A (l : list A), map snd (enumerate l) = l.
Proof. intros. unfold enumerate. generalize 0. induction l as [|x l IH]; intro k; [reflexivity|]. cbn. rewrite IH. reflexivity. Qed.

Section Dict.
  Context {T : Type} {N : Num T}.
  Lemma named_dict : forall name (l : list (pyv T)),
    named_votes name l (dict_of (map (fun iv => (name ++ "_subject" ++ str_of_nat (fst iv), snd iv)%string) (enumerate l))).
  Proof.
    intros name l. rewrite dict_of_fresh.
    - split; [rewrite map_map; cbn [snd]; apply enumerate_snd|]. split.
      + rewrite map_map. cbn [fst]. rewrite <- (map_map fst (fun i => (name ++ "_subject" ++ str_of_nat i)%string)), enumerate_fst.
        apply FinFun.Injective_map_NoDup; [intros i j; apply subject_name_inj|apply seq_NoDup].
      + intros i k v H. rewrite nth_error_map, enumerate_nth in H. destruct (nth_error l i); [|discriminate].
        apply (f_equal (option_map fst)) in H. cbn [option_map fst] in H.
        apply (f_equal (fun o => match o with Some x => x | None => k end)) in H. cbn beta iota in H. symmetry. exact H.
    - rewrite map_map. cbn [fst]. rewrite <- (map_map fst (fun i => (name ++ "_subject" ++ str_of_nat i)%string)), enumerate_fst.
      apply FinFun.Injective_map_NoDup; [intros i j; apply subject_name_inj|apply seq_NoDup].
  Qed.

  Lemma dictionary_style_spec : forall (ds : dataset T string) kw S name, ds_dis ds <> [] -> list_style (ds_dis ds) S ->
    ds_name ds = Some name ->
    exists ds', to_dictionary_style_dataset ds (ds_dis ds) kw = Ok ds' /\
      ds_refs ds' = ds_refs ds /\ attributes_kept ds kw ds' /\ length (ds_dis ds') = length (ds_dis ds) /\
      forall i dv, nth_error (ds_dis ds) i = Some dv ->
        exists dv' b l d, nth_error (ds_dis ds') i = Some dv' /\ same_video dv dv' /\ dv_gt dv' = dv_gt dv /\ dv_gtstd dv' = dv_gtstd dv /\
          dv_os dv = Some (OSeq b l) /\ dv_os dv' = Some (ODict d) /\ named_votes name l d.
  Proof.
    intros ds kw S name Hne Hl Hn. unfold to_dictionary_style_dataset, list_style in *. rewrite Forall_forall in Hl.
    set (f := fun dv : dvideo T string => _ : res (dvideo T string)).
    assert (F : forall dv b l, dv_os dv = Some (OSeq b l) -> f dv =
       Ok (with_os dv (ODict (dict_of (map (fun iv => (name ++ "_subject" ++ str_of_nat (fst iv), snd iv)%string) (enumerate l)))))).
    { intros dv b l E. unfold f, get_os. rewrite E, Hn. reflexivity. }
    assert (Z : exists b l, first_os (ds_dis ds) = Ok (OSeq b l)).
    { destruct (ds_dis ds) as [|dv0 dvs] eqn:ED; [contradiction|]. destruct (Hl dv0 (or_introl eq_refl)) as (b & l & E & _).
      exists b, l. unfold first_os, py_index, get_os. cbn [nth_error bind]. rewrite E. reflexivity. }
    destruct Z as (b0 & l0 & Z). rewrite Z. cbn [bind os_is_dict].
    destruct (mapM_total _ _ f (ds_dis ds)) as (dvs' & E).
    { intros dv Hin. destruct (Hl dv Hin) as (b & l & Eo & _). eexists. apply (F dv b l Eo). }
    rewrite E. cbn [bind]. eexists. split; [reflexivity|]. split; [reflexivity|]. split; [apply attributes_prepared|].
    split; [apply (mapM_length _ _ _ _ _ E)|]. intros i dv Hd. destruct (mapM_nth _ _ _ _ _ i dv E Hd) as (dv' & Hd' & Ef).
    destruct (Hl dv (nth_error_In _ _ Hd)) as (b & l & Eo & _). rewrite (F dv b l Eo) in Ef. injection Ef as <-.
    eexists. exists b, l. eexists. split; [exact Hd'|]. split; [repeat split|]. split; [reflexivity|]. split; [reflexivity|].
    split; [exact Eo|]. split; [reflexivity|]. apply named_dict.
  Qed.

  Lemma dictionary_style_same : forall (ds : dataset T string) kw, ds_dis ds <> [] ->
    (forall dv, In dv (ds_dis ds) -> exists d, dv_os dv = Some (ODict d)) ->
    to_dictionary_style_dataset ds (ds_dis ds) kw = Ok ds.
  Proof.
    intros ds kw Hne H. unfold to_dictionary_style_dataset.
    destruct (ds_dis ds) as [|dv0 dvs] eqn:ED; [contradiction|]. destruct (H dv0 (or_introl eq_refl)) as (d & E).
    unfold first_os, py_index, get_os at 1. cbn [nth_error bind]. rewrite E. cbn [os_is_dict bind].
    assert (F : forM_ (fun dv => do o <- get_os dv; assert_ (os_is_dict o)) (dv0 :: dvs) = Ok tt).
    { apply forM_Ok. intros dv Hin. destruct (H dv Hin) as (d' & E'). unfold get_os. rewrite E'. reflexivity. }
    rewrite F. reflexivity.
  Qed.

  (** A first video in dict style and a later one in list style. *)
  Lemma dictionary_style_mixed : forall (ds : dataset T string) kw dv0 d rest, ds_dis ds = dv0 :: rest -> dv_os dv0 = Some (ODict d) ->
    (exists dv b l, In dv rest /\ dv_os dv = Some (OSeq b l)) -> (forall dv, In dv rest -> dv_os dv <> None) ->
    to_dictionary_style_dataset ds (ds_dis ds) kw = Err AssertionError.
  Proof.
    intros ds kw dv0 d rest ED E0 Hm Hs. unfold to_dictionary_style_dataset. rewrite ED.
    unfold first_os, py_index, get_os at 1. cbn [nth_error bind]. rewrite E0. cbn [os_is_dict bind].
    match goal with |- context [forM_ ?f (dv0 :: rest)] => set (g := f) end.
    assert (F : forM_ g (dv0 :: rest) = Err AssertionError).
    { unfold forM_. cbn [foldM]. unfold g at 1, get_os. rewrite E0. cbn [bind os_is_dict assert_].
      clear ED. induction rest as [|dv rest IH]; [destruct Hm as (? & ? & ? & [] & _)|]. cbn [foldM]. unfold g at 1, get_os.
      destruct (dv_os dv) as [o|] eqn:Eo; [|exfalso; apply (Hs dv (or_introl eq_refl)); exact Eo].
      destruct o as [b l|d'|]; cbn [bind os_is_dict assert_]; try reflexivity.
      apply IH; [|intros; apply Hs; right; assumption].
      destruct Hm as (dv' & b & l & [<-|Hin] & E'); [congruence|]. exists dv', b, l. auto. }
    rewrite F. reflexivity.
  Qed.
End Dict.

(** Votes of a video before and after. *)
Lemma recorded_named : forall (dv dv' : dvideo ef string) b l d name vs, dv_os dv = Some (OSeq b l) -> dv_os dv' = Some (ODict d) ->
  named_votes name l d -> (recorded dv vs <-> recorded dv' vs).
Proof.
  intros dv dv' b l d name vs E E' (Hv & _). split.
  - intros [(b' & l' & xss & Eo & F & P)|(d' & xss & Eo & _)]; [|congruence]. right. exists d, xss.
    split; [exact E'|]. rewrite Hv. assert (l' = l) by congruence. subst l'. auto.
  - intros [(b' & l' & xss & Eo & _)|(d' & xss & Eo & F & P)]; [congruence|]. left. exists b, l, xss.
    assert (d' = d) by congruence. subst d'. rewrite Hv in F. auto.
Qed.

Lemma dictionary_style_mos : forall ds ds' kw S name rd rd' m m', list_style (ds_dis ds) S -> ds_name ds = Some name ->
  raw_reader ds = Ok rd -> finite_dataset (ds_dis ds) -> votes_wf (ds_dis ds) ->
  to_dictionary_style_dataset ds (ds_dis ds) kw = Ok ds' -> raw_reader ds' = Ok rd' ->
  run_modeling MOS rd no_options = Ok m -> run_modeling MOS rd' no_options = Ok m' ->
  python_dicts (ds_dis ds') /\ same_mos_results m m'.
Proof.
  intros ds ds' kw S name rd rd' m m' Hl Hn Hrd Hfd Hwf Hc Hrd' Hm Hm'.
  destruct (raw_reader_inv ds rd Hrd) as ((_ & Hne & _) & _).
  destruct (dictionary_style_spec ds kw S name Hne Hl Hn) as (ds2 & Hc2 & _ & _ & HL & HV).
  assert (ds2 = ds') by congruence. subst ds2.
  assert (Hpy : python_dicts (ds_dis ds)).
  { intros dv d Hin Hd. unfold list_style in Hl. rewrite Forall_forall in Hl. destruct (Hl dv Hin) as (b & l & E & _). congruence. }
  assert (Inv : forall dv', In dv' (ds_dis ds') -> exists dv b l d, In dv (ds_dis ds) /\ dv_os dv = Some (OSeq b l) /\
     dv_os dv' = Some (ODict d) /\ named_votes name l d).
  { intros dv' Hin. apply In_nth_error in Hin as (i & Hi). destruct (nth_error (ds_dis ds) i) as [dv|] eqn:Hd.
    - destruct (HV i dv Hd) as (dv2 & b & l & d & Hd2 & _ & _ & _ & E1 & E2 & NV).
      assert (dv2 = dv') by congruence. subst. exists dv, b, l, d. split; [eapply nth_error_In; exact Hd|auto].
    - apply nth_error_None in Hd. assert (i < length (ds_dis ds')) by (apply nth_error_Some; congruence). lia. }
  assert (Hpy' : python_dicts (ds_dis ds')).
  { intros dv' d Hin Hd. destruct (Inv dv' Hin) as (dv & b & l & d' & _ & _ & E2 & (_ & ND & _)). congruence. }
  split; [exact Hpy'|].
  assert (Hfd' : finite_dataset (ds_dis ds')).
  { intros dv' vs Hin Hr. destruct (Inv dv' Hin) as (dv & b & l & d & Hin' & E1 & E2 & NV).
    apply (Hfd dv vs Hin'). eapply (recorded_named dv dv'); eassumption. }
  destruct (run_mos_inv rd m Hm) as (a & HA & _). destruct (run_mos_inv rd' m' Hm') as (a' & HA' & _).
  destruct (read_votes ds rd a Hrd Hpy HA) as (HE & RV). destruct (read_votes ds' rd' a' Hrd' Hpy' HA') as (HE' & RV').
  apply (mos_votes_only rd rd' a a' m m' HA HA').
  - exact (read_finite ds rd a Hrd Hpy Hfd HA).
  - exact (read_finite ds' rd' a' Hrd' Hpy' Hfd' HA').
  - congruence.
  - intros e He. destruct (nth_error (ds_dis ds) e) as [dv|] eqn:Hd; [|apply nth_error_None in Hd; lia].
    destruct (HV e dv Hd) as (dv' & b & l & d & Hd' & _ & _ & _ & E1 & E2 & NV).
    assert (R : exists vs, recorded dv vs).
    { unfold votes_wf in Hwf. rewrite Forall_forall in Hwf. specialize (Hwf dv (nth_error_In _ _ Hd)). rewrite E1 in Hwf.
      assert (X : exists xss, Forall2 vote_value l xss).
      { clear - Hwf. induction Hwf as [|v l (xs & Hv) _ (xss & IH)]; [exists []; constructor|exists (xs :: xss); constructor; assumption]. }
      destruct X as (xss & X). exists (concat xss). left. exists b, l, xss. split; [exact E1|]. split; [exact X|reflexivity]. }
    destruct R as (vs & R). rewrite <- (RV e dv vs Hd R). apply (RV' e dv' vs Hd').
    apply (proj1 (recorded_named dv dv' b l d name vs E1 E2 NV)). exact R.
  - exact Hm.
  - exact Hm'.
Qed.

(** ** C68 *)
Lemma vote_value_fun : forall T (v : pyv T) xs ys, vote_value v xs -> vote_value v ys -> xs = ys.
Proof.
  intros T v xs ys H H'. inversion H; subst; inversion H'; subst; try reflexivity.
  match goal with H : map PNum _ = map PNum _ |- _ => revert H end. clear. intro E. symmetry. revert xs E.
  induction ys as [|y ys IH]; intros [|x xs] E; try discriminate; [reflexivity|]. cbn in E. injection E as -> E. f_equal. apply IH; exact E.
Qed.
Lemma nth_error_ext' : forall A (l l' : list A), (forall i, nth_error l i = nth_error l' i) -> l = l'.
Proof.
  induction l as [|x l IH]; intros [|y l'] H; [reflexivity|specialize (H 0); discriminate|specialize (H 0); discriminate|].
  assert (E := H 0). cbn in E. injection E as ->. f_equal. apply IH. intro i. apply (H (S i)).
Qed.
Lemma max_repetitions_fun : forall T (dvs dvs' : list (dvideo T string)) R R', (forall v, some_vote dvs v <-> some_vote dvs' v) ->
  max_repetitions dvs R -> max_repetitions dvs' R' -> R = R'.
Proof.
  intros T dvs dvs' R R' HV (A & B & C) (A' & B' & C').
  assert (R <= R'). { destruct C as [->|(v & xs & Hv & Hx & <-)]; [exact A'|]. apply (B' v xs); [apply HV|]; assumption. }
  assert (R' <= R). { destruct C' as [->|(v & xs & Hv & Hx & <-)]; [exact A|]. apply (B v xs); [apply HV|]; assumption. }
  lia.
Qed.
Lemma append_str_lt : forall p a b, str_lt a b -> str_lt (p ++ a)%string (p ++ b)%string.
Proof.
  induction p as [|c p IH]; intros a b H; [exact H|]. destruct (IH a b H) as (A & B). split.
  - cbn [append str_leb]. rewrite Nat.ltb_irrefl. exact A.
  - cbn. intro E. injection E as E. contradiction.
Qed.
Lemma digits_sorted : forall i j, i < j -> j < 10 -> str_lt (str_of_nat i) (str_of_nat j).
Proof.
  intros i j H1 H2.
  assert (C : forallb (fun i => forallb (fun j => orb (Nat.leb j i)
    (andb (str_leb (str_of_nat i) (str_of_nat j)) (negb (String.eqb (str_of_nat i) (str_of_nat j))))) (seq 0 10)) (seq 0 10) = true)
    by (vm_compute; reflexivity).
  rewrite forallb_forall in C. specialize (C i ltac:(apply in_seq; lia)). rewrite forallb_forall in C. specialize (C j ltac:(apply in_seq; lia)).
  apply orb_true_iff in C as [C|C]; [apply Nat.leb_le in C; lia|]. apply andb_true_iff in C as [C1 C2]. split; [exact C1|].
  apply negb_true_iff, String.eqb_neq in C2. exact C2.
Qed.
Lemma sorted_map_seq : forall (f : nat -> string) n, (forall i j, i < j -> j < n -> str_lt (f i) (f j)) -> Sorted.StronglySorted str_lt (map f (seq 0 n)).
Proof.
  intros f n H. assert (G : forall k m, k + m <= n -> Sorted.StronglySorted str_lt (map f (seq k m))).
  { intros k m. revert k. induction m as [|m IH]; intros k Hk; [constructor|]. cbn. constructor; [apply IH; lia|].
    apply Forall_forall. intros x Hx. apply in_map_iff in Hx as (j & <- & Hj). apply in_seq in Hj. apply H; lia. }
  apply G. lia.
Qed.

(** List style against dict style with one name per position, in order. *)
Lemma columns_renamed : forall T (N : Num T) (dvs dvs' : list (dvideo T string)) S nm a a' nobs,
  dvs <> [] -> list_style dvs S -> (forall i j, i < j -> j < S -> str_lt (nm i) (nm j)) -> length dvs' = length dvs ->
  (forall i dv, nth_error dvs i = Some dv -> exists dv' b l d, nth_error dvs' i = Some dv' /\
     dv_os dv = Some (OSeq b l) /\ dv_os dv' = Some (ODict d) /\ map snd d = l /\ map fst d = map nm (seq 0 S)) ->
  opinion_score_3darray_with dvs (get_num_observers dvs) = Ok a ->
  opinion_score_3darray_with dvs' nobs = Ok a' -> arr3_eq a a'.
Proof.
  intros T N dvs dvs' S nm a a' nobs Hne Hl Hnm HL HV HA HA'.
  assert (NDnm : NoDup (map nm (seq 0 S))).
  { assert (SS := sorted_map_seq nm S Hnm). clear - SS. induction SS as [|x l SS IH F]; constructor; [|exact IH].
    intro Hin. rewrite Forall_forall in F. destruct (F x Hin) as [_ Hx]. congruence. }
  assert (Inv : forall dv', In dv' dvs' -> exists dv b l d, In dv dvs /\ dv_os dv = Some (OSeq b l) /\
     dv_os dv' = Some (ODict d) /\ map snd d = l /\ map fst d = map nm (seq 0 S)).
  { intros dv' Hin. apply In_nth_error in Hin as (i & Hi). destruct (nth_error dvs i) as [dv|] eqn:Hd.
    - destruct (HV i dv Hd) as (dv2 & b & l & d & Hd2 & E1 & E2 & NV).
      assert (dv2 = dv') by congruence. subst dv2. exists dv, b, l, d. split; [eapply nth_error_In; exact Hd|auto].
    - apply nth_error_None in Hd. assert (i < length dvs') by (apply nth_error_Some; congruence). lia. }
  assert (DS : dict_style dvs').
  { apply Forall_forall. intros dv' Hin. destruct (Inv dv' Hin) as (dv & b & l & d & _ & _ & E & _ & K). exists d. split; [exact E|]. rewrite K. exact NDnm. }
  assert (Hne' : dvs' <> []) by (intro E; rewrite E in HL; destruct dvs; [contradiction|discriminate]).
  assert (OBS : observer_names dvs' (map nm (seq 0 S))).
  { split; [apply sorted_map_seq; exact Hnm|]. intro n. split.
    - intro Hin. destruct dvs' as [|dv' rest]; [contradiction|].
      destruct (Inv dv' (or_introl eq_refl)) as (dv & b & l & d & I & E & E' & NV & K).
      rewrite <- K in Hin. apply in_map_iff in Hin as ([k v] & Ek & Hkv). cbn in Ek. subst k. exists dv', d, v. split; [left; reflexivity|auto].
    - intros (dv' & d & v & Hin & Ed & Hkv). destruct (Inv dv' Hin) as (dv & b & l & d0 & I & E & E' & NV & K). assert (d0 = d) by congruence. subst d0.
      rewrite <- K. apply (in_map fst) in Hkv. exact Hkv. }
  destruct (array_list_sound _ _ _ Hne Hl HA) as (L1 & L2 & L3 & L4).
  destruct (array_dict_sound _ _ _ _ Hne' DS OBS HA') as (M1 & M2 & M3 & M4).
  assert (SV : forall v, some_vote dvs v <-> some_vote dvs' v).
  { intro v. split.
    - intros (dv & Hin & [(b & l & E & Hv)|(d & n & E & _)]).
      + apply In_nth_error in Hin as (i & Hi). destruct (HV i dv Hi) as (dv' & b' & l' & d & Hd' & E1 & E2 & NV & _).
        assert (EL : l' = l) by congruence. rewrite <- EL, <- NV in Hv. apply in_map_iff in Hv as ([n w] & Ew & Hw). cbn in Ew. subst w.
        exists dv'. split; [eapply nth_error_In; exact Hd'|]. right. exists d, n. auto.
      + unfold list_style in Hl. rewrite Forall_forall in Hl. destruct (Hl dv Hin) as (b' & l' & E' & _). congruence.
    - intros (dv' & Hin & [(b & l & E & Hv)|(d & n & E & Hv)]); destruct (Inv dv' Hin) as (dv & b' & l' & d' & I & E1 & E2 & NV & _); [congruence|].
      assert (d' = d) by congruence. subst d'. exists dv. split; [exact I|]. left. exists b', l'. split; [exact E1|]. rewrite <- NV.
      apply (in_map snd) in Hv. exact Hv. }
  split; [congruence|]. rewrite map_length, seq_length in M2. split; [congruence|].
  assert (ER : dR a = dR a') by (eapply max_repetitions_fun; eassumption). split; [exact ER|].
  intros e s r (He & Hs & Hr). rewrite L1 in He. destruct (nth_error dvs e) as [dv|] eqn:Hd; [|apply nth_error_None in Hd; lia].
  destruct (HV e dv Hd) as (dv' & b & l & d & Hd' & E1 & E2 & NV & K).
  destruct (L4 e dv s Hd ltac:(lia)) as (xs & (b1 & l1 & v1 & F1 & F2 & F3) & F4).
  assert (Hs' : nth_error (map nm (seq 0 S)) s = Some (nm s)) by (rewrite nth_error_map, (nth_error_seq S s) by lia; reflexivity).
  destruct (M4 e dv' s (nm s) Hd' Hs') as (ys & (d1 & G1 & G2) & G4).
  rewrite (F4 r Hr), (G4 r ltac:(lia)). assert (l1 = l) by congruence. assert (d1 = d) by congruence. subst l1 d1.
  assert (ND : NoDup (map fst d)) by (rewrite K; exact NDnm).
  assert (Hds : nth_error d s = Some (nm s, v1)).
  { rewrite <- K, nth_error_map in Hs'. rewrite <- NV, nth_error_map in F2.
    destruct (nth_error d s) as [[k w]|]; [|discriminate]. cbn in Hs', F2. congruence. }
  destruct G2 as [(w & Hw & Vw)|(Hno & _)].
  - assert (w = v1).
    { assert (Q1 := In_dget String.eqb string_eqb_spec _ _ _ ND Hw). assert (Q2 := In_dget String.eqb string_eqb_spec _ _ _ ND (nth_error_In _ _ Hds)). congruence. }
    subst w. f_equal. eapply vote_value_fun; eassumption.
  - exfalso. apply Hno. apply nth_error_In in Hds. apply (in_map fst) in Hds. exact Hds.
Qed.

Lemma dictionary_style_columns : forall T (N : Num T) (ds ds' : dataset T string) kw S name a a' nobs,
  ds_dis ds <> [] -> list_style (ds_dis ds) S -> S <= 10 -> ds_name ds = Some name ->
  to_dictionary_style_dataset ds (ds_dis ds) kw = Ok ds' ->
  opinion_score_3darray_with (ds_dis ds) (get_num_observers (ds_dis ds)) = Ok a ->
  opinion_score_3darray_with (ds_dis ds') nobs = Ok a' -> arr3_eq a a'.
Proof.
  intros T N ds ds' kw S name a a' nobs Hne Hl HS Hn Hc HA HA'.
  destruct (dictionary_style_spec ds kw S name Hne Hl Hn) as (ds2 & Hc2 & _ & _ & HL & HV).
  assert (ds2 = ds') by congruence. subst ds2.
  set (nm := fun i => (name ++ "_subject" ++ str_of_nat i)%string).
  apply (columns_renamed T N (ds_dis ds) (ds_dis ds') S nm a a' nobs); try assumption.
  - intros i j Hi Hj. unfold nm. do 2 apply append_str_lt. apply digits_sorted; lia.
  - intros i dv Hd. destruct (HV i dv Hd) as (dv' & b & l & d & Hd' & _ & _ & _ & E1 & E2 & NV & _ & NK).
    exists dv', b, l, d. repeat split; try assumption.
    assert (LD : length d = S).
    { rewrite <- (map_length snd d), NV. unfold list_style in Hl. rewrite Forall_forall in Hl. destruct (Hl dv (nth_error_In _ _ Hd)) as (b' & l' & E' & <-). congruence. }
    apply nth_error_ext'. intro k. rewrite !nth_error_map. destruct (nth_error d k) as [[n v]|] eqn:Ei.
    + assert (k < S) by (rewrite <- LD; apply nth_error_Some; congruence). rewrite (nth_error_seq S k) by assumption. cbn. f_equal. apply (NK k n v Ei).
    + apply nth_error_None in Ei. replace (nth_error (seq 0 S) k) with (@None nat); [reflexivity|]. symmetry. apply nth_error_None. rewrite seq_length. lia.
Qed.
