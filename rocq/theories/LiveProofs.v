(** Proofs about the LIVE_DMOS model and the scores per subject. *)
From Coq Require Import String.
From Coq Require Import List ZArith Bool Arith Reals Lra Lia.
From Verif Require Import PyBase Num ExtReal NumPy Dataset Preproc Mos AP Mle OtherModels SpecDataset SpecConv SpecMos SpecAp SpecMle SpecOther
  BaseProofs ExtRealProofs ArrayProofs StepsProofs PreprocProofs MosProofs ApProofs ConvProofs LsProofs.
Import ListNotations.
Local Open Scope R_scope.

Definition rescale (a : arr3 ef) : arr3 ef := map3 (fun e s r y => ndiv (nmul (nadd y (nofZ 3)) (nofZ 100)) (nofZ 6)) a.
Lemma rescale_affine : forall a, finite_votes a -> transformed (affine (100 / 6) 50) a (rescale a).
Proof.
  intros a F. repeat (split; [reflexivity|]). intros e s r HI. cbn [rescale map3 at3]. assert (G := F e s r HI).
  destruct (at3 a e s r) as [y| | |]; cbn in G; try contradiction; [|reflexivity]. efc. cbn [ef_add ef_mul]. rewrite ef_div_Fin by lra. cbn [affine]. f_equal. field.
Qed.
Lemma live_mean : forall a, finite_votes a ->
  along1 np_nanmean (stack1 (rescale a)) = map (affine (100 / 6) 50) (along1 np_nanmean (stack1 a)).
Proof.
  intros a F. assert (T := rescale_affine a F). rewrite (mean_rows a F), mean_rows by (eapply transformed_finite; [exact T|exact F]).
  rewrite map_map. change (dE (rescale a)) with (dE a). apply map_ext_in. intros e He. apply in_seq in He.
  rewrite (transformed_votes _ _ _ _ _ T F) by lia. apply nanmeanR_affine.
Qed.
Lemma preprocess_no_final : forall (rd : reader ef) d z b r t n f, preprocess rd (KW d z b r t n f) = preprocess rd (KW d z b r t false None).
Proof. reflexivity. Qed.
Lemma c79_conflict : forall (rd : reader ef) k, kw_dscore k = true \/ kw_zscore k = true -> live_run_modeling rd k = Err AssertionError.
Proof.
  intros rd k H. unfold live_run_modeling, live_dmos, guard. destruct H as [H|H]; rewrite H; [reflexivity|]. destruct (kw_dscore k); reflexivity.
Qed.
Lemma live_pp : forall (rd : reader ef) k, kw_dscore k = false -> kw_zscore k = false ->
  live_run_modeling rd k = bind (preprocess rd (live_options k)) (fun pp => finish rd k (along1 np_nanmean (stack1 (rescale (pp_arr pp)))) None None).
Proof.
  intros rd k D Z. unfold live_run_modeling, live_dmos, guard. rewrite D, Z. cbn [negb assert_ bind].
  change (preprocess rd (set_zscore (set_dscore k))) with (preprocess rd (live_options k)). destruct (preprocess rd (live_options k)) as [pp|]; reflexivity.
Qed.
Lemma c79_live : forall (rd : reader ef) k, kw_dscore k = false -> kw_zscore k = false ->
  (forall m0, run_modeling MOS rd (live_options k) = Ok m0 -> finite_votes (mr_raw m0) ->
     exists m, live_run_modeling rd k = Ok m /\ or_quality m = postprocess k (map (affine (100 / 6) 50) (mr_quality m0)) /\
       or_bias m = None /\ or_incons m = None /\ or_observers m = mr_observers m0) /\
  (forall e, run_modeling MOS rd (live_options k) = Err e -> live_run_modeling rd k = Err e).
Proof.
  intros rd k D Z. rewrite live_pp by assumption. split.
  - intros m0 H F. destruct (mos_run_parts _ _ _ H) as (pp & Hp & Er & Eq & Eo). rewrite Hp. cbn [bind]. unfold finish. rewrite Eo. cbn [bind]. rewrite Er in F.
    eexists. split; [reflexivity|]. cbn [or_quality or_bias or_incons or_observers]. rewrite live_mean by exact F.
    rewrite Eq. change (postprocess (live_options k) (along1 np_nanmean (stack1 (pp_arr pp)))) with (along1 np_nanmean (stack1 (pp_arr pp))). auto.
  - intros e H. unfold run_modeling in H. cbn [run_kwargs bind] in H. unfold mos_run in H.
    destruct (preprocess rd (live_options k)) as [pp|e']; cbn [bind is_biasremv] in *; [|congruence].
    unfold finish. destruct (attach_observers rd); cbn [bind] in *; [discriminate|congruence].
Qed.
Lemma zscore_is : forall a, finite_votes a -> z_scores a (zscore a).
Proof.
  intros a F. repeat (split; [reflexivity|]). intros s Hs. destruct (zscore_entry a s F Hs) as [Z1 Z2]. split; [|exact Z2].
  intro Sp. destruct (zscore_normalised a s F Hs Sp) as (_ & A2 & A3). split; [exact A2|]. split; [exact A3|].
  destruct (Z1 Sp) as (mu & sd & P & _ & _ & _ & E). exists mu, sd. auto.
Qed.
Lemma zscore_finite : forall a, finite_votes a -> finite_votes (zscore a).
Proof.
  intros a F e s r (He & Hs & Hr). change (dE (zscore a)) with (dE a) in He. change (dS (zscore a)) with (dS a) in Hs. change (dR (zscore a)) with (dR a) in Hr.
  destruct (zscore_entry a s F Hs) as [Z1 Z2]. destruct (Classical_Prop.classic (has_spread (subject_votes a s))) as [Sp|Sp].
  - destruct (Z1 Sp) as (mu & sd & _ & _ & _ & _ & E). rewrite E by assumption. destruct (at3 a e s r); exact I.
  - rewrite (Z2 Sp) by assumption. exact I.
Qed.
Lemma c79_plain : forall (rd : reader ef) m1, run_modeling DMOS rd no_options = Ok m1 -> finite_votes (mr_raw m1) ->
  exists m z, live_run_modeling rd no_options = Ok m /\ z_scores (mr_raw m1) z /\ length (or_quality m) = dE (mr_raw m1) /\
    forall e, (e < dE (mr_raw m1))%nat -> is_mean (nth e (or_quality m) NaN) (map (fun t => (t + 3) * 100 / 6) (video_votes z e)).
Proof.
  intros rd m1 H F. rewrite live_pp by reflexivity. unfold run_modeling in H. cbn [run_kwargs no_options kw_dscore guard negb assert_ bind set_dscore] in H.
  unfold mos_run in H. match type of H with context [preprocess rd ?k] => change k with (KW true false false false None false None : kwargs ef) in H end.
  destruct (preprocess rd (KW true false false false None false None)) as [p1|] eqn:P1; [|discriminate]. cbn [bind is_biasremv] in H.
  destruct (attach_observers rd) as [o|] eqn:Eo; [|discriminate]. cbn [bind] in H. apply Ok_inj in H. subst m1. cbn [mr_raw mos_and_stats] in *.
  assert (P2 : preprocess rd (live_options no_options) = Ok (PP (zscore (pp_arr p1)) (pp_orig p1) None None)).
  { unfold preprocess in *. destruct (rd_arr rd) as [a0|]; [|discriminate]. cbn [live_options no_options bind kw_rej kw_rejtype kw_zscore kw_bias kw_dscore andb negb assert_] in *.
    match goal with |- bind ?m _ = _ => destruct m as [a1|]; [|discriminate] end. cbn [bind] in *. apply Ok_inj in P1. subst p1. reflexivity. }
  rewrite P2. cbn [bind pp_arr]. unfold finish. rewrite Eo. cbn [bind].
  match type of F with finite_votes ?t => change t with (pp_arr p1) in F |- * end. set (a := pp_arr p1) in *.
  do 2 eexists. split; [reflexivity|]. split; [apply zscore_is; exact F|]. cbn [or_quality].
  change (postprocess no_options (along1 np_nanmean (stack1 (rescale (zscore a))))) with (along1 np_nanmean (stack1 (rescale (zscore a)))).
  assert (FZ := zscore_finite a F). assert (T := rescale_affine _ FZ).
  rewrite mean_rows by (eapply transformed_finite; [exact T|exact FZ]). change (dE (rescale (zscore a))) with (dE a).
  split; [rewrite map_length, seq_length; reflexivity|]. intros e He. rewrite (BaseProofs.nth_map_seq _ (fun e => nanmeanR (video_votes (rescale (zscore a)) e))) by exact He.
  rewrite (transformed_votes _ _ _ _ _ T FZ) by exact He.
  rewrite (map_ext (fun t => (t + 3) * 100 / 6) (fun t => 100 / 6 * t + 50)) by (intro; field). set (l := map _ _). destruct l; [left; auto|right; split; [discriminate|reflexivity]].
Qed.

(** ** Scores per subject *)
Lemma c82_scores : forall (rd : reader ef) k, no_final k ->
  (forall m0, run_modeling MOS rd k = Ok m0 -> per_run_modeling rd k = Ok (mr_raw m0, mr_observers m0)) /\
  (forall e, run_modeling MOS rd k = Err e -> per_run_modeling rd k = Err e).
Proof.
  intros rd k [N T]. unfold per_run_modeling. split.
  - intros m0 H. destruct (mos_run_parts _ _ _ H) as (pp & Hp & Er & _ & Eo). rewrite Hp, Eo. cbn [bind]. unfold per_postprocess. rewrite N, T, Er. reflexivity.
  - intros e H. unfold run_modeling in H. cbn [run_kwargs bind] in H. unfold mos_run in H.
    destruct (preprocess rd k) as [pp|e']; cbn [bind is_biasremv] in *; [|congruence]. destruct (attach_observers rd); cbn [bind] in *; [discriminate|congruence].
Qed.
Lemma per_scores_nth : forall (x : arr3 ef) e, (e < dE x)%nat -> nth_error (per_scores x) e = Some (map (score_of x e) (seq 0 (dS x))).
Proof.
  intros x e He. unfold per_scores. rewrite nth_error_map. rewrite (nth_error_nth' _ 0%nat) by (rewrite seq_length; exact He). rewrite seq_nth by exact He. reflexivity.
Qed.
Lemma mapM_ok : forall A B (f : A -> res B) l, (forall a, In a l -> exists b, f a = Ok b) -> exists bs, mapM f l = Ok bs.
Proof.
  intros A B f l. induction l as [|a l IH]; intro H; [exists []; reflexivity|]. destruct (H a (or_introl eq_refl)) as (b & Hb).
  destruct IH as (bs & Hbs); [intros; apply H; right; assumption|]. exists (b :: bs). cbn [mapM]. rewrite Hb. cbn [bind]. rewrite Hbs. reflexivity.
Qed.
Lemma c82_dataset : forall (rd : reader ef) k kw m0, no_final k -> run_modeling MOS rd k = Ok m0 -> length (rd_dvs rd) = dE (mr_raw m0) ->
  (forall dv, In dv (rd_dvs rd) -> exists b l, dv_os dv = Some (OSeq b l) /\ length l = dS (mr_raw m0)) ->
  exists ds' blocks, per_dataset rd k kw = Ok ds' /\ ds_refs ds' = ds_refs (rd_ds rd) /\ attributes_kept (rd_ds rd) kw ds' /\
    ds_dis ds' = concat blocks /\ length blocks = dE (mr_raw m0) /\
    forall e dv, nth_error (rd_dvs rd) e = Some dv -> exists bl, nth_error blocks e = Some bl /\
      Forall2 (persubject_entry dv) (map (score_of (mr_raw m0) e) (seq 0 (dS (mr_raw m0)))) bl.
Proof.
  intros rd k kw m0 NF H L HL. destruct (c82_scores rd k NF) as [S _]. unfold per_dataset. rewrite (S m0 H). cbn [bind fst]. set (x := mr_raw m0) in *.
  assert (LS : length (per_scores x) = dE x) by (unfold per_scores; rewrite map_length; apply seq_length).
  assert (T : exists ds', to_persubject_dataset (rd_ds rd) (rd_dvs rd) (per_scores x) kw = Ok ds').
  { unfold to_persubject_dataset. destruct (mapM_ok _ _ (fun p => persubject_block (fst p) (snd p)) (combine (rd_dvs rd) (per_scores x))) as (bs & Hbs).
    - intros [dv qs] Hin. assert (Hd := in_combine_l _ _ _ _ Hin). assert (Hq := in_combine_r _ _ _ _ Hin). destruct (HL dv Hd) as (b & l & Eo & Ll). cbn [fst snd].
      apply in_map_iff in Hq as (e & <- & _). unfold persubject_block. rewrite Eo. cbn [bind os_is_dict os_len]. rewrite map_length, seq_length, Ll, Nat.eqb_refl. cbn [assert_ bind]. eauto.
    - rewrite Hbs. cbn [bind]. eauto. }
  destruct T as (ds' & E). destruct (persubject_spec _ _ _ _ _ E) as (A1 & A2 & blocks & A3 & A4 & A5).
  exists ds', blocks. rewrite LS, L, Nat.min_id in A4. repeat (split; [assumption|]). intros e dv He.
  assert (Lt : (e < dE x)%nat) by (rewrite <- L; apply nth_error_Some; rewrite He; discriminate).
  destruct (A5 e dv _ He (per_scores_nth x e Lt)) as (bl & n & vs & B1 & B2 & B3 & B4). exists bl. split; [exact B1|].
  destruct (HL dv (nth_error_In _ _ He)) as (b & l & Eo & Ll). inversion B2 as [b' l' E'|d E']; subst; [exact B4|]. rewrite Eo in E'. discriminate.
Qed.
Lemma filter_single : forall l : list ef,
  filter_notnan (map (fun v => SArr [v]) l) = Ok (map (fun v => SArr [v]) (filter (fun v => match v with NaN => false | _ => true end) l)).
Proof.
  induction l as [|v l IH]; [reflexivity|]. cbn [map filter_notnan score_isnan bind]. rewrite IH. cbn [bind]. destruct v; reflexivity.
Qed.
Lemma block_single : forall (x : arr3 ef) dv e n, dR x = 1%nat -> recorded_votes dv n ->
  persubject_block dv (map (score_of x e) (seq 0 (dS x))) =
    if Nat.eqb n (length (kept_scores x dv e)) then Ok (map (fun v => with_gt dv (GNum v)) (kept_scores x dv e)) else Err AssertionError.
Proof.
  intros x dv e n R1 H. assert (EQ : map (score_of x e) (seq 0 (dS x)) = map (fun v => SArr [v]) (map (fun s => at3 x e s 0) (seq 0 (dS x)))).
  { rewrite map_map. apply map_ext. intro s. unfold score_of. rewrite R1. reflexivity. }
  rewrite EQ. unfold persubject_block, kept_scores. destruct H as [(b & l & E & ->)|(d & E & ->)]; rewrite E; cbn [bind os_is_dict os_len].
  - rewrite !map_length. destruct (Nat.eqb _ _); cbn [assert_ bind]; [|reflexivity]. rewrite !map_map. reflexivity.
  - rewrite filter_single. cbn [bind]. rewrite map_length. destruct (Nat.eqb _ _); cbn [assert_ bind]; [|reflexivity]. rewrite map_map. reflexivity.
Qed.
Lemma mapM_err : forall A B (f : A -> res B) e l, (forall a, In a l -> (exists b, f a = Ok b) \/ f a = Err e) -> (exists a, In a l /\ f a = Err e) -> mapM f l = Err e.
Proof.
  intros A B f e l. induction l as [|a l IH]; intros H (b & Hb & Eb); [destruct Hb|]. cbn [mapM].
  destruct (H a (or_introl eq_refl)) as [(c & Hc)|Ha]; [|rewrite Ha; reflexivity]. rewrite Hc. cbn [bind].
  destruct Hb as [->|Hb]; [congruence|]. rewrite IH; [reflexivity| |exists b; auto]. intros; apply H; right; assumption.
Qed.
Lemma c82_single : forall (rd : reader ef) k kw m0, no_final k -> run_modeling MOS rd k = Ok m0 -> dR (mr_raw m0) = 1%nat ->
  length (rd_dvs rd) = dE (mr_raw m0) -> (forall dv, In dv (rd_dvs rd) -> exists n, recorded_votes dv n) ->
  ((forall e dv n, nth_error (rd_dvs rd) e = Some dv -> recorded_votes dv n -> length (kept_scores (mr_raw m0) dv e) = n) ->
     exists ds' blocks, per_dataset rd k kw = Ok ds' /\ ds_refs ds' = ds_refs (rd_ds rd) /\ attributes_kept (rd_ds rd) kw ds' /\
       ds_dis ds' = concat blocks /\ length blocks = dE (mr_raw m0) /\
       forall e dv, nth_error (rd_dvs rd) e = Some dv -> exists bl, nth_error blocks e = Some bl /\
         Forall2 (score_copy dv) (kept_scores (mr_raw m0) dv e) bl) /\
  ((exists e dv n, nth_error (rd_dvs rd) e = Some dv /\ recorded_votes dv n /\ length (kept_scores (mr_raw m0) dv e) <> n) ->
     per_dataset rd k kw = Err AssertionError).
Proof.
  intros rd k kw m0 NF H R1 L HL. destruct (c82_scores rd k NF) as [S _]. unfold per_dataset. rewrite (S m0 H). cbn [bind fst]. set (x := mr_raw m0) in *. clearbody x.
  assert (LS : length (per_scores x) = dE x) by (unfold per_scores; rewrite map_length; apply seq_length).
  assert (NTH : forall p, In p (combine (rd_dvs rd) (per_scores x)) -> exists e dv n, p = (dv, map (score_of x e) (seq 0 (dS x))) /\ nth_error (rd_dvs rd) e = Some dv /\ recorded_votes dv n).
  { intros [dv qs] Hin. apply In_nth_error in Hin as (e & He). exists e, dv.
    assert (Lt : (e < dE x)%nat) by (assert (Lc : (e < length (combine (rd_dvs rd) (per_scores x)))%nat) by (apply nth_error_Some; rewrite He; discriminate); rewrite combine_length in Lc; lia).
    destruct (nth_error (rd_dvs rd) e) as [dv'|] eqn:Ed; [|apply nth_error_None in Ed; lia].
    assert (E2 := nth_error_nth _ _ (dv, qs) He). rewrite combine_nth in E2 by congruence.
    assert (Eq := nth_error_nth _ _ qs (per_scores_nth x e Lt)). rewrite Eq, (nth_error_nth _ _ dv Ed) in E2. injection E2 as -> <-.
    destruct (HL dv (nth_error_In _ _ Ed)) as (n & Hn). exists n. auto. }
  split.
  - intro All. unfold to_persubject_dataset.
    destruct (mapM_ok _ _ (fun p => persubject_block (fst p) (snd p)) (combine (rd_dvs rd) (per_scores x))) as (bs & Hbs).
    + intros p Hin. destruct (NTH p Hin) as (e & dv & n & -> & Ed & Hn). cbn [fst snd]. rewrite (block_single x dv e n R1 Hn), (All e dv n Ed Hn), Nat.eqb_refl. eauto.
    + assert (E : to_persubject_dataset (rd_ds rd) (rd_dvs rd) (per_scores x) kw = Ok (prepare_new_dataset (rd_ds rd) kw (ds_refs (rd_ds rd)) (concat bs))) by (unfold to_persubject_dataset; rewrite Hbs; reflexivity).
      rewrite Hbs. cbn [bind]. destruct (persubject_spec _ _ _ _ _ E) as (A1 & A2 & _). eexists. exists bs. split; [reflexivity|]. split; [exact A1|]. split; [exact A2|]. split; [reflexivity|].
      assert (Lb := mapM_length _ _ _ _ _ Hbs). rewrite combine_length, LS, L, Nat.min_id in Lb. split; [exact Lb|].
      intros e dv Ed. assert (Lt : (e < dE x)%nat) by (rewrite <- L; apply nth_error_Some; rewrite Ed; discriminate).
      destruct (HL dv (nth_error_In _ _ Ed)) as (n & Hn).
      destruct (nth_error bs e) as [bl|] eqn:Eb; [|apply nth_error_None in Eb; lia]. exists bl. split; [reflexivity|].
      assert (Ec : nth_error (combine (rd_dvs rd) (per_scores x)) e = Some (dv, map (score_of x e) (seq 0 (dS x)))).
      { rewrite (nth_error_nth' _ (dv, [])) by (rewrite combine_length; lia). rewrite combine_nth by congruence.
        rewrite (nth_error_nth _ _ dv Ed), (nth_error_nth _ _ [] (per_scores_nth x e Lt)). reflexivity. }
      destruct (mapM_nth _ _ _ _ _ _ _ Hbs Ec) as (bl2 & B2 & B). assert (bl2 = bl) by congruence. subst bl2. cbn [fst snd] in B. rewrite (block_single x dv e n R1 Hn), (All e dv n Ed Hn), Nat.eqb_refl in B. apply Ok_inj in B. subst bl.
      clear. induction (kept_scores x dv e) as [|v l IH]; constructor; [|exact IH]. repeat split.
  - intros (e & dv & n & Ed & Hn & Ne). unfold to_persubject_dataset. rewrite (mapM_err _ _ _ AssertionError); [reflexivity| |].
    + intros p Hin. destruct (NTH p Hin) as (e' & dv' & n' & -> & Ed' & Hn'). cbn [fst snd]. rewrite (block_single x dv' e' n' R1 Hn'). destruct (Nat.eqb _ _); eauto.
    + assert (Lt : (e < dE x)%nat) by (rewrite <- L; apply nth_error_Some; rewrite Ed; discriminate).
      exists (dv, map (score_of x e) (seq 0 (dS x))). split.
      * apply (nth_error_In _ e). rewrite (nth_error_nth' _ (dv, [])) by (rewrite combine_length; lia). rewrite combine_nth by congruence.
        rewrite (nth_error_nth _ _ dv Ed), (nth_error_nth _ _ [] (per_scores_nth x e Lt)). reflexivity.
      * cbn [fst snd]. rewrite (block_single x dv e n R1 Hn). destruct (Nat.eqb_spec n (length (kept_scores x dv e))); [congruence|reflexivity].
Qed.
