(** Concrete datasets for the MOS family and the facts about them used by the
    theorems; central and unanimous votes. *)
From Coq Require Import String.
From Coq Require Import List ZArith Bool Arith Lia Reals Lra Permutation.
From Verif Require Import PyBase Num ExtReal NumPy Dataset Preproc Mos BaseProofs ExtRealProofs SpecDataset SpecMos
  DatasetProofs ArrayProofs RecordedProofs MosProofs PreprocProofs RejectProofs Reject2Proofs StepsProofs.
Import ListNotations.
Local Open Scope list_scope.
Local Open Scope string_scope.

Definition w_vote (z : Z) : pyv ef := PNum (Fin (IZR z)).
Definition w_dv (c a : Z) (p : string) (o : osval ef string) : dvideo ef string := DVideo c a p (Some o) None None [].
Definition w_ds (dvs : list (dvideo ef string)) : dataset ef string :=
  Dataset [RVideo 0 "ref0" []; RVideo 1 "ref1" []] dvs (Some "w") (Some (Some (Fin 5))) [].
Definition w_reader (ds : dataset ef string) : reader ef :=
  Reader ds (ds_dis ds) (opinion_score_3darray_with (ds_dis ds) (get_num_observers (ds_dis ds))).
Definition w_arr (ds : dataset ef string) : arr3 ef :=
  match rd_arr (w_reader ds) with Ok a => a | Err _ => Arr3 0 0 0 (fun _ _ _ => NaN) end.

(** ** Central and unanimous votes *)
Lemma central_not_counted : forall a e s r x, at3 a e s r = Fin x ->
  (Rabs (x - Rmean (video_votes a e)) < 2 * sqrt (pvar (video_votes a e)))%R -> ~ high_vote a s e r /\ ~ low_vote a s e r.
Proof.
  intros a e s r x Hx H. assert (S0 := sqrt_pos (pvar (video_votes a e))).
  split; intros (y & c & E & Hc & K); rewrite Hx in E; injection E as <-; apply factor_pos in Hc.
  - assert (2 * sqrt (pvar (video_votes a e)) <= c * sqrt (pvar (video_votes a e)))%R by (apply Rmult_le_compat_r; assumption).
    unfold Rabs in H. destruct (Rcase_abs _); lra.
  - assert (2 * sqrt (pvar (video_votes a e)) <= c * sqrt (pvar (video_votes a e)))%R by (apply Rmult_le_compat_r; assumption).
    unfold Rabs in H. destruct (Rcase_abs _); lra.
Qed.
Lemma counted_none : forall a (P : nat -> nat -> Prop) n, (forall e r, e < dE a -> r < dR a -> ~ P e r) -> counted a P n -> n = 0.
Proof.
  intros a P n H (L & _ & HL & <-). destruct L as [|[e r] L]; [reflexivity|].
  destruct (proj1 (HL e r) (or_introl eq_refl)) as (H1 & H2 & H3). exfalso. apply (H e r H1 H2 H3).
Qed.
Lemma not_counted_kept : forall a s, (forall e r, e < dE a -> r < dR a -> ~ high_vote a s e r /\ ~ low_vote a s e r) -> ~ outlier_subject a s.
Proof.
  intros a s H (p & q & Hp & Hq & K1 & K2).
  assert (p = 0) by (eapply counted_none; [|exact Hp]; intros; apply H; assumption).
  assert (q = 0) by (eapply counted_none; [|exact Hq]; intros; apply H; assumption). subst. simpl INR in K2.
  assert (Z : (Rabs (0 - 0) = 0)%R) by (rewrite Rminus_0_r; apply Rabs_R0). rewrite Z in K2. lra.
Qed.
Lemma central_kept : forall a s,
  (forall e r x, inside a e s r -> at3 a e s r = Fin x ->
     (Rabs (x - Rmean (video_votes a e)) < 2 * sqrt (pvar (video_votes a e)))%R) -> s < dS a -> ~ outlier_subject a s.
Proof.
  intros a s H Hs. apply not_counted_kept. intros e r He Hr.
  destruct (at3 a e s r) as [x| | |] eqn:Ex; [eapply central_not_counted; [exact Ex|]; apply (H e r x); [unfold inside; auto|exact Ex]| | |];
    split; intros (y & c & E & _); rewrite Ex in E; discriminate.
Qed.
Lemma unanimous_counted : forall a e s r x, inside a e s r -> at3 a e s r = Fin x -> ~ has_spread (video_votes a e) ->
  high_vote a s e r /\ low_vote a s e r.
Proof.
  intros a e s r x I Hx Hn.
  assert (Hin : In x (video_votes a e)) by (apply video_votes_In; exists s, r; unfold inside in I; repeat split; try lia; exact Hx).
  assert (A : forall y, In y (video_votes a e) -> y = x).
  { intros y Hy. destruct (Req_dec y x); [assumption|]. exfalso. apply Hn. exists y, x. auto. }
  assert (Hne : video_votes a e <> []) by (intro E; rewrite E in Hin; contradiction).
  assert (M : Rmean (video_votes a e) = x).
  { unfold Rmean. rewrite (Rsum_const _ x A). field. apply INR_len_neq; exact Hne. }
  assert (P : pvar (video_votes a e) = 0%R).
  { apply pvar_zero; [exact Hne|]. intros u v Hu Hv. rewrite (A u Hu), (A v Hv). reflexivity. }
  split; exists x, (cfac (video_votes a e)); (split; [exact Hx|]); (split; [apply cfac_factor; reflexivity|]);
    rewrite M, P, sqrt_0; lra.
Qed.

(** ** Totality of the runs on witnesses *)
Lemma run_total : forall c ds k pp, raw_reader ds = Ok (w_reader ds) -> ~ conflict c k -> is_biasremv c = false ->
  preprocess (w_reader ds) (plus_announced c k) = Ok pp -> exists m, run_modeling c (w_reader ds) k = Ok m.
Proof.
  intros c ds k pp Hr Hc Hb Hp. destruct (attach_total ds _ Hr) as (o & Ho).
  unfold run_modeling. rewrite kwargs_plus by exact Hc. cbn [bind]. unfold mos_run. rewrite Hp, Hb. cbn [bind]. rewrite Ho. eexists; reflexivity.
Qed.
Lemma no_conflict : forall c, ~ conflict c no_options.
Proof. intros c H. unfold conflict in H. cbn [kw_dscore kw_zscore kw_bias kw_rej no_options] in H. intuition discriminate. Qed.
Lemma kurtosis_total : forall ds a, raw_reader ds = Ok (w_reader ds) -> rd_arr (w_reader ds) = Ok a ->
  exists m, run_modeling SR_MOS (w_reader ds) no_options = Ok m.
Proof.
  intros ds a Hr HA. destruct (reject_kurtosis a) as [[[b fl] s1] s2] eqn:E.
  eapply run_total; [exact Hr|apply no_conflict|reflexivity|].
  unfold preprocess. rewrite HA. cbn [bind plus_announced announced no_options st_dscore st_zscore st_bias st_rej st_type orb kw_rej kw_rejtype kw_zscore kw_bias kw_dscore assert_ negb andb].
  cbv zeta. rewrite E. reflexivity.
Qed.
Lemma pearson_total : forall ds a, raw_reader ds = Ok (w_reader ds) -> rd_arr (w_reader ds) = Ok a -> finite_votes a ->
  (forall s, s < dS a -> 2 <= length (seen a s)) ->
  exists m, run_modeling SR_MOS_PCC (w_reader ds) no_options = Ok m.
Proof.
  intros ds a Hr HA Hf Hs.
  assert (T : exists r, observer_corr sp_pearsonr a = Ok r).
  { apply mapM_total. intros s Hin. apply in_seq in Hin. unfold sp_pearsonr. rewrite map_length.
    change (fun e0 => negb (nisnan (np_nanmean (map (fun r0 => at3 a e0 s r0) (seq 0 (dR a)))))) with (fun e => negb (nisnan (sesR a e s))).
    rewrite (seen_eq a Hf s) by lia. assert (K := Hs s ltac:(lia)). destruct (Nat.ltb_spec (length (seen a s)) 2); [lia|]. eexists; reflexivity. }
  destruct T as (r & T).
  eapply run_total; [exact Hr|apply no_conflict|reflexivity|].
  unfold preprocess. rewrite HA. cbn [bind plus_announced announced no_options st_dscore st_zscore st_bias st_rej st_type orb kw_rej kw_rejtype kw_zscore kw_bias kw_dscore assert_ negb andb].
  cbv zeta. unfold reject_corr. rewrite T. reflexivity.
Qed.
Lemma empty_quality : forall (a : arr3 ef), dS a = 0 -> along1 np_nanmean (stack1 a) = repeat NaN (dE a).
Proof.
  intros a H. unfold along1. change (n0 (stack1 a)) with (dE a). rewrite <- (seq_length (dE a) 0) at 2. rewrite <- map_const_repeat.
  apply map_ext. intro e. unfold row. cbn [n1 stack1]. rewrite H, Nat.mul_0_r. cbn. destruct (Req_EM_T 0 0); [reflexivity|contradiction].
Qed.

(** Constant voter. *)
Definition wc_ds := w_ds [ w_dv 0 0 "v0" (OSeq false [w_vote 1; w_vote 3]); w_dv 0 1 "v1" (OSeq false [w_vote 2; w_vote 3]) ].
Lemma wc_reader : raw_reader wc_ds = Ok (w_reader wc_ds).
Proof. reflexivity. Qed.
Lemma wc_arr : rd_arr (w_reader wc_ds) = Ok (w_arr wc_ds).
Proof. reflexivity. Qed.
Lemma wc_shape : dE (w_arr wc_ds) = 2 /\ dS (w_arr wc_ds) = 2 /\ dR (w_arr wc_ds) = 1.
Proof. repeat split. Qed.
Lemma wc_complete : complete_votes (w_arr wc_ds).
Proof.
  intros e s r I. unfold inside in I. change (dE (w_arr wc_ds)) with 2 in I. change (dS (w_arr wc_ds)) with 2 in I. change (dR (w_arr wc_ds)) with 1 in I. destruct I as (He & Hs & Hr).
  destruct e as [|[|e]]; [| |lia]; (destruct s as [|[|s]]; [| |lia]); (destruct r as [|r]; [|lia]); exact I.
Qed.
Lemma complete_fin : forall a, complete_votes a -> finite_votes a.
Proof. intros a H e s r I. specialize (H e s r I). destruct (at3 a e s r); simpl in *; auto. Qed.

(** Results of a run with Pearson rejection, in terms of the array read. *)
Lemma pearson_run : forall ds a m, rd_arr (w_reader ds) = Ok a -> finite_votes a -> run_modeling SR_MOS_PCC (w_reader ds) no_options = Ok m ->
  exists flags r zeros, mr_rej m = Some (flags, r, zeros) /\ length r = dS a /\ length flags = dS a /\
      (forall s, s < dS a -> exists v, nth_error r s = Some v /\ is_corr v (own_scores a s) (all_scores a s)) /\
      (In NaN r -> dS (mr_raw m) = 0 /\ flags = repeat false (dS a)) /\
      (forall rs, r = map Fin rs -> 0 < dS a ->
         rejection_result a (mr_raw m) (fun s => exists x, nth_error rs s = Some x /\ (x <= threshold rs)%R) flags /\
         (0 < dS (mr_raw m) <-> (exists x, In x rs /\ (7/10 < x)%R) \/ (exists x y, In x rs /\ In y rs /\ x <> y))) /\
      (dS (mr_raw m) = 0 -> mr_quality m = repeat NaN (dE a)).
Proof.
  intros ds a m HA Hf H. destruct (run_pp _ _ _ _ H) as (k' & pp & Hk & Hp & HR & HJ & HQ & _).
  rewrite (kwargs_plus _ _ (no_conflict SR_MOS_PCC)) in Hk. injection Hk as <-.
  destruct (corr_pp _ (plus_announced SR_MOS_PCC no_options) _ eq_refl (or_introl eq_refl) Hp) as (pp0 & fl & r & z & H0 & _ & _ & HJ' & S).
  assert (A0 : pp_arr pp0 = a).
  { unfold preprocess in H0. rewrite HA in H0. injection H0 as <-. reflexivity. }
  rewrite A0 in S. cbv zeta in S. destruct (S Hf) as (L1 & L2 & HS & HN & HFn). clear S.
  exists fl, r, z. rewrite HJ, HR, HQ. repeat (split; [assumption|]). split.
  - intros s Hs. destruct (HS s Hs) as (v & Ev & K & _). exists v. split; [exact Ev|apply K; reflexivity].
  - split; [exact HN|]. split; [exact HFn|].
    intro Z. rewrite postprocess_none by reflexivity. rewrite (empty_quality _ Z). f_equal.
    clear - Hp HA Z. unfold preprocess in Hp. rewrite HA in Hp. cbn [bind plus_announced announced no_options st_dscore st_zscore st_bias st_rej st_type orb kw_rej kw_rejtype kw_zscore kw_bias kw_dscore assert_ negb andb] in Hp. cbv zeta in Hp.
    unfold reject_corr in Hp. destruct (observer_corr sp_pearsonr a); [|discriminate]. cbn [bind] in Hp. injection Hp as <-. reflexivity.
Qed.

Lemma wc_result : exists m st1 st2, run_modeling SR_MOS_PCC (w_reader wc_ds) no_options = Ok m /\
  mr_rej m = Some ([false; false], st1, st2) /\ dS (mr_raw m) = 0 /\ mr_quality m = [NaN; NaN].
Proof.
  assert (Hf := complete_fin _ wc_complete).
  destruct (pearson_total wc_ds _ wc_reader wc_arr Hf) as (m & Hm).
  { intros s Hs. change (dS (w_arr wc_ds)) with 2 in Hs. destruct s as [|[|s]]; [| |lia]; cbn; lia. }
  destruct (pearson_run wc_ds _ m wc_arr Hf Hm) as (fl & r & z & HJ & L1 & L2 & HS & HN & _ & HQ).
  destruct (HS 1 ltac:(cbn; lia)) as (v & Ev & C).
  assert (OS : own_scores (w_arr wc_ds) 1 = [Rmean [3%R]; Rmean [3%R]]) by reflexivity.
  assert (V : v = NaN).
  { destruct C as [(Sp & _)|(_ & E)]; [|exact E]. exfalso. rewrite OS in Sp. destruct Sp as (x & y & [<-|[<-|[]]] & [<-|[<-|[]]] & N); apply N; reflexivity. }
  destruct HN as [Z F]; [apply (nth_error_In r 1); rewrite Ev, V; reflexivity|].
  exists m, r, z. split; [exact Hm|]. rewrite HJ, F. split; [reflexivity|]. split; [exact Z|]. rewrite HQ by exact Z. reflexivity.
Qed.

(** Equal correlations at most 0.7. *)
Definition we_ds := w_ds [ w_dv 0 0 "v0" (OSeq false [w_vote 3; w_vote 1]); w_dv 0 1 "v1" (OSeq false [w_vote 1; w_vote 5]);
                           w_dv 0 2 "v2" (OSeq false [w_vote 5; w_vote 3]) ].
Lemma we_reader : raw_reader we_ds = Ok (w_reader we_ds).
Proof. reflexivity. Qed.
Lemma we_arr : rd_arr (w_reader we_ds) = Ok (w_arr we_ds).
Proof. reflexivity. Qed.
Lemma we_complete : complete_votes (w_arr we_ds).
Proof.
  intros e s r I. unfold inside in I. change (dE (w_arr we_ds)) with 3 in I. change (dS (w_arr we_ds)) with 2 in I. change (dR (w_arr we_ds)) with 1 in I.
  destruct I as (He & Hs & Hr).
  destruct e as [|[|[|e]]]; [| | |lia]; (destruct s as [|[|s]]; [| |lia]); (destruct r as [|r]; [|lia]); exact I.
Qed.
Lemma Rmean1 : forall x, Rmean [x] = x.
Proof. intro x. unfold Rmean, Rsum. simpl. field. Qed.
Lemma Rmean2 : forall x y, Rmean [x; y] = ((x + y) / 2)%R.
Proof. intros x y. unfold Rmean, Rsum. simpl. field. Qed.
Lemma Rmean3 : forall x y z, Rmean [x; y; z] = ((x + y + z) / 3)%R.
Proof. intros x y z. unfold Rmean, Rsum. simpl. field. Qed.

Lemma we_own : own_scores (w_arr we_ds) 0 = [3; 1; 5]%R /\ own_scores (w_arr we_ds) 1 = [1; 5; 3]%R /\
  all_scores (w_arr we_ds) 0 = [2; 3; 4]%R /\ all_scores (w_arr we_ds) 1 = [2; 3; 4]%R.
Proof.
  assert (O0 : own_scores (w_arr we_ds) 0 = [Rmean [3]; Rmean [1]; Rmean [5]]%R) by reflexivity.
  assert (O1 : own_scores (w_arr we_ds) 1 = [Rmean [1]; Rmean [5]; Rmean [3]]%R) by reflexivity.
  assert (A0 : all_scores (w_arr we_ds) 0 = [Rmean [Rmean [3]; Rmean [1]]; Rmean [Rmean [1]; Rmean [5]]; Rmean [Rmean [5]; Rmean [3]]]%R) by reflexivity.
  assert (A1 : all_scores (w_arr we_ds) 1 = [Rmean [Rmean [3]; Rmean [1]]; Rmean [Rmean [1]; Rmean [5]]; Rmean [Rmean [5]; Rmean [3]]]%R) by reflexivity.
  rewrite O0, O1, A0, A1, !Rmean1, !Rmean2. repeat split; repeat (f_equal; try lra).
Qed.
Lemma sqrt4 : forall x, (0 <= x)%R -> sqrt (x * x) = x.
Proof. intros. apply sqrt_square. assumption. Qed.
Lemma we_pearson : pearson [3; 1; 5]%R [2; 3; 4]%R = (1/2)%R /\ pearson [1; 5; 3]%R [2; 3; 4]%R = (1/2)%R.
Proof.
  unfold pearson, covsum, sumsq. rewrite !Rmean3. unfold Rsum. cbn [combine map fold_right fst snd].
  assert (S8 : sqrt 8 <> 0%R) by (assert (0 < sqrt 8)%R by (apply sqrt_lt_R0; lra); lra).
  assert (S2 : sqrt 2 <> 0%R) by (assert (0 < sqrt 2)%R by (apply sqrt_lt_R0; lra); lra).
  assert (P : (sqrt 8 * sqrt 2 = 4)%R).
  { rewrite <- sqrt_mult by lra. replace (8 * 2)%R with (4 * 4)%R by ring. apply sqrt4. lra. }
  split.
  - match goal with |- (?c / (sqrt ?x * sqrt ?y) = _)%R => replace x with 8%R by field; replace y with 2%R by field; replace c with 2%R by field end. rewrite P. lra.
  - match goal with |- (?c / (sqrt ?x * sqrt ?y) = _)%R => replace x with 8%R by field; replace y with 2%R by field; replace c with 2%R by field end. rewrite P. lra.
Qed.
Lemma we_result : exists m st2, run_modeling SR_MOS_PCC (w_reader we_ds) no_options = Ok m /\
  mr_rej m = Some ([true; true], [Fin (1/2); Fin (1/2)], st2) /\ dS (mr_raw m) = 0 /\ mr_quality m = [NaN; NaN; NaN].
Proof.
  assert (Hf := complete_fin _ we_complete).
  destruct (pearson_total we_ds _ we_reader we_arr Hf) as (m & Hm).
  { intros s Hs. change (dS (w_arr we_ds)) with 2 in Hs. destruct s as [|[|s]]; [| |lia]; cbn; lia. }
  destruct (pearson_run we_ds _ m we_arr Hf Hm) as (fl & r & z & HJ & L1 & L2 & HS & _ & HF & HQ).
  change (dS (w_arr we_ds)) with 2 in *. destruct we_own as (O0 & O1 & A0 & A1). destruct we_pearson as (P0 & P1).
  assert (SP : forall x y z, x <> y -> has_spread [x; y; z]) by (intros x y w N; exists x, y; simpl; auto).
  assert (R : r = map Fin [1/2; 1/2]%R).
  { destruct (HS 0 ltac:(lia)) as (v0 & E0 & C0). destruct (HS 1 ltac:(lia)) as (v1 & E1 & C1).
    rewrite O0, A0 in C0. rewrite O1, A1 in C1.
    destruct C0 as [(_ & _ & ->)|(N & _)]; [|exfalso; apply N; split; apply SP; lra].
    destruct C1 as [(_ & _ & ->)|(N & _)]; [|exfalso; apply N; split; apply SP; lra].
    rewrite P0 in E0. rewrite P1 in E1. destruct r as [|x [|y [|w r]]]; simpl in *; try discriminate. congruence. }
  destruct (HF _ R ltac:(lia)) as ((LF & FL & _) & NE).
  assert (Z : dS (mr_raw m) = 0).
  { destruct (dS (mr_raw m)) eqn:D; [reflexivity|]. exfalso. destruct (proj1 NE ltac:(lia)) as [(x & Hx & Hl)|(x & y & Hx & Hy & N)].
    - destruct Hx as [<-|[<-|[]]]; lra.
    - destruct Hx as [<-|[<-|[]]], Hy as [<-|[<-|[]]]; apply N; reflexivity. }
  assert (T : threshold [1/2; 1/2]%R = (1/2)%R).
  { unfold threshold. rewrite Rmean2. assert (PV : pvar [1/2; 1/2]%R = 0%R).
    { apply pvar_zero; [discriminate|]. intros x y [<-|[<-|[]]] [<-|[<-|[]]]; reflexivity. }
    rewrite PV, sqrt_0. unfold Rmin. destruct (Rle_dec _ _); lra. }
  rewrite T in FL.
  assert (F : fl = [true; true]).
  { assert (F0 := proj2 (FL 0 ltac:(lia)) ltac:(exists (1/2)%R; split; [reflexivity|lra])).
    assert (F1 := proj2 (FL 1 ltac:(lia)) ltac:(exists (1/2)%R; split; [reflexivity|lra])).
    destruct fl as [|x [|y [|w fl]]]; simpl in *; try discriminate. congruence. }
  exists m, z. split; [exact Hm|]. rewrite HJ, F, R. split; [reflexivity|]. split; [exact Z|]. rewrite HQ by exact Z. reflexivity.
Qed.

(** Unanimous voters rejected. *)
Definition wu_ds := w_ds [ w_dv 0 0 "v0" (ODict [("A", w_vote 3); ("B", w_vote 3)]); w_dv 0 1 "v1" (ODict [("C", w_vote 4); ("D", w_vote 2)]) ].
Lemma wu_reader : raw_reader wu_ds = Ok (w_reader wu_ds).
Proof. reflexivity. Qed.
Lemma wu_arr : rd_arr (w_reader wu_ds) = Ok (w_arr wu_ds).
Proof. reflexivity. Qed.
Lemma wu_finite : finite_votes (w_arr wu_ds).
Proof.
  intros e s r I. unfold inside in I. change (dE (w_arr wu_ds)) with 2 in I. change (dS (w_arr wu_ds)) with 4 in I. change (dR (w_arr wu_ds)) with 1 in I.
  destruct I as (He & Hs & Hr).
  destruct e as [|[|e]]; [| |lia]; (destruct s as [|[|[|[|s]]]]; [| | | |lia]); (destruct r as [|r]; [|lia]); exact I.
Qed.
Lemma wu_outlier : forall s, s < 2 -> outlier_subject (w_arr wu_ds) s.
Proof.
  intros s Hs. set (a := w_arr wu_ds).
  assert (V0 : video_votes a 0 = [3; 3]%R) by reflexivity.
  assert (U : high_vote a s 0 0 /\ low_vote a s 0 0).
  { apply unanimous_counted with 3%R.
    - unfold inside. change (dE a) with 2. change (dS a) with 4. change (dR a) with 1. lia.
    - destruct s as [|[|s]]; [reflexivity|reflexivity|lia].
    - rewrite V0. intros (x & y & [<-|[<-|[]]] & [<-|[<-|[]]] & N); apply N; reflexivity. }
  assert (N1 : at3 a 1 s 0 = NaN) by (destruct s as [|[|s]]; [reflexivity|reflexivity|lia]).
  assert (CNT : forall P : nat -> nat -> Prop, P 0 0 -> ~ P 1 0 -> counted a P 1).
  { intros P H0 H1. exists [(0, 0)]. split; [constructor; [intros []|constructor]|]. split; [|reflexivity].
    intros e r. change (dE a) with 2. change (dR a) with 1. split.
    - intros [[= <- <-]|[]]. repeat split; try lia. exact H0.
    - intros (He & Hr & HP). assert (r = 0) by lia. subst r. destruct e as [|[|e]]; [left; reflexivity| |lia]. contradiction. }
  exists 1, 1. split; [apply CNT; [apply U|]|split; [apply CNT; [apply U|]|]].
  - intros (x & c & E & _). rewrite N1 in E. discriminate.
  - intros (x & c & E & _). rewrite N1 in E. discriminate.
  - change (dE a * dR a) with 2. simpl INR. split; [lra|]. rewrite Rminus_diag_eq by reflexivity. rewrite Rabs_R0. lra.
Qed.
Lemma wu_kept : forall s, 2 <= s -> s < 4 -> ~ outlier_subject (w_arr wu_ds) s.
Proof.
  intros s H2 H4. set (a := w_arr wu_ds). assert (V1 : video_votes a 1 = [4; 2]%R) by reflexivity.
  assert (PV : pvar [4; 2]%R = 1%R). { unfold pvar, sumsq. rewrite Rmean2. unfold Rsum. simpl. field. }
  apply central_kept; [|change (dS a) with 4; exact H4]. intros e r x I Hx.
  unfold inside in I. change (dE a) with 2 in I. change (dR a) with 1 in I.
  assert (r = 0) by lia. subst r. destruct e as [|[|e]]; [| |lia].
  - exfalso. destruct s as [|[|[|[|s]]]]; try lia; discriminate.
  - rewrite V1, PV, Rmean2, sqrt_1.
    assert (X : x = 4%R \/ x = 2%R).
    { destruct s as [|[|[|[|s]]]]; try lia; [left|right]; assert (E : at3 a 1 2 0 = Fin 4) by reflexivity;
        assert (E' : at3 a 1 3 0 = Fin 2) by reflexivity; congruence. }
    destruct X as [-> | ->]; unfold Rabs; destruct (Rcase_abs _); lra.
Qed.
Lemma wu_result : exists m st1 st2, run_modeling SR_MOS (w_reader wu_ds) no_options = Ok m /\
  mr_rej m = Some ([true; true; false; false], st1, st2) /\ nth_error (mr_quality m) 0 = Some NaN.
Proof.
  destruct (kurtosis_total wu_ds _ wu_reader wu_arr) as (m & Hm).
  destruct (run_pp _ _ _ _ Hm) as (k' & pp & Hk & Hp & HR & HJ & HQ & _).
  rewrite (kwargs_plus _ _ (no_conflict SR_MOS)) in Hk. injection Hk as <-.
  destruct (kurtosis_pp _ (plus_announced SR_MOS no_options) _ eq_refl (or_introl eq_refl) Hp) as (pp0 & fl & s1 & s2 & H0 & _ & _ & HJ' & S).
  assert (A0 : pp_arr pp0 = w_arr wu_ds). { unfold preprocess in H0. rewrite wu_arr in H0. injection H0 as <-. reflexivity. }
  rewrite A0 in S. destruct (S wu_finite) as ((L & FL & kept & (KS & KU) & KC) & _). clear S.
  change (dS (w_arr wu_ds)) with 4 in *.
  assert (EX : exists s', s' < 4 /\ ~ outlier_subject (w_arr wu_ds) s') by (exists 2; split; [lia|apply wu_kept; lia]).
  assert (F0 : nth_error fl 0 = Some true) by (apply FL; [lia|split; [apply wu_outlier; lia|exact EX]]).
  assert (F1 : nth_error fl 1 = Some true) by (apply FL; [lia|split; [apply wu_outlier; lia|exact EX]]).
  assert (F2 : nth_error fl 2 <> Some true) by (intro E; apply FL in E as [E _]; [|lia]; revert E; apply wu_kept; lia).
  assert (F3 : nth_error fl 3 <> Some true) by (intro E; apply FL in E as [E _]; [|lia]; revert E; apply wu_kept; lia).
  assert (F : fl = [true; true; false; false]).
  { destruct fl as [|x0 [|x1 [|x2 [|x3 [|x4 fl]]]]]; simpl in *; try discriminate. destruct x2; [contradiction|]. destruct x3; [contradiction|]. congruence. }
  exists m, s1, s2. split; [exact Hm|]. rewrite HJ, HJ', F. split; [reflexivity|].
  rewrite HQ, postprocess_none by reflexivity. destruct KC as (HE & HR1 & HS1 & HC).
  change (dE (w_arr wu_ds)) with 2 in HE. change (dR (w_arr wu_ds)) with 1 in HR1.
  assert (Hf : finite_votes (pp_arr pp)).
  { intros e s r I. unfold inside in I. destruct (nth_error kept s) as [s'|] eqn:Es; [|apply nth_error_None in Es; lia].
    rewrite (HC s s' Es). apply wu_finite. unfold inside. change (dE (w_arr wu_ds)) with 2. change (dR (w_arr wu_ds)) with 1.
    split; [lia|]. split; [|lia]. apply nth_error_In in Es. apply KU in Es. rewrite F in Es.
    assert (s' < 4) by (change 4 with (length [true; true; false; false]); apply nth_error_Some; congruence). exact H. }
  rewrite mean_rows by exact Hf. rewrite HE. cbn [seq map nth_error]. f_equal.
  replace (video_votes (pp_arr pp) 0) with (@nil R); [reflexivity|]. symmetry. apply video_votes_nan. intros s r Hs Hr.
  destruct (nth_error kept s) as [s'|] eqn:Es; [|apply nth_error_None in Es; lia]. rewrite (HC s s' Es).
  apply nth_error_In in Es. apply KU in Es. rewrite F in Es. assert (r = 0) by lia. subst r.
  assert (s' < 4) by (change 4 with (length [true; true; false; false]); apply nth_error_Some; congruence).
  destruct s' as [|[|[|[|s']]]]; simpl in Es; try discriminate; try reflexivity. lia.
Qed.

(** ** Hypotheses met by the witness datasets *)
Ltac dataset_votes :=
  intros dv vs Hin Hr; cbn in Hin;
  repeat (destruct Hin as [<-|Hin]; [
    destruct Hr as [(b & l & xss & E & F & P)|(d & xss & E & F & P)]; cbn in E; try discriminate; injection E; intros; subst; clear E;
    cbn [map snd] in F; apply (Permutation_Forall (Permutation_sym P)); clear P;
    repeat match goal with
    | H : Forall2 vote_value (_ :: _) _ |- _ => inversion H; clear H; subst
    | H : Forall2 vote_value [] _ |- _ => inversion H; clear H; subst
    | H : vote_value _ _ |- _ => inversion H; clear H; subst
    end; cbn [concat app]; repeat constructor|]); contradiction.
Ltac dataset_dicts :=
  intros dv d Hin E; cbn in Hin;
  repeat (destruct Hin as [<-|Hin]; [cbn in E; try discriminate; injection E; intros; subst; clear E; cbn [map fst];
    repeat (constructor; [cbn; intuition congruence|]); constructor|]); contradiction.

Lemma wc_finite_ds : finite_dataset (ds_dis wc_ds).
Proof. dataset_votes. Qed.
Lemma wc_dicts : python_dicts (ds_dis wc_ds).
Proof. dataset_dicts. Qed.
Lemma wu_finite_ds : finite_dataset (ds_dis wu_ds).
Proof. dataset_votes. Qed.
Lemma wu_dicts : python_dicts (ds_dis wu_ds).
Proof. dataset_dicts. Qed.

(** Two contents with their reference videos, two subjects, one missing vote. *)
Definition wd_ds := w_ds [ w_dv 0 0 "ref0" (ODict [("A", w_vote 5); ("B", w_vote 4)]);
                           w_dv 0 1 "v1" (ODict [("B", w_vote 2); ("A", w_vote 3)]);
                           w_dv 1 2 "ref1" (ODict [("B", w_vote 4)]) ].
Lemma wd_reader : raw_reader wd_ds = Ok (w_reader wd_ds).
Proof. reflexivity. Qed.
Lemma wd_arr : rd_arr (w_reader wd_ds) = Ok (w_arr wd_ds).
Proof. reflexivity. Qed.
Lemma wd_finite_ds : finite_dataset (ds_dis wd_ds).
Proof. dataset_votes. Qed.
Lemma wd_dicts : python_dicts (ds_dis wd_ds).
Proof. dataset_dicts. Qed.
Lemma wd_finite : finite_votes (w_arr wd_ds).
Proof. exact (read_finite wd_ds _ _ wd_reader wd_dicts wd_finite_ds wd_arr). Qed.

Lemma kurtosis_total_arr : forall (rd : reader ef) a o, rd_arr rd = Ok a -> attach_observers rd = Ok o ->
  exists m, run_modeling SR_MOS rd no_options = Ok m.
Proof.
  intros rd a o HA Ho. destruct (reject_kurtosis a) as [[[b fl] s1] s2] eqn:E.
  unfold run_modeling. rewrite kwargs_plus by apply no_conflict. cbn [bind]. unfold mos_run, preprocess. rewrite HA.
  cbn [bind plus_announced announced no_options st_dscore st_zscore st_bias st_rej st_type orb kw_rej kw_rejtype kw_zscore kw_bias kw_dscore assert_ negb andb].
  cbv zeta. rewrite E. cbn [bind is_biasremv]. rewrite Ho. eexists; reflexivity.
Qed.
Lemma plain_total : forall c (rd : reader ef) a o k, rd_arr rd = Ok a -> attach_observers rd = Ok o -> ~ conflict c k ->
  kw_dscore (plus_announced c k) = false -> kw_rej (plus_announced c k) = false -> kw_rejtype (plus_announced c k) = None ->
  kw_zscore (plus_announced c k) && kw_bias (plus_announced c k) = false ->
  exists m, run_modeling c rd k = Ok m.
Proof.
  intros c rd a o k HA Ho NC H1 H2 H3 H4. unfold run_modeling. rewrite (kwargs_plus c k NC). cbn [bind].
  assert (B : is_biasremv c = true -> kw_bias (plus_announced c k) = true) by (destruct c; try discriminate; reflexivity).
  generalize dependent (plus_announced c k). intros k' H1 H2 H3 H4 B.
  unfold mos_run, preprocess. rewrite HA. cbn [bind]. rewrite H2, H3. cbn [bind assert_].
  rewrite H4. cbn [bind negb assert_]. rewrite H1. cbn [bind]. cbv zeta.
  destruct (is_biasremv c) eqn:IB; [rewrite (B eq_refl)|]; cbn [bind pp_bias]; rewrite Ho; eexists; reflexivity.
Qed.
Lemma wd_refs : forall c i, is_reference (ds_refs wd_ds) (ds_dis wd_ds) c i <-> (c = 0%Z /\ i = 0) \/ (c = 1%Z /\ i = 2).
Proof.
  intros c i. split.
  - intros (dv & r & Hi & <- & (l1 & l2 & E & _) & P). assert (Hr : In r (ds_refs wd_ds)) by (rewrite E; apply in_elt).
    destruct i as [|[|[|i]]]; cbn in Hi; [| | |destruct i; discriminate]; injection Hi as <-; cbn in P, Hr |- *;
    destruct Hr as [<-|[<-|[]]]; try discriminate; auto.
  - intros [[-> ->]|[-> ->]]; eexists; [exists (RVideo 0 "ref0" [])|exists (RVideo 1 "ref1" [])];
      (split; [reflexivity|]); (split; [reflexivity|]); (split; [|reflexivity]).
    + exists [], [RVideo 1 "ref1" []]. split; [reflexivity|]. split; [reflexivity|]. intros r [<-|[]]. discriminate.
    + exists [RVideo 0 "ref0" []], []. split; [reflexivity|]. split; [reflexivity|]. intros r [].
Qed.
Lemma wd_ref0 : forall i, is_reference (ds_refs wd_ds) (ds_dis wd_ds) 0 i <-> i = 0.
Proof. intro i. rewrite wd_refs. intuition discriminate. Qed.
Lemma wd_ref1 : forall i, is_reference (ds_refs wd_ds) (ds_dis wd_ds) 1 i <-> i = 2.
Proof. intro i. rewrite wd_refs. intuition discriminate. Qed.
