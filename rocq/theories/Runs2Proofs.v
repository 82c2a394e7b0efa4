(** Proofs about Runs.v: running lists of models (C85), coverage percentages
    (C86). *)
From Coq Require Import String.
From Coq Require Import List ZArith Bool Arith Reals Lia Lra.
From Verif Require Import PyBase Num ExtReal NumPy Dataset Preproc Mos Perf Mocked Runs SpecDataset SpecMos SpecMocked SpecPerf SpecRuns BaseProofs ExtRealProofs
  ArrayProofs MosProofs Reject2Proofs StepsProofs MosReportProofs MockedProofs Mocked2Proofs PerfProofs Perf2Proofs LiveProofs RunsProofs.
Import ListNotations.
Local Open Scope list_scope.
Local Open Scope R_scope.

(** ** Endings of paths *)
Lemma substring_0 : forall s, String.substring 0 (String.length s) s = s.
Proof. induction s as [|c s IH]; [reflexivity|]. cbn [String.length String.substring]. rewrite IH. reflexivity. Qed.
Lemma substring_suffix : forall pre suf, String.substring (String.length pre) (String.length suf) (pre ++ suf)%string = suf.
Proof. induction pre as [|c pre IH]; intro suf; [apply substring_0|]. exact (IH suf). Qed.
Lemma split_at : forall n s, (n <= String.length s)%nat -> exists pre suf, s = (pre ++ suf)%string /\ String.length pre = n.
Proof.
  induction n as [|n IH]; intros s L; [exists ""%string, s; auto|]. destruct s as [|c s]; [cbn in L; lia|]. cbn in L.
  destruct (IH s ltac:(lia)) as (pre & suf & -> & E). exists (String c pre), suf. cbn. auto.
Qed.
Lemma length_append : forall a b, String.length (a ++ b)%string = (String.length a + String.length b)%nat.
Proof. induction a as [|c a IH]; intro b; [reflexivity|]. cbn. rewrite IH. reflexivity. Qed.
Lemma ends_with_spec : forall suf s, ends_with suf s = true <-> has_suffix suf s.
Proof.
  intros suf s. unfold ends_with, has_suffix. rewrite andb_true_iff, Nat.leb_le, String.eqb_eq. split.
  - intros (L & E). destruct (split_at (String.length s - String.length suf) s ltac:(lia)) as (pre & su & -> & P). exists pre.
    rewrite length_append in *. rewrite <- P in E. assert (Q : String.length suf = String.length su) by lia. rewrite Q, substring_suffix in E. rewrite E. reflexivity.
  - intros (pre & ->). rewrite length_append. split; [lia|]. replace (String.length pre + String.length suf - String.length suf)%nat with (String.length pre) by lia. apply substring_suffix.
Qed.
Lemma not_both : forall path, has_suffix ".py" path -> has_suffix ".json" path -> False.
Proof.
  intros path (p & ->) (q & E). assert (L : String.length p = (String.length q + 2)%nat).
  { apply (f_equal String.length) in E. rewrite !length_append in E. cbn in E. lia. }
  revert q E L. induction p as [|c p IH]; intros q E L; [cbn in L; lia|]. destruct q as [|d q].
  - cbn in L. injection E as -> E. destruct p as [|c2 p]; [cbn in L; lia|]. destruct p; [|cbn in L; lia]. cbn in E. discriminate.
  - cbn in E. injection E as -> E. apply (IH q E). cbn in L. lia.
Qed.
Lemma load_spec : forall D (ip ij : string -> res D) path r, loaded ip ij path r <-> load ip ij path = r.
Proof.
  intros D ip ij path r. unfold load, loaded. rewrite <- !ends_with_spec.
  destruct (ends_with ".py" path) eqn:E1; destruct (ends_with ".json" path) eqn:E2; split; try (intros [(A & B)|[(A & B)|(A & B & C)]]; congruence); intro H; subst; auto; try (right; right; repeat split; congruence).
  intros; exfalso; eapply not_both; apply ends_with_spec; eassumption.
Qed.

(** ** Running the models *)
Lemma runs_spec : forall A M (models : list (A -> res M)) a r, runs_in_order models a r <-> mapM (fun m => m a) models = r.
Proof.
  intros A M models a. induction models as [|m ms IH]; intro r.
  - split; [intro H; inversion H; reflexivity|intros <-; constructor].
  - split.
    + intro H. cbn [mapM]. inversion H; subst.
      * match goal with E : m a = _ |- _ => rewrite E end. reflexivity.
      * match goal with E : m a = _, K : runs_in_order ms a _ |- _ => rewrite E; apply IH in K; cbn [bind]; rewrite K end. reflexivity.
      * match goal with E : m a = _, K : runs_in_order ms a _ |- _ => rewrite E; apply IH in K; cbn [bind]; rewrite K end. reflexivity.
    + cbn [mapM]. destruct (m a) as [x|e] eqn:E; cbn [bind].
      * destruct (mapM (fun m0 => m0 a) ms) as [xs|e] eqn:E2; cbn [bind]; intros <-; [apply runs_ok|apply runs_fail with x]; auto; apply IH; reflexivity.
      * intros <-. apply runs_stop. exact E.
Qed.
Lemma mapM_first_err : forall A B (f : A -> res B) l, (exists a e, In a l /\ f a = Err e) -> exists e, mapM f l = Err e.
Proof.
  intros A B f l. induction l as [|b l IH]; intros (a & e & I & E); [contradiction|]. destruct I as [-> |I]; cbn [mapM]; [rewrite E; exists e; reflexivity|].
  destruct (f b) as [y|e0]; cbn [bind]; [|exists e0; reflexivity]. destruct IH as (e' & ->); [eauto|exists e'; reflexivity].
Qed.
Lemma mapM_Err_in : forall A B (f : A -> res B) l e, mapM f l = Err e -> exists a, In a l /\ f a = Err e.
Proof.
  intros A B f l e. induction l as [|b l IH]; [discriminate|]. cbn [mapM]. destruct (f b) as [y|e'] eqn:E; cbn [bind].
  - destruct (mapM f l); cbn [bind]; [discriminate|]. intro H. destruct (IH H) as (a & I & F). exists a. split; [right|]; assumption.
  - intro H. exists b. split; [left; reflexivity|congruence].
Qed.

Section Run.
  Variable lstsq : list (ef * ef) -> list ef -> res (ef * ef).
  Context {D M : Type}.
  Variables ip ij : string -> res D.
  Variables raw_of rec_of : M -> option (arr3 ef).
  Notation run := (run_subjective_models lstsq ip ij raw_of rec_of).

  Lemma extend_spec : forall rd r o, extend lstsq raw_of rec_of rd r = Ok o <-> extended lstsq rd raw_of rec_of r o.
  Proof.
    intros rd r [a b c]. unfold extend, extended. cbn [rr_result rr_names rr_stats].
    destruct (raw_of r) as [raw|] eqn:E1; [destruct (rec_of r) as [rec|] eqn:E2; [destruct (reconstruction_stats lstsq raw rec) as [st|] eqn:E3|]|]; cbn [bind]; split.
    - intro H. apply Ok_inj in H. injection H as <- <- <-. split; [reflexivity|]. split; [reflexivity|]. left. eauto 8.
    - intros (-> & -> & [(raw' & rec' & st' & Q1 & Q2 & Q3 & ->)|([Q|Q] & _)]); try discriminate. congruence.
    - discriminate.
    - intros (-> & -> & [(raw' & rec' & st' & Q1 & Q2 & Q3 & ->)|([Q|Q] & _)]); try discriminate. congruence.
    - intro H. apply Ok_inj in H. injection H as <- <- <-. split; [reflexivity|]. split; [reflexivity|]. right. auto.
    - intros (-> & -> & [(raw' & rec' & st' & Q1 & Q2 & Q3 & ->)|([Q|Q] & ->)]); try discriminate; reflexivity.
    - intro H. apply Ok_inj in H. injection H as <- <- <-. split; [reflexivity|]. split; [reflexivity|]. right. auto.
    - intros (-> & -> & [(raw' & rec' & st' & Q1 & Q2 & Q3 & ->)|([Q|Q] & ->)]); try discriminate; reflexivity.
  Qed.

  Lemma c85_run : forall path reader_of models ds out, run path reader_of models = Ok (ds, out) <->
    exists rd rs, loaded ip ij path (Ok ds) /\ reader_of ds = Ok rd /\ runs_in_order models rd (Ok rs) /\ Forall2 (extended lstsq rd raw_of rec_of) rs out.
  Proof.
    intros path reader_of models ds out. unfold run_subjective_models. split.
    - destruct (load ip ij path) as [ds'|] eqn:E1; [|discriminate]. cbn [bind]. destruct (reader_of ds') as [rd|] eqn:E2; [|discriminate]. cbn [bind].
      destruct (mapM _ models) as [rs|] eqn:E3; [|discriminate]. cbn [bind]. destruct (mapM _ rs) as [out'|] eqn:E4; [|discriminate]. cbn [bind].
      intro H. apply Ok_inj in H. injection H as -> ->. exists rd, rs. split; [apply load_spec; exact E1|]. split; [exact E2|]. split; [apply runs_spec; exact E3|].
      apply mapM_Ok in E4. clear -E4. induction E4; constructor; [apply extend_spec; assumption|assumption].
    - intros (rd & rs & H1 & H2 & H3 & H4). apply load_spec in H1. apply runs_spec in H3. rewrite H1. cbn [bind]. rewrite H2. cbn [bind]. rewrite H3. cbn [bind].
      assert (E : mapM (extend lstsq raw_of rec_of rd) rs = Ok out).
      { apply mapM_Ok. clear -H4. induction H4; constructor; [apply extend_spec; assumption|assumption]. }
      rewrite E. reflexivity.
  Qed.
  Lemma c85_raise : forall path reader_of models ds rd e,
    (loaded ip ij path (Err e) -> run path reader_of models = Err e) /\
    (loaded ip ij path (Ok ds) -> reader_of ds = Err e -> run path reader_of models = Err e) /\
    (loaded ip ij path (Ok ds) -> reader_of ds = Ok rd -> runs_in_order models rd (Err e) -> run path reader_of models = Err e).
  Proof.
    intros path reader_of models ds rd e. unfold run_subjective_models. repeat split.
    - intro H. apply load_spec in H. rewrite H. reflexivity.
    - intros H H2. apply load_spec in H. rewrite H. cbn [bind]. rewrite H2. reflexivity.
    - intros H H2 H3. apply load_spec in H. apply runs_spec in H3. rewrite H. cbn [bind]. rewrite H2. cbn [bind]. rewrite H3. reflexivity.
  Qed.
End Run.


Lemma mos_stats_dec : forall lstsq c (rd : reader ef) k a0 m, rd_arr rd = Ok a0 -> finite_votes a0 -> (forall rs, ds_ref_score (rd_ds rd) = Some (Some rs) -> finnan rs) ->
  run_modeling c rd k = Ok m ->
  ((2 <= length (all_votes (mr_raw m)))%nat /\ exists st, reconstruction_stats lstsq (mr_raw m) (mr_recon m) = Ok st) \/
  ((length (all_votes (mr_raw m)) < 2)%nat /\ reconstruction_stats lstsq (mr_raw m) (mr_recon m) = Err ValueError).
Proof.
  intros lstsq c rd k a0 m Ha Hf Hr H. destruct (c84_mos lstsq c rd k a0 m _ _ Ha Hf Hr H eq_refl eq_refl) as (P1 & P2 & P3).
  destruct (le_lt_dec 2 (length (all_votes (mr_raw m)))) as [L|L]; [left|right; auto]. split; [exact L|].
  destruct (spread_dec (score_of_each (mr_raw m) (fun e => Rmean (video_votes (mr_raw m) e)))) as [S|S].
  - destruct (P3 S) as (rm & cc & sr & -> & _). eauto.
  - rewrite (P2 L S). eauto.
Qed.

Lemma c85_mos : forall lstsq D (ip ij : string -> res D) path ds reader_of (rd : reader ef) a0 k cs ms,
  loaded ip ij path (Ok ds) -> reader_of ds = Ok rd -> rd_arr rd = Ok a0 -> finite_votes a0 -> (forall rs, ds_ref_score (rd_ds rd) = Some (Some rs) -> finnan rs) ->
  Forall2 (fun c m => run_modeling c rd k = Ok m) cs ms ->
  (Forall (fun m => 2 <= length (all_votes (mr_raw m)))%nat ms ->
     exists sts, Forall2 (fun m st => reconstruction_stats lstsq (mr_raw m) (mr_recon m) = Ok st) ms sts /\
     run_subjective_models lstsq ip ij mos_raw mos_rec path reader_of (mos_models k cs) =
       Ok (ds, map (fun p => RunResult (fst p) (map dv_path (rd_dvs rd)) (Some (snd p))) (combine ms sts))) /\
  (~ Forall (fun m => 2 <= length (all_votes (mr_raw m)))%nat ms -> run_subjective_models lstsq ip ij mos_raw mos_rec path reader_of (mos_models k cs) = Err ValueError).
Proof.
  intros lstsq D ip ij path ds reader_of rd a0 k cs ms L R Ha Hf Hr F.
  assert (E : mapM (fun m => m rd) (mos_models k cs) = Ok ms).
  { apply mapM_Ok. unfold mos_models. clear -F. induction F; constructor; assumption. }
  assert (P : forall m, In m ms -> exists c, run_modeling c rd k = Ok m).
  { clear -F. induction F as [|c m cs ms H F IH]; intros x []; [subst; eauto|auto]. }
  apply load_spec in L. unfold run_subjective_models. rewrite L. cbn [bind]. rewrite R. cbn [bind]. rewrite E. cbn [bind]. split.
  - intro A. clear E F. assert (B : exists sts, Forall2 (fun m st => reconstruction_stats lstsq (mr_raw m) (mr_recon m) = Ok st) ms sts).
    { revert P. induction A as [|m ms Hm A IH]; intro P; [exists []; constructor|]. destruct (IH ltac:(intros; apply P; right; assumption)) as (sts & I).
      destruct (P m (or_introl eq_refl)) as (c & Q). destruct (mos_stats_dec lstsq c rd k a0 m Ha Hf Hr Q) as [(_ & st & S)|(Q1 & _)]; [|lia]. exists (st :: sts). constructor; assumption. }
    destruct B as (sts & B). exists sts. split; [exact B|].
    assert (X : mapM (extend lstsq mos_raw mos_rec rd) ms = Ok (map (fun p => RunResult (fst p) (map dv_path (rd_dvs rd)) (Some (snd p))) (combine ms sts))).
    { apply mapM_Ok. clear -B. induction B as [|m st ms sts H B IH]; [constructor|]. cbn [combine map fst snd]. constructor; [|exact IH].
      unfold extend. cbn [mos_raw mos_rec]. rewrite H. reflexivity. }
    rewrite X. reflexivity.
  - intro A. assert (X : mapM (extend lstsq mos_raw mos_rec rd) ms = Err ValueError).
    { apply mapM_err.
      - intros m I. destruct (P m I) as (c & Q). unfold extend. cbn [mos_raw mos_rec]. destruct (mos_stats_dec lstsq c rd k a0 m Ha Hf Hr Q) as [(_ & st & ->)|(_ & ->)]; cbn [bind]; eauto.
      - apply Exists_Forall_neg in A; [|intro; lia]. apply Exists_exists in A as (m & I & Q). exists m. split; [exact I|].
        destruct (P m I) as (c & W). unfold extend. cbn [mos_raw mos_rec]. destruct (mos_stats_dec lstsq c rd k a0 m Ha Hf Hr W) as [(W1 & _)|(_ & ->)]; [contradiction|reflexivity]. }
    rewrite X. reflexivity.
Qed.

(** ** Samples of the subjects *)
Lemma nleb_Fin : forall x y, nleb (Fin x) (Fin y) = true <-> x <= y.
Proof. intros. efc. cbn. unfold Rleb. destruct (Rle_dec x y); split; intro; try lra; congruence. Qed.
Lemma count_whole : forall n x, 0 <= x ->
  let c := length (filter (fun k => nleb (nofnat (S k)) (Fin x)) (seq 0 n)) in (c <= n)%nat /\ INR c <= x /\ (c = n \/ x < INR c + 1).
Proof.
  intros n x P. induction n as [|n IH]; [cbn; split; [lia|split; [exact P|auto]]|]. rewrite seq_S, filter_app, app_length. cbn [Nat.add filter].
  destruct IH as (A & B & C). set (c := length (filter _ (seq 0 n))) in *. rewrite nofnat_ef.
  destruct (nleb (Fin (INR (S n))) (Fin x)) eqn:E; cbn [length].
  - apply nleb_Fin in E. destruct C as [C|C].
    + rewrite C. replace (n + 1)%nat with (S n) by lia. split; [lia|]. split; [exact E|auto].
    + exfalso. rewrite S_INR in E. apply le_INR in A. lra.
  - assert (E' : ~ INR (S n) <= x) by (intro Q; apply nleb_Fin in Q; congruence). rewrite Nat.add_0_r. split; [lia|]. split; [exact B|]. right.
    destruct C as [C|C]; [|exact C]. rewrite C. rewrite S_INR in E'. lra.
Qed.
Lemma frac_whole : forall n f, 0 < f <= 1 -> whole (INR n * f) (frac_count n (Fin f)).
Proof.
  intros n f (P & Q). unfold frac_count, whole. assert (N := pos_INR n). rewrite nofnat_ef.
  change (nmul (Fin (INR n)) (Fin f)) with (Fin (INR n * f)).
  assert (X : 0 <= INR n * f) by (apply Rmult_le_pos; lra). destruct (count_whole n (INR n * f) X) as (A & B & C). split; [exact B|].
  destruct C as [C|C]; [|exact C]. rewrite C. assert (INR n * f <= INR n * 1) by (apply Rmult_le_compat_l; lra). lra.
Qed.
Lemma whole_unique : forall x k k', whole x k -> whole x k' -> k = k'.
Proof.
  intros x k k' (A & B) (C & D). destruct (Nat.lt_trichotomy k k') as [L|[L|L]]; [|exact L|]; exfalso; apply le_INR in L; rewrite S_INR in L; lra.
Qed.

Section Sample.
  Variable lstsq : list (ef * ef) -> list ef -> res (ef * ef).
  Context {M : Type}.
  Variables ip ij : string -> res (dataset ef string).
  Variables raw_of rec_of : M -> option (arr3 ef).
  Variable choice : nat -> nat -> nat -> list nat.
  Notation run := (run_subjective_models lstsq ip ij raw_of rec_of).
  Notation one := (sample_one lstsq ip ij raw_of rec_of choice).

  Lemma c85_fraction : forall models f paths, ~ (0 < f <= 1) -> paths <> [] ->
    get_sample_stats lstsq ip ij raw_of rec_of choice paths models (Some (Fin f)) = Err AssertionError.
  Proof.
    intros models f paths H N. destruct paths as [|p paths]; [contradiction|]. unfold get_sample_stats, enumerate. cbn [length seq combine mapM sample_one].
    destruct (assert_ _) as [[]|] eqn:E; [|cbn [bind]; unfold assert_ in E; destruct (_ && _)%bool in E; [discriminate|injection E as <-; reflexivity]].
    exfalso. unfold assert_ in E. destruct (_ && _)%bool eqn:E2 in E; [|discriminate]. apply andb_true_iff in E2 as (A & B).
    unfold none_ in B. apply nleb_Fin in B. apply H. split; [|exact B].
    revert A. efc. cbn. unfold Rltb. destruct (Rlt_dec 0 f); [auto|discriminate].
  Qed.
  Lemma c85_one : forall models f i path ds rd n k, 0 < f <= 1 -> loaded ip ij path (Ok ds) -> raw_reader ds = Ok rd -> get_num_observers (ds_dis ds) = Ok n ->
    whole (INR n * f) k ->
    one models (Some (Fin f)) (i, path) = (do o <- run path (select_reader (map Z.of_nat (choice i n k))) models; Ok (snd o)).
  Proof.
    intros models f i path ds rd n k F L R W K. unfold sample_one.
    replace (assert_ _) with (Ok tt : res unit).
    2: { unfold assert_. replace (_ && _)%bool with true; [reflexivity|]. symmetry. apply andb_true_iff. split.
         - efc. cbn. unfold Rltb. destruct (Rlt_dec 0 f); [reflexivity|lra].
         - unfold none_. apply nleb_Fin. lra. }
    cbn [bind]. apply load_spec in L. rewrite L. cbn [bind]. rewrite R. cbn [bind].
    assert (E : rd_dvs rd = ds_dis ds). { unfold raw_reader in R. destruct (assert_dataset_raw _ _); [|discriminate]. cbn [bind] in R. apply Ok_inj in R. subst. reflexivity. }
    rewrite E, W. cbn [bind]. rewrite (whole_unique _ _ _ (frac_whole n f F) K). reflexivity.
  Qed.
  Lemma select_dict : forall ds a sel, raw_reader_3darray ds = Ok a -> dict_style (ds_dis ds) -> valid_subjects (dS a) sel ->
    exists a', columns_of a sel a' /\ select_reader sel ds = Ok (Reader ds (ds_dis ds) (Ok a')).
  Proof.
    intros ds a sel H HD V. destruct (proj1 (c17_dict ds a sel H HD) V) as (a' & E & C). exists a'. split; [exact C|].
    destruct (read_inv ds a H) as (H1 & Hok & Hne & HP & HW). unfold select_reader. rewrite H1. cbn [bind]. rewrite HW. cbn [bind].
    apply in_range_valid in V. rewrite V. cbn [bind]. rewrite E. reflexivity.
  Qed.
  Lemma run_same_reader : forall path ds r1 r2 models, loaded ip ij path (Ok ds) -> r1 ds = r2 ds -> run path r1 models = run path r2 models.
  Proof.
    intros path ds r1 r2 models L E. apply load_spec in L. unfold run_subjective_models. rewrite L. cbn [bind]. rewrite E. reflexivity.
  Qed.
  Lemma c85_dict : forall models f i path ds a k, 0 < f <= 1 -> loaded ip ij path (Ok ds) -> raw_reader_3darray ds = Ok a -> dict_style (ds_dis ds) ->
    whole (INR (dS a) * f) k -> (forall s, In s (choice i (dS a) k) -> (s < dS a)%nat) ->
    exists a', columns_of a (map Z.of_nat (choice i (dS a) k)) a' /\
      one models (Some (Fin f)) (i, path) = (do o <- run path (fun d => Ok (Reader d (ds_dis d) (Ok a'))) models; Ok (snd o)).
  Proof.
    intros models f i path ds a k F L H HD K V.
    assert (V' : valid_subjects (dS a) (map Z.of_nat (choice i (dS a) k))).
    { intros z Hz. apply in_map_iff in Hz as (s & <- & Hs). apply V in Hs. lia. }
    destruct (select_dict ds a _ H HD V') as (a' & C & E). exists a'. split; [exact C|].
    destruct (read_inv ds a H) as (H1 & Hok & Hne & HP & HW).
    assert (R : exists rd, raw_reader ds = Ok rd). { unfold raw_reader. rewrite H1. cbn [bind]. eauto. } destruct R as (rd & R).
    rewrite (c85_one models f i path ds rd (dS a) k F L R HW K). f_equal. apply (run_same_reader path ds); [exact L|exact E].
  Qed.
End Sample.

Lemma run_mos_reader : forall lstsq D (ip ij : string -> res D) path ds reader_of (rd : reader ef) a0 k cs,
  loaded ip ij path (Ok ds) -> reader_of ds = Ok rd -> rd_arr rd = Ok a0 -> (dS a0 = 0)%nat -> (forall rs, ds_ref_score (rd_ds rd) = Some (Some rs) -> finnan rs) -> cs <> [] ->
  exists e, run_subjective_models lstsq ip ij mos_raw mos_rec path reader_of (mos_models k cs) = Err e.
Proof.
  intros lstsq D ip ij path ds reader_of rd a0 k cs L R Ha Z Hr N.
  assert (Hf : finite_votes a0) by (intros e s r (_ & I & _); lia).
  destruct (mapM (fun m => m rd) (mos_models k cs)) as [ms|e] eqn:E.
  - assert (F : Forall2 (fun c m => run_modeling c rd k = Ok m) cs ms).
    { apply mapM_Ok in E. clear -E. unfold mos_models in E. revert ms E. induction cs as [|c cs IH]; intros ms E; inversion E; subst; constructor; auto. }
    destruct (c85_mos lstsq D ip ij path ds reader_of rd a0 k cs ms L R Ha Hf Hr F) as (_ & Q). exists ValueError. apply Q. intro A.
    destruct F as [|c m cs ms H F]; [contradiction|]. inversion A as [|? ? A1 A2]; subst.
    destruct (mos_recon_entry c rd k a0 m Ha Hf Hr H) as (F1 & _).
    unfold run_modeling in H. destruct (run_kwargs c k) as [k'|] eqn:Ek; [|discriminate]. cbn [bind] in H.
    unfold mos_run in H. destruct (preprocess rd k') as [pp|] eqn:Ep; [|discriminate]. cbn [bind] in H. cbv zeta in H.
    destruct (pp_shape _ _ _ _ Ha Hf Hr Ep) as (O & DE & DR & DS & F2 & B1 & B2).
    match type of H with bind (bind ?mm _) _ = _ => destruct mm as [b|] eqn:Eb; [|discriminate] end. cbn [bind] in H.
    destruct (attach_observers rd) as [obs|] eqn:Eo; [|discriminate]. cbn [bind] in H. apply Ok_inj in H. subst m. cbn [mr_raw mos_and_stats] in A1.
    assert (X : all_votes (pp_arr pp) = []).
    { unfold all_votes, video_votes. replace (dS (pp_arr pp)) with 0%nat by lia. induction (seq 0 (dE (pp_arr pp))) as [|x l IH]; [reflexivity|exact IH]. }
    rewrite X in A1. cbn in A1. lia.
  - exists e. apply load_spec in L. unfold run_subjective_models. rewrite L. cbn [bind]. rewrite R. cbn [bind]. rewrite E. reflexivity.
Qed.

Section Sample2.
  Variable lstsq : list (ef * ef) -> list ef -> res (ef * ef).
  Variables ip ij : string -> res (dataset ef string).
  Variable choice : nat -> nat -> nat -> list nat.

  Lemma select_list : forall ds S sel, raw_dataset_ok ds -> list_style (ds_dis ds) S -> votes_wf (ds_dis ds) -> valid_subjects S sel -> (length sel <= S)%nat ->
    exists a', dE a' = length (ds_dis ds) /\ dS a' = length sel /\
    (forall e dv k z, nth_error (ds_dis ds) e = Some dv -> nth_error sel k = Some z ->
      ((z < Z.of_nat (length sel))%Z -> exists xs, voted_list dv (Z.to_nat z) xs /\ (length xs <= dR a')%nat /\
          forall r, (r < dR a')%nat -> at3 a' e k r = nth r xs NaN) /\
      ((Z.of_nat (length sel) <= z)%Z -> forall r, at3 a' e k r = NaN)) /\
    select_reader sel ds = Ok (Reader ds (ds_dis ds) (Ok a')).
  Proof.
    intros ds S sel Hok HL Hw V L. destruct (c17_list ds S sel Hok HL Hw V L) as (a' & E & A & B & C). exists a'. split; [exact A|]. split; [exact B|]. split; [exact C|].
    unfold select_reader. rewrite (proj1 (raw_ok_assert ds) Hok). cbn [bind]. rewrite (DatasetProofs.list_num_observers (ds_dis ds) S) by (apply Hok || exact HL). cbn [bind].
    apply in_range_valid in V. rewrite V. cbn [bind]. rewrite E. reflexivity.
  Qed.
  Lemma c85_list : forall M (raw_of rec_of : M -> option (arr3 ef)) models f i path ds S k, 0 < f <= 1 -> loaded ip ij path (Ok ds) ->
    raw_dataset_ok ds -> list_style (ds_dis ds) S -> votes_wf (ds_dis ds) ->
    whole (INR S * f) k -> length (choice i S k) = k -> (forall s, In s (choice i S k) -> (s < S)%nat) ->
    exists a', dE a' = length (ds_dis ds) /\ dS a' = k /\
      (forall e dv j s, nth_error (ds_dis ds) e = Some dv -> nth_error (choice i S k) j = Some s ->
        ((s < k)%nat -> exists xs, voted_list dv s xs /\ (length xs <= dR a')%nat /\ forall r, (r < dR a')%nat -> at3 a' e j r = nth r xs NaN) /\
        ((k <= s)%nat -> forall r, at3 a' e j r = NaN)) /\
      sample_one lstsq ip ij raw_of rec_of choice models (Some (Fin f)) (i, path) =
        (do o <- run_subjective_models lstsq ip ij raw_of rec_of path (fun d => Ok (Reader d (ds_dis d) (Ok a'))) models; Ok (snd o)).
  Proof.
    intros M raw_of rec_of models f i path ds S k F L Hok HL Hw K Lc V. set (sel := map Z.of_nat (choice i S k)).
    assert (V' : valid_subjects S sel). { intros z Hz. apply in_map_iff in Hz as (s & <- & Hs). apply V in Hs. lia. }
    assert (KS : (k <= S)%nat).
    { destruct K as (K1 & K2). apply INR_le. apply Rle_trans with (1 := K1). assert (N := pos_INR S). assert (INR S * f <= INR S * 1) by (apply Rmult_le_compat_l; lra). lra. }
    assert (Ls : length sel = k) by (unfold sel; rewrite map_length; exact Lc).
    destruct (select_list ds S sel Hok HL Hw V' ltac:(lia)) as (a' & A & B & C & E). exists a'. split; [exact A|]. split; [lia|]. split.
    - intros e dv j s He Hj. destruct (C e dv j (Z.of_nat s) He) as (C1 & C2).
      + unfold sel. rewrite nth_error_map, Hj. reflexivity.
      + rewrite Ls in *. split.
        * intro Q. rewrite Nat2Z.id in C1. apply C1. lia.
        * intro Q. apply C2. lia.
    - assert (R : exists rd, raw_reader ds = Ok rd). { unfold raw_reader. rewrite (proj1 (raw_ok_assert ds) Hok). cbn [bind]. eauto. } destruct R as (rd & R).
      rewrite (c85_one lstsq ip ij raw_of rec_of choice models f i path ds rd S k F L R (DatasetProofs.list_num_observers (ds_dis ds) S (proj1 (proj2 Hok)) HL) K).
      f_equal. apply (run_same_reader lstsq ip ij raw_of rec_of path ds); [exact L|exact E].
  Qed.

  Lemma c85_small : forall k cs f i path ds n, 0 < f <= 1 -> loaded ip ij path (Ok ds) -> get_num_observers (ds_dis ds) = Ok n -> INR n * f < 1 ->
    ((exists a, raw_reader_3darray ds = Ok a /\ dict_style (ds_dis ds)) \/ (raw_dataset_ok ds /\ (exists S, list_style (ds_dis ds) S) /\ votes_wf (ds_dis ds))) ->
    (forall rs, ds_ref_score ds = Some (Some rs) -> finnan rs) -> choice i n 0 = [] -> cs <> [] ->
    exists e, sample_one lstsq ip ij mos_raw mos_rec choice (mos_models k cs) (Some (Fin f)) (i, path) = Err e.
  Proof.
    intros k cs f i path ds n F L W Q D Hr C N.
    assert (K : whole (INR n * f) 0). { split; [cbn; apply Rmult_le_pos; [apply pos_INR|lra]|cbn; lra]. }
    assert (R : exists a', (dS a' = 0)%nat /\ select_reader [] ds = Ok (Reader ds (ds_dis ds) (Ok a'))).
    { destruct D as [(a & H & HD)|(Hok & (S & HL) & Hw)].
      - destruct (select_dict ds a [] H HD ltac:(intros z [])) as (a' & (_ & Z & _) & E). exists a'. split; [exact Z|exact E].
      - destruct (select_list ds S [] Hok HL Hw ltac:(intros z []) ltac:(cbn; lia)) as (a' & _ & Z & _ & E). exists a'. split; [exact Z|exact E]. }
    destruct R as (a' & Z & E).
    assert (R : exists rd, raw_reader ds = Ok rd).
    { destruct D as [(a & H & HD)|(Hok & _)]; unfold raw_reader; [rewrite (proj1 (read_inv ds a H))|rewrite (proj1 (raw_ok_assert ds) Hok)]; cbn [bind]; eauto. }
    destruct R as (rd & R). rewrite (c85_one lstsq ip ij mos_raw mos_rec choice _ f i path ds rd n 0 F L R W K), C. cbn [map].
    destruct (run_mos_reader lstsq _ ip ij path ds (select_reader []) _ a' k cs L E eq_refl Z Hr N) as (e & X). exists e. rewrite X. reflexivity.
  Qed.
End Sample2.

(** ** Coverage percentages *)
Definition lastp (syn : option (list ef)) (f : vresult ef -> estimates ef) (t : string) : list (string * vresult ef) -> option ef -> res (option ef) :=
  fix go rs old := match rs with
  | [] => Ok old
  | (t', r) :: rs' => if String.eqb t t' then do o <- coverage syn (f r) old; go rs' o else go rs' old
  end.

Lemma coverage_cases : forall syn e old o, coverage syn e old = Ok o ->
  (exists v, measured syn e v /\ o = Some v) \/ (~ measurable syn e /\ o = old).
Proof.
  intros syn e old o. unfold coverage, measured, measurable. destruct (es_value e) as [ys|], syn as [xs|], (es_ci e) as [ci|]; intro H;
    try (apply Ok_inj in H; right; split; [intuition congruence|auto]).
  destruct (get_ci_percentage xs ys ci) as [p|] eqn:E; [|discriminate]. cbn [bind] in H. apply Ok_inj in H. left. exists p. split; [eauto 8|auto].
Qed.
Lemma lastp_spec : forall syn f t rs old o, lastp syn f t rs old = Ok o ->
  (exists i r v, nth_error rs i = Some (t, r) /\ measured syn (f r) v /\ o = Some v /\ forall j r', (i < j)%nat -> nth_error rs j = Some (t, r') -> ~ measurable syn (f r')) \/
  ((forall i r, nth_error rs i = Some (t, r) -> ~ measurable syn (f r)) /\ o = old).
Proof.
  intros syn f t. induction rs as [|[t' r] rs IH]; intros old o H.
  - apply Ok_inj in H. right. split; [intros [|i] r; discriminate|auto].
  - cbn [lastp] in H. destruct (String.eqb_spec t t') as [->|D].
    + destruct (coverage syn (f r) old) as [o1|] eqn:E; [|discriminate]. cbn [bind] in H. apply IH in H. destruct H as [(i & r1 & v & A & B & C & G)|(A & ->)].
      * left. exists (S i), r1, v. split; [exact A|]. split; [exact B|]. split; [exact C|]. intros [|j] r' L; [lia|]. cbn [nth_error]. intro Q. apply (G j r'); [lia|exact Q].
      * destruct (coverage_cases _ _ _ _ E) as [(v & B & ->)|(B & ->)].
        -- left. exists 0%nat, r, v. split; [reflexivity|]. split; [exact B|]. split; [reflexivity|]. intros [|j] r' L; [lia|]. cbn [nth_error]. apply A.
        -- right. split; [|reflexivity]. intros [|i] r1; cbn [nth_error]; [intro Q; injection Q as <-; exact B|apply A].
    + apply IH in H. destruct H as [(i & r1 & v & A & B & C & G)|(A & ->)].
      * left. exists (S i), r1, v. split; [exact A|]. split; [exact B|]. split; [exact C|]. intros [|j] r' L; [lia|]. cbn [nth_error]. intro Q. apply (G j r'); [lia|exact Q].
      * right. split; [|reflexivity]. intros [|i] r1; cbn [nth_error]; [intro Q; injection Q; intros; congruence|apply A].
Qed.

Lemma fold_entry : forall syn rs d d', foldM (validate_one syn) rs d = Ok d' ->
  map fst d' = map fst d /\
  forall t own p, dget String.eqb d t = Some (own, p) -> exists q b i, dget String.eqb d' t = Some (own, Perc q b i) /\
    lastp (sy_quality syn) v_quality t rs (pc_quality p) = Ok q /\ lastp (sy_bias syn) v_bias t rs (pc_bias p) = Ok b /\ lastp (sy_incons syn) v_incons t rs (pc_incons p) = Ok i.
Proof.
  intros syn. induction rs as [|[t' r] rs IH]; intros d d' H.
  - apply Ok_inj in H. subst. split; [reflexivity|]. intros t own [q b i] E. exists q, b, i. auto.
  - cbn [foldM] in H. unfold validate_one in H at 1. cbn [fst snd] in H. destruct (dget String.eqb d t') as [[own' p']|] eqn:E; [|discriminate].
    destruct (coverage (sy_quality syn) (v_quality r) (pc_quality p')) as [q'|] eqn:C1; [|discriminate]. cbn [bind] in H.
    destruct (coverage (sy_bias syn) (v_bias r) (pc_bias p')) as [b'|] eqn:C2; [|discriminate]. cbn [bind] in H.
    destruct (coverage (sy_incons syn) (v_incons r) (pc_incons p')) as [i'|] eqn:C3; [|discriminate]. cbn [bind] in H.
    destruct (IH _ _ H) as (K & G). split.
    + rewrite K. apply dset_keys_mem; [apply String.eqb_eq|]. apply (dget_In _ String.eqb_eq) in E. apply in_map_iff. exists (t', (own', p')). auto.
    + intros t own p T. cbn [lastp]. destruct (String.eqb_spec t t') as [->|D].
      * rewrite E in T. injection T as <- <-. rewrite C1, C2, C3. cbn [bind].
        apply (G t' own' (Perc q' b' i')). apply dget_dset_same. apply String.eqb_eq.
      * apply (G t own p). rewrite dget_dset_other; [exact T|apply String.eqb_eq|congruence].
Qed.

Definition no_percents : percents ef := Perc None None None.
Lemma collect_from : forall (rs : list (string * vresult ef)) d t, 
  let d' := fold_left (fun d r => dset String.eqb d (fst r) (snd r, no_percents)) rs d in
  (forall i r, last_at rs t i -> nth_error rs i = Some (t, r) -> dget String.eqb d' t = Some (r, no_percents)) /\
  ((forall i r, nth_error rs i <> Some (t, r)) -> dget String.eqb d' t = dget String.eqb d t).
Proof.
  induction rs as [|[t' r0] rs IH]; intros d t; cbn [fold_left fst snd].
  - split; [intros [|i] r _; discriminate|auto].
  - destruct (IH (dset String.eqb d t' (r0, no_percents)) t) as (A & B). split.
    + intros [|i] r (_ & L) E.
      * injection E as -> ->. rewrite B; [apply dget_dset_same; apply String.eqb_eq|]. intros i r' Q. specialize (L (S i) r' Q). lia.
      * apply (A i r); [|exact E]. split; [exists r; exact E|]. intros j r' Q. specialize (L (S j) r' Q). lia.
    + intro H. rewrite B by (intros i r Q; apply (H (S i) r); exact Q). apply dget_dset_other; [apply String.eqb_eq|]. intros ->. apply (H 0%nat r0). reflexivity.
Qed.
Lemma last_exists : forall (rs : list (string * vresult ef)) t, (exists i r, nth_error rs i = Some (t, r)) -> exists i, last_at rs t i.
Proof.
  induction rs as [|[t' r0] rs IH]; intros t (i & r & E); [destruct i; discriminate|].
  destruct (Classical_Prop.classic (exists i r, nth_error rs i = Some (t, r))) as [H|H].
  - destruct (IH t H) as (j & (r1 & R) & L). exists (S j). split; [exists r1; exact R|]. intros [|m] r' Q; [lia|]. apply L in Q. lia.
  - destruct i as [|i]; [|exfalso; apply H; exists i, r; exact E]. exists 0%nat. split; [exists r; exact E|]. intros [|m] r' Q; [lia|]. exfalso. apply H. exists m, r'. exact Q.
Qed.
Lemma collect_keys : forall (rs : list (string * vresult ef)) t, In t (map fst (collect rs)) <-> exists i r, nth_error rs i = Some (t, r).
Proof.
  intros rs t. split.
  - intro H. destruct (Classical_Prop.classic (exists i r, nth_error rs i = Some (t, r))) as [E|E]; [exact E|]. exfalso.
    destruct (collect_from rs [] t) as (_ & B). assert (N : forall i r, nth_error rs i <> Some (t, r)) by (intros i r Q; apply E; eauto). specialize (B N).
    apply (dget_In_key _ String.eqb_eq) in H as (v & Hv). unfold collect in Hv. unfold no_percents in B. rewrite B in Hv. discriminate.
  - intro E. destruct (last_exists rs t E) as (i & L). destruct (proj1 L) as (r & R). destruct (collect_from rs [] t) as (A & _). specialize (A i r L R).
    unfold collect. apply (dget_In _ String.eqb_eq) in A. apply in_map_iff. eexists. split; [|exact A]. reflexivity.
Qed.
Lemma collect_fresh : forall (rs : list (string * vresult ef)), NoDup (map fst rs) -> map fst (collect rs) = map fst rs.
Proof.
  intros rs. unfold collect. assert (G : forall (l : list (string * vresult ef)) d, NoDup (map fst d ++ map fst l) ->
    map fst (fold_left (fun d r => dset String.eqb d (fst r) (snd r, no_percents)) l d) = map fst d ++ map fst l).
  { induction l as [|[t r] l IH]; intros d N; cbn [fold_left map fst snd]; [rewrite app_nil_r; reflexivity|].
    assert (F : ~ In t (map fst d)). { intro I. apply NoDup_remove_2 in N. apply N. apply in_or_app. auto. }
    rewrite (dset_keys_notmem _ String.eqb_eq) by exact F. rewrite IH; rewrite map_app; cbn [map fst]; rewrite <- app_assoc; [reflexivity|exact N]. }
  intro N. apply (G rs []). exact N.
Qed.

Lemma prob_check : forall p, match option_map Fin p with None => Ok tt | Some q => assert_ ((nzero <=? q)%num && (q <? none_)%num) end =
  if Sumbool.sumbool_of_bool (match p with None => true | Some x => (Rleb 0 x && Rltb x 1)%bool end) then Ok tt else Err AssertionError.
Proof. intros [x|]; [|reflexivity]. cbn [option_map]. unfold none_. efc. cbn. destruct (Rleb 0 x && Rltb x 1)%bool; reflexivity. Qed.
Lemma prob_spec : forall p, (if Sumbool.sumbool_of_bool (match p with None => true | Some x => (Rleb 0 x && Rltb x 1)%bool end) then True else False) <-> probability_ok p.
Proof.
  intros [x|]; [|cbn; tauto]. cbn [probability_ok]. destruct (Sumbool.sumbool_of_bool _) as [E|E].
  - apply andb_true_iff in E as (A & B). unfold Rleb in A. unfold Rltb in B. destruct (Rle_dec 0 x), (Rlt_dec x 1); try discriminate. tauto.
  - split; [contradiction|]. intros (A & B). unfold Rleb, Rltb in E. destruct (Rle_dec 0 x), (Rlt_dec x 1); try lra; discriminate.
Qed.

Section Validate.
  Variable syn : synthetic ef.
  Lemma models_spec : forall models rs, mapM (fun m : string * res (vresult ef) => do r <- snd m; Ok (fst m, r)) models = Ok rs <->
    Forall2 (fun m r => fst m = fst r /\ snd m = Ok (snd r)) models rs.
  Proof.
    intros models rs. rewrite mapM_Ok. split; intro H; induction H as [|[t [x|e]] [t' y] l l' Q H IH]; constructor; auto.
    - cbn in Q. apply Ok_inj in Q. injection Q as -> ->. auto.
    - discriminate.
    - cbn in *. destruct Q as (-> & Q). apply Ok_inj in Q. subst. reflexivity.
    - cbn in Q. destruct Q; discriminate.
  Qed.
  Lemma c86_probability : forall p models, ~ probability_ok p -> validate_results (option_map Fin p) models syn = Err AssertionError.
  Proof.
    intros p models H. unfold validate_results. rewrite prob_check. assert (P := prob_spec p). destruct (Sumbool.sumbool_of_bool _); [tauto|reflexivity].
  Qed.
  Lemma validate_unfold : forall p models, probability_ok p -> validate_results (option_map Fin p) models syn =
    (do rs <- mapM (fun m : string * res (vresult ef) => do r <- snd m; Ok (fst m, r)) models; foldM (validate_one syn) rs (collect rs)).
  Proof.
    intros p models H. unfold validate_results. rewrite prob_check. assert (P := prob_spec p). destruct (Sumbool.sumbool_of_bool _); [reflexivity|tauto].
  Qed.
  Lemma c86_entry : forall p models d, validate_results (option_map Fin p) models syn = Ok d -> exists rs,
    Forall2 (fun m r => fst m = fst r /\ snd m = Ok (snd r)) models rs /\
    (forall t, In t (map fst d) <-> In t (map fst models)) /\
    (NoDup (map fst models) -> map fst d = map fst models) /\
    forall t i r, last_at rs t i -> nth_error rs i = Some (t, r) -> exists q b c, dget String.eqb d t = Some (r, Perc q b c) /\
      last_percent (sy_quality syn) v_quality rs t q /\ last_percent (sy_bias syn) v_bias rs t b /\ last_percent (sy_incons syn) v_incons rs t c.
  Proof.
    intros p models d H. destruct (Classical_Prop.classic (probability_ok p)) as [P|P]; [|rewrite c86_probability in H by exact P; discriminate].
    rewrite validate_unfold in H by exact P. destruct (mapM _ models) as [rs|] eqn:E; [|discriminate]. cbn [bind] in H. apply models_spec in E. exists rs.
    assert (Ek : map fst models = map fst rs). { clear -E. induction E as [|m r l l' (Q & _) E IH]; [reflexivity|]. cbn. rewrite Q, IH. reflexivity. }
    destruct (fold_entry syn rs _ _ H) as (K & G). split; [exact E|]. split; [|split].
    - intro t. rewrite K, collect_keys, Ek. split.
      + intros (i & r & Q). apply nth_error_In in Q. apply in_map_iff. exists (t, r). auto.
      + intro I. apply in_map_iff in I as ([t' r] & <- & I). apply In_nth_error in I as (i & Q). eauto.
    - intro N. rewrite K, Ek. rewrite Ek in N. apply collect_fresh. exact N.
    - intros t i r L R. destruct (collect_from rs [] t) as (A & _). specialize (A i r L R). destruct (G t r no_percents A) as (q & b & c & D & Q1 & Q2 & Q3).
      exists q, b, c. split; [exact D|]. split; [apply (lastp_spec _ _ _ _ _ _ Q1)|]. split; [apply (lastp_spec _ _ _ _ _ _ Q2)|apply (lastp_spec _ _ _ _ _ _ Q3)].
  Qed.

  Lemma coverage_fine : forall s e old, fine s e <-> exists o, coverage s e old = Ok o.
  Proof.
    intros s e old. unfold fine, coverage, measurable, measured. destruct (es_value e) as [ys|], s as [xs|], (es_ci e) as [ci|]; try (split; [eauto|intros _ (A & B & C); congruence]).
    split.
    - intro H. destruct H as (v & xs' & ys' & ci' & A & B & C & D); [repeat split; discriminate|]. injection A as <-. injection B as <-. injection C as <-. rewrite D. cbn [bind]. eauto.
    - intros (o & H) _. destruct (get_ci_percentage xs ys ci) as [v|] eqn:E; [|discriminate]. eauto 8.
  Qed.
  Lemma fold_fine : forall rs d, (forall t r, In (t, r) rs -> In t (map fst d)) ->
    ((exists d', foldM (validate_one syn) rs d = Ok d') <->
     forall t r, In (t, r) rs -> fine (sy_quality syn) (v_quality r) /\ fine (sy_bias syn) (v_bias r) /\ fine (sy_incons syn) (v_incons r)).
  Proof.
    induction rs as [|[t r] rs IH]; intros d K; [split; [intros _ t r []|eexists; reflexivity]|]. cbn [foldM]. unfold validate_one at 1. cbn [fst snd].
    destruct (dget_In_key _ String.eqb_eq d t (K t r (or_introl eq_refl))) as ([own p] & E). rewrite E.
    assert (KD' : forall v t1 r1, In (t1, r1) rs -> In t1 (map fst (dset String.eqb d t v))).
    { intros v t1 r1 I. apply dset_keys_In; [apply String.eqb_eq|]. right. apply (K t1 r1). right. exact I. }
    split.
    - intros (d' & H).
      destruct (coverage (sy_quality syn) (v_quality r) (pc_quality p)) as [q'|] eqn:C1; [|discriminate]. cbn [bind] in H.
      destruct (coverage (sy_bias syn) (v_bias r) (pc_bias p)) as [b'|] eqn:C2; [|discriminate]. cbn [bind] in H.
      destruct (coverage (sy_incons syn) (v_incons r) (pc_incons p)) as [i'|] eqn:C3; [|discriminate]. cbn [bind] in H.
      assert (X := proj1 (IH _ (KD' (own, Perc q' b' i'))) (ex_intro _ d' H)).
      intros t1 r1 [Q|Q]; [|apply (X t1 r1 Q)]. injection Q as <- <-. split; [|split]; eapply coverage_fine; eauto.
    - intro F. destruct (F t r (or_introl eq_refl)) as (F1 & F2 & F3).
      apply (coverage_fine _ _ (pc_quality p)) in F1 as (q & ->). cbn [bind]. apply (coverage_fine _ _ (pc_bias p)) in F2 as (b & ->). cbn [bind].
      apply (coverage_fine _ _ (pc_incons p)) in F3 as (c & ->). cbn [bind]. apply IH; [apply KD'|]. intros t1 r1 I. apply (F t1 r1). right. exact I.
  Qed.
  Lemma c86_total : forall p models rs, probability_ok p -> Forall2 (fun m r => fst m = fst r /\ snd m = Ok (snd r)) models rs ->
    ((exists d, validate_results (option_map Fin p) models syn = Ok d) <->
     forall t r, In (t, r) rs -> fine (sy_quality syn) (v_quality r) /\ fine (sy_bias syn) (v_bias r) /\ fine (sy_incons syn) (v_incons r)).
  Proof.
    intros p models rs P F. rewrite validate_unfold by exact P. apply models_spec in F. rewrite F. cbn [bind]. apply fold_fine.
    intros t r I. apply collect_keys. apply In_nth_error in I as (i & I). eauto.
  Qed.
  Lemma c86_raise : forall p models rs t e rest, probability_ok p -> Forall2 (fun m r => fst m = fst r /\ snd m = Ok (snd r)) models rs ->
    validate_results (option_map Fin p) (models ++ (t, Err e) :: rest) syn = Err e.
  Proof.
    intros p models rs t e rest P F. rewrite validate_unfold by exact P.
    assert (E : mapM (fun m : string * res (vresult ef) => do r <- snd m; Ok (fst m, r)) (models ++ (t, Err e) :: rest) = Err e).
    { induction F as [|[t' m] r l l' (Q1 & Q2) F IH]; [reflexivity|]. cbn [app mapM snd fst] in *. rewrite Q2. cbn [bind]. rewrite IH. reflexivity. }
    rewrite E. reflexivity.
  Qed.
End Validate.

(** ** Several datasets *)
Lemma forall2_nth : forall A B (P : A -> B -> Prop) l l', Forall2 P l l' <-> length l' = length l /\ forall i a, nth_error l i = Some a -> exists b, nth_error l' i = Some b /\ P a b.
Proof.
  intros A B P l. induction l as [|a l IH]; intros l'.
  - split; [intro H; inversion H; split; [reflexivity|intros [|i] a; discriminate]|]. intros (L & _). destruct l'; [constructor|discriminate].
  - split.
    + intro H. inversion H as [|? b ? l2 Q1 Q2]; subst. apply IH in Q2 as (L & Q). split; [cbn; lia|]. intros [|i] x E; [injection E as <-; exists b; auto|apply Q; exact E].
    + intros (L & Q). destruct l' as [|b l']; [discriminate|]. destruct (Q 0%nat a eq_refl) as (b' & E & Pb). injection E as <-. constructor; [exact Pb|]. apply IH. split; [cbn in L; lia|].
      intros i x E. apply (Q (S i) x E).
Qed.
Lemma nth_enumerate : forall A (l : list A) i, nth_error (enumerate l) i = option_map (fun a => (i, a)) (nth_error l i).
Proof.
  intros A l. unfold enumerate. assert (G : forall k i, nth_error (combine (seq k (length l)) l) i = option_map (fun a => ((k + i)%nat, a)) (nth_error l i)).
  { induction l as [|a l IH]; intros k i; [destruct i; reflexivity|]. cbn [length seq combine]. destruct i as [|i]; cbn [nth_error option_map]; [rewrite Nat.add_0_r; reflexivity|].
    rewrite IH. replace (S k + i)%nat with (k + S i)%nat by lia. reflexivity. }
  intro i. rewrite G. reflexivity.
Qed.
Lemma c85_samples : forall lstsq M (ip ij : string -> res (dataset ef string)) (raw_of rec_of : M -> option (arr3 ef)) choice paths models f out,
  get_sample_stats lstsq ip ij raw_of rec_of choice paths models f = Ok out <->
  length out = length paths /\ forall i path, nth_error paths i = Some path ->
    exists o, nth_error out i = Some o /\ sample_one lstsq ip ij raw_of rec_of choice models f (i, path) = Ok o.
Proof.
  intros lstsq M ip ij raw_of rec_of choice paths models f out. unfold get_sample_stats. rewrite mapM_Ok, forall2_nth. unfold enumerate at 1. rewrite combine_length, seq_length, Nat.min_id.
  split; intros (L & H); (split; [exact L|]).
  - intros i path E. apply (H i (i, path)). rewrite nth_enumerate, E. reflexivity.
  - intros i [j path] E. rewrite nth_enumerate in E. destruct (nth_error paths i) as [q|] eqn:Q; [|discriminate]. injection E as <- <-. apply (H i q Q).
Qed.
Lemma c85_all : forall lstsq M (ip ij : string -> res (dataset ef string)) (raw_of rec_of : M -> option (arr3 ef)) choice models i path o,
  sample_one lstsq ip ij raw_of rec_of choice models None (i, path) = Ok o <->
  exists ds, run_subjective_models lstsq ip ij raw_of rec_of path raw_reader models = Ok (ds, o).
Proof.
  intros lstsq M ip ij raw_of rec_of choice models i path o. unfold sample_one. destruct (run_subjective_models _ _ _ _ _ _ _ _) as [[ds o']|e]; cbn [bind snd].
  - split; [intro H; apply Ok_inj in H; subst; eauto|intros (ds' & H); apply Ok_inj in H; congruence].
  - split; [discriminate|intros (ds & H); discriminate].
Qed.
