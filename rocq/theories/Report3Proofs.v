(** Results of the rating models can be formatted (C76). *)
From Coq Require Import String.
From Coq Require Import List ZArith Bool Arith Lia Sorted.
From Verif Require Import PyBase BaseProofs Num NumPy Dataset Preproc Mos AP Mle PcDataset Routine Report SpecRoutine RoutineProofs Routine2Proofs Routine3Proofs Routine4Proofs Routine5Proofs ReportProofs Report2Proofs.
Import ListNotations.
Local Open Scope list_scope.

Lemma zmax_ok : forall l m, zmax_list l = Ok m -> In m l /\ forall x, In x l -> (x <= m)%Z.
Proof.
  intros [|a l] m H; [discriminate|]. unfold zmax_list in H. injection H as <-.
  assert (G : forall l a, In (fold_left Z.max l a) (a :: l) /\ forall x, In x (a :: l) -> (x <= fold_left Z.max l a)%Z).
  { clear. induction l as [|b l IH]; intro a; cbn [fold_left].
    - split; [left; reflexivity|]. intros x [<-|[]]. lia.
    - destruct (IH (Z.max a b)) as [I1 I2]. split.
      + destruct I1 as [E|I1]; [|right; right; exact I1]. rewrite <- E. destruct (Z.max_spec a b) as [[_ ->]|[_ ->]]; [right; left; reflexivity|left; reflexivity].
      + assert (B := I2 _ (or_introl eq_refl)). intros x [<-|[<-|H]]; [lia|lia|apply I2; right; exact H]. }
  apply G.
Qed.

Lemma contents_count : forall refs mx names, zmax_list (map rv_cid refs) = Ok mx -> (forall c, In c (map rv_cid refs) -> (0 <= c)%Z) -> contents_in_order refs names ->
  (length names = Z.to_nat (mx + 1) <-> no_gaps refs).
Proof.
  intros refs mx names M P (cs & S & I & F). apply zmax_ok in M. destruct M as [M1 M2].
  assert (L : length cs = length names) by (clear - F; induction F; cbn; congruence). rewrite <- L.
  assert (ND : NoDup cs).
  { clear - S. induction S as [|c cs S IH A]; constructor; [|exact IH]. intro H. rewrite Forall_forall in A. apply A in H. lia. }
  set (all := map Z.of_nat (seq 0 (Z.to_nat (mx + 1)))).
  assert (NA : NoDup all). { unfold all. apply FinFun.Injective_map_NoDup; [intros x y; apply Nat2Z.inj|apply seq_NoDup]. }
  assert (LA : length all = Z.to_nat (mx + 1)) by (unfold all; rewrite map_length, seq_length; reflexivity).
  assert (IA : forall c, In c all <-> (0 <= c <= mx)%Z).
  { intro c. unfold all. rewrite in_map_iff. assert (PM := P _ M1). split; [intros (n & <- & H); apply in_seq in H; lia|]. intro H. exists (Z.to_nat c). rewrite in_seq. lia. }
  assert (IN : incl cs all). { intros c H. apply I in H. apply IA. split; [apply P; exact H|apply M2; exact H]. }
  rewrite <- LA. split.
  - intros E c c' H R. apply I. assert (IN' : incl all cs) by (apply NoDup_length_incl; [exact ND|lia|exact IN]). apply IN', IA. apply M2 in H. lia.
  - intro G. apply Nat.le_antisymm; [apply NoDup_incl_length; assumption|]. apply NoDup_incl_length; [exact NA|]. intros c H. apply IA in H. apply I. exact (G mx c M1 H).
Qed.

Section Rating.
  Context {T : Type} {N : Num T}.

  Lemma reader_dims : forall (ds : dataset T string) rd a, raw_reader ds = Ok rd -> rd_arr rd = Ok a ->
    dE a = length (rd_dvs rd) /\ (forall o, attach_observers rd = Ok (Some o) -> length o = dS a) /\ (forall c, In c (map rv_cid (ds_refs ds)) -> (0 <= c)%Z) /\ rd_ds rd = ds.
  Proof.
    intros ds rd a R A. unfold raw_reader in R. destruct (assert_dataset_raw _ _) as [[]|] eqn:E; [|discriminate]. cbn [bind] in R. injection R as <-. cbn [rd_arr rd_dvs rd_ds] in *.
    unfold opinion_score_3darray_with in A. destruct (opinion_rows _ _) as [[[W R] rows]|] eqn:EO; [|discriminate]. cbn [bind] in A. injection A as <-. cbn [arr3_of_rows dE dS].
    split; [reflexivity|]. split; [|split; [|reflexivity]].
    - intros o H. unfold attach_observers in H. cbn [rd_dvs] in H. destruct (get_list_observers (ds_dis ds)) as [obs|[]] eqn:EG; try discriminate. injection H as <-.
      unfold opinion_rows in EO. unfold get_num_observers in EO at 1. rewrite EG in EO. unfold first_os in EO.
      unfold get_list_observers in EG. destruct (mapM os_dict (ds_dis ds)) as [l|] eqn:EM; [|discriminate].
      destruct (ds_dis ds) as [|dv dvs]; [discriminate|]. cbn [mapM] in EM. destruct (os_dict dv) as [d|] eqn:ED; [|discriminate]. unfold os_dict in ED.
      cbn [py_index nth_error bind] in EO. destruct (get_os dv) as [[?|d'|]|]; try discriminate. cbn [bind] in EO.
      destruct (get_max_repetitions _ _); [|discriminate]. cbn [bind] in EO. destruct (mapM _ (dv :: dvs)); [|discriminate]. cbn [bind] in EO. injection EO as <- _ _. reflexivity.
    - intros c H. unfold assert_dataset_raw, assert_dataset_base in E. cbv zeta in E. destruct (zmax_list _) as [m|]; [|discriminate]. cbn [bind] in E.
      destruct (forM_ _ (map rv_cid _)) as [[]|] eqn:EF; [|discriminate]. apply (proj1 (forM_Ok _ _ _)) with (a := c) in EF; [|exact H]. apply assert_Ok in EF. apply andb_prop in EF. lia.
  Qed.

  (** The plain means and their relatives: always. *)
  Lemma mos_fits : forall ds rd c k (m : mosres T) refs, raw_reader ds = Ok rd -> run_modeling c rd k = Ok m -> fits refs (named (rd_dvs rd) (mos_report m)).
  Proof.
    intros ds rd c k m refs R H. apply mos_len in H. destruct H as (a & A & L1 & L2 & L3 & L4 & LB & O). destruct (reader_dims _ _ _ R A) as (D1 & D2 & _).
    split; [|split; [|exact I]].
    - exists (mr_quality m), (map dv_path (rd_dvs rd)). cbn. rewrite map_length. repeat split; lia.
    - unfold observers_fit. cbn. destruct (mr_bias m) as [b|]; cbn; [|exact I]. specialize (LB b eq_refl). repeat split. intros o E. rewrite E in O. rewrite (D2 _ O). lia.
  Qed.

  (** The projection solver: when the number of named observers is that of the
      solved array. *)
  Lemma ap_fits : forall chi ds rd c k f (m : apres T) refs, raw_reader ds = Ok rd -> ap_run_modeling chi c rd k f = Ok m ->
    (fits refs (named (rd_dvs rd) (ap_report m)) <-> forall o, ap_observers m = Some o -> length o = length (ap_bias m)) /\
    no_none (named (rd_dvs rd) (ap_report m)) /\ (kw_rej k = false -> forall o, ap_observers m = Some o -> length o = length (ap_bias m)).
  Proof.
    intros chi ds rd c k f m refs R H. apply ap_len in H. destruct H as (a & pp & A & P & L1 & L2 & L3 & L4 & B1 & B2 & B3 & B4 & V1 & V2 & V3 & V4 & M1 & M2 & O).
    destruct (reader_dims _ _ _ R A) as (D1 & D2 & _). split; [|split].
    - split; [intros (_ & (H & _) & _); exact H|]. intro H. split; [|split; [|exact I]].
      + exists (ap_quality m), (map dv_path (rd_dvs rd)). cbn. rewrite map_length. repeat split; lia.
      + unfold observers_fit. cbn. repeat split; [exact H|..]; lia.
    - unfold no_none, col_list, ci_list. cbn. repeat split; discriminate.
    - intros K o E. rewrite E in O. rewrite (D2 _ O), B1. destruct (preprocess_dims _ _ _ P) as (a' & A' & _ & DS & _). rewrite (DS K). congruence.
  Qed.

  Lemma opt_list : forall o : option (list T), option_map Some o <> Some None.
  Proof. intros [l|]; discriminate. Qed.
  Lemma opt_pair_list : forall o o' : option (list T), pair_opt o o' <> Some None.
  Proof. intros [l|] [l'|]; discriminate. Qed.
  Lemma opt_col : forall n (o : option (list T)), opt_len n o -> col_fits n (option_map Some o).
  Proof. intros n [l|] H; cbn; [exact (H l eq_refl)|exact I]. Qed.
  Lemma opt_pair : forall n (o o' : option (list T)), opt_len n o -> opt_len n o' -> ci_fits n (pair_opt o o').
  Proof. intros n [l|] [l'|] H H'; cbn; try exact I. rewrite (H l eq_refl), (H' l' eq_refl). lia. Qed.
  Lemma mle_fits : forall chi ds rd c k o (m : mleres T), raw_reader ds = Ok rd -> mle_run_modeling chi c rd k o = Ok m ->
    (fits (ds_refs ds) (named (rd_dvs rd) (mle_report m)) <-> mode_of c = ContentOblivious \/ (all_named (ds_refs ds) /\ no_gaps (ds_refs ds))) /\
    no_none (named (rd_dvs rd) (mle_report m)).
  Proof.
    intros chi ds rd c k o m R H. apply mle_len in H. destruct H as (a & mx & A & Z & SZ & O & NA & NB). pose proof SZ as SZ'. destruct SZ' as [q1 q2 q3 q4 b1 b2 b3 b4 v1 v2 v3 v4 a1 a2 a3 a4].
    destruct (reader_dims _ _ _ R A) as (D1 & D2 & P & RD). rewrite RD in Z. split.
    - assert (V : videos_fit (named (rd_dvs rd) (mle_report m))).
      { exists (ml_quality m), (map dv_path (rd_dvs rd)). cbn. rewrite map_length. repeat split; lia. }
      assert (B : observers_fit (named (rd_dvs rd) (mle_report m))).
      { unfold observers_fit. cbn. destruct (ml_bias m) as [b|] eqn:EB; cbn; [|exact I]. rewrite (b1 b eq_refl).
        split; [intros l E; rewrite E in O; exact (D2 _ O)|]. repeat split; try (apply opt_col; assumption); try (apply opt_pair; assumption); exact I. }
      assert (CO : contents_fit (ds_refs ds) (named (rd_dvs rd) (mle_report m)) <-> mode_of c = ContentOblivious \/ (all_named (ds_refs ds) /\ no_gaps (ds_refs ds))).
      { unfold contents_fit. cbn. destruct (ml_ambiguity m) as [l|] eqn:EA; cbn.
        - rewrite (a1 l eq_refl). split.
          + intros (AN & (cs & OC & L) & _). right. split; [exact AN|]. apply (contents_count _ _ _ Z P OC). exact L.
          + intros [E|[AN G]]; [apply NA in E; discriminate|]. split; [exact AN|]. destruct (contents_of_total _ AN) as [cs E]. apply contents_of_ok in E. destruct E as [_ OC].
            split; [exists cs; split; [exact OC|]; apply (contents_count _ _ _ Z P OC); exact G|]. split; [apply opt_col; assumption|apply opt_pair; assumption].
        - split; [intros _; left; apply NA; reflexivity|intros _; exact I]. }
      unfold fits. tauto.
    - unfold no_none, col_list, ci_list. cbn [named set_names mle_report r_quality r_quality_std r_quality_ci r_bias r_bias_std r_bias_ci r_incons r_incons_std r_incons_ci r_scores_mean r_scores_std r_ambiguity r_ambiguity_std r_ambiguity_ci].
      repeat match goal with |- _ /\ _ => split end; first [apply opt_list|apply opt_pair_list|discriminate].
  Qed.
  Lemma one_formats : forall refs t (r : mresult T), (exists out, format_output refs [t] [r] = Ok out) <-> fits refs r.
  Proof.
    intros refs t r. split; [|apply one_fits]. intro H. apply format_shape in H. destruct H as (_ & F & _). inversion F; assumption.
  Qed.
  Lemma one_rejected : forall refs t (r : mresult T), all_named refs -> no_none r -> ~ fits refs r -> format_output refs [t] [r] = Err AssertionError.
  Proof.
    intros refs t r AN NN NF. destruct (format_output refs [t] [r]) as [out|e] eqn:E; [exfalso; apply NF, (one_formats refs t); eauto|]. f_equal.
    apply (proj1 (proj2 (format_shape refs [t] [r])) e AN); [constructor; [exact NN|constructor]|exact E].
  Qed.
  (** The reader of paired comparisons: one page per video. *)
  Lemma pc_reader_dims : forall (ds : dataset T (string * Z)) a, pc_reader_3darray ds = Ok a -> dE a = length (ds_dis ds).
  Proof.
    intros ds a H. unfold pc_reader_3darray in H. destruct (pc_assert_dataset ds); [|discriminate]. cbn [bind] in H. unfold pc_opinion_3darray in H.
    destruct (pc_list_observers _); [|discriminate]. cbn [bind] in H. destruct (foldM _ _ _); [|discriminate]. cbn [bind] in H. injection H as <-. reflexivity.
  Qed.
End Rating.

Section PcList.
  Context {T : Type} {N : Num T}.
  (** A result of one of the two maximum likelihood models on [a], as the
      formatter gets it. *)
  Lemma pc_formats : forall (ds : dataset T (string * Z)) a types rs, pc_reader_3darray ds = Ok a -> length types = length rs ->
    (forall r, In r rs -> exists obs,
       (exists pinv fuel b, PairedComp.bt_run pinv fuel a = Ok b /\ r = named (ds_dis ds) (bt_report obs b)) \/
       (exists cdf slsqp pinv s z b, keeps_length slsqp /\ PairedComp.th_run cdf slsqp pinv s z a = Ok b /\ r = named (ds_dis ds) (th_report obs b))) ->
    exists out, format_output (ds_refs ds) types rs = Ok out.
  Proof.
    intros ds a types rs A L H. assert (D := pc_reader_dims _ _ A). apply format_shape. split; [exact L|]. split.
    - apply Forall_forall. intros r Hr. destruct (H r Hr) as (obs & [(pinv & fuel & b & B & ->)|(cdf & slsqp & pinv & s & z & b & K & B & ->)]); [eapply bt_fits|eapply th_fits]; eauto.
    - assert (NM : forall r p i n, In r rs -> names (ds_refs ds) r p i n -> p = Videos /\ nth_error (map dv_path (ds_dis ds)) i = Some n).
      { intros r p i n Hr Hn. destruct (H r Hr) as (obs & [(pinv & fuel & b & _ & ->)|(cdf & slsqp & pinv & s & z & b & _ & _ & ->)]);
          (inversion Hn as [i0 l n0 E E'|i0 o n0 B|i0 l B|i0 cs n0 B]; subst; cbn in *; [split; [reflexivity|congruence]|congruence|congruence|congruence]). }
      intros r r' p i n n' I1 I2 N1 N2. apply NM in N1; [|exact I1]. apply NM in N2; [|exact I2]. destruct N1, N2. congruence.
  Qed.
  Lemma nr_formats : forall (ds : dataset T (string * Z)) a pinv fuel z q obs t, pc_reader_3darray ds = Ok a -> PairedComp.nr_run pinv fuel z a = Ok q ->
    format_output (ds_refs ds) [t] [named (ds_dis ds) (nr_report obs q)] = Err TypeError.
  Proof. intros ds a pinv fuel z q obs t A R. eapply nr_fails; [exact R|]. symmetry. apply pc_reader_dims. exact A. Qed.
End PcList.

Section Formats.
  Context {T : Type} {N : Num T}.
  Lemma format_rejected : forall V refs types (rs : list (mresult V)), all_named refs -> Forall no_none rs ->
    ~ (length types = length rs /\ Forall (fits refs) rs /\ agree refs rs) -> format_output refs types rs = Err AssertionError.
  Proof.
    intros V refs types rs AN NN NF. destruct (format_output refs types rs) as [out|e] eqn:E; [exfalso; apply NF, format_shape; eauto|].
    f_equal. exact (proj1 (proj2 (format_shape refs types rs)) e AN NN E).
  Qed.
  Lemma mos_formats : forall (ds : dataset T string) rd c k m t, raw_reader ds = Ok rd -> run_modeling c rd k = Ok m ->
    exists out, format_output (ds_refs ds) [t] [named (rd_dvs rd) (mos_report m)] = Ok out.
  Proof. intros. apply one_fits. eapply mos_fits; eassumption. Qed.
  Lemma ap_formats : forall chi (ds : dataset T string) rd c k f m t, raw_reader ds = Ok rd -> ap_run_modeling chi c rd k f = Ok m ->
    ((exists out, format_output (ds_refs ds) [t] [named (rd_dvs rd) (ap_report m)] = Ok out) <-> forall o, ap_observers m = Some o -> length o = length (ap_bias m)) /\
    (kw_rej k = false -> exists out, format_output (ds_refs ds) [t] [named (rd_dvs rd) (ap_report m)] = Ok out).
  Proof.
    intros chi ds rd c k f m t R H. destruct (ap_fits chi ds rd c k f m (ds_refs ds) R H) as (A & _ & B). rewrite one_formats. split; [exact A|]. intro K. apply A, B. exact K.
  Qed.
  Lemma mle_formats : forall chi (ds : dataset T string) rd c k o m t, raw_reader ds = Ok rd -> mle_run_modeling chi c rd k o = Ok m ->
    (exists out, format_output (ds_refs ds) [t] [named (rd_dvs rd) (mle_report m)] = Ok out) <->
    c = MLE_CO \/ c = DMOS_MLE_CO \/ (all_named (ds_refs ds) /\ no_gaps (ds_refs ds)).
  Proof.
    intros chi ds rd c k o m t R H. destruct (mle_fits chi ds rd c k o m R H) as (A & _). rewrite one_formats, A.
    assert (M : mode_of c = ContentOblivious <-> c = MLE_CO \/ c = DMOS_MLE_CO) by (destruct c; cbn; intuition congruence). tauto.
  Qed.
End Formats.
