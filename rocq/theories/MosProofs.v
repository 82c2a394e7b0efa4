(** Proofs about the MOS models. *)
From Coq Require Import String.
From Coq Require Import List ZArith Bool Arith Lia Reals Lra Permutation.
From Verif Require Import PyBase Num ExtReal NumPy Dataset Preproc Mos BaseProofs ExtRealProofs SpecDataset SpecMos
  DatasetProofs ArrayProofs RecordedProofs.
Import ListNotations.
Local Open Scope list_scope.

Section Entries.
  Variable a : arr3 ef.
  Hypothesis Hf : finite_votes a.
  Let V := video_votes a.
  Definition stdR (l : list R) : ef := ef_div (nanstdR 1 l) (ef_sqrt (Fin (INR (length l)))).
  Definition ciR (l : list R) : ef := ef_mul z95 (stdR l).

  Lemma combine_map_seq : forall A B (f : nat -> A) (g : nat -> B) l,
    combine (map f l) (map g l) = map (fun i => (f i, g i)) l.
  Proof. induction l; simpl; [reflexivity|]. rewrite IHl. reflexivity. Qed.

  Lemma mos_quality_eq : forall dof a0, mr_quality (mos_and_stats dof a a0) = map (fun e => nanmeanR (V e)) (seq 0 (dE a)).
  Proof. intros. apply (mean_rows a Hf). Qed.
  Lemma mos_amb_eq : forall dof a0, mr_ambiguity (mos_and_stats dof a a0) = map (fun e => nanstdR 1 (V e)) (seq 0 (dE a)).
  Proof. intros. apply (std_rows 1 a Hf). Qed.
  Lemma mos_std_eq : forall dof a0, mr_std (mos_and_stats dof a a0) = map (fun e => stdR (V e)) (seq 0 (dE a)).
  Proof.
    intros. unfold mos_and_stats. cbn [mr_std]. rewrite (std_rows 1 a Hf), (cnt_rows a Hf).
    rewrite combine_map_seq, map_map. apply map_ext. intro e. simpl fst; simpl snd. rewrite nofnat_ef. reflexivity.
  Qed.
  Lemma mos_ci_eq : forall dof a0, mr_ci_lo (mos_and_stats dof a a0) = map (fun e => ciR (V e)) (seq 0 (dE a)) /\
     mr_ci_hi (mos_and_stats dof a a0) = map (fun e => ciR (V e)) (seq 0 (dE a)).
  Proof.
    intros. unfold mos_and_stats. cbn [mr_ci_lo mr_ci_hi].
    assert (E := mos_std_eq dof a0). unfold mos_and_stats in E. cbn [mr_std] in E. rewrite E, map_map.
    split; reflexivity.
  Qed.
End Entries.

Lemma z95_ef : @z95 ef Num_ef = Fin (195996 / 100000).
Proof. unfold z95. rewrite ndec_ef by lia. reflexivity. Qed.

Lemma stdR_nan : forall l, length l < 2 -> stdR l = NaN.
Proof.
  intros l H. unfold stdR, nanstdR. destruct (Nat.leb_spec (length l) 1); [|lia]. reflexivity.
Qed.
Lemma stdR_fin : forall l, 2 <= length l ->
  exists v, nanstdR 1 l = Fin v /\ (0 <= v)%R /\ stdR l = Fin (v / sqrt (INR (length l))).
Proof.
  intros l H. unfold stdR, nanstdR. destruct (Nat.leb_spec (length l) 1); [lia|].
  eexists. split; [reflexivity|]. split; [apply sqrt_pos|].
  assert (0 < INR (length l))%R by (apply lt_0_INR; lia).
  rewrite ef_sqrt_Fin by lra. apply ef_div_Fin.
  assert (0 < sqrt (INR (length l)))%R by (apply sqrt_lt_R0; assumption). lra.
Qed.
Lemma ciR_nan : forall l, length l < 2 -> ciR l = NaN.
Proof. intros l H. unfold ciR. rewrite stdR_nan by exact H. rewrite z95_ef. reflexivity. Qed.

Lemma entry_ok : forall l, mos_entry_ok (nanmeanR l) (nanstdR 1 l) (stdR l) (ciR l) (ciR l) l.
Proof.
  intro l. split; [apply nanmeanR_is_mean|]. split; [apply nanstdR1_is_std|]. split.
  - intro H. rewrite stdR_nan, ciR_nan by exact H. auto.
  - intro H. destruct (stdR_fin l H) as (v & E & Hv & Es). exists v. unfold ciR. rewrite Es, z95_ef.
    assert (0 < INR (length l))%R by (apply lt_0_INR; lia).
    assert (0 < sqrt (INR (length l)))%R by (apply sqrt_lt_R0; assumption).
    assert (0 <= v / sqrt (INR (length l)))%R
      by (apply Rmult_le_pos; [exact Hv|apply Rlt_le, Rinv_0_lt_compat; assumption]).
    repeat split; try assumption; try reflexivity. unfold half_width. apply Rmult_le_pos; [lra|assumption].
Qed.

(** MOS without options. *)
Lemma run_mos_inv : forall (rd : reader ef) m, run_modeling MOS rd no_options = Ok m ->
  exists a, rd_arr rd = Ok a /\ exists o, m =
    let x := mos_and_stats dof_mos a a in
    MosRes (mr_quality x) (mr_std x) (mr_ci_lo x) (mr_ci_hi x) (mr_ambiguity x) (mr_raw x) (mr_recon x)
           (mr_dof x) (mr_ll x) (mr_aic x) (mr_bic x) None None o.
Proof.
  intros rd m H. unfold run_modeling, run_kwargs, mos_run, preprocess in H. cbn [bind] in H.
  destruct (rd_arr rd) as [a|ex]; [|discriminate]. exists a. split; [reflexivity|].
  cbn [bind no_options kw_rej kw_rejtype kw_zscore kw_bias kw_dscore assert_ negb andb is_biasremv pp_arr pp_orig pp_rej] in H.
  destruct (attach_observers rd) as [o|ex]; [|discriminate]. cbn [bind] in H.
  exists o. injection H as <-. reflexivity.
Qed.

Lemma nth_error_map_seq : forall A (f : nat -> A) n i, i < n -> nth_error (map f (seq 0 n)) i = Some (f i).
Proof. intros. rewrite nth_error_map, nth_error_seq by assumption. reflexivity. Qed.

Lemma mos_dataset : forall ds rd m, raw_reader ds = Ok rd -> python_dicts (ds_dis ds) -> finite_dataset (ds_dis ds) ->
  run_modeling MOS rd no_options = Ok m ->
  length (mr_quality m) = length (ds_dis ds) /\ length (mr_ambiguity m) = length (ds_dis ds) /\
  length (mr_std m) = length (ds_dis ds) /\ length (mr_ci_lo m) = length (ds_dis ds) /\
  length (mr_ci_hi m) = length (ds_dis ds) /\
  forall e dv vs, nth_error (ds_dis ds) e = Some dv -> recorded dv vs ->
    exists q amb std lo hi,
      nth_error (mr_quality m) e = Some q /\ nth_error (mr_ambiguity m) e = Some amb /\
      nth_error (mr_std m) e = Some std /\ nth_error (mr_ci_lo m) e = Some lo /\
      nth_error (mr_ci_hi m) e = Some hi /\ mos_entry_ok q amb std lo hi (presents vs).
Proof.
  intros ds rd m Hrd Hpy Hfd H. destruct (run_mos_inv rd m H) as (a & HA & o & ->).
  assert (Hf := read_finite ds rd a Hrd Hpy Hfd HA).
  destruct (read_votes ds rd a Hrd Hpy HA) as (HE & HV).
  cbn zeta. cbn [mr_quality mr_ambiguity mr_std mr_ci_lo mr_ci_hi].
  destruct (mos_ci_eq a Hf dof_mos a) as [-> ->].
  rewrite (mos_quality_eq a Hf), (mos_amb_eq a Hf), (mos_std_eq a Hf).
  rewrite !map_length, !seq_length, HE. repeat (split; [reflexivity|]).
  intros e dv vs He Hr. assert (Hlt : e < length (ds_dis ds)) by (apply nth_error_Some; congruence).
  rewrite !nth_error_map_seq by exact Hlt.
  assert (P := HV e dv vs He Hr).
  assert (L : length (presents vs) = length (video_votes a e)) by (apply Permutation_length; exact P).
  assert (E1 : nanmeanR (video_votes a e) = nanmeanR (presents vs)) by (apply nanmeanR_perm; symmetry; exact P).
  assert (E2 : nanstdR 1 (video_votes a e) = nanstdR 1 (presents vs)) by (apply nanstdR_perm; symmetry; exact P).
  assert (E3 : stdR (video_votes a e) = stdR (presents vs)) by (unfold stdR; rewrite E2, L; reflexivity).
  assert (E4 : ciR (video_votes a e) = ciR (presents vs)) by (unfold ciR; rewrite E3; reflexivity).
  rewrite E1, E2, E3, E4. do 5 eexists. do 5 (split; [reflexivity|]). apply entry_ok.
Qed.

(** The mean lies in the range of the votes. *)
Lemma is_mean_hull : forall q l m M, is_mean q l -> l <> [] -> (forall x, In x l -> (m <= x <= M)%R) ->
  exists v, q = Fin v /\ (m <= v <= M)%R.
Proof.
  intros q l m M [[-> _]|[_ ->]] Hne H; [contradiction|]. eexists. split; [reflexivity|].
  apply (Rmean_bounds l m M Hne H).
Qed.

(** Success. *)
Lemma attach_total : forall ds rd, raw_reader ds = Ok rd -> exists o, attach_observers rd = Ok o.
Proof.
  intros ds rd H. destruct (raw_reader_inv ds rd H) as ((_ & _ & _ & _ & Hos & _) & _ & E & _).
  unfold attach_observers. rewrite E.
  destruct (get_list_observers (ds_dis ds)) as [l|ex] eqn:G; [eexists; reflexivity|].
  assert (ex = AssertionError); [|subst; eexists; reflexivity].
  unfold get_list_observers in G.
  destruct (mapM os_dict (ds_dis ds)) as [l|ex'] eqn:M; [discriminate|]. simpl in G. injection G as ->.
  revert M. generalize (ds_dis ds) Hos. clear. induction l as [|dv l IH]; intros Hos M; [discriminate|].
  cbn [mapM] in M. destruct (Hos dv (or_introl eq_refl)) as (o & E & Hno).
  assert (K : os_dict dv = match o with ODict d => Ok d | _ => Err AssertionError end)
    by (unfold os_dict, get_os; rewrite E; reflexivity).
  rewrite K in M. destruct o; cbn [bind] in M; try congruence.
  destruct (mapM os_dict l) eqn:M2; [discriminate|]. simpl in M. injection M as ->.
  apply IH; [|reflexivity]. intros; apply Hos; right; assumption.
Qed.

Lemma mos_total : forall ds rd a, raw_reader ds = Ok rd -> rd_arr rd = Ok a ->
  exists m, run_modeling MOS rd no_options = Ok m.
Proof.
  intros ds rd a Hrd HA. destruct (attach_total ds rd Hrd) as (o & Ho).
  unfold run_modeling, run_kwargs, mos_run, preprocess. cbn [bind]. rewrite HA. simpl. rewrite Ho. simpl. eexists; reflexivity.
Qed.

(** ** Dependence on the votes only *)
Lemma notnan_map_skip : forall (g : ef -> ef) l, allfinnan l -> g NaN = NaN ->
  notnan (map g l) = notnan (map g (map Fin (presents l))).
Proof.
  intros g l H H0. induction H as [|x l Hx H IH]; [reflexivity|].
  destruct x; simpl in Hx; try contradiction; unfold notnan in *; cbn [map filter presents].
  - rewrite IH. reflexivity.
  - rewrite H0. cbn. exact IH.
Qed.

Definition cell (a : arr3 ef) e := flat_map (fun s => map (fun r => at3 a e s r) (seq 0 (dR a))) (seq 0 (dS a)).

Lemma notnan_app : forall l l' : list ef, notnan (l ++ l') = notnan l ++ notnan l'.
Proof. intros. unfold notnan. apply filter_app. Qed.
Lemma notnan_flat_map : forall A (f : A -> list ef) l, notnan (flat_map f l) = flat_map (fun x => notnan (f x)) l.
Proof. induction l; simpl; [reflexivity|]. rewrite notnan_app, IHl. reflexivity. Qed.
Lemma filter_Permutation : forall A (f : A -> bool) l l', Permutation l l' -> Permutation (filter f l) (filter f l').
Proof.
  intros A f l l' H; induction H; simpl.
  - constructor.
  - destruct (f x); [constructor|]; assumption.
  - destruct (f x), (f y); try reflexivity. apply perm_swap.
  - etransitivity; eassumption.
Qed.
Lemma Permutation_flat_map_in : forall A B (f g : A -> list B) l,
  (forall x, In x l -> Permutation (f x) (g x)) -> Permutation (flat_map f l) (flat_map g l).
Proof.
  induction l as [|a l IH]; intro H; simpl; [constructor|].
  apply Permutation_app; [apply H; left; reflexivity|]. apply IH. intros; apply H; right; assumption.
Qed.

Lemma cell_finnan : forall a e, finite_votes a -> e < dE a -> allfinnan (cell a e).
Proof.
  intros a e H He. apply Forall_forall. intros x Hx. apply in_flat_map in Hx as (s & Hs & Hx).
  apply in_map_iff in Hx as (r & <- & Hr). apply in_seq in Hs. apply in_seq in Hr. apply H. unfold inside; lia.
Qed.

(** flat3 of an array mapped per video by a NaN-preserving function: its
    non-missing entries, up to order, depend only on the votes per video. *)
Lemma flat3_votes : forall a (g : nat -> ef -> ef), finite_votes a -> (forall e, g e NaN = NaN) ->
  notnan (flat3 (map3 (fun e s r x => g e x) a)) =
  flat_map (fun e => notnan (map (g e) (map Fin (video_votes a e)))) (seq 0 (dE a)).
Proof.
  intros a g Hf H0. unfold flat3. cbn [dE dS dR at3 map3].
  rewrite notnan_flat_map. apply flat_map_ext_in. intros e He. apply in_seq in He.
  rewrite (cells_map (fun s r => at3 a e s r)). fold (cell a e).
  rewrite notnan_map_skip; [reflexivity|apply cell_finnan; [exact Hf|lia]|apply H0].
Qed.
Lemma flat3_id : forall a : arr3 ef, flat3 a = flat3 (map3 (fun e s r x => x) a).
Proof. intros. reflexivity. Qed.

Lemma flat3_perm : forall a a' (g g' : nat -> ef -> ef), finite_votes a -> finite_votes a' -> dE a = dE a' ->
  (forall e, g e NaN = NaN) -> (forall e, g' e NaN = NaN) ->
  (forall e x, e < dE a -> g e (Fin x) = g' e (Fin x)) ->
  (forall e, e < dE a -> Permutation (video_votes a e) (video_votes a' e)) ->
  Permutation (notnan (flat3 (map3 (fun e s r x => g e x) a))) (notnan (flat3 (map3 (fun e s r x => g' e x) a'))).
Proof.
  intros a a' g g' Hf Hf' HE H0 H0' Hg HV. rewrite !flat3_votes by assumption. rewrite <- HE.
  apply Permutation_flat_map_in. intros e He. apply in_seq in He.
  rewrite !map_map. rewrite (map_ext_in _ (fun x => g' e (Fin x))) by (intros; apply Hg; lia).
  unfold notnan. apply filter_Permutation. apply Permutation_map. apply HV. lia.
Qed.

Lemma gaussian_nan : forall m s : ef, gaussian NaN m s = NaN.
Proof.
  intros m s. unfold gaussian, nsq. efc. unfold ef_sub at 1. cbn [ef_add ef_mul].
  change (ef_sub NaN m) with NaN. cbn [ef_mul ef_neg].
  assert (D : forall x, ef_div NaN x = NaN) by (intros []; reflexivity). rewrite D.
  cbn [ef_exp]. assert (M : forall x, ef_mul x NaN = NaN) by (intros []; reflexivity). apply M.
Qed.
Lemma ln_gaussian_nan : forall m s : ef, nln (gaussian NaN m s) = NaN.
Proof. intros. rewrite gaussian_nan. reflexivity. Qed.

Lemma same_votes_same_mos : forall a a', finite_votes a -> finite_votes a' -> dE a = dE a' ->
  (forall e, e < dE a -> Permutation (video_votes a e) (video_votes a' e)) ->
  same_mos_results (mos_and_stats dof_mos a a) (mos_and_stats dof_mos a' a').
Proof.
  intros a a' Hf Hf' HE HV.
  assert (Q : mr_quality (mos_and_stats dof_mos a a) = mr_quality (mos_and_stats dof_mos a' a')).
  { rewrite !mos_quality_eq by assumption. rewrite <- HE. apply map_ext_in. intros e He. apply in_seq in He.
    apply nanmeanR_perm, HV. lia. }
  assert (S : mr_ambiguity (mos_and_stats dof_mos a a) = mr_ambiguity (mos_and_stats dof_mos a' a')).
  { rewrite !mos_amb_eq by assumption. rewrite <- HE. apply map_ext_in. intros e He. apply in_seq in He.
    apply nanstdR_perm, HV. lia. }
  assert (K : forall e, e < dE a -> stdR (video_votes a e) = stdR (video_votes a' e)).
  { intros e He. unfold stdR. rewrite (nanstdR_perm 1 _ _ (HV e He)), (Permutation_length (HV e He)). reflexivity. }
  assert (D : mr_std (mos_and_stats dof_mos a a) = mr_std (mos_and_stats dof_mos a' a')).
  { rewrite !mos_std_eq by assumption. rewrite <- HE. apply map_ext_in. intros e He. apply in_seq in He.
    apply K. lia. }
  assert (C : map (fun e => ciR (video_votes a e)) (seq 0 (dE a)) = map (fun e => ciR (video_votes a' e)) (seq 0 (dE a))).
  { apply map_ext_in. intros e He. apply in_seq in He. unfold ciR. rewrite K by lia. reflexivity. }
  destruct (mos_ci_eq a Hf dof_mos a) as [C1 C2]. destruct (mos_ci_eq a' Hf' dof_mos a') as [C3 C4].
  assert (N : np_cnt (flat3 a) = np_cnt (flat3 a')).
  { unfold np_cnt. apply Permutation_length. rewrite (flat3_id a), (flat3_id a').
    apply (flat3_perm a a' (fun _ x => x) (fun _ x => x)); auto. }
  assert (L : mr_ll (mos_and_stats dof_mos a a) = mr_ll (mos_and_stats dof_mos a' a')).
  { unfold mos_and_stats in Q, S |- *. cbn [mr_quality mr_ambiguity mr_ll] in Q, S |- *. rewrite N. f_equal.
    unfold np_nansum. rewrite <- Q, <- S. apply np_sum_perm.
    apply (flat3_perm a a' (fun e x => nln (gaussian x (vat (along1 np_nanmean (stack1 a)) e) (vat (along1 (np_nanstd 1) (stack1 a)) e)))
                      (fun e x => nln (gaussian x (vat (along1 np_nanmean (stack1 a)) e) (vat (along1 (np_nanstd 1) (stack1 a)) e)))); auto;
    intros; apply ln_gaussian_nan. }
  assert (F : mr_dof (mos_and_stats dof_mos a a) = mr_dof (mos_and_stats dof_mos a' a')).
  { unfold mos_and_stats, dof_mos. cbn [mr_dof]. rewrite N, HE. reflexivity. }
  unfold same_mos_results. rewrite C1, C2, C3, C4, <- HE.
  repeat (split; [assumption|]).
  change (mr_aic (mos_and_stats dof_mos a a)) with (nsub (nmul (nofZ 2) (mr_dof (mos_and_stats dof_mos a a))) (nmul (nofZ 2) (mr_ll (mos_and_stats dof_mos a a)))).
  change (mr_aic (mos_and_stats dof_mos a' a')) with (nsub (nmul (nofZ 2) (mr_dof (mos_and_stats dof_mos a' a'))) (nmul (nofZ 2) (mr_ll (mos_and_stats dof_mos a' a')))).
  change (mr_bic (mos_and_stats dof_mos a a)) with (nsub (nmul (nln (nofnat (np_cnt (flat3 a)))) (mr_dof (mos_and_stats dof_mos a a))) (nmul (nofZ 2) (mr_ll (mos_and_stats dof_mos a a)))).
  change (mr_bic (mos_and_stats dof_mos a' a')) with (nsub (nmul (nln (nofnat (np_cnt (flat3 a')))) (mr_dof (mos_and_stats dof_mos a' a'))) (nmul (nofZ 2) (mr_ll (mos_and_stats dof_mos a' a')))).
  rewrite F, L, N. split; reflexivity.
Qed.

Lemma mos_votes_only : forall rd rd' a a' m m',
  rd_arr rd = Ok a -> rd_arr rd' = Ok a' -> finite_votes a -> finite_votes a' -> dE a = dE a' ->
  (forall e, e < dE a -> Permutation (video_votes a e) (video_votes a' e)) ->
  run_modeling MOS rd no_options = Ok m -> run_modeling MOS rd' no_options = Ok m' ->
  same_mos_results m m'.
Proof.
  intros rd rd' a a' m m' HA HA' Hf Hf' HE HV H H'.
  destruct (run_mos_inv rd m H) as (b & HB & o & ->). destruct (run_mos_inv rd' m' H') as (b' & HB' & o' & ->).
  assert (b = a) by congruence. assert (b' = a') by congruence. subst.
  apply (same_votes_same_mos a a' Hf Hf' HE HV).
Qed.

(** Subjects permuted, columns added. *)
Lemma flat_map_perm : forall A B (f : A -> list B) l l', Permutation l l' -> Permutation (flat_map f l) (flat_map f l').
Proof.
  intros A B f l l' H; induction H; simpl.
  - constructor.
  - apply Permutation_app_head; assumption.
  - rewrite !app_assoc. apply Permutation_app_tail, Permutation_app_comm.
  - etransitivity; eassumption.
Qed.

Lemma subject_perm_votes : forall a a' p e, permutes (dS a) p -> dS a' = dS a -> dR a' = dR a -> e < dE a ->
  (forall s r, s < dS a -> r < dR a -> at3 a' e s r = at3 a e (p s) r) ->
  Permutation (video_votes a e) (video_votes a' e).
Proof.
  intros a a' p e Hp HS HR He H. unfold video_votes. rewrite HS, HR. apply presents_perm.
  rewrite (flat_map_ext_in _ _ (fun s => map (fun r => at3 a' e s r) (seq 0 (dR a))) (fun s => map (fun r => at3 a e (p s) r) (seq 0 (dR a)))).
  -    replace (flat_map (fun s => map (fun r => at3 a e (p s) r) (seq 0 (dR a))) (seq 0 (dS a)))
      with (flat_map (fun s => map (fun r => at3 a e s r) (seq 0 (dR a))) (map p (seq 0 (dS a)))).
    + apply flat_map_perm. symmetry. apply permutes_surj_perm. exact Hp.
    + rewrite flat_map_concat_map, map_map, <- flat_map_concat_map. reflexivity.
  - intros s Hs. apply in_seq in Hs. apply map_ext_in. intros r Hr. apply in_seq in Hr. apply H; lia.
Qed.

Lemma empty_columns_votes : forall a a' e, e < dE a -> dS a <= dS a' -> dR a <= dR a' ->
  (forall s r, s < dS a' -> r < dR a' ->
     at3 a' e s r = if (Nat.ltb s (dS a) && Nat.ltb r (dR a))%bool then at3 a e s r else NaN) ->
  video_votes a' e = video_votes a e.
Proof.
  intros a a' e He HS HR H. unfold video_votes.
  replace (seq 0 (dS a')) with (seq 0 (dS a) ++ seq (dS a) (dS a' - dS a)) by
    (rewrite <- seq_app; f_equal; lia).
  rewrite flat_map_app, presents_app.
  assert (N : forall (f : nat -> ef) l, (forall x, In x l -> f x = NaN) -> presents (map f l) = []).
  { intros f l Hl. induction l as [|x l IH]; [reflexivity|]. simpl. rewrite (Hl x (or_introl eq_refl)).
    apply IH. intros; apply Hl; right; assumption. }
  replace (presents (flat_map _ (seq (dS a) (dS a' - dS a)))) with (@nil R).
  - rewrite app_nil_r, !presents_flat_map. apply flat_map_ext_in. intros s Hs. apply in_seq in Hs.
    replace (seq 0 (dR a')) with (seq 0 (dR a) ++ seq (dR a) (dR a' - dR a)) by (rewrite <- seq_app; f_equal; lia).
    rewrite map_app, presents_app. rewrite (N _ (seq (dR a) _)).
    + rewrite app_nil_r. f_equal. apply map_ext_in. intros r Hr. apply in_seq in Hr. rewrite H by lia.
      destruct (Nat.ltb_spec s (dS a)), (Nat.ltb_spec r (dR a)); simpl; try lia. reflexivity.
    + intros r Hr. apply in_seq in Hr. rewrite H by lia.
      destruct (Nat.ltb_spec s (dS a)), (Nat.ltb_spec r (dR a)); simpl; try lia. reflexivity.
  - rewrite presents_flat_map. symmetry. rewrite (flat_map_ext_in _ _ _ (fun _ => [])).
    + induction (seq (dS a) (dS a' - dS a)); simpl; auto.
    + intros s Hs. apply in_seq in Hs. apply N. intros r Hr. apply in_seq in Hr. rewrite H by lia.
      destruct (Nat.ltb_spec s (dS a)); simpl; [lia|]. reflexivity.
Qed.

(** Videos permuted. *)
Lemma video_perm : forall rd rd' a a' m m' p,
  rd_arr rd = Ok a -> rd_arr rd' = Ok a' -> finite_votes a -> permutes (dE a) p ->
  dE a' = dE a -> dS a' = dS a -> dR a' = dR a ->
  (forall e s r, inside a e s r -> at3 a' e s r = at3 a (p e) s r) ->
  run_modeling MOS rd no_options = Ok m -> run_modeling MOS rd' no_options = Ok m' ->
  forall f : mosres ef -> list ef, In f [mr_quality; mr_std; mr_ci_lo; mr_ci_hi; mr_ambiguity] ->
  length (f m') = length (f m) /\ forall e, e < dE a -> nth_error (f m') e = nth_error (f m) (p e).
Proof.
  intros rd rd' a a' m m' p HA HA' Hf Hp HE HS HR H Hm Hm' f Hin.
  destruct (run_mos_inv rd m Hm) as (b & HB & o & ->). destruct (run_mos_inv rd' m' Hm') as (b' & HB' & o' & ->).
  assert (b = a) by congruence. assert (b' = a') by congruence. subst.
  assert (Hf' : finite_votes a').
  { intros e s r (I1 & I2 & I3). rewrite H by (unfold inside; lia). apply Hf. unfold inside.
    split; [apply Hp; lia|lia]. }
  assert (V : forall e, e < dE a -> video_votes a' e = video_votes a (p e)).
  { intros e He. unfold video_votes. rewrite HS, HR. f_equal. apply flat_map_ext_in. intros s Hs. apply in_seq in Hs.
    apply map_ext_in. intros r Hr. apply in_seq in Hr. apply H. unfold inside; lia. }
  cbn zeta. destruct (mos_ci_eq a Hf dof_mos a) as [C1 C2]. destruct (mos_ci_eq a' Hf' dof_mos a') as [C3 C4].
  simpl in Hin.
  assert (G : forall h : list R -> ef,
    length (map (fun e => h (video_votes a' e)) (seq 0 (dE a'))) = length (map (fun e => h (video_votes a e)) (seq 0 (dE a))) /\
    forall e, e < dE a -> nth_error (map (fun e => h (video_votes a' e)) (seq 0 (dE a'))) e =
                          nth_error (map (fun e => h (video_votes a e)) (seq 0 (dE a))) (p e)).
  { intro h. rewrite !map_length, !seq_length. split; [exact HE|]. intros e He.
    rewrite !nth_error_map_seq; [|apply Hp; exact He|lia]. rewrite V by exact He. reflexivity. }
  destruct Hin as [<-|[<-|[<-|[<-|[<-|[]]]]]].
  - cbn [mr_quality]. rewrite !mos_quality_eq by assumption. apply G.
  - cbn [mr_std]. rewrite !mos_std_eq by assumption. apply G.
  - cbn [mr_ci_lo]. rewrite C1, C3. apply G.
  - cbn [mr_ci_hi]. rewrite C2, C4. apply G.
  - cbn [mr_ambiguity]. rewrite !mos_amb_eq by assumption. apply G.
Qed.

(** ** Affine transformation of the votes *)
Lemma transformed_finite : forall k c a a', transformed (affine k c) a a' -> finite_votes a -> finite_votes a'.
Proof.
  intros k c a a' (HE & HS & HR & H) Hf e s r (I1 & I2 & I3). rewrite H by (unfold inside; lia).
  assert (F := Hf e s r). destruct (at3 a e s r); simpl in *; auto; apply F; unfold inside; lia.
Qed.
Lemma transformed_votes : forall k c a a' e, transformed (affine k c) a a' -> finite_votes a -> e < dE a ->
  video_votes a' e = map (fun x => k * x + c)%R (video_votes a e).
Proof.
  intros k c a a' e (HE & HS & HR & H) Hf He.
  apply (video_votes_map a a' e (affine k c)); auto. intros; apply H; unfold inside; lia.
Qed.
Lemma nanmeanR_affine : forall k c l, nanmeanR (map (fun x => k * x + c)%R l) = affine k c (nanmeanR l).
Proof.
  intros k c l. destruct l as [|x l]; [reflexivity|].
  rewrite !nanmeanR_ne by discriminate. cbn [affine]. f_equal. rewrite Rmean_affine by discriminate. reflexivity.
Qed.
Lemma nanstdR_affine : forall d k c l, nanstdR d (map (fun x => k * x + c)%R l) = scaled (Rabs k) (nanstdR d l).
Proof.
  intros d k c l. unfold nanstdR. rewrite map_length. destruct (Nat.leb_spec (length l) d); [reflexivity|].
  cbn [scaled]. f_equal. rewrite Rss_affine.
  assert (0 < INR (length l - d))%R by (apply lt_0_INR; lia).
  replace (k * k * Rss l / INR (length l - d))%R with (Rsqr k * (Rss l / INR (length l - d)))%R by (unfold Rsqr; field; lra).
  rewrite sqrt_mult_alt by apply Rle_0_sqr. rewrite sqrt_Rsqr_abs. reflexivity.
Qed.
Lemma stdR_affine : forall k c l, stdR (map (fun x => k * x + c)%R l) = scaled (Rabs k) (stdR l).
Proof.
  intros k c l. destruct (Nat.lt_ge_cases (length l) 2) as [H|H].
  - rewrite !stdR_nan; [reflexivity|exact H|rewrite map_length; exact H].
  - destruct (stdR_fin l H) as (v & E & _ & ->). unfold stdR. rewrite nanstdR_affine, E, map_length. cbn [scaled].
    assert (0 < INR (length l))%R by (apply lt_0_INR; lia).
    assert (0 < sqrt (INR (length l)))%R by (apply sqrt_lt_R0; assumption).
    rewrite ef_sqrt_Fin by lra. rewrite ef_div_Fin by lra. f_equal. field. lra.
Qed.
Lemma ciR_affine : forall k c l, ciR (map (fun x => k * x + c)%R l) = scaled (Rabs k) (ciR l).
Proof.
  intros k c l. unfold ciR. rewrite stdR_affine, z95_ef.
  assert (F : finnan (stdR l)).
  { destruct (Nat.lt_ge_cases (length l) 2) as [H|H]; [rewrite stdR_nan by exact H; simpl; auto|].
    destruct (stdR_fin l H) as (v & _ & _ & ->). simpl; auto. }
  destruct (stdR l); simpl in *; try contradiction; auto. f_equal. ring.
Qed.

Lemma mos_affine : forall rd rd' a a' m m' k c,
  rd_arr rd = Ok a -> rd_arr rd' = Ok a' -> finite_votes a -> transformed (affine k c) a a' ->
  run_modeling MOS rd no_options = Ok m -> run_modeling MOS rd' no_options = Ok m' ->
  mr_quality m' = map (affine k c) (mr_quality m) /\
  mr_ambiguity m' = map (scaled (Rabs k)) (mr_ambiguity m) /\
  mr_std m' = map (scaled (Rabs k)) (mr_std m) /\
  mr_ci_lo m' = map (scaled (Rabs k)) (mr_ci_lo m) /\
  mr_ci_hi m' = map (scaled (Rabs k)) (mr_ci_hi m).
Proof.
  intros rd rd' a a' m m' k c HA HA' Hf HT Hm Hm'.
  destruct (run_mos_inv rd m Hm) as (b & HB & o & ->). destruct (run_mos_inv rd' m' Hm') as (b' & HB' & o' & ->).
  assert (b = a) by congruence. assert (b' = a') by congruence. subst.
  assert (Hf' := transformed_finite _ _ _ _ HT Hf). assert (HE : dE a' = dE a) by apply HT.
  cbn zeta. cbn [mr_quality mr_std mr_ci_lo mr_ci_hi mr_ambiguity].
  destruct (mos_ci_eq a Hf dof_mos a) as [-> ->]. destruct (mos_ci_eq a' Hf' dof_mos a') as [-> ->].
  rewrite !mos_quality_eq, !mos_amb_eq, !mos_std_eq by assumption. rewrite !map_map, HE.
  repeat split; apply map_ext_in; intros e He; apply in_seq in He;
    rewrite (transformed_votes k c a a' e HT Hf) by lia.
  - apply nanmeanR_affine.
  - apply nanstdR_affine.
  - apply stdR_affine.
  - apply ciR_affine.
  - apply ciR_affine.
Qed.
