(** Options of the model classes, post-processing, stacking, unanimous votes. *)
From Coq Require Import String.
From Coq Require Import List ZArith Bool Arith Lia Reals Lra Permutation.
From Verif Require Import PyBase Num ExtReal NumPy Dataset Preproc Mos BaseProofs ExtRealProofs SpecDataset SpecMos
  DatasetProofs ArrayProofs RecordedProofs MosProofs PreprocProofs RejectProofs Reject2Proofs.
Import ListNotations.
Local Open Scope list_scope.

Lemma Ok_inj : forall A (x y : A), Ok x = Ok y -> x = y.
Proof. intros A x y H. congruence. Qed.

(** ** C33 *)
Lemma kwargs_conflict : forall c k, conflict c k -> run_kwargs c k = Err AssertionError.
Proof.
  intros c [d z b r t n f] H. unfold conflict in H. cbn [kw_dscore kw_zscore kw_bias kw_rej] in H.
  destruct c; cbn [announced st_dscore st_zscore st_bias st_rej] in H;
    destruct d, z, b, r; try reflexivity; exfalso; intuition discriminate.
Qed.
Lemma kwargs_plus : forall c k, ~ conflict c k -> run_kwargs c k = Ok (plus_announced c k).
Proof.
  intros c [d z b r t n f] H. unfold conflict in H. cbn [kw_dscore kw_zscore kw_bias kw_rej] in H.
  destruct c; cbn [announced st_dscore st_zscore st_bias st_rej] in H;
    destruct d, z, b, r; try reflexivity; exfalso; apply H; intuition.
Qed.
Lemma run_conflict : forall c (rd : reader ef) k, conflict c k -> run_modeling c rd k = Err AssertionError.
Proof. intros c rd k H. unfold run_modeling. rewrite (kwargs_conflict c k H). reflexivity. Qed.

Lemma pp_bias_some : forall (rd : reader ef) k pp, preprocess rd k = Ok pp -> kw_bias k = true -> exists d, pp_bias pp = Some d.
Proof.
  intros rd k pp H Hb. unfold preprocess in H. destruct (rd_arr rd) as [a|]; [|discriminate]. cbn [bind] in H.
  match type of H with bind ?m _ = _ => destruct m as [[]|]; [|discriminate] end. cbn [bind] in H.
  match type of H with bind ?m _ = _ => destruct m as [[]|]; [|discriminate] end. cbn [bind] in H.
  match type of H with bind ?m _ = _ => destruct m as [w|]; [|discriminate] end. cbn [bind] in H. cbv zeta in H.
  rewrite Hb in H. destruct (kw_rej k).
  - match type of H with bind ?m _ = _ => destruct m as [[[[x y] u] v]|]; [|discriminate] end. cbn [bind] in H.
    injection H as <-. eexists; reflexivity.
  - injection H as <-. eexists; reflexivity.
Qed.

Lemma run_announced : forall c (rd : reader ef) k, ~ conflict c k -> is_biasremv c = false ->
  run_modeling c rd k = run_modeling MOS rd (plus_announced c k).
Proof.
  intros c rd k H Hb. unfold run_modeling. rewrite (kwargs_plus c k H). cbn [run_kwargs bind]. unfold mos_run. rewrite Hb. reflexivity.
Qed.
Lemma stats_dof : forall dof a a0, mr_dof (mos_and_stats dof a a0) =
  ef_div (Fin (INR (dof (dE a0) (dS a0) (dR a0)))) (Fin (INR (length (notnan (flat3 a0))))).
Proof. intros. unfold mos_and_stats. cbn [mr_dof]. rewrite !nofnat_ef. reflexivity. Qed.
Lemma run_announced_bias : forall c (rd : reader ef) k, ~ conflict c k -> is_biasremv c = true ->
  (forall ex, run_modeling c rd k = Err ex <-> run_modeling MOS rd (plus_announced c k) = Err ex) /\
  forall m, run_modeling c rd k = Ok m -> exists m', run_modeling MOS rd (plus_announced c k) = Ok m' /\ same_but_dof m m' /\
    exists a, rd_arr rd = Ok a /\
      mr_dof m = ef_div (Fin (INR (dE a * 2 + dS a * dR a))) (Fin (INR (length (notnan (flat3 a))))) /\
      mr_dof m' = ef_div (Fin (INR (dE a * 2))) (Fin (INR (length (notnan (flat3 a))))).
Proof.
  intros c rd k H Hb. unfold run_modeling. rewrite (kwargs_plus c k H). cbn [run_kwargs bind]. unfold mos_run. rewrite Hb.
  cbn [is_biasremv]. destruct (preprocess rd (plus_announced c k)) as [pp|ex] eqn:E; cbn [bind]; [|split; [tauto|discriminate]].
  assert (HB : kw_bias (plus_announced c k) = true) by (destruct c; try discriminate; reflexivity).
  destruct (pp_bias_some _ _ _ E HB) as (d & Hd). rewrite Hd. cbn [bind].
  destruct (attach_observers rd) as [o|ex]; cbn [bind]; [|split; [tauto|discriminate]].
  split; [split; discriminate|]. intros m Hm. apply Ok_inj in Hm. subst m. eexists. split; [reflexivity|]. split; [unfold same_but_dof; repeat split|].
  assert (OR : rd_arr rd = Ok (pp_orig pp)).
  { unfold preprocess in E. destruct (rd_arr rd) as [a|]; [|discriminate]. cbn [bind] in E.
    match type of E with bind ?m _ = _ => destruct m as [[]|]; [|discriminate] end. cbn [bind] in E.
    match type of E with bind ?m _ = _ => destruct m as [[]|]; [|discriminate] end. cbn [bind] in E.
    match type of E with bind ?m _ = _ => destruct m as [w|]; [|discriminate] end. cbn [bind] in E. cbv zeta in E.
    destruct (kw_rej (plus_announced c k)).
    - match type of E with bind ?m _ = _ => destruct m as [[[[x y] u] v]|]; [|discriminate] end. cbn [bind] in E. injection E as <-. reflexivity.
    - injection E as <-. reflexivity. }
  exists (pp_orig pp). split; [exact OR|]. cbn [mr_dof]. split; [exact (stats_dof dof_biasremv (pp_arr pp) (pp_orig pp))|exact (stats_dof dof_mos (pp_arr pp) (pp_orig pp))].
Qed.

Lemma bad_options : forall c (rd : reader ef) a k, rd_arr rd = Ok a -> ~ conflict c k ->
  let k' := plus_announced c k in
  (kw_zscore k' = true /\ kw_bias k' = true) \/ (kw_rej k' = false /\ kw_rejtype k' <> None) \/ kw_rejtype k' = Some OtherRej ->
  run_modeling c rd k = Err AssertionError.
Proof.
  intros c rd a k HA H k' Hk. unfold run_modeling. rewrite (kwargs_plus c k H). cbn [bind]. fold k'.
  assert (P : preprocess rd k' = Err AssertionError).
  { unfold preprocess. rewrite HA. cbn [bind].
    destruct Hk as [[H1 H2]|[[H1 H2]|H1]].
    - destruct (kw_rej k'), (kw_rejtype k') as [[]|]; cbn [bind]; try reflexivity; rewrite H1, H2; reflexivity.
    - rewrite H1. destruct (kw_rejtype k'); [reflexivity|contradiction].
    - rewrite H1. destruct (kw_rej k'); reflexivity. }
  unfold mos_run. rewrite P. reflexivity.
Qed.

(** The steps are applied one after the other: differential scores first, then
    z-scores or bias removal, then rejection. *)
Definition with_array (rd : reader ef) (a : arr3 ef) : reader ef := Reader (rd_ds rd) (rd_dvs rd) (Ok a).
Lemma steps_compose : forall (rd : reader ef) k pp, preprocess rd k = Ok pp ->
  exists p1 p2 p3 p4,
    preprocess rd (KW (kw_dscore k) false false false None false None) = Ok p1 /\
    preprocess (with_array rd (pp_arr p1)) (KW false (kw_zscore k) false false None false None) = Ok p2 /\
    preprocess (with_array rd (pp_arr p2)) (KW false false (kw_bias k) false None false None) = Ok p3 /\
    preprocess (with_array rd (pp_arr p3)) (KW false false false (kw_rej k) (kw_rejtype k) false None) = Ok p4 /\
    pp_arr pp = pp_arr p4 /\ pp_rej pp = pp_rej p4 /\ pp_bias pp = pp_bias p3.
Proof.
  intros rd k pp H. unfold preprocess in *. destruct (rd_arr rd) as [a|]; [|discriminate].
  cbn [bind with_array rd_arr kw_rej kw_rejtype kw_zscore kw_bias kw_dscore assert_ negb andb rd_ds rd_dvs] in *.
  match type of H with bind ?m _ = _ => destruct m as [[]|]; [|discriminate] end. cbn [bind] in H.
  match type of H with bind ?m _ = _ => destruct m as [[]|]; [|discriminate] end. cbn [bind] in H.
  match type of H with bind ?m _ = _ => destruct m as [w|]; [|discriminate] end. cbn [bind] in H. cbv zeta in *.
  exists (PP w a None None). 
  exists (PP (if kw_zscore k then zscore w else w) w None None). cbn [pp_arr].
  set (z := if kw_zscore k then zscore w else w) in *.
  exists (PP (if kw_bias k then remove_bias z (bias_estimate z) else z) z (if kw_bias k then Some (bias_estimate z) else None) None). cbn [pp_arr].
  set (b := if kw_bias k then remove_bias z (bias_estimate z) else z) in *.
  rewrite !andb_false_r. cbn [negb assert_ bind]. 
  destruct (kw_rej k).
  - match type of H with bind ?m _ = _ => destruct m as [[[[x y] u] v]|]; [|discriminate] end. cbn [bind] in H. injection H as <-.
    eexists. repeat (split; [reflexivity|]). cbn [pp_arr pp_rej pp_bias]. 
    repeat split.
  - injection H as <-. eexists. repeat (split; [reflexivity|]). cbn [pp_arr pp_rej pp_bias]. repeat split.
Qed.

(** ** C34 *)
Lemma run_final : forall c (rd : reader ef) k m, run_modeling c rd k = Ok m ->
  exists m0, run_modeling c rd (without_final k) = Ok m0 /\ same_but_quality m m0 /\
    mr_quality m = postprocess k (mr_quality m0).
Proof.
  intros c rd k m H.
  assert (NC : ~ conflict c k). { intro K. rewrite (run_conflict c rd k K) in H. discriminate. }
  assert (NC' : ~ conflict c (without_final k)) by exact NC.
  unfold run_modeling in *. rewrite (kwargs_plus _ _ NC) in H. rewrite (kwargs_plus _ _ NC').
  cbn [bind] in *. unfold mos_run in *.
  assert (EP : preprocess rd (plus_announced c (without_final k)) = preprocess rd (plus_announced c k)) by reflexivity.
  rewrite EP. destruct (preprocess rd (plus_announced c k)) as [pp|]; [|discriminate]. cbn [bind] in *.
  match type of H with bind (bind ?m _) _ = _ => destruct m as [b|]; [|discriminate] end. cbn [bind] in *.
  destruct (attach_observers rd) as [o|]; [|discriminate]. cbn [bind] in *. injection H as <-.
  eexists. split; [reflexivity|]. split; [unfold same_but_quality; cbn; repeat split; reflexivity|].
  cbn. unfold postprocess. destruct k; reflexivity.
Qed.

Lemma normalize_spec : forall k q, kw_normalize_final k = true -> kw_transform_final k = None -> has_spread q ->
  exists mu sd, (0 < sd)%R /\ mu = Rmean q /\ (sd * sd = pvar q)%R /\
    postprocess k (map Fin q) = map Fin (map (fun x => (x - mu) / sd)%R q) /\
    Rmean (map (fun x => (x - mu) / sd)%R q) = 0%R /\ pvar (map (fun x => (x - mu) / sd)%R q) = 1%R.
Proof.
  intros k q Hn Ht Hs. assert (Hne : q <> []) by (destruct Hs as (x & y & Hx & _); intro E; rewrite E in Hx; contradiction).
  assert (HP : (0 < pvar q)%R).
  { apply spread_pos in Hs. unfold pvar. apply Rdiv_lt_0_compat; [exact Hs|apply INR_len_pos; exact Hne]. }
  exists (Rmean q), (sqrt (pvar q)). assert (S0 := sqrt_lt_R0 _ HP). split; [exact S0|]. split; [reflexivity|].
  split; [apply sqrt_sqrt; lra|].
  assert (AFF : map (fun x => (x - Rmean q) / sqrt (pvar q))%R q = map (fun x => / sqrt (pvar q) * x + (- Rmean q / sqrt (pvar q)))%R q).
  { apply map_ext. intro x. field. lra. }
  split; [|split].
  - unfold postprocess. rewrite Hn, Ht. rewrite np_mean_Fin, nanmeanR_ne, np_std_Fin by exact Hne.
    assert (SD : nanstdR 0 q = Fin (sqrt (pvar q))).
    { unfold nanstdR. destruct (Nat.leb_spec (length q) 0); [destruct q; [contradiction|simpl in *; lia]|].
      rewrite Nat.sub_0_r. reflexivity. }
    rewrite SD, !map_map. apply map_ext. intro x. efc. rewrite ef_sub_Fin, ef_div_Fin by lra. reflexivity.
  - rewrite AFF, Rmean_affine by exact Hne. field. lra.
  - rewrite AFF, affine_perm_pvar by exact Hne.
    assert (E : (sqrt (pvar q) * sqrt (pvar q) = pvar q)%R) by (apply sqrt_sqrt; lra).
    rewrite <- E at 3. field. lra.
Qed.
Lemma transform_spec : forall k q p2 p1 p0, kw_normalize_final k = false ->
  kw_transform_final k = Some (option_map Fin p2, option_map Fin p1, option_map Fin p0) ->
  let c o := match o with Some x => x | None => 0%R end in
  postprocess k (map Fin q) = map Fin (map (fun x => c p2 * x * x + c p1 * x + c p0)%R q).
Proof.
  intros k q p2 p1 p0 Hn Ht c. unfold postprocess. rewrite Hn, Ht. rewrite !map_map. apply map_ext. intro x.
  destruct p2, p1, p0; cbn [option_map]; cbv zeta; efc; cbn [ef_add ef_mul]; unfold c; change (@nzero ef Num_ef) with (Fin 0); cbn [ef_add ef_mul]; f_equal; ring.
Qed.
Lemma postprocess_length : forall k (q : list ef), length (postprocess k q) = length q.
Proof. intros k q. unfold postprocess. destruct (kw_normalize_final k), (kw_transform_final k) as [[[p2 p1] p0]|]; rewrite ?map_length; reflexivity. Qed.
Lemma postprocess_none : forall k (q : list ef), kw_normalize_final k = false -> kw_transform_final k = None -> postprocess k q = q.
Proof. intros k q H H'. unfold postprocess. rewrite H, H'. reflexivity. Qed.

(** Both options together: transformation of the normalised scores. *)
Lemma postprocess_both : forall k (q : list ef),
  postprocess k q = postprocess (KW false false false false None false (kw_transform_final k))
                      (postprocess (KW false false false false None (kw_normalize_final k) None) q).
Proof. intros k q. unfold postprocess. cbn. destruct (kw_normalize_final k); reflexivity. Qed.

(** ** C35 *)
Lemma stack1_at : forall T (a : arr3 T), n0 (stack1 a) = dE a /\ n1 (stack1 a) = dS a * dR a /\
  forall e k, e < n0 (stack1 a) -> k < n1 (stack1 a) ->
    k mod dS a < dS a /\ k / dS a < dR a /\ at2 (stack1 a) e k = at3 a e (k mod dS a) (k / dS a).
Proof.
  intros T a. cbn [stack1 n0 n1 at2]. split; [reflexivity|]. split; [lia|]. intros e k He Hk.
  assert (dS a <> 0) by nia. split; [apply Nat.mod_upper_bound; assumption|]. split; [apply Nat.div_lt_upper_bound; lia|reflexivity].
Qed.
Lemma stack0_at : forall T (a : arr3 T), n1 (stack0 a) = dS a /\ n0 (stack0 a) = dE a * dR a /\
  forall k s, k < n0 (stack0 a) -> s < n1 (stack0 a) ->
    k mod dE a < dE a /\ k / dE a < dR a /\ at2 (stack0 a) k s = at3 a (k mod dE a) s (k / dE a).
Proof.
  intros T a. cbn [stack0 n0 n1 at2]. split; [reflexivity|]. split; [lia|]. intros k s Hk Hs.
  assert (dE a <> 0) by nia. split; [apply Nat.mod_upper_bound; assumption|]. split; [apply Nat.div_lt_upper_bound; lia|reflexivity].
Qed.
Lemma unique_split : forall n m i j, i < n -> j < m -> exists! k, k < n * m /\ k mod n = i /\ k / n = j.
Proof.
  intros n m i j Hi Hj. exists (n * j + i). split.
  - split; [nia|]. split.
    + rewrite Nat.add_comm, Nat.mul_comm, Nat.mod_add by lia. apply Nat.mod_small; lia.
    + rewrite Nat.add_comm, Nat.mul_comm, Nat.div_add by lia. rewrite Nat.div_small by lia. lia.
  - intros k (Hk & <- & <-). symmetry. apply Nat.div_mod. lia.
Qed.
Lemma stack1_once : forall T (a : arr3 T) e s r, inside a e s r ->
  exists! k, k < n1 (stack1 a) /\ k mod dS a = s /\ k / dS a = r.
Proof. intros T a e s r (H1 & H2 & H3). cbn [stack1 n1]. rewrite Nat.mul_comm. apply unique_split; assumption. Qed.
Lemma stack0_once : forall T (a : arr3 T) e s r, inside a e s r ->
  exists! k, k < n0 (stack0 a) /\ k mod dE a = e /\ k / dE a = r.
Proof. intros T a e s r (H1 & H2 & H3). cbn [stack0 n0]. rewrite Nat.mul_comm. apply unique_split; assumption. Qed.

(** ** Dataset-level statements *)
Lemma raw_contents : forall ds rd, raw_reader ds = Ok rd ->
  forall dv, In dv (rd_dvs rd) -> In (dv_cid dv) (map rv_cid (ds_refs (rd_ds rd))).
Proof.
  intros ds rd H. destruct (raw_reader_inv ds rd H) as ((_ & _ & _ & Hc & _) & E1 & E2 & _). rewrite E1, E2. intros dv Hd.
  destruct (Hc dv Hd) as (r & Hr & <-). apply in_map. exact Hr.
Qed.
Lemma mos_mean_hull : forall ds rd m, raw_reader ds = Ok rd -> python_dicts (ds_dis ds) -> finite_dataset (ds_dis ds) ->
  run_modeling MOS rd no_options = Ok m ->
  length (mr_quality m) = length (ds_dis ds) /\
  forall e dv vs, nth_error (ds_dis ds) e = Some dv -> recorded dv vs ->
    exists q, nth_error (mr_quality m) e = Some q /\ is_mean q (presents vs) /\
      forall lo hi, presents vs <> [] -> (forall x, In x (presents vs) -> (lo <= x <= hi)%R) ->
        exists v, q = Fin v /\ (lo <= v <= hi)%R.
Proof.
  intros ds rd m H1 H2 H3 H4. destruct (mos_dataset ds rd m H1 H2 H3 H4) as (L & _ & _ & _ & _ & H). split; [exact L|].
  intros e dv vs He Hr. destruct (H e dv vs He Hr) as (q & am & st & lo & hi & Q & _ & _ & _ & _ & (M & _)).
  exists q. split; [exact Q|]. split; [exact M|]. intros l h Hne Hb. eapply is_mean_hull; eassumption.
Qed.
Lemma dmos_dataset : forall ds rd m rs, raw_reader ds = Ok rd -> python_dicts (ds_dis ds) -> finite_dataset (ds_dis ds) ->
  ds_ref_score ds = Some (Some (Fin rs)) -> run_modeling DMOS rd no_options = Ok m ->
  length (mr_quality m) = length (ds_dis ds) /\
  forall e dv vs, nth_error (ds_dis ds) e = Some dv -> recorded dv vs ->
    one_reference (ds_refs ds) (ds_dis ds) (dv_cid dv) /\
    forall i dvr vsr, is_reference (ds_refs ds) (ds_dis ds) (dv_cid dv) i -> nth_error (ds_dis ds) i = Some dvr -> recorded dvr vsr ->
      exists q, nth_error (mr_quality m) e = Some q /\
        (presents vs = [] \/ presents vsr = [] -> q = NaN) /\
        (presents vs <> [] -> presents vsr <> [] -> q = Fin (Rmean (presents vs) + rs - Rmean (presents vsr))%R) /\
        (e = i -> presents vs <> [] -> q = Fin rs).
Proof.
  intros ds rd m rs H Hpy Hfd Hrs Hm. destruct (raw_reader_inv ds rd H) as (_ & E1 & E2 & E3).
  assert (HA : exists a, rd_arr rd = Ok a) by (destruct (run_dmos_inv rd m Hm) as (a & _ & _ & HA & _); exists a; exact HA).
  destruct HA as (a & HA). destruct (read_votes ds rd a H Hpy HA) as (HE & HV). assert (Hf := read_finite ds rd a H Hpy Hfd HA).
  destruct (dmos_spec rd a rs m) as (L & S); try assumption; try congruence; [apply (raw_contents ds); exact H|].
  rewrite E2 in *. rewrite E1 in *. split; [exact L|]. intros e dv vs He Hr. destruct (S e dv He) as (HO & HI). split; [exact HO|].
  intros i dvr vsr Hi Hdvr Hrr. destruct (HI i Hi) as (q & Q & QN & QF). exists q. split; [exact Q|].
  assert (P1 := HV e dv vs He Hr). assert (P2 := HV i dvr vsr Hdvr Hrr).
  assert (N1 : presents vs = [] -> video_votes a e = []) by (intro E; rewrite E in P1; apply Permutation_nil; exact P1).
  assert (N2 : presents vsr = [] -> video_votes a i = []) by (intro E; rewrite E in P2; apply Permutation_nil; exact P2).
  assert (N3 : presents vs <> [] -> video_votes a e <> []) by (intros K E; apply K; rewrite E in P1; apply Permutation_nil; symmetry; exact P1).
  assert (N4 : presents vsr <> [] -> video_votes a i <> []) by (intros K E; apply K; rewrite E in P2; apply Permutation_nil; symmetry; exact P2).
  rewrite (Rmean_perm _ _ P1), (Rmean_perm _ _ P2).
  split; [intros [K|K]; apply QN; [left|right]; auto|]. split; [intros; apply QF; auto|].
  intros -> K. rewrite QF by auto. f_equal. ring.
Qed.
Lemma dmos_dataset_error : forall ds rd a rs, raw_reader ds = Ok rd -> python_dicts (ds_dis ds) -> rd_arr rd = Ok a ->
  ds_ref_score ds = Some (Some rs) ->
  (exists dv, In dv (ds_dis ds) /\ ~ one_reference (ds_refs ds) (ds_dis ds) (dv_cid dv)) ->
  run_modeling DMOS rd no_options = Err AssertionError.
Proof.
  intros ds rd a rs H Hpy HA Hrs Hno. destruct (raw_reader_inv ds rd H) as (_ & E1 & E2 & E3).
  destruct (read_votes ds rd a H Hpy HA) as (HE & _).
  apply (dmos_error rd a rs); try assumption; try congruence; [apply (raw_contents ds); exact H|]. rewrite E1, E2. exact Hno.
Qed.
Lemma dmos_dataset_total : forall ds rd a rs, raw_reader ds = Ok rd -> python_dicts (ds_dis ds) -> rd_arr rd = Ok a ->
  ds_ref_score ds = Some (Some rs) ->
  (forall dv, In dv (ds_dis ds) -> one_reference (ds_refs ds) (ds_dis ds) (dv_cid dv)) ->
  exists m, run_modeling DMOS rd no_options = Ok m.
Proof.
  intros ds rd a rs H Hpy HA Hrs Hone. destruct (raw_reader_inv ds rd H) as (_ & E1 & E2 & E3).
  destruct (read_votes ds rd a H Hpy HA) as (HE & _). destruct (attach_total ds rd H) as (o & Ho).
  apply (dmos_total rd a rs o); try assumption; try congruence; [apply (raw_contents ds); exact H|]. rewrite E1, E2. exact Hone.
Qed.
Lemma zs_spec : forall (rd : reader ef) a m, rd_arr rd = Ok a -> finite_votes a -> run_modeling ZS_MOS rd no_options = Ok m ->
  dE (mr_raw m) = dE a /\ dS (mr_raw m) = dS a /\ dR (mr_raw m) = dR a /\
  forall s, s < dS a ->
    (has_spread (subject_votes a s) ->
       length (subject_votes (mr_raw m) s) = length (subject_votes a s) /\
       Rsum (subject_votes (mr_raw m) s) = 0%R /\ is_sample_std (Fin 1) (subject_votes (mr_raw m) s) /\
       exists mu sd, (0 < sd)%R /\ forall e r, e < dE a -> r < dR a ->
         at3 (mr_raw m) e s r = match at3 a e s r with Fin x => Fin ((x - mu) / sd)%R | _ => NaN end) /\
    (~ has_spread (subject_votes a s) -> forall e r, e < dE a -> r < dR a -> at3 (mr_raw m) e s r = NaN).
Proof.
  intros rd a m HA Hf H. destruct (run_zs_inv rd m H) as (b & HB & HR & _). rewrite HA in HB. injection HB as <-. rewrite HR.
  repeat (split; [reflexivity|]). intros s Hs. destruct (zscore_entry a s Hf Hs) as [Z1 Z2]. split; [|exact Z2].
  intro Sp. destruct (zscore_normalised a s Hf Hs Sp) as (A1 & A2 & A3). repeat (split; [assumption|]).
  destruct (Z1 Sp) as (mu & sd & P & _ & _ & _ & E). exists mu, sd. auto.
Qed.

(** Per-class forms of the rejection theorems. *)
Lemma kurtosis_class : forall c (rd : reader ef) k m, run_modeling c rd k = Ok m ->
  kw_rej (plus_announced c k) = true ->
  (kw_rejtype (plus_announced c k) = None \/ kw_rejtype (plus_announced c k) = Some Kurtosis) ->
  exists m0 flags st1 st2, run_modeling MOS rd (without_rejection (plus_announced c k)) = Ok m0 /\
    mr_rej m = Some (flags, st1, st2) /\
    (finite_votes (mr_raw m0) ->
      rejection_result (mr_raw m0) (mr_raw m)
        (fun s => outlier_subject (mr_raw m0) s /\ exists s', s' < dS (mr_raw m0) /\ ~ outlier_subject (mr_raw m0) s') flags /\
      (0 < dS (mr_raw m0) -> 0 < dS (mr_raw m))).
Proof.
  intros c rd k m H Hr Ht. destruct (run_pp c rd k m H) as (k' & pp & Hk & Hp & HR & HJ & _ & _).
  assert (NC : ~ conflict c k). { intro K. rewrite (run_conflict c rd k K) in H. discriminate. }
  rewrite (kwargs_plus c k NC) in Hk. apply Ok_inj in Hk. subst.
  destruct (kurtosis_pp rd _ pp Hr Ht Hp) as (pp0 & fl & s1 & s2 & H0 & _ & _ & HJ' & S).
  assert (Ho : exists o, attach_observers rd = Ok o).
  { unfold run_modeling in H. rewrite (kwargs_plus c k NC) in H. cbn [bind] in H. destruct (mos_run c rd (plus_announced c k)); [|discriminate].
    cbn [bind] in H. destruct (attach_observers rd) as [o|]; [exists o; reflexivity|discriminate]. }
  destruct Ho as (o & Ho).
  assert (M0 : exists m0, run_modeling MOS rd (without_rejection (plus_announced c k)) = Ok m0 /\ mr_raw m0 = pp_arr pp0).
  { unfold run_modeling. cbn [run_kwargs bind]. unfold mos_run. rewrite H0. cbn [bind is_biasremv]. rewrite Ho. cbn [bind]. eexists. split; reflexivity. }
  destruct M0 as (m0 & M0 & E0). exists m0, fl, s1, s2. split; [exact M0|]. split; [congruence|]. rewrite E0, HR. exact S.
Qed.
Lemma rejection_affine_class : forall c (rd rd' : reader ef) a a' kw k c0 m m',
  rd_arr rd = Ok a -> rd_arr rd' = Ok a' -> finite_votes a -> transformed (affine k c0) a a' -> k <> 0%R ->
  kw_dscore (plus_announced c kw) = false -> kw_rej (plus_announced c kw) = true ->
  (kw_rejtype (plus_announced c kw) = None \/ kw_rejtype (plus_announced c kw) = Some Kurtosis) ->
  run_modeling c rd kw = Ok m -> run_modeling c rd' kw = Ok m' ->
  exists flags st1 st2 st1' st2', mr_rej m = Some (flags, st1, st2) /\ mr_rej m' = Some (flags, st1', st2').
Proof.
  intros c rd rd' a a' kw k c0 m m' HA HA' Hf HT Hk Hd Hr Ht H H'.
  destruct (run_pp c rd kw m H) as (k1 & pp & Hk1 & Hp & _ & HJ & _ & _).
  destruct (run_pp c rd' kw m' H') as (k2 & pp' & Hk2 & Hp' & _ & HJ' & _ & _).
  assert (NC : ~ conflict c kw). { intro K. rewrite (run_conflict c rd kw K) in H. discriminate. }
  rewrite (kwargs_plus c kw NC) in Hk1, Hk2. apply Ok_inj in Hk1. apply Ok_inj in Hk2. subst k1 k2.
  rewrite HJ, HJ'. apply (rejection_affine rd rd' a a' (plus_announced c kw) k c0 pp pp'); assumption.
Qed.
Lemma corr_class : forall c (rd : reader ef) k m, run_modeling c rd k = Ok m ->
  let k' := plus_announced c k in
  kw_rej k' = true -> (kw_rejtype k' = Some Pearson \/ kw_rejtype k' = Some Spearman) ->
  exists m0 flags r zeros, run_modeling MOS rd (without_rejection k') = Ok m0 /\
    mr_rej m = Some (flags, r, zeros) /\
    let a := mr_raw m0 in
    (finite_votes a ->
      length r = dS a /\ length flags = dS a /\
      (forall s, s < dS a -> exists v, nth_error r s = Some v /\
         (kw_rejtype k' = Some Pearson -> is_corr v (own_scores a s) (all_scores a s)) /\
         (kw_rejtype k' = Some Spearman -> is_corr v (ranks (own_scores a s)) (ranks (all_scores a s)))) /\
      (In NaN r -> dS (mr_raw m) = 0 /\ flags = repeat false (dS a)) /\
      (forall rs, r = map Fin rs -> 0 < dS a ->
         rejection_result a (mr_raw m) (fun s => exists x, nth_error rs s = Some x /\ (x <= threshold rs)%R) flags /\
         (0 < dS (mr_raw m) <-> (exists x, In x rs /\ (7/10 < x)%R) \/ (exists x y, In x rs /\ In y rs /\ x <> y)))).
Proof.
  intros c rd k m H k' Hr Ht. destruct (run_pp c rd k m H) as (k2 & pp & Hk & Hp & HR & HJ & _ & _).
  assert (NC : ~ conflict c k). { intro K. rewrite (run_conflict c rd k K) in H. discriminate. }
  rewrite (kwargs_plus c k NC) in Hk. apply Ok_inj in Hk. subst. fold k' in Hp.
  destruct (corr_pp rd _ pp Hr Ht Hp) as (pp0 & fl & s1 & s2 & H0 & _ & _ & HJ' & S).
  assert (Ho : exists o, attach_observers rd = Ok o).
  { unfold run_modeling in H. rewrite (kwargs_plus c k NC) in H. cbn [bind] in H. destruct (mos_run c rd (plus_announced c k)); [|discriminate].
    cbn [bind] in H. destruct (attach_observers rd) as [o|]; [exists o; reflexivity|discriminate]. }
  destruct Ho as (o & Ho).
  assert (M0 : exists m0, run_modeling MOS rd (without_rejection k') = Ok m0 /\ mr_raw m0 = pp_arr pp0).
  { unfold run_modeling. cbn [run_kwargs bind]. unfold mos_run. rewrite H0. cbn [bind is_biasremv]. rewrite Ho. cbn [bind]. eexists. split; reflexivity. }
  destruct M0 as (m0 & M0 & E0). exists m0, fl, s1, s2. split; [exact M0|]. split; [congruence|]. rewrite E0, HR. exact S.
Qed.
Lemma Fin_map_inj : forall l l', map Fin l = map Fin l' -> l = l'.
Proof.
  induction l as [|x l IH]; intros [|y l'] H; try discriminate; [reflexivity|]. injection H as -> H. f_equal. apply IH; exact H.
Qed.
Lemma normalize_rank : forall k q q', kw_normalize_final k = true -> kw_transform_final k = None -> has_spread q ->
  postprocess k (map Fin q) = map Fin q' ->
  forall i j x y, nth_error q i = Some x -> nth_error q j = Some y ->
    exists x' y', nth_error q' i = Some x' /\ nth_error q' j = Some y' /\ ((x < y)%R <-> (x' < y')%R).
Proof.
  intros k q q' Hn Ht Hs E i j x y Hi Hj. destruct (normalize_spec k q Hn Ht Hs) as (mu & sd & P & _ & _ & E2 & _).
  rewrite E2 in E. apply Fin_map_inj in E. subst q'. exists ((x - mu) / sd)%R, ((y - mu) / sd)%R.
  rewrite !nth_error_map, Hi, Hj. split; [reflexivity|]. split; [reflexivity|].
  assert (0 < / sd)%R by (apply Rinv_0_lt_compat; exact P). unfold Rdiv. split; intro; nra.
Qed.
Lemma transform_rank : forall k q q' p1 p0, kw_normalize_final k = false ->
  kw_transform_final k = Some (None, Some (Fin p1), option_map Fin p0) -> (0 < p1)%R ->
  postprocess k (map Fin q) = map Fin q' ->
  forall i j x y, nth_error q i = Some x -> nth_error q j = Some y ->
    exists x' y', nth_error q' i = Some x' /\ nth_error q' j = Some y' /\ ((x < y)%R <-> (x' < y')%R).
Proof.
  intros k q q' p1 p0 Hn Ht Hp E i j x y Hi Hj. rewrite (transform_spec k q None (Some p1) p0 Hn Ht) in E.
  apply Fin_map_inj in E. subst q'. eexists. eexists. rewrite !nth_error_map, Hi, Hj. split; [reflexivity|]. split; [reflexivity|].
  split; intro; nra.
Qed.
