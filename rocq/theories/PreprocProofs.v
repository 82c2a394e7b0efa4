(** Proofs about differential scoring, z-scoring and bias removal. *)
From Coq Require Import String.
From Coq Require Import List ZArith Bool Arith Lia Reals Lra Permutation.
From Verif Require Import PyBase Num ExtReal NumPy Dataset Preproc Mos BaseProofs ExtRealProofs SpecDataset SpecMos
  DatasetProofs ArrayProofs RecordedProofs MosProofs.
Import ListNotations.
Local Open Scope list_scope.

(** ** Reference videos *)
Lemma refmap_last : forall refs d c,
  dget Z.eqb (fold_left (fun d r => dset Z.eqb d (rv_cid r) r) refs d) c =
  match find (fun r => Z.eqb (rv_cid r) c) (rev refs) with Some r => Some r | None => dget Z.eqb d c end.
Proof.
  induction refs as [|r refs IH]; intros d c; simpl; [reflexivity|].
  rewrite IH. assert (F : forall l x, find (fun r0 => Z.eqb (rv_cid r0) c) (l ++ [x]) =
     match find (fun r0 => Z.eqb (rv_cid r0) c) l with Some y => Some y | None => if Z.eqb (rv_cid x) c then Some x else None end).
  { induction l as [|y l IHl]; intro x; simpl; [reflexivity|]. destruct (Z.eqb (rv_cid y) c); [reflexivity|apply IHl]. }
  rewrite F. destruct (find _ (rev refs)); [reflexivity|].
  rewrite (dget_dset Z.eqb Z_eqb_spec). rewrite (Z.eqb_sym c). destruct (Z.eqb (rv_cid r) c); reflexivity.
Qed.

Lemma refmap_spec : forall refs c r,
  dget Z.eqb (contentid_to_refvideo_map refs) c = Some r <-> ref_of_content refs c r.
Proof.
  intros refs c r. unfold contentid_to_refvideo_map. rewrite refmap_last. simpl.
  assert (G : forall l, (match find (fun r0 => Z.eqb (rv_cid r0) c) l with Some r0 => Some r0 | None => None end) = Some r <->
     exists l1 l2, l = l1 ++ r :: l2 /\ rv_cid r = c /\ forall r', In r' l1 -> rv_cid r' <> c).
  { induction l as [|y l IH]; simpl.
    - split; [discriminate|]. intros ([|] & l2 & E & _); discriminate.
    - destruct (Z.eqb_spec (rv_cid y) c) as [E|E].
      + split.
        * intros [= ->]. exists [], l. split; [reflexivity|]. split; [exact E|intros ? []].
        * intros ([|z l1] & l2 & E1 & E2 & H); simpl in E1; injection E1 as -> ->; [reflexivity|].
          exfalso. apply (H z); [left; reflexivity|exact E].
      + rewrite IH. split.
        * intros (l1 & l2 & -> & H1 & H2). exists (y :: l1), l2. repeat split; auto.
          intros r' [<-|Hr]; auto.
        * intros ([|z l1] & l2 & E1 & E2 & H); simpl in E1; injection E1 as -> ->; [contradiction|].
          exists l1, l2. repeat split; auto. intros; apply H; right; assumption. }
  rewrite G. unfold ref_of_content. split.
  - intros (l1 & l2 & E & H1 & H2). exists (rev l2), (rev l1).
    split; [|split; [exact H1|intros r' Hr; apply H2, in_rev; exact Hr]].
    rewrite <- (rev_involutive refs), E, rev_app_distr. simpl. rewrite <- app_assoc. reflexivity.
  - intros (l1 & l2 & E & H1 & H2). exists (rev l2), (rev l1).
    split; [|split; [exact H1|intros r' Hr; apply H2, in_rev; exact Hr]].
    rewrite E, rev_app_distr. simpl. rewrite <- app_assoc. reflexivity.
Qed.

Lemma refmap_some : forall refs c, In c (map rv_cid refs) -> exists r, dget Z.eqb (contentid_to_refvideo_map refs) c = Some r.
Proof.
  intros refs c H. unfold contentid_to_refvideo_map. rewrite refmap_last. simpl.
  destruct (find (fun r => Z.eqb (rv_cid r) c) (rev refs)) as [r|] eqn:E; [eexists; reflexivity|].
  apply in_map_iff in H as (r & Hr & Hi). apply in_rev in Hi. apply (find_none _ _ E) in Hi.
  subst. rewrite Z.eqb_refl in Hi. discriminate.
Qed.

Lemma is_refvideo_Ok : forall refs (dvs : list (dvideo ef string)),
  (forall dv, In dv dvs -> In (dv_cid dv) (map rv_cid refs)) ->
  exists bs, disvideo_is_refvideo refs dvs = Ok bs /\ length bs = length dvs /\
    forall i dv b, nth_error dvs i = Some dv -> nth_error bs i = Some b ->
      (b = true <-> is_reference refs dvs (dv_cid dv) i).
Proof.
  intros refs dvs H. unfold disvideo_is_refvideo.
  destruct (mapM_total _ _ (fun dv => do r <- dget_res Z.eqb (contentid_to_refvideo_map refs) (dv_cid dv);
                    Ok (String.eqb (rv_path r) (dv_path dv))) dvs) as (bs & E).
  - intros dv Hin. destruct (refmap_some refs _ (H dv Hin)) as (r & Hr). unfold dget_res. rewrite Hr. simpl. eexists; reflexivity.
  - exists bs. split; [exact E|]. split; [eapply mapM_length; eassumption|].
    intros i dv b Hi Hb. destruct (mapM_nth _ _ _ _ _ _ _ E Hi) as (b' & Hb' & HE).
    rewrite Hb in Hb'. injection Hb' as <-.
    apply bind_Ok in HE as (r & Hr & HE). injection HE as <-.
    unfold dget_res in Hr. destruct (dget Z.eqb (contentid_to_refvideo_map refs) (dv_cid dv)) as [r'|] eqn:G; [|discriminate].
    injection Hr as <-. rewrite String.eqb_eq. unfold is_reference. split.
    + intro Hp. exists dv, r'. repeat split; auto. apply refmap_spec; exact G.
    + intros (dv' & r2 & Hn & _ & Hr2 & Hp). apply refmap_spec in Hr2. rewrite G in Hr2. injection Hr2 as ->.
      rewrite Hi in Hn. injection Hn as <-. exact Hp.
Qed.

(** ** indices *)
Lemma enumerate_nth : forall A (l : list A) i, nth_error (enumerate l) i = match nth_error l i with Some x => Some (i, x) | None => None end.
Proof.
  intros A l. unfold enumerate.
  assert (G : forall (l : list A) k i, nth_error (combine (seq k (length l)) l) i = match nth_error l i with Some x => Some (k + i, x) | None => None end).
  { induction l0 as [|x l0 IH]; intros k [|i]; simpl; try reflexivity.
    - rewrite Nat.add_0_r. reflexivity.
    - rewrite IH. replace (k + S i) with (S k + i) by lia. reflexivity. }
  intro i. rewrite G. reflexivity.
Qed.
Lemma enumerate_In : forall A (l : list A) i x, In (i, x) (enumerate l) <-> nth_error l i = Some x.
Proof.
  intros A l i x. split.
  - intro H. apply In_nth_error in H as (k & Hk). rewrite enumerate_nth in Hk.
    destruct (nth_error l k) eqn:E; [|discriminate]. injection Hk as <- <-. exact E.
  - intro H. apply nth_error_In with (n := i). rewrite enumerate_nth, H. reflexivity.
Qed.
Lemma enumerate_NoDup : forall A (l : list A), NoDup (map fst (enumerate l)).
Proof.
  intros A l. unfold enumerate.
  assert (G : forall (l : list A) k, map fst (combine (seq k (length l)) l) = seq k (length l)).
  { induction l0 as [|x l0 IH]; intro k; simpl; [reflexivity|]. rewrite IH. reflexivity. }
  rewrite G. apply seq_NoDup.
Qed.
Lemma NoDup_map_filter : forall A B (g : A -> B) (f : A -> bool) l, NoDup (map g l) -> NoDup (map g (filter f l)).
Proof.
  induction l as [|x l IH]; simpl; intro H; [constructor|]. inversion H; subst.
  destruct (f x); simpl; [constructor|]; auto.
  intro Hin. apply H2. apply in_map_iff in Hin as (y & E & Hy). apply filter_In in Hy as [Hy _].
  apply in_map_iff. exists y; auto.
Qed.
Lemma indices_In : forall A (l : list A) f i, In i (indices l f) <-> exists x, nth_error l i = Some x /\ f x = true.
Proof.
  intros A l f i. unfold indices. rewrite in_map_iff. split.
  - intros ([j x] & E & H). simpl in E; subst. apply filter_In in H as [H1 H2]. apply enumerate_In in H1. exists x; auto.
  - intros (x & H1 & H2). exists (i, x). split; [reflexivity|]. apply filter_In. split; [apply enumerate_In; exact H1|exact H2].
Qed.
Lemma indices_NoDup : forall A (l : list A) f, NoDup (indices l f).
Proof. intros. unfold indices. apply NoDup_map_filter, enumerate_NoDup. Qed.
Lemma one_element : forall A (l : list A), NoDup l -> (length l = 1 <-> exists! x, In x l).
Proof.
  intros A l Hn. split.
  - destruct l as [|x [|y l]]; simpl; try discriminate. intros _. exists x. split; [left; reflexivity|]. intros y [H|[]]; exact H.
  - intros (x & Hx & Hu). destruct l as [|y [|z l]]; [contradiction|reflexivity|].
    inversion Hn; subst. exfalso. apply H1. left. rewrite <- (Hu z (or_intror (or_introl eq_refl))). apply Hu. left; reflexivity.
Qed.

Lemma nth_error_combine : forall A B (l : list A) (l' : list B) i a b,
  nth_error l i = Some a -> nth_error l' i = Some b -> nth_error (combine l l') i = Some (a, b).
Proof.
  induction l as [|x l IH]; intros [|y l'] [|i] a b H1 H2; simpl in *; try discriminate.
  - congruence. - apply IH; assumption.
Qed.
Lemma nth_error_combine_inv : forall A B (l : list A) (l' : list B) i a b,
  nth_error (combine l l') i = Some (a, b) -> nth_error l i = Some a /\ nth_error l' i = Some b.
Proof.
  induction l as [|x l IH]; intros [|y l'] [|i] a b H; simpl in *; try discriminate.
  - injection H as -> ->. auto. - apply IH; assumption.
Qed.

Section RefMos.
  Variables (refs : list rvideo) (dvs : list (dvideo ef string)).
  Hypothesis Hc : forall dv, In dv dvs -> In (dv_cid dv) (map rv_cid refs).
  Definition refidx (bs : list bool) (c : Z) : list nat :=
    indices (combine (content_id_of_dis_videos dvs) bs) (fun p => (snd p && Z.eqb (fst p) c)%bool).

  Lemma refidx_In : forall bs c i, disvideo_is_refvideo refs dvs = Ok bs ->
    (In i (refidx bs c) <-> is_reference refs dvs c i).
  Proof.
    intros bs c i E. destruct (is_refvideo_Ok refs dvs Hc) as (bs' & E' & Hl & Hb).
    rewrite E in E'. injection E' as <-. unfold refidx. rewrite indices_In. split.
    - intros ([c' b] & Hn & Hf). simpl in Hf. apply andb_true_iff in Hf as [-> Hz]. apply Z.eqb_eq in Hz.
      apply nth_error_combine_inv in Hn as [H1 H2]. unfold content_id_of_dis_videos in H1.
      rewrite nth_error_map in H1. destruct (nth_error dvs i) as [dv|] eqn:Ed; [|discriminate].
      simpl in H1. injection H1 as <-. subst c. apply (Hb i dv true); auto.
    - intros Hr. assert (Hr' := Hr). destruct Hr as (dv & r & Hd & Hcid & _).
      assert (Hlt : i < length bs) by (rewrite Hl; apply nth_error_Some; congruence).
      destruct (nth_error bs i) as [b|] eqn:Eb; [|apply nth_error_None in Eb; lia].
      exists (dv_cid dv, b). split.
      + apply nth_error_combine; [|exact Eb]. unfold content_id_of_dis_videos. rewrite nth_error_map, Hd. reflexivity.
      + simpl. rewrite Hcid, Z.eqb_refl, andb_true_r. apply (Hb i dv b Hd Eb). rewrite Hcid. exact Hr'.
  Qed.

  Lemma ref_mos_inv : forall (mos : list ef) rm, get_ref_mos refs dvs dvs mos = Ok rm ->
    length rm = length dvs /\
    forall e dv, nth_error dvs e = Some dv -> one_reference refs dvs (dv_cid dv) /\
      forall i, is_reference refs dvs (dv_cid dv) i -> nth_error rm e = nth_error mos i /\ nth_error mos i <> None.
  Proof.
    intros mos rm H. split; [eapply mapM_length; exact H|].
    intros e dv He. unfold get_ref_mos in H.
    destruct (mapM_nth _ _ _ _ _ _ _ H He) as (q & Hq & HE).
    apply bind_Ok in HE as (bs & Hbs & HE). cbn zeta in HE. fold (refidx bs (dv_cid dv)) in HE.
    apply bind_Ok in HE as (u & Hu & HE). apply assert_Ok in Hu. apply Nat.eqb_eq in Hu.
    assert (U := Hu). apply (one_element _ _ (indices_NoDup _ _ _)) in U as (j & Hj & Uj).
    assert (HJ : hd 0 (refidx bs (dv_cid dv)) = j).
    { unfold refidx in *. destruct (indices _ _) as [|x [|? ?]]; try discriminate. simpl. symmetry. apply Uj. left; reflexivity. }
    rewrite HJ in HE. split.
    - exists j. split; [apply (refidx_In bs _ _ Hbs); exact Hj|]. intros k Hk. apply Uj. apply (refidx_In bs _ _ Hbs). exact Hk.
    - intros i Hi. assert (i = j) by (symmetry; apply Uj, (refidx_In bs _ _ Hbs); exact Hi). subst i.
      unfold py_index in HE. destruct (nth_error mos j) as [x|]; [|discriminate]. injection HE as <-.
      split; [exact Hq|discriminate].
  Qed.

  Lemma ref_mos_total : forall mos : list ef, length mos = length dvs ->
    (forall dv, In dv dvs -> one_reference refs dvs (dv_cid dv)) -> exists rm, get_ref_mos refs dvs dvs mos = Ok rm.
  Proof.
    intros mos Hl H. apply mapM_total. intros dv Hin.
    destruct (is_refvideo_Ok refs dvs Hc) as (bs & Hbs & _). rewrite Hbs. cbn [bind]. cbn zeta.
    fold (refidx bs (dv_cid dv)). destruct (H dv Hin) as (j & Hj & Uj).
    assert (L : length (refidx bs (dv_cid dv)) = 1).
    { apply (one_element _ _ (indices_NoDup _ _ _)). exists j. split; [apply (refidx_In bs _ _ Hbs); exact Hj|].
      intros k Hk. apply Uj, (refidx_In bs _ _ Hbs), Hk. }
    rewrite L. simpl. assert (HJ : In (hd 0 (refidx bs (dv_cid dv))) (refidx bs (dv_cid dv))).
    { destruct (refidx bs (dv_cid dv)); [discriminate|left; reflexivity]. }
    apply (refidx_In bs _ _ Hbs) in HJ. destruct HJ as (dv' & r & Hn & _).
    unfold py_index. destruct (nth_error mos _) eqn:E; [eexists; reflexivity|].
    apply nth_error_None in E. assert (hd 0 (refidx bs (dv_cid dv)) < length dvs) by (apply nth_error_Some; congruence). lia.
  Qed.

  Lemma ref_mos_error : forall mos : list ef, length mos = length dvs ->
    (exists dv, In dv dvs /\ ~ one_reference refs dvs (dv_cid dv)) -> get_ref_mos refs dvs dvs mos = Err AssertionError.
  Proof.
    intros mos Hl (dv0 & Hin0 & Hno). destruct (is_refvideo_Ok refs dvs Hc) as (bs & Hbs & _).
    unfold get_ref_mos.
    assert (P : forall dv, In dv dvs ->
      (exists q, (do isref <- disvideo_is_refvideo refs dvs;
        let idx := indices (combine (content_id_of_dis_videos dvs) isref) (fun p => (snd p && Z.eqb (fst p) (dv_cid dv))%bool) in
        do _ <- assert_ (Nat.eqb (length idx) 1); py_index mos (hd 0 idx)) = Ok q) \/
      (do isref <- disvideo_is_refvideo refs dvs;
        let idx := indices (combine (content_id_of_dis_videos dvs) isref) (fun p => (snd p && Z.eqb (fst p) (dv_cid dv))%bool) in
        do _ <- assert_ (Nat.eqb (length idx) 1); py_index mos (hd 0 idx)) = Err AssertionError).
    { intros dv Hin. rewrite Hbs. cbn [bind]. cbn zeta. fold (refidx bs (dv_cid dv)).
      destruct (Nat.eqb_spec (length (refidx bs (dv_cid dv))) 1) as [L|L]; [left|right; reflexivity].
      simpl. assert (HJ : In (hd 0 (refidx bs (dv_cid dv))) (refidx bs (dv_cid dv))).
      { destruct (refidx bs (dv_cid dv)); [discriminate|left; reflexivity]. }
      apply (refidx_In bs _ _ Hbs) in HJ. destruct HJ as (dv' & r & Hn & _).
      unfold py_index. destruct (nth_error mos _) eqn:E; [eexists; reflexivity|].
      apply nth_error_None in E. assert (hd 0 (refidx bs (dv_cid dv)) < length dvs) by (apply nth_error_Some; congruence). lia. }
    set (f := fun dv : dvideo ef string => _) in |- *.
    assert (F0 : f dv0 = Err AssertionError).
    { destruct (P dv0 Hin0) as [(q & Hq)|E]; [|exact E]. exfalso. apply Hno.
      rewrite Hbs in Hq. cbn [bind] in Hq. cbn zeta in Hq. fold (refidx bs (dv_cid dv0)) in Hq.
      apply bind_Ok in Hq as (u & Hu & _). apply assert_Ok in Hu. apply Nat.eqb_eq in Hu.
      apply (one_element _ _ (indices_NoDup _ _ _)) in Hu as (j & Hj & Uj).
      exists j. split; [apply (refidx_In bs _ _ Hbs); exact Hj|]. intros k Hk. apply Uj. apply (refidx_In bs _ _ Hbs). exact Hk. }
    assert (G : forall l, (forall dv, In dv l -> (exists q, f dv = Ok q) \/ f dv = Err AssertionError) -> In dv0 l -> mapM f l = Err AssertionError).
    { induction l as [|x l IH]; intros HP Hi; [contradiction|]. simpl.
      destruct (HP x (or_introl eq_refl)) as [(q & Hq)| ->]; [|reflexivity]. rewrite Hq. cbn [bind].
      destruct Hi as [->|Hi]; [congruence|]. rewrite IH; [reflexivity| |exact Hi]. intros; apply HP; right; assumption. }
    apply G; [exact P|exact Hin0].
  Qed.
End RefMos.

(** ** Differential MOS *)
Definition with_dscore : kwargs ef := KW true false false false None false None.

Lemma run_dmos_inv : forall (rd : reader ef) m, run_modeling DMOS rd no_options = Ok m ->
  exists a rs a1, rd_arr rd = Ok a /\ ds_ref_score (rd_ds rd) = Some (Some rs) /\
    dscore (ds_refs (rd_ds rd)) (ds_dis (rd_ds rd)) (rd_dvs rd) rs a = Ok a1 /\
    mr_quality m = along1 np_nanmean (stack1 a1) /\ mr_raw m = a1.
Proof.
  intros rd m H. unfold run_modeling, run_kwargs, mos_run, preprocess in H. cbn [bind guard no_options kw_dscore negb assert_ set_dscore] in H.
  destruct (rd_arr rd) as [a|ex]; [|discriminate].
  cbn [bind kw_rej kw_rejtype kw_zscore kw_bias kw_dscore assert_ negb andb is_biasremv pp_arr pp_orig pp_rej no_options] in H.
  destruct (ds_ref_score (rd_ds rd)) as [[rs|]|]; try discriminate.
  destruct (dscore _ _ _ rs a) as [a1|ex] eqn:E; [|discriminate]. cbn [bind] in H.
  destruct (attach_observers rd) as [o|ex]; [|discriminate]. cbn [bind] in H. injection H as <-.
  exists a, rs, a1. repeat split; auto.
Qed.

Lemma video_votes_nan : forall a e, (forall s r, s < dS a -> r < dR a -> at3 a e s r = NaN) -> video_votes a e = [].
Proof.
  intros a e H. destruct (video_votes a e) as [|x l] eqn:E; [reflexivity|].
  assert (Hin : In x (video_votes a e)) by (rewrite E; left; reflexivity).
  apply video_votes_In in Hin as (s & r & Hs & Hr & Hx). rewrite H in Hx by assumption. discriminate.
Qed.
Lemma subject_votes_nan : forall a s, (forall e r, e < dE a -> r < dR a -> at3 a e s r = NaN) -> subject_votes a s = [].
Proof.
  intros a e H. destruct (subject_votes a e) as [|x l] eqn:E; [reflexivity|].
  assert (Hin : In x (subject_votes a e)) by (rewrite E; left; reflexivity).
  apply subject_votes_In in Hin as (s & r & Hs & Hr & Hx). rewrite H in Hx by assumption. discriminate.
Qed.

Lemma nth_error_vat : forall (l : list ef) i, i < length l -> nth_error l i = Some (vat l i).
Proof. intros l i H. unfold vat. apply nth_error_nth'. exact H. Qed.

Lemma dmos_spec : forall (rd : reader ef) a rs m,
  rd_dvs rd = ds_dis (rd_ds rd) -> rd_arr rd = Ok a -> dE a = length (rd_dvs rd) -> finite_votes a ->
  (forall dv, In dv (rd_dvs rd) -> In (dv_cid dv) (map rv_cid (ds_refs (rd_ds rd)))) ->
  ds_ref_score (rd_ds rd) = Some (Some (Fin rs)) ->
  run_modeling DMOS rd no_options = Ok m ->
  length (mr_quality m) = length (rd_dvs rd) /\
  forall e dv, nth_error (rd_dvs rd) e = Some dv ->
    one_reference (ds_refs (rd_ds rd)) (rd_dvs rd) (dv_cid dv) /\
    forall i, is_reference (ds_refs (rd_ds rd)) (rd_dvs rd) (dv_cid dv) i ->
      exists q, nth_error (mr_quality m) e = Some q /\
        (video_votes a e = [] \/ video_votes a i = [] -> q = NaN) /\
        (video_votes a e <> [] -> video_votes a i <> [] ->
           q = Fin (Rmean (video_votes a e) + rs - Rmean (video_votes a i))%R).
Proof.
  intros rd a rs m Hdv HA HE Hf Hc Hrs H. destruct (run_dmos_inv rd m H) as (a' & rs' & a1 & HA' & Hrs' & HD & HQ & _).
  rewrite HA in HA'. injection HA' as <-. rewrite Hrs in Hrs'. injection Hrs' as <-.
  unfold dscore in HD. cbn zeta in HD. apply bind_Ok in HD as (rm & Hrm & HD).
  rewrite Hdv in Hrm, HE, Hc |- *.
  destruct (ref_mos_inv _ _ Hc _ _ Hrm) as (Hl & Href).
  destruct (Nat.eqb_spec (length rm) (dE a)) as [El|El]; [|discriminate]. injection HD as <-.
  set (a1 := map3 _ a) in *.
  assert (Hmos : along1 np_nanmean (stack1 a) = map (fun e => nanmeanR (video_votes a e)) (seq 0 (dE a))) by (apply mean_rows; exact Hf).
  assert (RM : forall e dv i, nth_error (ds_dis (rd_ds rd)) e = Some dv -> is_reference (ds_refs (rd_ds rd)) (ds_dis (rd_ds rd)) (dv_cid dv) i ->
     vat rm e = nanmeanR (video_votes a i)).
  { intros e dv i He Hi. destruct (Href e dv He) as (_ & Hx). destruct (Hx i Hi) as (H1 & H2).
    assert (Hlt : e < length (ds_dis (rd_ds rd))) by (apply nth_error_Some; congruence).
    rewrite (nth_error_vat rm e) in H1 by lia. rewrite Hmos in H1, H2.
    assert (Hi2 : i < dE a) by (apply nth_error_Some in H2; rewrite map_length, seq_length in H2; exact H2).
    rewrite nth_error_map_seq in H1 by exact Hi2. congruence. }
  assert (Hf1 : finite_votes a1).
  { intros e s r (I1 & I2 & I3). simpl in I1, I2, I3. unfold a1; simpl. apply finnan_sub; [apply finnan_add|].
    - apply Hf. unfold inside; lia. - simpl; auto.
    - destruct (nth_error (ds_dis (rd_ds rd)) e) as [dv|] eqn:Ed; [|apply nth_error_None in Ed; lia].
      destruct (Href e dv Ed) as ((i & Hi & _) & _). rewrite (RM e dv i Ed Hi). apply nanmeanR_finnan. }
  rewrite HQ. rewrite along1_length. split; [simpl; lia|].
  intros e dv He. destruct (Href e dv He) as (H1 & _). split; [exact H1|]. intros i Hi.
  assert (Hlt : e < length (ds_dis (rd_ds rd))) by (apply nth_error_Some; congruence).
  rewrite mean_rows by exact Hf1. eexists. split; [apply nth_error_map_seq; simpl; lia|].
  assert (Hve := RM e dv i He Hi).
  destruct (video_votes a i) as [|y yl] eqn:Ei.
  - replace (video_votes a1 e) with (@nil R).
    + split; [reflexivity|]. intros _ K. contradiction.
    + symmetry. apply video_votes_nan. intros s r Hs Hr. unfold a1. simpl. rewrite Hve. simpl.
      destruct (at3 a e s r); reflexivity.
  - set (mi := Rmean (y :: yl)) in *. change (nanmeanR (y :: yl)) with (Fin mi) in Hve.
    assert (EV : video_votes a1 e = map (fun x => 1 * x + (rs - mi))%R (video_votes a e)).
    { apply (video_votes_map a a1 e (fun x => ef_sub (ef_add x (Fin rs)) (Fin mi))); auto; try reflexivity; try lia.
      - intros s r Hs Hr. unfold a1. simpl. rewrite Hve. reflexivity.
      - intro x. simpl. unfold ef_sub. simpl. f_equal. ring. }
    rewrite EV. rewrite nanmeanR_affine. split.
    + intros [->|K]; [reflexivity|discriminate].
    + intros Hne _. rewrite nanmeanR_ne by exact Hne. simpl. f_equal. ring.
Qed.

Lemma dmos_error : forall (rd : reader ef) a rs,
  rd_dvs rd = ds_dis (rd_ds rd) -> rd_arr rd = Ok a -> dE a = length (rd_dvs rd) ->
  (forall dv, In dv (rd_dvs rd) -> In (dv_cid dv) (map rv_cid (ds_refs (rd_ds rd)))) ->
  ds_ref_score (rd_ds rd) = Some (Some rs) ->
  (exists dv, In dv (rd_dvs rd) /\ ~ one_reference (ds_refs (rd_ds rd)) (rd_dvs rd) (dv_cid dv)) ->
  run_modeling DMOS rd no_options = Err AssertionError.
Proof.
  intros rd a rs Hdv HA HE Hc Hrs Hno.
  unfold run_modeling, run_kwargs, mos_run, preprocess. cbn [bind guard no_options kw_dscore negb assert_ set_dscore].
  rewrite HA. cbn [bind kw_rej kw_rejtype kw_zscore kw_bias kw_dscore assert_ negb andb no_options]. rewrite Hrs.
  unfold dscore. cbn zeta. rewrite Hdv in *. rewrite ref_mos_error; try assumption; [reflexivity|].
  rewrite along1_length. simpl. exact HE.
Qed.

Lemma dmos_total : forall (rd : reader ef) a rs o,
  rd_dvs rd = ds_dis (rd_ds rd) -> rd_arr rd = Ok a -> dE a = length (rd_dvs rd) ->
  (forall dv, In dv (rd_dvs rd) -> In (dv_cid dv) (map rv_cid (ds_refs (rd_ds rd)))) ->
  ds_ref_score (rd_ds rd) = Some (Some rs) -> attach_observers rd = Ok o ->
  (forall dv, In dv (rd_dvs rd) -> one_reference (ds_refs (rd_ds rd)) (rd_dvs rd) (dv_cid dv)) ->
  exists m, run_modeling DMOS rd no_options = Ok m.
Proof.
  intros rd a rs o Hdv HA HE Hc Hrs Ho Hone.
  unfold run_modeling, run_kwargs, mos_run, preprocess. cbn [bind guard no_options kw_dscore negb assert_ set_dscore].
  rewrite HA. cbn [bind kw_rej kw_rejtype kw_zscore kw_bias kw_dscore assert_ negb andb no_options]. rewrite Hrs.
  unfold dscore. cbn zeta. rewrite Hdv in *.
  destruct (ref_mos_total _ _ Hc (along1 np_nanmean (stack1 a))) as (rm & Hrm); [rewrite along1_length; exact HE|exact Hone|].
  rewrite Hrm. cbn [bind]. assert (L := ref_mos_inv _ _ Hc _ _ Hrm). destruct L as (L & _).
  rewrite L, HE, Nat.eqb_refl. cbn [bind]. rewrite Ho. simpl. eexists; reflexivity.
Qed.

(** ** Z-scoring *)
Lemma run_zs_inv : forall (rd : reader ef) m, run_modeling ZS_MOS rd no_options = Ok m ->
  exists a, rd_arr rd = Ok a /\ mr_raw m = zscore a /\ mr_quality m = along1 np_nanmean (stack1 (zscore a)).
Proof.
  intros rd m H. unfold run_modeling, run_kwargs, mos_run, preprocess in H.
  cbn [bind guard no_options kw_zscore negb assert_ set_zscore] in H.
  destruct (rd_arr rd) as [a|ex]; [|discriminate].
  cbn [bind kw_rej kw_rejtype kw_zscore kw_bias kw_dscore assert_ negb andb is_biasremv pp_arr pp_orig pp_rej no_options] in H.
  destruct (attach_observers rd) as [o|ex]; [|discriminate]. cbn [bind] in H. injection H as <-.
  exists a. repeat split.
Qed.

Lemma zscore_entry : forall a s, finite_votes a -> s < dS a ->
  let l := subject_votes a s in
  (has_spread l -> exists mu sd, (0 < sd)%R /\ (mu = Rmean l) /\ (sd * sd * (INR (length l) - 1) = Rss l)%R /\ 2 <= length l /\
      forall e r, e < dE a -> r < dR a -> at3 (zscore a) e s r = match at3 a e s r with Fin x => Fin ((x - mu) / sd)%R | _ => NaN end) /\
  (~ has_spread l -> forall e r, e < dE a -> r < dR a -> at3 (zscore a) e s r = NaN).
Proof.
  intros a s Hf Hs l.
  assert (EN : forall e r, at3 (zscore a) e s r = ef_div (ef_sub (at3 a e s r) (nanmeanR l)) (nanstdR 1 l)).
  { intros e r. unfold zscore. cbn [at3 map3]. rewrite mean_cols, std_cols by exact Hf.
    rewrite !vat_map_seq by exact Hs. reflexivity. }
  split.
  - intros (x & y & Hx & Hy & Hxy).
    assert (HL : 2 <= length l).
    { destruct l as [|u [|v l']]; simpl in *; [contradiction| |lia]. destruct Hx as [->|[]], Hy as [->|[]]. contradiction. }
    assert (Hne : l <> []) by (intro E0; rewrite E0 in HL; simpl in HL; lia).
    assert (Hn : (0 < INR (length l - 1))%R) by (apply lt_0_INR; lia).
    assert (HR : (0 < Rss l)%R).
    { destruct (Rss_nonneg l) as [H|H]; [exact H|]. symmetry in H. rewrite Rss_zero in H. exfalso. apply Hxy. apply H; assumption. }
    exists (Rmean l), (sqrt (Rss l / INR (length l - 1))).
    assert (Hq : (0 < Rss l / INR (length l - 1))%R) by (apply Rdiv_lt_0_compat; assumption).
    assert (Hsq : (0 < sqrt (Rss l / INR (length l - 1)))%R) by (apply sqrt_lt_R0; exact Hq).
    split; [exact Hsq|]. split; [reflexivity|]. split.
    { rewrite sqrt_sqrt by lra. replace (INR (length l) - 1)%R with (INR (length l - 1)) by (rewrite minus_INR by lia; reflexivity).
      field. lra. }
    split; [exact HL|]. intros e r He Hr. rewrite EN. rewrite nanmeanR_ne by exact Hne. unfold nanstdR.
    destruct (Nat.leb_spec (length l) 1); [lia|].
    assert (F := Hf e s r (conj He (conj Hs Hr))). destruct (at3 a e s r) as [v| | |]; simpl in F; try contradiction.
    + rewrite ef_sub_Fin, ef_div_Fin by lra. reflexivity.
    + reflexivity.
  - intros Hns e r He Hr. rewrite EN.
    assert (F := Hf e s r (conj He (conj Hs Hr))). destruct (at3 a e s r) as [v| | |] eqn:Ev; simpl in F; try contradiction; [|reflexivity].
    assert (Hin : In v l) by (apply subject_votes_In; exists e, r; auto).
    assert (All : forall x y, In x l -> In y l -> x = y).
    { intros x y Hx Hy. destruct (Req_dec x y); [assumption|]. exfalso. apply Hns. exists x, y. auto. }
    assert (Hne : l <> []) by (intro E; rewrite E in Hin; contradiction).
    rewrite nanmeanR_ne by exact Hne. unfold nanstdR. destruct (Nat.leb_spec (length l) 1).
    + rewrite ef_sub_Fin. reflexivity.
    + rewrite (proj2 (Rss_zero l) All). unfold Rdiv. rewrite Rmult_0_l, sqrt_0.
      assert (M : Rmean l = v).
      { unfold Rmean. rewrite (Rsum_const l v) by (intros; apply All; assumption). field. apply INR_len_neq; exact Hne. }
      rewrite M, ef_sub_Fin, Rminus_diag_eq by reflexivity. apply ef_0div0.
Qed.

Lemma zscore_normalised : forall a s, finite_votes a -> s < dS a -> has_spread (subject_votes a s) ->
  length (subject_votes (zscore a) s) = length (subject_votes a s) /\
  Rsum (subject_votes (zscore a) s) = 0%R /\ is_sample_std (Fin 1) (subject_votes (zscore a) s).
Proof.
  intros a s Hf Hs Hsp. destruct (zscore_entry a s Hf Hs) as [Z _].
  destruct (Z Hsp) as (mu & sd & Hsd & Hmu & Hss & HL & Hat). set (l := subject_votes a s) in *.
  assert (EV : subject_votes (zscore a) s = map (fun x => / sd * x + (- mu / sd))%R l).
  { apply (subject_votes_map a (zscore a) s (fun y => match y with Fin x => Fin ((x - mu) / sd)%R | _ => NaN end)); auto.
    intro x. f_equal. field. lra. }
  rewrite EV, map_length. assert (Hne : l <> []) by (intro E0; rewrite E0 in HL; simpl in HL; lia).
  assert (S0 : Rsum (map (fun x => / sd * x + - mu / sd)%R l) = 0%R).
  { rewrite Rsum_map_affine. subst mu. unfold Rmean. assert (INR (length l) <> 0%R) by (apply INR_len_neq; exact Hne). field. split; lra. }
  split; [reflexivity|]. split; [exact S0|].
  right. rewrite map_length. split; [exact HL|]. exists 1%R. split; [reflexivity|]. split; [lra|].
  rewrite S0.
  assert (E : Rss (map (fun x => / sd * x + - mu / sd)%R l) = sumsq (0 / INR (length l)) (map (fun x => / sd * x + - mu / sd)%R l)).
  { unfold Rss, sumsq, Rmean. rewrite S0, map_length. reflexivity. }
  rewrite <- E, Rss_affine, <- Hss. field. lra.
Qed.

(** ** Bias removal *)
Lemma run_br_inv : forall (rd : reader ef) m, run_modeling BR_MOS rd no_options = Ok m ->
  exists a, rd_arr rd = Ok a /\ mr_raw m = remove_bias a (bias_estimate a) /\ mr_bias m = Some (bias_estimate a) /\
    mr_quality m = along1 np_nanmean (stack1 (remove_bias a (bias_estimate a))).
Proof.
  intros rd m H. unfold run_modeling, run_kwargs, mos_run, preprocess in H.
  cbn [bind guard no_options kw_bias negb assert_ set_bias] in H.
  destruct (rd_arr rd) as [a|ex]; [|discriminate].
  cbn [bind kw_rej kw_rejtype kw_zscore kw_bias kw_dscore assert_ negb andb is_biasremv pp_arr pp_orig pp_rej pp_bias no_options] in H.
  destruct (attach_observers rd) as [o|ex]; [|discriminate]. cbn [bind] in H. injection H as <-.
  exists a. repeat split.
Qed.

Lemma presents_flat : forall A (f : A -> list ef) (g : A -> list R) l, (forall x, In x l -> presents (f x) = g x) ->
  presents (flat_map f l) = flat_map g l.
Proof. intros. rewrite presents_flat_map. apply flat_map_ext_in. assumption. Qed.

Lemma bias_estimate_eq : forall a, finite_votes a ->
  bias_estimate a = map (fun s => nanmeanR (bias_diffs a s)) (seq 0 (dS a)).
Proof.
  intros a Hf. unfold bias_estimate. cbn zeta. rewrite mean_rows by exact Hf.
  set (a' := map3 _ a). assert (Hf' : finite_votes a').
  { intros e s r (I1 & I2 & I3). unfold a'; simpl. simpl in I1, I2, I3. apply finnan_sub.
    - apply Hf; unfold inside; lia. - rewrite vat_map_seq by exact I1. apply nanmeanR_finnan. }
  rewrite mean_cols by exact Hf'. apply map_ext_in. intros s Hs. apply in_seq in Hs. f_equal.
  unfold subject_votes, bias_diffs. cbn [dR dE a' map3]. apply presents_flat. intros e He. apply in_seq in He.
  assert (K : forall l, (forall r, In r l -> r < dR a) -> presents (map (fun r => at3 a' e s r) l) =
     flat_map (fun r => match at3 a e s r with Fin x => [(x - Rsum (video_votes a e) / INR (length (video_votes a e)))%R] | _ => [] end) l).
  { induction l as [|r l IH]; intro Hl; [reflexivity|]. cbn [map flat_map].
    assert (I : inside a e s r) by (unfold inside; specialize (Hl r (or_introl eq_refl)); lia).
    assert (Hv : at3 a e s r <> NaN -> video_votes a e <> []).
    { intros Hn Hv. assert (F := Hf e s r I). destruct (at3 a e s r) as [x| | |] eqn:Ex; simpl in F; try contradiction.
      assert (In x (video_votes a e)) by (apply video_votes_In; exists s, r; unfold inside in I; repeat split; try lia; exact Ex).
      rewrite Hv in H. contradiction. }
    unfold a' at 1. cbn [at3 map3]. rewrite vat_map_seq by lia.
    assert (F := Hf e s r I). destruct (at3 a e s r) as [x| | |] eqn:Ex; simpl in F; try contradiction.
    - rewrite nanmeanR_ne by (apply Hv; discriminate). efc. rewrite ef_sub_Fin. cbn [presents app].
      rewrite IH; [reflexivity|]. intros; apply Hl; right; assumption.
    - cbn. apply IH. intros; apply Hl; right; assumption. }
  apply K. intros r Hr. apply in_seq in Hr. lia.
Qed.

Lemma br_spec : forall (rd : reader ef) a m, rd_arr rd = Ok a -> finite_votes a ->
  run_modeling BR_MOS rd no_options = Ok m ->
  exists delta, mr_bias m = Some delta /\ length delta = dS a /\
    dE (mr_raw m) = dE a /\ dS (mr_raw m) = dS a /\ dR (mr_raw m) = dR a /\
    forall s, s < dS a -> exists d, nth_error delta s = Some d /\ is_mean d (bias_diffs a s) /\
      forall e r, inside a e s r ->
        match at3 a e s r with
        | Fin x => exists v, d = Fin v /\ at3 (mr_raw m) e s r = Fin (x - v)%R
        | _ => at3 (mr_raw m) e s r = NaN
        end.
Proof.
  intros rd a m HA Hf H. destruct (run_br_inv rd m H) as (a' & HA' & HR & HB & _).
  rewrite HA in HA'. injection HA' as <-. exists (bias_estimate a). rewrite HR.
  split; [exact HB|]. rewrite bias_estimate_eq by exact Hf. rewrite map_length, seq_length.
  split; [reflexivity|]. repeat (split; [reflexivity|]).
  intros s Hs. exists (nanmeanR (bias_diffs a s)). split; [apply nth_error_map_seq; exact Hs|].
  split; [apply nanmeanR_is_mean|]. intros e r I. unfold remove_bias. cbn [at3 map3]. rewrite vat_map_seq by exact Hs.
  assert (F := Hf e s r I). destruct (at3 a e s r) as [x| | |] eqn:Ex; simpl in F; try contradiction.
  - assert (Hne : bias_diffs a s <> []).
    { intro E. assert (Hin : In (x - Rsum (video_votes a e) / INR (length (video_votes a e)))%R (bias_diffs a s)).
      { unfold bias_diffs. apply in_flat_map. exists e. unfold inside in I. split; [apply in_seq; lia|].
        apply in_flat_map. exists r. split; [apply in_seq; lia|]. rewrite Ex. left; reflexivity. }
      rewrite E in Hin. contradiction. }
    rewrite nanmeanR_ne by exact Hne. eexists. split; [reflexivity|]. efc. apply ef_sub_Fin.
  - reflexivity.
Qed.

(** Complete data. *)
Definition S3 (f : nat -> R) n : R := Rsum (map f (seq 0 n)).
Lemma S3_ext : forall f g n, (forall i, i < n -> f i = g i) -> S3 f n = S3 g n.
Proof. intros. apply Rsum_map_ext. intros x Hx. apply in_seq in Hx. apply H. lia. Qed.
Lemma S3_sub : forall f g n, S3 (fun i => f i - g i)%R n = (S3 f n - S3 g n)%R.
Proof. intros. apply Rsum_map_sub. Qed.
Lemma S3_const : forall c n, S3 (fun _ => c) n = (INR n * c)%R.
Proof. intros. unfold S3. rewrite Rsum_map_const, seq_length. reflexivity. Qed.
Lemma S3_mulr : forall f c n, S3 (fun i => f i * c)%R n = (S3 f n * c)%R.
Proof. intros. apply Rsum_map_mulr. Qed.
Lemma S3_swap : forall f n m, S3 (fun i => S3 (fun j => f i j) m) n = S3 (fun j => S3 (fun i => f i j) n) m.
Proof. intros. apply Rsum_swap. Qed.


Section Complete.
  Variable a : arr3 ef.
  Hypothesis Hc : complete_votes a.
  Hypothesis HE : 0 < dE a.
  Hypothesis HS : 0 < dS a.
  Hypothesis HR : 0 < dR a.
  Definition val (a : arr3 ef) e s r := toR (at3 a e s r).
  Lemma val_at : forall e s r, inside a e s r -> at3 a e s r = Fin (val a e s r).
  Proof. intros e s r I. assert (C := Hc e s r I). unfold val. destruct (at3 a e s r); simpl in C; try contradiction. reflexivity. Qed.
  Lemma complete_finite : finite_votes a.
  Proof. intros e s r I. rewrite val_at by exact I. simpl; auto. Qed.

  Definition vsum e : R := S3 (fun s => S3 (fun r => val a e s r) (dR a)) (dS a).

  Lemma video_sum : forall e, e < dE a ->
    Rsum (video_votes a e) = vsum e /\ length (video_votes a e) = dS a * dR a.
  Proof.
    intros e He. unfold video_votes. rewrite presents_flat_map.
    rewrite (flat_map_ext_in _ _ _ (fun s => map (fun r => val a e s r) (seq 0 (dR a)))).
    - rewrite Rsum_flat_map. split; [reflexivity|].
      assert (G : forall l, length (flat_map (fun s => map (fun r => val a e s r) (seq 0 (dR a))) l) = length l * dR a).
      { induction l; simpl; [reflexivity|]. rewrite app_length, map_length, seq_length, IHl. reflexivity. }
      rewrite G, seq_length. reflexivity.
    - intros s Hs. apply in_seq in Hs.
      rewrite (map_ext_in _ (fun r => Fin (val a e s r))).
      + rewrite <- (map_map (fun r => val a e s r) Fin). apply presents_map_Fin.
      + intros r Hr. apply in_seq in Hr. apply val_at. unfold inside; lia.
  Qed.
  Definition vmean e : R := (vsum e / INR (dS a * dR a))%R.
  Lemma INR_SR : INR (dS a * dR a) <> 0%R.
  Proof. apply not_0_INR. nia. Qed.
  Lemma INR_ER : INR (dE a * dR a) <> 0%R.
  Proof. apply not_0_INR. nia. Qed.

  Lemma video_ne : forall e, e < dE a -> video_votes a e <> [].
  Proof. intros e He E. destruct (video_sum e He) as [_ L]. rewrite E in L. simpl in L. nia. Qed.
  Lemma quality_complete : forall e, e < dE a -> nanmeanR (video_votes a e) = Fin (vmean e).
  Proof.
    intros e He. rewrite nanmeanR_ne by (apply video_ne; exact He). unfold Rmean.
    destruct (video_sum e He) as [-> ->]. reflexivity.
  Qed.

  Definition dval s : R := (S3 (fun e => S3 (fun r => val a e s r - vmean e)%R (dR a)) (dE a) / INR (dE a * dR a))%R.
  Lemma diffs_complete : forall s, s < dS a -> nanmeanR (bias_diffs a s) = Fin (dval s).
  Proof.
    intros s Hs.
    assert (E : bias_diffs a s = flat_map (fun e => map (fun r => val a e s r - vmean e)%R (seq 0 (dR a))) (seq 0 (dE a))).
    { unfold bias_diffs. apply flat_map_ext_in. intros e He. apply in_seq in He.
      rewrite <- flat_map_concat_map || idtac.
      assert (K : forall l, (forall r, In r l -> r < dR a) ->
        flat_map (fun r => match at3 a e s r with Fin x => [(x - Rsum (video_votes a e) / INR (length (video_votes a e)))%R] | _ => [] end) l
        = map (fun r => val a e s r - vmean e)%R l).
      { induction l as [|r l IH]; intro Hl; [reflexivity|]. cbn [flat_map map].
        rewrite (val_at e s r) by (unfold inside; specialize (Hl r (or_introl eq_refl)); lia).
        rewrite IH by (intros; apply Hl; right; assumption). cbn [app]. f_equal.
        destruct (video_sum e) as [-> ->]; [lia|]. reflexivity. }
      apply K. intros r Hr. apply in_seq in Hr. lia. }
    assert (G : forall l, length (flat_map (fun e => map (fun r => val a e s r - vmean e)%R (seq 0 (dR a))) l) = length l * dR a).
    { induction l; simpl; [reflexivity|]. rewrite app_length, map_length, seq_length, IHl. reflexivity. }
    rewrite nanmeanR_ne.
    - unfold Rmean. rewrite E, G, seq_length, Rsum_flat_map. reflexivity.
    - intro K. rewrite K in E. symmetry in E. assert (L := G (seq 0 (dE a))). rewrite E, seq_length in L. simpl in L. nia.
  Qed.

  Lemma dval_alt : forall s, dval s = ((S3 (fun e => S3 (fun r => val a e s r) (dR a)) (dE a) - INR (dR a) * S3 vmean (dE a)) / INR (dE a * dR a))%R.
  Proof.
    intro s. unfold dval. f_equal.
    rewrite (S3_ext _ (fun e => S3 (fun r => val a e s r) (dR a) - vmean e * INR (dR a))%R).
    - rewrite S3_sub, S3_mulr. ring.
    - intros e He. rewrite (S3_sub (fun r => val a e s r) (fun _ => vmean e)). rewrite S3_const. ring.
  Qed.

  Lemma dval_sum : S3 dval (dS a) = 0%R.
  Proof.
    rewrite (S3_ext _ (fun s => (S3 (fun e => S3 (fun r => val a e s r) (dR a)) (dE a) - INR (dR a) * S3 vmean (dE a)) * / INR (dE a * dR a))%R).
    2:{ intros; apply dval_alt. }
    rewrite S3_mulr. rewrite (S3_sub (fun s => S3 (fun e => S3 (fun r => val a e s r) (dR a)) (dE a)) (fun _ => INR (dR a) * S3 vmean (dE a))%R), S3_const.
    rewrite (S3_swap (fun s e => S3 (fun r => val a e s r) (dR a))).
    change (S3 (fun j => S3 (fun i => S3 (fun r => val a j i r) (dR a)) (dS a)) (dE a)) with (S3 vsum (dE a)).
    assert (E : S3 vmean (dE a) = (S3 vsum (dE a) * / INR (dS a * dR a))%R) by (unfold vmean, Rdiv; rewrite S3_mulr; reflexivity).
    rewrite E, !mult_INR. assert (H1 := INR_SR). assert (H2 := INR_ER). rewrite mult_INR in H1, H2. field.
    repeat split; intro K; rewrite K in *; lra.
  Qed.

  Definition a' := remove_bias a (bias_estimate a).
  Lemma bias_vat : forall s, s < dS a -> vat (bias_estimate a) s = Fin (dval s).
  Proof.
    intros s Hs. rewrite bias_estimate_eq by apply complete_finite. rewrite vat_map_seq by exact Hs. apply diffs_complete; exact Hs.
  Qed.
  Lemma removed_at : forall e s r, inside a e s r -> at3 a' e s r = Fin (val a e s r - dval s)%R.
  Proof.
    intros e s r I. unfold a', remove_bias. cbn [at3 map3]. rewrite bias_vat by apply I. rewrite val_at by exact I.
    efc. apply ef_sub_Fin.
  Qed.
  Lemma removed_complete : complete_votes a'.
  Proof. intros e s r I. rewrite removed_at by exact I. simpl; auto. Qed.
End Complete.

Lemma removed_mean : forall a, complete_votes a -> 0 < dE a -> 0 < dS a -> 0 < dR a ->
  forall e, e < dE a -> vmean (a' a) e = vmean a e.
Proof.
  intros a Hc HE HS HR e He. unfold vmean. cbn [dS dR a' remove_bias map3]. f_equal. unfold vsum.
  cbn [dS dR a' remove_bias map3].
  rewrite (S3_ext _ (fun s => S3 (fun r => val a e s r) (dR a) - dval a s * INR (dR a))%R).
  - rewrite S3_sub, S3_mulr, dval_sum by assumption. ring.
  - intros s Hs. rewrite (S3_ext _ (fun r => val a e s r - dval a s)%R).
    + rewrite (S3_sub (fun r => val a e s r) (fun _ => dval a s)), S3_const. ring.
    + intros r Hr. unfold val at 1. rewrite (removed_at a Hc HE HS HR) by (unfold inside; lia). reflexivity.
Qed.

Lemma removed_dval : forall a, complete_votes a -> 0 < dE a -> 0 < dS a -> 0 < dR a ->
  forall s, s < dS a -> dval (a' a) s = 0%R.
Proof.
  intros a Hc HE HS HR s Hs. unfold dval. cbn [dE dS dR a' remove_bias map3].
  rewrite (S3_ext _ (fun e => S3 (fun r => val a e s r - vmean a e)%R (dR a) - dval a s * INR (dR a))%R).
  - rewrite (S3_sub (fun e => S3 (fun r => val a e s r - vmean a e)%R (dR a)) (fun _ => dval a s * INR (dR a))%R), S3_const. assert (H : INR (dE a * dR a) <> 0%R) by (apply INR_ER; assumption).
    assert (E : S3 (fun e => S3 (fun r => val a e s r - vmean a e)%R (dR a)) (dE a) = (dval a s * INR (dE a * dR a))%R).
    { unfold dval. field. exact H. }
    rewrite E, mult_INR. rewrite mult_INR in H. field. split; intro K; rewrite K in H; lra.
  - intros e He. rewrite (S3_ext _ (fun r => (val a e s r - vmean a e) - dval a s)%R).
    + rewrite (S3_sub (fun r => val a e s r - vmean a e)%R (fun _ => dval a s)), S3_const. ring.
    + intros r Hr. unfold val at 1. rewrite (removed_at a Hc HE HS HR) by (unfold inside; lia).
      rewrite removed_mean by assumption. simpl. ring.
Qed.

Lemma map_const_repeat : forall A B (c : B) (l : list A), map (fun _ => c) l = repeat c (length l).
Proof. induction l; simpl; [reflexivity|]. rewrite IHl. reflexivity. Qed.

Lemma br_complete : forall (rd rd2 : reader ef) a m m0 m2,
  rd_arr rd = Ok a -> complete_votes a -> 0 < dE a -> 0 < dS a -> 0 < dR a ->
  run_modeling BR_MOS rd no_options = Ok m -> run_modeling MOS rd no_options = Ok m0 ->
  rd_arr rd2 = Ok (mr_raw m) -> run_modeling BR_MOS rd2 no_options = Ok m2 ->
  (exists delta, mr_bias m = Some (map Fin delta) /\ Rsum delta = 0%R) /\
  mr_quality m = mr_quality m0 /\
  arr3_eq (mr_raw m2) (mr_raw m) /\ mr_bias m2 = Some (repeat (Fin 0) (dS a)) /\ mr_quality m2 = mr_quality m.
Proof.
  intros rd rd2 a m m0 m2 HA Hc HE HS HR H H0 HA2 H2.
  destruct (run_br_inv rd m H) as (x & Hx & HR1 & HB1 & HQ1). rewrite HA in Hx; injection Hx as <-.
  destruct (run_mos_inv rd m0 H0) as (x & Hx & o & ->). rewrite HA in Hx; injection Hx as <-.
  destruct (run_br_inv rd2 m2 H2) as (x & Hx & HR2 & HB2 & HQ2). rewrite HA2 in Hx; injection Hx as <-.
  fold (a' a) in HR1, HQ1. rewrite HR1 in *. clear HR1.
  assert (Hf := complete_finite a Hc). assert (Hc' := removed_complete a Hc HE HS HR).
  assert (Hf' := complete_finite (a' a) Hc').
  assert (B1 : bias_estimate a = map Fin (map (dval a) (seq 0 (dS a)))).
  { rewrite bias_estimate_eq by exact Hf. rewrite map_map. apply map_ext_in. intros s Hs. apply in_seq in Hs.
    apply diffs_complete; auto; lia. }
  assert (B2 : bias_estimate (a' a) = repeat (Fin 0) (dS a)).
  { rewrite bias_estimate_eq by exact Hf'. cbn [dS a' remove_bias map3].
    rewrite (map_ext_in _ (fun _ => Fin 0)).
    - rewrite map_const_repeat, seq_length. reflexivity.
    - intros s Hs. apply in_seq in Hs. rewrite (diffs_complete (a' a) Hc' HE HS HR) by (simpl; lia).
      rewrite removed_dval by (assumption || lia). reflexivity. }
  assert (Q : forall b, complete_votes b -> dE b = dE a -> dS b = dS a -> dR b = dR a ->
     along1 np_nanmean (stack1 b) = map (fun e => Fin (vmean b e)) (seq 0 (dE a))).
  { intros b Hb E1 E2 E3. rewrite mean_rows by (apply complete_finite; exact Hb). rewrite E1. apply map_ext_in.
    intros e He. apply in_seq in He. apply quality_complete; try assumption; lia. }
  assert (HR2' : forall e s r, inside (a' a) e s r -> at3 (mr_raw m2) e s r = at3 (a' a) e s r).
  { intros e s r I. rewrite HR2. unfold remove_bias. cbn [at3 map3]. rewrite B2. unfold vat.
    assert (NR : nth s (repeat (Fin 0) (dS a)) NaN = Fin 0).
    { destruct I as (_ & Is & _). simpl in Is. revert s Is. generalize (dS a). induction n as [|n IH]; intros [|s] Is; simpl; try lia; [reflexivity|]. apply IH. lia. }
    efc. rewrite NR. assert (C := Hc' e s r I). destruct (at3 (a' a) e s r); simpl in C; try contradiction.
    rewrite ef_sub_Fin. f_equal. ring. }
  split; [|split; [|split; [|split]]].
  - exists (map (dval a) (seq 0 (dS a))). rewrite HB1, B1. split; [reflexivity|]. apply dval_sum; assumption.
  - rewrite HQ1. cbn [mr_quality mos_and_stats]. rewrite !Q; auto. apply map_ext_in. intros e He. apply in_seq in He.
    rewrite removed_mean by (assumption || lia). reflexivity.
  - rewrite HR2. repeat (split; [reflexivity|]). intros e s r I. rewrite <- HR2. apply HR2'. exact I.
  - rewrite HB2, B2. reflexivity.
  - rewrite HQ2, HQ1, <- HR2. assert (HcR : complete_votes (mr_raw m2)).
    { intros e s r I. rewrite HR2 in I. rewrite HR2' by exact I. apply Hc'. exact I. }
    rewrite !Q; auto; try (rewrite HR2; reflexivity). apply map_ext_in. intros e He. apply in_seq in He. f_equal.
    unfold vmean, vsum. replace (dS (mr_raw m2)) with (dS a) by (rewrite HR2; reflexivity).
    replace (dR (mr_raw m2)) with (dR a) by (rewrite HR2; reflexivity). cbn [dS dR a' remove_bias map3]. f_equal.
    apply S3_ext. intros s Hs. apply S3_ext. intros r Hr. unfold val. rewrite HR2' by (unfold inside; simpl; lia). reflexivity.
Qed.
