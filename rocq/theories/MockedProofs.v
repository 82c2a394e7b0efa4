(** Proofs about the simulating and selecting readers. *)
From Coq Require Import String.
From Coq Require Import List ZArith Bool Arith Lia Reals Lra.
From Verif Require Import PyBase Num ExtReal NumPy Dataset Mocked BaseProofs ExtRealProofs SpecDataset SpecMos SpecPc SpecMocked
  DatasetProofs ArrayProofs ConvProofs.
Import ListNotations.
Local Open Scope list_scope.

Section Gen.
  Context {T : Type} {N : Num T}.
  Notation dv_t := (dvideo T string).

  Lemma foldM_ext_in : forall A S (f g : S -> A -> res S) l s,
    (forall a s, In a l -> f s a = g s a) -> foldM f l s = foldM g l s.
  Proof.
    induction l as [|a l IH]; intros s H; simpl; [reflexivity|].
    rewrite H by (left; reflexivity). destruct (g s a); simpl; [|reflexivity].
    apply IH. intros; apply H; right; assumption.
  Qed.

  Lemma foldM_map : forall A B S (h : A -> B) (f : S -> B -> res S) l s,
    foldM f (map h l) s = foldM (fun s a => f s (h a)) l s.
  Proof. induction l as [|a l IH]; intros s; simpl; [reflexivity|]. destruct (f s (h a)); simpl; auto. Qed.

  Lemma mapM_map : forall A B C (h : A -> B) (f : B -> res C) l,
    mapM f (map h l) = mapM (fun a => f (h a)) l.
  Proof. induction l as [|a l IH]; simpl; [reflexivity|]. rewrite IH. reflexivity. Qed.

  (** The first n entries of a list-style video. *)
  Definition trunc (n : nat) (dv : dv_t) : dv_t :=
    match dv_os dv with
    | Some (OSeq b l) => with_os dv (OSeq b (firstn n l))
    | _ => dv
    end.

  Lemma nth_error_firstn : forall A (l : list A) n i, i < n -> nth_error (firstn n l) i = nth_error l i.
  Proof.
    induction l as [|a l IH]; intros [|n] [|i] H; simpl; try lia; try reflexivity. apply IH. lia.
  Qed.

  Lemma os_index_trunc : forall n (dv : dv_t) b l i, dv_os dv = Some (OSeq b l) -> i < n ->
    os_index (trunc n dv) i = os_index dv i.
  Proof.
    intros n dv b l i H Hi. unfold trunc. rewrite H. unfold os_index, get_os. simpl. rewrite H. simpl.
    unfold py_index. rewrite nth_error_firstn by exact Hi. reflexivity.
  Qed.

  Lemma trunc_style : forall n (dvs : list dv_t) S, list_style dvs S -> n <= S -> list_style (map (trunc n) dvs) n.
  Proof.
    intros n dvs S H Hn. unfold list_style in *. rewrite Forall_forall in *. intros dv' Hd.
    apply in_map_iff in Hd as (dv & <- & Hd). destruct (H dv Hd) as (b & l & E & Hl).
    unfold trunc. rewrite E. exists b, (firstn n l). simpl. split; [reflexivity|].
    rewrite firstn_length. lia.
  Qed.

  Lemma rows_trunc : forall (dvs : list dv_t) S n, dvs <> [] -> list_style dvs S -> n <= S ->
    forall wr, opinion_rows (map (trunc n) dvs) (Ok n) = Ok wr ->
    opinion_rows dvs (Ok n) = Ok (S, snd (fst wr), map (fun rw => rw ++ repeat (repeat nnan (snd (fst wr))) (S - n)) (snd wr)).
  Proof.
    intros dvs S n Hne HL Hn wr H.
    assert (HL' := trunc_style n dvs S HL Hn).
    assert (Hne' : map (trunc n) dvs <> []) by (destruct dvs; [contradiction|discriminate]).
    destruct (list_first _ _ Hne HL) as (b & l & E0). destruct (list_first _ _ Hne' HL') as (b' & l' & E0').
    unfold opinion_rows in *.
    rewrite (list_num_observers _ _ Hne' HL') in H. rewrite (list_num_observers _ _ Hne HL).
    cbn [bind] in *.
    assert (HM : get_max_repetitions dvs (Ok n) = get_max_repetitions (map (trunc n) dvs) (Ok n)).
    { unfold get_max_repetitions. rewrite E0, E0'. cbn [bind]. rewrite foldM_map. apply foldM_ext_in.
      intros dv s Hd. apply foldM_ext_in. intros i m Hi. apply in_seq in Hi.
      unfold list_style in HL. rewrite Forall_forall in HL. destruct (HL dv Hd) as (b1 & l1 & E1 & _).
      rewrite (os_index_trunc n dv b1 l1 i E1) by lia. reflexivity. }
    rewrite HM. destruct (get_max_repetitions (map (trunc n) dvs) (Ok n)) as [R|] eqn:ER; [|discriminate].
    cbn [bind] in *. rewrite E0' in H. rewrite E0. cbn [bind] in *.
    rewrite mapM_map in H.
    destruct (mapM _ dvs) as [rows|] eqn:Er in H; [|discriminate]. cbn [bind] in H. injection H as <-. cbn [fst snd].
    assert (G : mapM (fun dv => do cells <- mapM (fun s => do v <- os_index dv s; assign_reps R v) (seq 0 n);
                  Ok (cells ++ repeat (repeat nnan R) (S - n))) dvs =
              Ok (map (fun rw => rw ++ repeat (repeat nnan R) (S - n)) rows)).
    { clear - HL Er. revert rows Er. induction dvs as [|dv dvs IH]; intros rows Er.
      - injection Er as <-. reflexivity.
      - apply list_style_cons in HL as [(b & l & E & _) HL]. cbn [mapM] in *.
        assert (G : mapM (fun s => do v <- os_index (trunc n dv) s; assign_reps R v) (seq 0 n) =
                    mapM (fun s => do v <- os_index dv s; assign_reps R v) (seq 0 n)).
        { apply mapM_ext_in. intros s Hs. apply in_seq in Hs. rewrite (os_index_trunc n dv b l s E) by lia. reflexivity. }
        rewrite G in Er. destruct (mapM _ (seq 0 n)) as [cells|]; [|discriminate]. cbn [bind] in *.
        destruct (mapM _ dvs) as [rows'|] eqn:Er' in Er; [|discriminate]. cbn [bind] in Er. injection Er as <-.
        rewrite (IH HL rows' Er'). cbn [bind map]. rewrite Nat.sub_diag. cbn [repeat]. rewrite app_nil_r. reflexivity. }
    rewrite G. reflexivity.
  Qed.

  Lemma trunc_votes_wf : forall n (dvs : list dv_t), votes_wf dvs -> votes_wf (map (trunc n) dvs).
  Proof.
    intros n dvs H. unfold votes_wf in *. rewrite Forall_forall in *. intros dv' Hd.
    apply in_map_iff in Hd as (dv & <- & Hd). specialize (H dv Hd). unfold trunc.
    destruct (dv_os dv) as [[b l|d|]|] eqn:E; try (rewrite E; exact H). simpl.
    rewrite Forall_forall in *. intros v Hv. apply H. rewrite <- (firstn_skipn n l). apply in_or_app. left. exact Hv.
  Qed.

  Lemma in_range_valid : forall n sel, valid_subjects n sel <-> forM_ (fun z => assert_ (in_range n z)) sel = Ok tt.
  Proof.
    intros n sel. rewrite forM_Ok. unfold valid_subjects, in_range. split; intros H z Hz; specialize (H z Hz).
    - apply assert_Ok. apply andb_true_iff. split; [apply Z.leb_le|apply Z.ltb_lt]; lia.
    - apply assert_Ok in H. apply andb_true_iff in H as [H1 H2]. apply Z.leb_le in H1. apply Z.ltb_lt in H2. lia.
  Qed.

  Lemma norm_index_valid : forall n z, (0 <= z < Z.of_nat n)%Z -> py_norm_index n z = Some (Z.to_nat z).
  Proof.
    intros n z H. unfold py_norm_index. destruct (Z.leb_spec 0 z); [|lia]. destruct (Z.ltb_spec z (Z.of_nat n)); [|lia].
    reflexivity.
  Qed.

  Lemma mapM_map_in : forall A B (f : A -> res B) (g : A -> B) l, (forall a, In a l -> f a = Ok (g a)) -> mapM f l = Ok (map g l).
  Proof.
    intros A B f g l H. induction l as [|a l IH]; simpl; [reflexivity|].
    rewrite H by (left; reflexivity). simpl. rewrite IH by (intros; apply H; right; assumption). reflexivity.
  Qed.

  Lemma take_columns_valid : forall (a : arr3 T) sel, valid_subjects (dS a) sel ->
    exists a', take_columns a sel = Ok a' /\ columns_of a sel a'.
  Proof.
    intros a sel H. unfold take_columns.
    rewrite (mapM_map_in _ _ _ Z.to_nat) by (intros z Hz; rewrite norm_index_valid by (apply H; exact Hz); reflexivity).
    cbn [bind]. eexists. split; [reflexivity|]. unfold columns_of. cbn [dE dS dR at3].
    rewrite map_length. repeat split. intros e k z r Hk _ _.
    f_equal. apply nth_error_nth_d. rewrite nth_error_map, Hk. reflexivity.
  Qed.

  Lemma raw_ok_assert : forall ds : dataset T string, raw_dataset_ok ds <-> assert_dataset_raw (ds_refs ds) (ds_dis ds) = Ok tt.
  Proof.
    intro ds. rewrite <- assert_dataset_raw_iff. split; [intros ([] & H); exact H|eauto].
  Qed.

  Lemma read_dict_nobs : forall (dvs : list dv_t) n n', dvs <> [] -> dict_style dvs ->
    opinion_score_3darray_with dvs n = opinion_score_3darray_with dvs n'.
  Proof.
    intros dvs n n' Hne HD. destruct (dict_first dvs Hne HD) as (d & E).
    unfold opinion_score_3darray_with, opinion_rows, get_max_repetitions. rewrite E. reflexivity.
  Qed.

  Lemma read_inv : forall (ds : dataset T string) a, raw_reader_3darray ds = Ok a ->
    assert_dataset_raw (ds_refs ds) (ds_dis ds) = Ok tt /\ raw_dataset_ok ds /\ ds_dis ds <> [] /\
    plain_3darray (ds_dis ds) = Ok a /\ get_num_observers (ds_dis ds) = Ok (dS a).
  Proof.
    intros ds a H. unfold raw_reader_3darray in H. apply bind_Ok in H as ([] & H1 & H2).
    assert (Hok : raw_dataset_ok ds) by (apply raw_ok_assert; exact H1).
    split; [exact H1|]. split; [exact Hok|]. split; [apply Hok|]. split; [exact H2|].
    unfold opinion_score_3darray_with, opinion_rows in H2.
    destruct (get_num_observers (ds_dis ds)) as [W|] eqn:EW; [|discriminate]. cbn [bind] in H2.
    destruct (get_max_repetitions _ _) as [R|]; [|discriminate]. cbn [bind] in H2.
    destruct (first_os _) as [[b l|d|]|]; try discriminate; cbn [bind] in H2.
    - destruct (mapM _ _); [|discriminate]. cbn [bind] in H2. injection H2 as <-. reflexivity.
    - destruct (get_list_observers _); [|discriminate]. cbn [bind] in H2.
      destruct (mapM _ _); [|discriminate]. cbn [bind] in H2. injection H2 as <-. reflexivity.
  Qed.

  (** C17, dict style. *)
  Lemma c17_dict : forall (ds : dataset T string) a sel, raw_reader_3darray ds = Ok a -> dict_style (ds_dis ds) ->
    (valid_subjects (dS a) sel -> exists a', select_subject_3darray ds (Some sel) = Ok a' /\ columns_of a sel a') /\
    (~ valid_subjects (dS a) sel -> select_subject_3darray ds (Some sel) = Err AssertionError).
  Proof.
    intros ds a sel H HD. destruct (read_inv ds a H) as (H1 & Hok & Hne & HP & HW).
    unfold select_subject_3darray. rewrite H1. cbn [bind]. rewrite HW. cbn [bind]. split.
    - intro HV. apply in_range_valid in HV as HV'. rewrite HV'. cbn [bind].
      unfold plain_3darray in HP. rewrite (read_dict_nobs _ _ (get_num_observers (ds_dis ds)) Hne HD), HP. cbn [bind].
      apply take_columns_valid. exact HV.
    - intro HV. rewrite in_range_valid in HV. 
      assert (G : forall l, forM_ (fun z => assert_ (in_range (dS a) z)) l = Ok tt \/ forM_ (fun z => assert_ (in_range (dS a) z)) l = Err AssertionError).
      { induction l as [|z l IH]; [left; reflexivity|]. unfold forM_ in *. cbn [foldM].
        unfold assert_ at 1 3. destruct (in_range (dS a) z); cbn [bind]; [exact IH|right; reflexivity]. }
      destruct (G sel) as [G'|G']; [contradiction|]. rewrite G'. reflexivity.
  Qed.

  (** C17, list style. *)
  Lemma c17_list : forall (ds : dataset T string) S sel, raw_dataset_ok ds -> list_style (ds_dis ds) S -> votes_wf (ds_dis ds) ->
    valid_subjects S sel -> length sel <= S ->
    exists a', select_subject_3darray ds (Some sel) = Ok a' /\
      dE a' = length (ds_dis ds) /\ dS a' = length sel /\
      forall e dv k z, nth_error (ds_dis ds) e = Some dv -> nth_error sel k = Some z ->
        ((z < Z.of_nat (length sel))%Z -> exists xs, voted_list dv (Z.to_nat z) xs /\ length xs <= dR a' /\
            forall r, r < dR a' -> at3 a' e k r = nth r xs nnan) /\
        ((Z.of_nat (length sel) <= z)%Z -> forall r, at3 a' e k r = nnan).
  Proof.
    intros ds S sel Hok HL Hwf HV Hn. set (n := length sel) in *. set (dvs := ds_dis ds) in *.
    assert (Hne : dvs <> []) by apply Hok.
    assert (Hne' : map (trunc n) dvs <> []) by (destruct dvs; [contradiction|discriminate]).
    assert (HL' := trunc_style n dvs S HL Hn).
    destruct (array_list_total (map (trunc n) dvs) n Hne' HL' (trunc_votes_wf n dvs Hwf)) as (at_ & Hat).
    destruct (array_list_sound _ _ _ Hne' HL' Hat) as (_ & _ & HM & Hcell).
    rewrite (list_num_observers _ _ Hne' HL') in Hat.
    unfold opinion_score_3darray_with in Hat. apply bind_Ok in Hat as (wr & Hwr & Hat).
    destruct wr as [[W R] rows]. injection Hat as <-.
    assert (HD := rows_trunc dvs S n Hne HL Hn _ Hwr). cbn [fst snd] in HD.
    unfold select_subject_3darray. fold dvs.
    assert (H1 := proj1 (raw_ok_assert ds) Hok). fold dvs in H1. rewrite H1. cbn [bind].
    rewrite (list_num_observers _ _ Hne HL). cbn [bind].
    rewrite (proj1 (in_range_valid S sel) HV). cbn [bind].
    unfold opinion_score_3darray_with. fold n. rewrite HD. cbn [bind].
    destruct (take_columns_valid (arr3_of_rows (length dvs) S R (map (fun rw => rw ++ repeat (repeat nnan R) (S - n)) rows)) sel HV)
      as (a' & Ha & C1 & C2 & C3 & C4).
    exists a'. split; [exact Ha|]. split; [exact C1|]. split; [exact C2|].
    cbn [dR arr3_of_rows] in C3, C4, HM, Hcell. rewrite C3.
    assert (HWn : length rows = length dvs).
    { unfold opinion_rows in Hwr. rewrite (list_num_observers _ _ Hne' HL') in Hwr. cbn [bind] in Hwr.
      apply bind_Ok in Hwr as (R' & _ & Hwr). apply bind_Ok in Hwr as (o & Ho & Hwr).
      destruct o; try discriminate.
      - apply bind_Ok in Hwr as (rows' & Hr & Hwr). injection Hwr as _ _ <-. rewrite (mapM_length _ _ _ _ _ Hr), map_length. reflexivity.
      - apply bind_Ok in Hwr as (obs & _ & Hwr). apply bind_Ok in Hwr as (rows' & Hr & Hwr). injection Hwr as _ _ <-. rewrite (mapM_length _ _ _ _ _ Hr), map_length. reflexivity. }
    assert (Hrown : forall e rw, nth_error rows e = Some rw -> length rw = n).
    { intros e rw He. unfold opinion_rows in Hwr. rewrite (list_num_observers _ _ Hne' HL') in Hwr. cbn [bind] in Hwr.
      apply bind_Ok in Hwr as (R' & _ & Hwr). destruct (list_first _ _ Hne' HL') as (b & l & E). rewrite E in Hwr. cbn [bind] in Hwr.
      apply bind_Ok in Hwr as (rows' & Hr & Hwr). injection Hwr as _ _ <-.
      destruct (mapM_nth_inv _ _ _ _ _ _ _ Hr He) as (dv & _ & Hf). apply bind_Ok in Hf as (cells & Hc & Hf). injection Hf as <-.
      rewrite app_length, repeat_length, (mapM_length _ _ _ _ _ Hc), seq_length. lia. }
    intros e dv k z He Hk.
    assert (Hed : e < length dvs) by (apply nth_error_Some; congruence).
    assert (Hz := HV z (nth_error_In _ _ Hk)).
    assert (He' : nth_error (map (trunc n) dvs) e = Some (trunc n dv)) by (rewrite nth_error_map, He; reflexivity).
    destruct (nth_error rows e) as [rw|] eqn:Erw; [|apply nth_error_None in Erw; lia].
    assert (Hrw : length rw = n) by (eapply Hrown; exact Erw).
    assert (Hnth : nth e (map (fun rw => rw ++ repeat (repeat nnan R) (S - n)) rows) [] = rw ++ repeat (repeat nnan R) (S - n)).
    { apply nth_error_nth_d. rewrite nth_error_map, Erw. reflexivity. }
    assert (Hat : forall r, at3 a' e k r = nth r (nth (Z.to_nat z) (rw ++ repeat (repeat nnan R) (S - n)) []) nnan).
    { intro r. destruct (Nat.lt_ge_cases r R) as [Hr|Hr].
      - rewrite (C4 e k z r Hk Hed Hr). cbn [at3 arr3_of_rows]. rewrite Hnth. reflexivity.
      - unfold take_columns in Ha.
        rewrite (mapM_map_in _ _ _ Z.to_nat) in Ha by (intros y Hy; rewrite norm_index_valid by (apply HV; exact Hy); reflexivity).
        cbn [bind] in Ha. injection Ha as <-. cbn [at3 arr3_of_rows]. rewrite Hnth.
        rewrite (nth_error_nth_d _ (map Z.to_nat sel) k (Z.to_nat z) 0); [reflexivity|]. rewrite nth_error_map, Hk. reflexivity. }
    split.
    - intro Hlt. destruct (Hcell e (trunc n dv) (Z.to_nat z) He') as (xs & Hx & Hv); [lia|].
      exists xs. assert (Hx' : voted_list dv (Z.to_nat z) xs).
      { unfold list_style in HL. rewrite Forall_forall in HL. destruct (HL dv (nth_error_In _ _ He)) as (b & l & E & Hl).
        destruct Hx as (b' & l' & v & E' & Hn' & Hv'). unfold trunc in E'. rewrite E in E'. cbn in E'. injection E' as <- <-.
        rewrite nth_error_firstn in Hn' by lia. exists b, l, v. auto. }
      split; [exact Hx'|]. split.
      + destruct HM as (_ & HM & _). destruct Hx as (b' & l' & v & E' & Hn' & Hv').
        apply (HM v xs); [|exact Hv']. exists (trunc n dv). split; [eapply nth_error_In; exact He'|left; exists b', l'; split; [exact E'|eapply nth_error_In; exact Hn']].
      + intros r Hr. rewrite Hat. rewrite app_nth1 by lia.
        rewrite <- (Hv r Hr). cbn [at3 arr3_of_rows]. rewrite (nth_error_nth_d _ rows e rw [] Erw). reflexivity.
    - intros Hge r. rewrite Hat. rewrite app_nth2 by lia. rewrite Hrw.
      destruct (Nat.lt_ge_cases (Z.to_nat z - n) (S - n)) as [Hlt|Hge'].
      + rewrite (nth_indep _ [] (repeat nnan R)) by (rewrite repeat_length; exact Hlt). rewrite nth_repeat.
        destruct (Nat.lt_ge_cases r R); [apply nth_repeat|apply nth_overflow; rewrite repeat_length; assumption].
      + rewrite (nth_overflow (repeat (repeat nnan R) (S - n))) by (rewrite repeat_length; exact Hge'). destruct r; reflexivity.
  Qed.

  Lemma c17_too_many : forall (ds : dataset T string) S sel, raw_dataset_ok ds -> list_style (ds_dis ds) S ->
    valid_subjects S sel -> S < length sel -> select_subject_3darray ds (Some sel) = Err IndexError.
  Proof.
    intros ds S sel Hok HL HV Hn. assert (Hne : ds_dis ds <> []) by apply Hok.
    unfold select_subject_3darray. rewrite (proj1 (raw_ok_assert ds) Hok). cbn [bind].
    rewrite (list_num_observers _ _ Hne HL). cbn [bind]. rewrite (proj1 (in_range_valid S sel) HV). cbn [bind].
    unfold opinion_score_3darray_with, opinion_rows. rewrite (list_num_observers _ _ Hne HL). cbn [bind].
    destruct (list_first _ _ Hne HL) as (b & l & E). unfold get_max_repetitions. rewrite E. cbn [bind].
    destruct (ds_dis ds) as [|dv dvs] eqn:Ed; [contradiction|]. apply list_style_cons in HL as [(b1 & l1 & E1 & Hl1) HL].
    cbn [foldM]. 
    assert (G : forall j m, j <= S -> foldM (fun m0 i => do v <- os_index dv i; Ok (bump_reps m0 v)) (seq j (length sel - j)) m = Err IndexError).
    { intros j m Hj. replace (length sel - j) with ((S - j) + (length sel - S)) by lia.
      revert m. induction (S - j) as [|d IH] eqn:Ed' in j, Hj |- *; intro m.
      - assert (j = S) by lia. subst j. destruct (length sel - S) as [|q] eqn:Eq; [lia|]. cbn [Nat.add seq foldM].
        unfold os_index at 1, get_os. rewrite E1. cbn [bind]. unfold py_index.
        rewrite (proj2 (nth_error_None l1 S)) by lia. reflexivity.
      - cbn [Nat.add seq foldM]. unfold os_index at 1, get_os. rewrite E1. cbn [bind]. unfold py_index.
        destruct (nth_error l1 j) eqn:El; [|reflexivity]. cbn [bind]. apply IH; lia. }
    specialize (G 0 1 (Nat.le_0_l S)). rewrite Nat.sub_0_r in G. rewrite G. reflexivity.
  Qed.
End Gen.

Section Select.
  Context {T : Type} {N : Num T}.
  Notation dv_t := (dvideo T string).

  Lemma by_id_spec : forall (dvs : list dv_t) z dv,
    dget Z.eqb (fold_left (fun d dv => dset Z.eqb d (dv_aid dv) dv) dvs []) z = Some dv <-> video_with_id dvs z dv.
  Proof.
    intros dvs. induction dvs as [|x dvs IH] using rev_ind; intros z dv.
    - cbn. split; [discriminate|]. intros ([|? ?] & l2 & E & _); discriminate.
    - rewrite fold_left_app. cbn [fold_left]. rewrite (dget_dset Z.eqb Z_eqb_spec).
      destruct (Z.eqb_spec z (dv_aid x)) as [->|Hne].
      + split.
        * intros [= ->]. exists dvs, []. repeat split. intros ? [].
        * intros (l1 & l2 & E & Hid & Hl). f_equal. destruct (exists_last (l := dv :: l2)) as (l3 & y & El); [discriminate|].
          rewrite El, app_assoc in E. apply app_inj_tail in E as [_ <-].
          destruct l2 as [|d l2]; [destruct l3 as [|? [|? ?]]; cbn in El; congruence|].
          exfalso. apply (Hl x); [|reflexivity]. assert (Hin : In x (dv :: d :: l2)) by (rewrite El; apply in_or_app; right; left; reflexivity).
          destruct Hin as [<-|Hin]; [|exact Hin]. destruct l3 as [|y l3]; [discriminate|]. cbn in El. injection El as _ El.
          rewrite El. apply in_or_app. right. left. reflexivity.
      + rewrite IH. split.
        * intros (l1 & l2 & -> & Hid & Hl). exists l1, (l2 ++ [x]). rewrite <- app_assoc. repeat split; [exact Hid|].
          intros d Hd. apply in_app_or in Hd as [Hd|[<-|[]]]; [apply Hl; exact Hd|congruence].
        * intros (l1 & l2 & E & Hid & Hl). destruct l2 as [|d l2] using rev_ind.
          -- apply app_inj_tail in E as [_ ->]. congruence.
          -- clear IHl2. rewrite app_comm_cons, app_assoc in E. apply app_inj_tail in E as [-> ->].
             exists l1, l2. repeat split; [exact Hid|]. intros d' Hd. apply Hl. apply in_or_app. left. exact Hd.
  Qed.

  Lemma Forall2_impl : forall A B (P Q : A -> B -> Prop) l l', (forall a b, P a b -> Q a b) -> Forall2 P l l' -> Forall2 Q l l'.
  Proof. intros A B P Q l l' H F. induction F; constructor; auto. Qed.

  Lemma select_videos_spec : forall (dvs : list dv_t) sel l,
    select_dis_videos dvs sel = Ok l <-> Forall2 (video_with_id dvs) sel l.
  Proof.
    intros dvs sel l. unfold select_dis_videos. rewrite mapM_Ok.
    split; intro H; (eapply Forall2_impl; [|exact H]); intros z dv; cbn; unfold dget_res; intro Hz.
    - destruct (dget Z.eqb _ z) eqn:E; [|discriminate]. injection Hz as ->. apply by_id_spec. exact E.
    - apply by_id_spec in Hz. rewrite Hz. reflexivity.
  Qed.

  Lemma c18_by_id : forall (ds : dataset T string) sel l arr, select_dis_video_reader ds (Some sel) = Ok (l, arr) ->
    Forall2 (video_with_id (ds_dis ds)) sel l /\ arr = plain_3darray l /\ valid_subjects (length (ds_dis ds)) sel.
  Proof.
    intros ds sel l arr H. unfold select_dis_video_reader in H.
    apply bind_Ok in H as (l' & Hl & H). apply bind_Ok in H as (u & Ha & H). apply bind_Ok in H as ([] & Hr & H).
    injection H as -> <-. split; [apply select_videos_spec; exact Hl|]. split; [reflexivity|]. apply in_range_valid. exact Hr.
  Qed.

  Lemma position_is_id : forall (dvs : list dv_t) i dv, ids_are_positions dvs ->
    (video_with_id dvs (Z.of_nat i) dv <-> nth_error dvs i = Some dv).
  Proof.
    intros dvs i dv H. split.
    - intros (l1 & l2 & E & Hid & _). assert (Hn : nth_error dvs (length l1) = Some dv).
      { rewrite E, nth_error_app2, Nat.sub_diag by lia. reflexivity. }
      assert (Hp := H _ _ Hn). assert (length l1 = i) by lia. congruence.
    - intro Hn. destruct (nth_error_split _ _ Hn) as (l1 & l2 & E & Hl). exists l1, l2. split; [exact E|]. split; [apply H; exact Hn|].
      intros d Hd Hid. apply In_nth_error in Hd as (j & Hj).
      assert (Hn' : nth_error dvs (length l1 + S j) = Some d).
      { rewrite E, nth_error_app2 by lia. replace (length l1 + S j - length l1) with (S j) by lia. exact Hj. }
      assert (Hp := H _ _ Hn'). lia.
  Qed.

  Lemma c18 : forall (ds : dataset T string) sel, raw_dataset_ok ds ->
    (dict_style (ds_dis ds) \/ exists S, list_style (ds_dis ds) S) ->
    ids_are_positions (ds_dis ds) -> sel <> [] -> valid_subjects (length (ds_dis ds)) sel ->
    exists l, select_dis_video_reader ds (Some sel) = Ok (l, plain_3darray l) /\
      Forall2 (fun z dv => nth_error (ds_dis ds) (Z.to_nat z) = Some dv) sel l.
  Proof.
    intros ds sel Hok Hst Hid Hne HV.
    assert (HF : exists l, Forall2 (fun z dv => nth_error (ds_dis ds) (Z.to_nat z) = Some dv) sel l).
    { clear Hne. induction sel as [|z sel IH]; [exists []; constructor|].
      destruct IH as (l & Hl); [intros y Hy; apply HV; right; exact Hy|].
      assert (Hz := HV z (or_introl eq_refl)).
      destruct (nth_error (ds_dis ds) (Z.to_nat z)) as [dv|] eqn:E; [|apply nth_error_None in E; lia].
      exists (dv :: l). constructor; assumption. }
    destruct HF as (l & HF). exists l. split; [|exact HF].
    unfold select_dis_video_reader.
    assert (Hsel : select_dis_videos (ds_dis ds) sel = Ok l).
    { apply select_videos_spec. clear Hne Hst. induction HF as [|z dv sel l Hz HF IH]; constructor.
      - assert (Hzz := HV z (or_introl eq_refl)). rewrite <- (Z2Nat.id z) by lia. apply position_is_id; [exact Hid|exact Hz].
      - apply IH. intros y Hy. apply HV. right. exact Hy. }
    rewrite Hsel. cbn [bind].
    assert (Hsub : forall dv, In dv l -> In dv (ds_dis ds)).
    { intros dv Hd. destruct (Forall2_In_r _ _ _ _ _ _ HF Hd) as (z & _ & Hz). eapply nth_error_In; exact Hz. }
    assert (Hl : l <> []) by (intro E; subst l; inversion HF; subst; contradiction).
    assert (Hok' : raw_dataset_ok (Dataset (ds_refs ds) l (ds_name ds) (ds_ref_score ds) (ds_attrs ds))).
    { destruct Hok as (A1 & A2 & A3 & A4 & A5 & A6). repeat split; cbn [ds_refs ds_dis]; auto.
      intros dv0 rest b l0 E E0 dv o Hd Eo. left. destruct Hst as [HD|(S & HL)].
      - unfold dict_style in HD. rewrite Forall_forall in HD. destruct (HD dv0) as (d & Ed & _); [apply Hsub; rewrite E; left; reflexivity|]. congruence.
      - unfold list_style in HL. rewrite Forall_forall in HL.
        destruct (HL dv0) as (b1 & l1 & E1 & Hl1); [apply Hsub; rewrite E; left; reflexivity|].
        destruct (HL dv) as (b2 & l2 & E2 & Hl2); [apply Hsub; rewrite E; right; exact Hd|].
        rewrite E0 in E1. injection E1 as <- <-. rewrite Eo in E2. injection E2 as ->. exists b2, l2. split; [reflexivity|lia]. }
    apply raw_ok_assert in Hok'. cbn [ds_refs ds_dis] in Hok'. rewrite Hok'. cbn [bind].
    rewrite (proj1 (in_range_valid _ _) HV). reflexivity.
  Qed.

  (** ** Re-reading simulated data (C21) *)
  Lemma sim_shape : forall (ds : dataset T string) a, simulated ds a ->
    raw_dataset_ok ds /\ dE a = length (ds_dis ds).
  Proof.
    assert (Hp : forall (dvs : list dv_t) n a, opinion_score_3darray_with dvs n = Ok a -> dE a = length dvs).
    { intros dvs n a H. unfold opinion_score_3darray_with in H. apply bind_Ok in H as ([[W R] rows] & _ & H).
      injection H as <-. reflexivity. }
    assert (Hl : forall f sel (a : arr3 T), dE (corrupt_loop f sel a) = dE a).
    { intros f sel a. unfold corrupt_loop. generalize (enumerate sel). intro l. revert a.
      induction l as [|p l IH]; intro a; [reflexivity|]. cbn [fold_left]. rewrite IH. reflexivity. }
    intros ds a H. destruct H as [p u H|sel H|sel b p g H|p u w H|i g1 g2 g3 H|i g1 g2 g3 H].
    - unfold missing_3darray in H. apply bind_Ok in H as ([] & H1 & H). split; [apply raw_ok_assert; exact H1|].
      destruct p; [|discriminate]. apply bind_Ok in H as (a0 & H0 & H). injection H as <-. cbn. eapply Hp; exact H0.
    - unfold select_subject_3darray in H. apply bind_Ok in H as ([] & H1 & H). split; [apply raw_ok_assert; exact H1|].
      destruct sel; [|discriminate]. apply bind_Ok in H as (n & Hn & H). apply bind_Ok in H as (x & Hx & H).
      apply bind_Ok in H as (a0 & H0 & H). unfold take_columns in H. apply bind_Ok in H as (idx & _ & H). injection H as <-. cbn. eapply Hp; exact H0.
    - unfold corrupt_subject_3darray in H. apply bind_Ok in H as ([] & H1 & H). split; [apply raw_ok_assert; exact H1|].
      destruct sel as [sel|]; [|discriminate]. apply bind_Ok in H as (x1 & _ & H). apply bind_Ok in H as (n & _ & H).
      apply bind_Ok in H as (x2 & _ & H). apply bind_Ok in H as (x3 & _ & H). apply bind_Ok in H as (a0 & H0 & H).
      rewrite <- (Hp _ _ _ H0). unfold corrupt_array in H. destruct (match b with Some b0 => b0 | None => Shuffle end);
        repeat (apply bind_Ok in H as (? & _ & H)); try discriminate; injection H as <-; apply Hl.
    - unfold corrupt_data_3darray in H. apply bind_Ok in H as ([] & H1 & H). split; [apply raw_ok_assert; exact H1|].
      destruct p; [|discriminate]. apply bind_Ok in H as (a0 & H0 & H). destruct (ds_ref_score ds) as [[rs|]|]; try discriminate.
      injection H as <-. cbn. eapply Hp; exact H0.
    - unfold synthetic_3darray, synth_array in H. apply bind_Ok in H as (? & H1 & H). unfold synth_assert in H1.
      apply bind_Ok in H1 as ([] & H1 & _). split; [apply raw_ok_assert; exact H1|].
      repeat (apply bind_Ok in H as (? & _ & H)). injection H as <-. reflexivity.
    - unfold synthetic_logistic_3darray, synth_array in H. apply bind_Ok in H as (? & H1 & H). unfold synth_assert in H1.
      apply bind_Ok in H1 as ([] & H1 & _). split; [apply raw_ok_assert; exact H1|].
      repeat (apply bind_Ok in H as (? & _ & H)). injection H as <-. reflexivity.
  Qed.

  Definition redone (ds : dataset T string) (a : arr3 T) : dataset T string :=
    Dataset (ds_refs ds) (map (fun p =>
        with_os (snd p) (OSeq true
          (map (fun s => PArr (map (fun r => at3 a (fst p) s r) (seq 0 (dR a))))
               (seq 0 (dS a))))) (enumerate (ds_dis ds))) (ds_name ds) (ds_ref_score ds) (ds_attrs ds).

  Lemma redone_nth : forall ds a e dv, nth_error (ds_dis ds) e = Some dv ->
    nth_error (ds_dis (redone ds a)) e = Some (with_os dv (OSeq true
          (map (fun s => PArr (map (fun r => at3 a e s r) (seq 0 (dR a)))) (seq 0 (dS a))))).
  Proof. intros ds a e dv H. unfold redone. cbn [ds_dis]. rewrite nth_error_map, enumerate_nth, H. reflexivity. Qed.

  Lemma redone_In : forall ds a dv', In dv' (ds_dis (redone ds a)) ->
    exists e dv, nth_error (ds_dis ds) e = Some dv /\ dv' = with_os dv (OSeq true
          (map (fun s => PArr (map (fun r => at3 a e s r) (seq 0 (dR a)))) (seq 0 (dS a)))).
  Proof.
    intros ds a dv' H. unfold redone in H. cbn [ds_dis] in H. apply in_map_iff in H as ((e & dv) & <- & H).
    apply In_nth_error in H as (i & H). rewrite enumerate_nth in H. destruct (nth_error (ds_dis ds) i) eqn:E; [|discriminate].
    injection H as <- <-. exists i, d. split; [exact E|reflexivity].
  Qed.

  Lemma redone_length : forall ds a, length (ds_dis (redone ds a)) = length (ds_dis ds).
  Proof. intros. unfold redone, enumerate. cbn [ds_dis]. rewrite map_length, combine_length, seq_length. lia. Qed.

  Lemma redone_ok : forall ds a, raw_dataset_ok ds -> raw_dataset_ok (redone ds a) /\ list_style (ds_dis (redone ds a)) (dS a).
  Proof.
    intros ds a (A1 & A2 & A3 & A4 & A5 & A6).
    assert (HL : list_style (ds_dis (redone ds a)) (dS a)).
    { unfold list_style. rewrite Forall_forall. intros dv' H. apply redone_In in H as (e & dv & He & ->). cbn.
      eexists. eexists. split; [reflexivity|]. rewrite map_length, seq_length. reflexivity. }
    split; [|exact HL]. repeat split; auto.
    - intro E. apply A2. apply length_zero_iff_nil. rewrite <- (redone_length ds a), E. reflexivity.
    - intros dv' H. apply redone_In in H as (e & dv & He & ->). cbn. apply A4. eapply nth_error_In; exact He.
    - intros dv' H. apply redone_In in H as (e & dv & He & ->). cbn. eexists. split; [reflexivity|discriminate].
    - intros dv0 rest b l0 E E0 dv o Hd Eo. left. unfold list_style in HL. rewrite Forall_forall in HL.
      destruct (HL dv0) as (b1 & l1 & E1 & Hl1); [rewrite E; left; reflexivity|].
      destruct (HL dv) as (b2 & l2 & E2 & Hl2); [rewrite E; right; exact Hd|].
      rewrite E0 in E1. injection E1 as <- <-. rewrite Eo in E2. injection E2 as ->. exists b2, l2. split; [reflexivity|lia].
  Qed.

  Lemma mocked_redone : forall ds a, dE a = length (ds_dis ds) -> mocked_to_dataset ds (ds_dis ds) (Ok a) = Ok (redone ds a).
  Proof. intros ds a H. unfold mocked_to_dataset. cbn [bind]. rewrite (proj2 (Nat.eqb_eq _ _) H). reflexivity. Qed.

  Lemma c21 : forall (ds : dataset T string) a, simulated ds a -> dR a = 1 ->
    exists ds' a', mocked_to_dataset ds (ds_dis ds) (Ok a) = Ok ds' /\
      raw_reader_3darray ds' = Ok a' /\ arr3_eq a a' /\
      Forall2 same_but_votes (ds_dis ds) (ds_dis ds') /\
      ds_refs ds' = ds_refs ds /\ ds_name ds' = ds_name ds /\ ds_ref_score ds' = ds_ref_score ds /\ ds_attrs ds' = ds_attrs ds.
  Proof.
    intros ds a Hs HR. destruct (sim_shape ds a Hs) as [Hok HE].
    destruct (redone_ok ds a Hok) as [Hok' HL].
    assert (Hne : ds_dis (redone ds a) <> []) by apply Hok'.
    assert (Hwf : votes_wf (ds_dis (redone ds a))).
    { unfold votes_wf. rewrite Forall_forall. intros dv' H. apply redone_In in H as (e & dv & He & ->). cbn [dv_os with_os].
      rewrite Forall_forall. intros v Hv. apply in_map_iff in Hv as (s & <- & _). rewrite HR. cbn. eexists. constructor. }
    destruct (array_list_total _ _ Hne HL Hwf) as (a' & Ha').
    destruct (array_list_sound _ _ _ Hne HL Ha') as (B1 & B2 & B3 & B4).
    exists (redone ds a), a'. split; [apply mocked_redone; exact HE|]. split.
    { unfold raw_reader_3darray. rewrite (proj1 (raw_ok_assert _) Hok'). exact Ha'. }
    split; [|split; [|repeat split]].
    - assert (HR' : dR a' = 1).
      { destruct B3 as (_ & _ & [H|(v & xs & Hv & Hx & Hl)]); [exact H|].
        destruct Hv as (dv' & Hd & Hv). apply redone_In in Hd as (e & dv & He & ->). cbn [dv_os with_os] in Hv.
        destruct Hv as [(b & l & E & Hv)|(d & n & E & _)]; [|discriminate]. injection E as <- <-.
        apply in_map_iff in Hv as (s & <- & _). rewrite HR in Hx. cbn in Hx. inversion Hx; subst. rewrite <- Hl. reflexivity. }
      unfold arr3_eq. rewrite B1, redone_length. repeat split; [exact HE|congruence|congruence|].
      intros e s r (Ie & Is & Ir). assert (r = 0) by lia. subst r.
      destruct (nth_error (ds_dis ds) e) as [dv|] eqn:E; [|apply nth_error_None in E; lia].
      destruct (B4 e _ s (redone_nth ds a e dv E) Is) as (xs & (b & l & v & Eo & En & Hv) & Hx).
      rewrite Hx by lia. cbn [dv_os with_os] in Eo. injection Eo as <- <-.
      rewrite nth_error_map, (nth_error_seq _ _ Is) in En. cbn [option_map] in En. injection En as <-.
      rewrite HR in Hv. cbn in Hv. inversion Hv; subst. reflexivity.
    - unfold redone. cbn [ds_dis]. clear. unfold enumerate.
      match goal with |- Forall2 _ _ (map ?f _) => assert (G : forall p, same_but_votes (snd p) (f p)) by (intro; repeat split); generalize dependent f end.
      generalize 0 at 1. induction (ds_dis ds) as [|dv l IH]; intros k f G; cbn [length seq combine map]; constructor.
      + apply (G (k, dv)).
      + apply IH. exact G.
  Qed.

  Lemma c21_reps : forall (ds : dataset T string) a, simulated ds a -> 1 < dR a -> 0 < dS a ->
    exists ds', mocked_to_dataset ds (ds_dis ds) (Ok a) = Ok ds' /\ raw_reader_3darray ds' = Err ValueError.
  Proof.
    intros ds a Hs HR HS. destruct (sim_shape ds a Hs) as [Hok HE].
    destruct (redone_ok ds a Hok) as [Hok' HL].
    assert (Hne : ds_dis (redone ds a) <> []) by apply Hok'.
    exists (redone ds a). split; [apply mocked_redone; exact HE|].
    unfold raw_reader_3darray. rewrite (proj1 (raw_ok_assert _) Hok'). cbn [bind].
    unfold opinion_score_3darray_with, opinion_rows. rewrite (list_num_observers _ _ Hne HL). cbn [bind].
    rewrite (max_reps_list _ _ Hne HL). cbn [bind].
    destruct (list_first _ _ Hne HL) as (b & l & E). rewrite E. cbn [bind].
    destruct (ds_dis (redone ds a)) as [|dv0 dvs] eqn:Ed; [contradiction|].
    assert (H0 : In dv0 (ds_dis (redone ds a))) by (rewrite Ed; left; reflexivity).
    apply redone_In in H0 as (e & dv & He & E0). cbn [mapM]. cbn [bind].
    destruct (dS a) as [|S] eqn:ES; [lia|]. cbn [seq mapM].
    rewrite E0 at 1. unfold os_index at 1, get_os at 1. cbn [dv_os with_os bind]. cbn [seq map]. unfold py_index at 1. cbn [nth_error bind].
    destruct (dR a) as [|[|R]]; [lia|lia|]. cbn [seq map]. unfold assign_reps at 1. reflexivity.
  Qed.
End Select.
