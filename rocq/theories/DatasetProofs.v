(** Proofs about the rating dataset reader (claims C01-C03). *)
From Coq Require Import String.
From Coq Require Import List ZArith Bool Arith Lia Permutation Sorted.
From Verif Require Import PyBase Num NumPy Dataset BaseProofs SpecDataset.
Import ListNotations.
Local Open Scope list_scope.

Lemma string_eqb_spec : forall a b, String.eqb a b = true <-> a = b.
Proof. intros; apply String.eqb_eq. Qed.
Lemma Z_eqb_spec : forall a b, Z.eqb a b = true <-> a = b.
Proof. intros; apply Z.eqb_eq. Qed.

Section DP.
  Context {T : Type} {N : Num T}.
  Notation dv_t := (dvideo T string).

  Lemma nums_map : forall xs : list T, nums (map PNum xs) = Some xs.
  Proof. induction xs; simpl; [reflexivity|]. rewrite IHxs. reflexivity. Qed.

  Lemma nums_inv : forall (l : list (pyv T)) xs, nums l = Some xs -> l = map PNum xs.
  Proof.
    induction l as [|v l IH]; simpl; intros xs H; [injection H as <-; reflexivity|].
    destruct v; try discriminate. destruct (nums l) eqn:E; [|discriminate].
    injection H as <-. simpl. f_equal. apply IH. reflexivity.
  Qed.

  Lemma map_PNum_inj : forall xs ys : list T, map PNum xs = map PNum ys -> xs = ys.
  Proof.
    induction xs; intros [|y ys] H; simpl in H; try discriminate; [reflexivity|].
    injection H as -> H. f_equal. apply IHxs; exact H.
  Qed.

  Lemma vote_value_fun : forall (v : pyv T) xs ys, vote_value v xs -> vote_value v ys -> xs = ys.
  Proof.
    intros v xs ys H1 H2. destruct H1; inversion H2; subst; try reflexivity.
    match goal with H : map PNum _ = map PNum _ |- _ => apply map_PNum_inj in H; congruence end.
  Qed.

  Lemma assign_reps_Ok : forall R (v : pyv T) r,
    1 <= R -> (assign_reps R v = Ok r <->
      exists xs, vote_value v xs /\ length xs <= R /\ r = xs ++ repeat nnan (R - length xs)).
  Proof.
    intros R v r HR. destruct v as [x|b l|l]; simpl.
    - destruct R as [|R]; [lia|]. split.
      + intros [= <-]. exists [x]. split; [constructor|]. simpl. rewrite Nat.sub_0_r. split; [lia|reflexivity].
      + intros (xs & Hv & Hl & ->). inversion Hv; subst. simpl. rewrite Nat.sub_0_r. reflexivity.
    - split.
      + destruct (nums l) as [xs|] eqn:E; [|discriminate].
        destruct (Nat.leb_spec (length xs) R); [|discriminate].
        intros [= <-]. exists xs. apply nums_inv in E. subst. split; [constructor|auto].
      + intros (xs & Hv & Hl & ->). inversion Hv; subst. rewrite nums_map.
        destruct (Nat.leb_spec (length xs) R); [reflexivity|lia].
    - split.
      + destruct l as [|x [|? ?]]; try discriminate. destruct R as [|R]; [discriminate|].
        intros [= <-]. exists [x]. split; [constructor|]. simpl. rewrite Nat.sub_0_r. split; [lia|reflexivity].
      + intros (xs & Hv & Hl & ->). inversion Hv; subst. destruct R as [|R]; [lia|].
        simpl. rewrite Nat.sub_0_r. reflexivity.
  Qed.

  Lemma nth_pad : forall (xs : list T) R k, k < R -> length xs <= R ->
    nth k (xs ++ repeat nnan (R - length xs)) nnan = nth k xs nnan.
  Proof.
    intros xs R k Hk Hl. destruct (Nat.lt_ge_cases k (length xs)).
    - apply app_nth1; assumption.
    - rewrite app_nth2 by assumption. rewrite (nth_overflow xs) by assumption.
      destruct (Nat.lt_ge_cases (k - length xs) (R - length xs)).
      + apply nth_repeat.
      + apply nth_overflow. rewrite repeat_length. assumption.
  Qed.

  (** ** Repetition count *)
  Lemma fold_bump : forall (vs : list (pyv T)) m,
    m <= fold_left bump_reps vs m /\
    (forall b l, In (PSeq b l) vs -> length l <= fold_left bump_reps vs m) /\
    (fold_left bump_reps vs m = m \/ exists b l, In (PSeq b l) vs /\ length l = fold_left bump_reps vs m).
  Proof.
    induction vs as [|v vs IH]; intros m; simpl.
    - repeat split; [lia|intros ? ? []|left; reflexivity].
    - destruct (IH (bump_reps m v)) as (H1 & H2 & H3).
      assert (Hm : m <= bump_reps m v).
      { destruct v; simpl; try lia. destruct (Nat.ltb_spec m (length l)); lia. }
      repeat split.
      + lia.
      + intros b l [->|Hin]; [|apply (H2 b l); exact Hin].
        eapply Nat.le_trans; [|exact H1]. simpl. destruct (Nat.ltb_spec m (length l)); lia.
      + destruct H3 as [H3|(b & l & Hin & Hl)]; [|right; exists b, l; auto].
        rewrite H3. destruct v as [|b l|]; simpl; auto.
        destruct (Nat.ltb_spec m (length l)); auto.
        right. exists b, l. auto.
  Qed.

  (** All vote values of a video. *)
  Definition os_vals (dv : dv_t) : list (pyv T) :=
    match dv_os dv with Some (OSeq _ l) => l | Some (ODict d) => map snd d | _ => [] end.

  Lemma inner_bump : forall (dv : dv_t) b l S m,
    dv_os dv = Some (OSeq b l) -> length l = S ->
    foldM (fun m i => do v <- os_index dv i; Ok (bump_reps m v)) (seq 0 S) m = Ok (fold_left bump_reps l m).
  Proof.
    intros dv b l S m H HS.
    assert (G : forall k l2 m, l = (firstn k l) ++ l2 -> k + length l2 = S ->
       foldM (fun m i => do v <- os_index dv i; Ok (bump_reps m v)) (seq k (length l2)) m
       = Ok (fold_left bump_reps l2 m)).
    { intros k l2; revert k. induction l2 as [|v l2 IH]; intros k m0 E L; simpl; [reflexivity|].
      unfold os_index at 1, get_os at 1. rewrite H. simpl.
      assert (Hk : nth_error l k = Some v).
      { rewrite E. rewrite nth_error_app2; rewrite firstn_length; simpl in L;
        replace (Nat.min k (length l)) with k by lia; [|lia]. rewrite Nat.sub_diag. reflexivity. }
      unfold py_index. rewrite Hk. simpl. apply IH; [|simpl in L; lia].
      rewrite E at 1.
      assert (firstn (Datatypes.S k) l = firstn k l ++ [v]).
      { clear - Hk. revert k Hk. induction l as [|a l IH]; intros [|k] Hk; simpl in *; try discriminate.
        - injection Hk as <-. reflexivity.
        - f_equal. apply IH; exact Hk. }
      rewrite H0. rewrite <- app_assoc. reflexivity. }
    specialize (G 0 l m eq_refl). rewrite HS in G. apply G. reflexivity.
  Qed.

  Lemma list_style_cons : forall (dv : dv_t) dvs S,
    list_style (dv :: dvs) S <-> (exists b l, dv_os dv = Some (OSeq b l) /\ length l = S) /\ list_style dvs S.
  Proof. intros. unfold list_style. rewrite Forall_cons_iff. reflexivity. Qed.

  Lemma list_first : forall (dvs : list dv_t) S, dvs <> [] -> list_style dvs S ->
    exists b l, first_os dvs = Ok (OSeq b l).
  Proof.
    intros [|dv dvs] S Hne H; [contradiction|]. apply list_style_cons in H as [(b & l & E & _) _].
    exists b, l. unfold first_os, py_index, get_os. simpl. rewrite E. reflexivity.
  Qed.

  Lemma max_reps_list : forall (dvs : list dv_t) S, dvs <> [] -> list_style dvs S ->
    get_max_repetitions dvs (Ok S) = Ok (fold_left bump_reps (flat_map os_vals dvs) 1).
  Proof.
    intros dvs S Hne H. unfold get_max_repetitions.
    destruct (list_first dvs S Hne H) as (b0 & l0 & E0). rewrite E0. cbn [bind].
    clear Hne b0 l0 E0. generalize 1 as m. revert H. generalize dvs as ds. clear dvs.
    induction ds as [|dv ds IH]; intros H m; simpl; [reflexivity|].
    apply list_style_cons in H as [(b & l & E & Hl) H].
    erewrite inner_bump by eassumption. simpl. rewrite IH by assumption.
    rewrite fold_left_app. f_equal. f_equal. unfold os_vals. rewrite E. reflexivity.
  Qed.

  Lemma dict_style_cons : forall (dv : dv_t) dvs,
    dict_style (dv :: dvs) <-> (exists d, dv_os dv = Some (ODict d) /\ NoDup (map fst d)) /\ dict_style dvs.
  Proof. intros. unfold dict_style. rewrite Forall_cons_iff. reflexivity. Qed.

  Lemma dict_first : forall dvs : list dv_t, dvs <> [] -> dict_style dvs ->
    exists d, first_os dvs = Ok (ODict d).
  Proof.
    intros [|dv dvs] Hne H; [contradiction|]. apply dict_style_cons in H as [(d & E & _) _].
    exists d. unfold first_os, py_index, get_os. simpl. rewrite E. reflexivity.
  Qed.

  Lemma max_reps_dict : forall (dvs : list dv_t) nobs, dvs <> [] -> dict_style dvs ->
    get_max_repetitions dvs nobs = Ok (fold_left bump_reps (flat_map os_vals dvs) 1).
  Proof.
    intros dvs nobs Hne H. unfold get_max_repetitions.
    destruct (dict_first dvs Hne H) as (d0 & E0). rewrite E0. cbn [bind].
    clear Hne d0 E0. generalize 1 as m. revert H. generalize dvs as ds. clear dvs.
    induction ds as [|dv ds IH]; intros H m; simpl; [reflexivity|].
    apply dict_style_cons in H as [(d & E & Hl) H].
    unfold get_os at 1. rewrite E. simpl. rewrite IH by assumption.
    rewrite fold_left_app. f_equal. f_equal. unfold os_vals. rewrite E. reflexivity.
  Qed.

  Lemma some_vote_vals : forall (dvs : list dv_t) v, some_vote dvs v <-> In v (flat_map os_vals dvs).
  Proof.
    intros dvs v. rewrite in_flat_map. unfold some_vote, os_vals. split.
    - intros (dv & Hin & [(b & l & E & Hv)|(d & n & E & Hv)]); exists dv; split; auto; rewrite E; auto.
      apply in_map_iff. exists (n, v); auto.
    - intros (dv & Hin & Hv). exists dv. split; [exact Hin|].
      destruct (dv_os dv) as [[b l|d|]|]; try contradiction.
      + left. exists b, l; auto.
      + right. apply in_map_iff in Hv as ((n & v') & E & Hv). simpl in E; subst. exists d, n; auto.
  Qed.

  Lemma max_reps_spec : forall (dvs : list dv_t),
    (forall v, some_vote dvs v -> exists xs, vote_value v xs) ->
    max_repetitions dvs (fold_left bump_reps (flat_map os_vals dvs) 1).
  Proof.
    intros dvs Hwf. destruct (fold_bump (flat_map os_vals dvs) 1) as (H1 & H2 & H3).
    set (R := fold_left bump_reps (flat_map os_vals dvs) 1) in *.
    unfold max_repetitions. repeat split.
    - exact H1.
    - intros v xs Hs Hv. apply some_vote_vals in Hs. inversion Hv; subst; simpl; try lia.
      specialize (H2 b (map PNum xs) Hs). rewrite map_length in H2. exact H2.
    - destruct H3 as [H3|(b & l & Hin & Hl)]; [left; exact H3|right].
      assert (Hs : some_vote dvs (PSeq b l)) by (apply some_vote_vals; exact Hin).
      destruct (Hwf _ Hs) as (xs & Hv). exists (PSeq b l), xs. repeat split; try assumption.
      inversion Hv; subst. rewrite map_length in Hl. exact Hl.
  Qed.

  Lemma bump_ge1 : forall vs : list (pyv T), 1 <= fold_left bump_reps vs 1.
  Proof. intro vs. apply fold_bump. Qed.

  Lemma votes_wf_some : forall dvs : list dv_t, votes_wf dvs ->
    forall v, some_vote dvs v -> exists xs, vote_value v xs.
  Proof.
    intros dvs H v (dv & Hin & Hv). unfold votes_wf in H. rewrite Forall_forall in H.
    specialize (H dv Hin). destruct Hv as [(b & l & E & Hv)|(d & n & E & Hv)]; rewrite E in H;
    rewrite Forall_forall in H.
    - apply H; exact Hv.
    - apply (H (n, v)); exact Hv.
  Qed.

  (** ** Observers (C02) *)
  Lemma get_list_observers_dict : forall dvs : list dv_t, dict_style dvs ->
    exists names, get_list_observers dvs = Ok names /\ observer_names dvs names.
  Proof.
    intros dvs H. unfold get_list_observers.
    assert (E : exists ds, mapM os_dict dvs = Ok ds).
    { apply mapM_total. intros dv Hin. unfold dict_style in H. rewrite Forall_forall in H.
      destruct (H dv Hin) as (d & E & _). exists d. unfold os_dict, get_os. rewrite E. reflexivity. }
    destruct E as (ds & E). rewrite E. simpl. eexists. split; [reflexivity|].
    split.
    - assert (Hs := usl_Sorted String.eqb str_leb str_leb_total str_leb_trans (flat_map dkeys ds)).
      assert (Hn := usl_NoDup String.eqb str_leb string_eqb_spec (flat_map dkeys ds)).
      revert Hs Hn. generalize (get_unique_sorted_list String.eqb str_leb (flat_map dkeys ds)) as l.
      induction l as [|a l IH]; intros Hs Hn; constructor.
      + inversion Hs; inversion Hn; subst. apply IH; assumption.
      + inversion Hs; inversion Hn; subst. rewrite Forall_forall in *. intros x Hx.
        split; [apply H3; exact Hx|]. intros ->. contradiction.
    - intro n. rewrite (usl_In String.eqb str_leb string_eqb_spec).
      apply mapM_Ok in E. rewrite in_flat_map. split.
      + intros (d & Hd & Hn). unfold dkeys in Hn. apply in_map_iff in Hn as ((n' & v) & En & Hv). simpl in En; subst.
        assert (Hdv : exists dv, In dv dvs /\ os_dict dv = Ok d).
        { clear - E Hd. induction E; [contradiction|]. destruct Hd as [<-|Hd]; [eexists; split; [left; reflexivity|exact H]|].
          destruct (IHE Hd) as (dv & Hdv & Eq). exists dv; split; [right; exact Hdv|exact Eq]. }
        destruct Hdv as (dv & Hin & Eq). exists dv, d, v. repeat split; try assumption.
        unfold os_dict, get_os in Eq. destruct (dv_os dv) as [[| |]|]; simpl in Eq; try discriminate. congruence.
      + intros (dv & d & v & Hin & Eo & Hv). exists d. split.
        * clear - E Hin Eo. induction E; [contradiction|]. destruct Hin as [<-|Hin].
          -- left. unfold os_dict, get_os in H. rewrite Eo in H. simpl in H. congruence.
          -- right. apply IHE; exact Hin.
        * unfold dkeys. apply in_map_iff. exists (n, v). auto.
  Qed.

  Lemma sorted_lt_le : forall l, StronglySorted str_lt l ->
    StronglySorted (fun a b => str_leb a b = true) l /\ NoDup l.
  Proof.
    induction l as [|a l IH]; intro H; [split; constructor|].
    inversion H; subst. destruct (IH H2) as [I1 I2]. rewrite Forall_forall in H3. split.
    - constructor; [exact I1|]. rewrite Forall_forall. intros x Hx. apply H3; exact Hx.
    - constructor; [|exact I2]. intro Ha. destruct (H3 a Ha) as [_ Hne]. contradiction.
  Qed.

  Lemma observer_names_unique : forall (dvs dvs' : list dv_t) n1 n2,
    observer_names dvs n1 -> observer_names dvs' n2 ->
    (forall n, (exists dv d v, In dv dvs /\ dv_os dv = Some (ODict d) /\ In (n, v) d) <->
               (exists dv d v, In dv dvs' /\ dv_os dv = Some (ODict d) /\ In (n, v) d)) ->
    n1 = n2.
  Proof.
    intros dvs dvs' n1 n2 [S1 I1] [S2 I2] H.
    apply sorted_lt_le in S1 as [S1 N1]. apply sorted_lt_le in S2 as [S2 N2].
    apply (sorted_unique str_leb str_leb_antisym); try assumption.
    intro x. rewrite I1, I2. apply H.
  Qed.

  (** ** The array (C01) *)
  Definition listed_rows (R : nat) (dvs : list dv_t) (rows : list (list (list T))) (S : nat) :=
    mapM (fun dv => do n <- Ok S;
                do cells <- mapM (fun s => do v <- os_index dv s; assign_reps R v) (seq 0 n);
                Ok (cells ++ repeat (repeat nnan R) (S - n))) dvs = Ok rows.

  Lemma list_num_observers : forall (dvs : list dv_t) S, dvs <> [] -> list_style dvs S ->
    get_num_observers dvs = Ok S.
  Proof.
    intros [|dv dvs] S Hne H; [contradiction|].
    apply list_style_cons in H as [(b & l & E & Hl) _].
    unfold get_num_observers, first_os, py_index, get_os. simpl. rewrite E. simpl. rewrite Hl. reflexivity.
  Qed.

  Lemma array_list_sound : forall (dvs : list dv_t) S a,
    dvs <> [] -> list_style dvs S ->
    opinion_score_3darray_with dvs (get_num_observers dvs) = Ok a ->
    dE a = length dvs /\ dS a = S /\ max_repetitions dvs (dR a) /\
    forall e dv s, nth_error dvs e = Some dv -> s < S ->
      exists xs, voted_list dv s xs /\
        forall k, k < dR a -> at3 a e s k = nth k xs nnan.
  Proof.
    intros dvs S a Hne HL H. unfold opinion_score_3darray_with, opinion_rows in H.
    rewrite (list_num_observers _ _ Hne HL) in H. cbn [bind] in H.
    rewrite (max_reps_list _ _ Hne HL) in H. cbn [bind] in H.
    set (R := fold_left bump_reps (flat_map os_vals dvs) 1) in *.
    destruct (first_os dvs) as [o0|] eqn:E0; cbn [bind] in H; [|discriminate].
    assert (Ho : exists b l, o0 = OSeq b l).
    { destruct dvs as [|dv0 dvs0]; [contradiction|].
      apply list_style_cons in HL as [(b & l & E & _) _].
      unfold first_os, py_index, get_os in E0. simpl in E0. rewrite E in E0. injection E0 as <-. eauto. }
    destruct Ho as (b0 & l0 & ->).
    match type of H with bind (bind ?m _) _ = _ => destruct m as [rows|] eqn:Er end; [|discriminate].
    cbn [bind] in H. injection H as <-. simpl.
    assert (HR : 1 <= R) by apply bump_ge1.
    assert (Hcells : forall e dv s, nth_error dvs e = Some dv -> s < S ->
       exists xs, voted_list dv s xs /\ length xs <= R /\
         nth s (nth e rows []) [] = xs ++ repeat nnan (R - length xs)).
    { intros e dv s He Hs. destruct (mapM_nth _ _ _ _ _ _ _ Er He) as (rw & Hrw & Hf).
      destruct (mapM _ (seq 0 S)) as [cells|] eqn:Ec; [|discriminate]. injection Hf as <-.
      assert (Hn := nth_error_seq S s Hs).
      destruct (mapM_nth _ _ _ _ _ _ _ Ec Hn) as (c & Hc & Hcf).
      apply bind_Ok in Hcf as (v & Hv & Ha). apply assign_reps_Ok in Ha; [|exact HR].
      destruct Ha as (xs & Hx & Hl & ->). exists xs. split; [|split; [exact Hl|]].
      - unfold list_style in HL. rewrite Forall_forall in HL.
        destruct (HL dv (nth_error_In _ _ He)) as (b & l & E & Hl').
        exists b, l, v. unfold os_index, get_os in Hv. rewrite E in Hv. simpl in Hv.
        unfold py_index in Hv. destruct (nth_error l s) eqn:El; [|discriminate]. injection Hv as <-. auto.
      - rewrite (nth_error_nth_d _ rows e _ [] Hrw). rewrite app_nth1.
        + apply nth_error_nth_d; exact Hc.
        + apply nth_error_Some. rewrite Hc. discriminate. }
    repeat split.
    - exact HR.
    - intros v xs Hs Hv. apply some_vote_vals in Hs.
      destruct (fold_bump (flat_map os_vals dvs) 1) as (_ & H2 & _).
      inversion Hv; subst; simpl; try lia. specialize (H2 b (map PNum xs) Hs). rewrite map_length in H2. exact H2.
    - destruct (fold_bump (flat_map os_vals dvs) 1) as (_ & _ & [H3|(b & l & Hin & Hl)]); [left; exact H3|right].
      assert (Hs : some_vote dvs (PSeq b l)) by (apply some_vote_vals; exact Hin).
      assert (Hin' := Hs). destruct Hin' as (dv & Hdv & Hv).
      unfold list_style in HL. rewrite Forall_forall in HL.
      destruct (HL dv Hdv) as (b1 & l1 & E1 & Hl1).
      destruct Hv as [(b2 & l2 & E2 & Hv)|(d & n & E2 & Hv)]; [|congruence].
      rewrite E1 in E2. injection E2 as <- <-.
      apply In_nth_error in Hdv as (e & He). apply In_nth_error in Hv as (s & Hsn).
      destruct (Hcells e dv s He) as (xs & (b3 & l3 & v3 & E3 & Hn3 & Hv3) & Hlx & _).
      { rewrite <- Hl1. apply nth_error_Some. congruence. }
      rewrite E1 in E3. injection E3 as <- <-. rewrite Hsn in Hn3. injection Hn3 as <-.
      exists (PSeq b l), xs. repeat split; try assumption.
      inversion Hv3; subst. rewrite map_length in Hl. exact Hl.
    - intros e dv s He Hs. destruct (Hcells e dv s He Hs) as (xs & Hx & Hl & Hr).
      exists xs. split; [exact Hx|]. intros k Hk. rewrite Hr. apply nth_pad; assumption.
  Qed.

  Lemma array_list_total : forall (dvs : list dv_t) S,
    dvs <> [] -> list_style dvs S -> votes_wf dvs ->
    exists a, opinion_score_3darray_with dvs (get_num_observers dvs) = Ok a.
  Proof.
    intros dvs S Hne HL Hwf. unfold opinion_score_3darray_with, opinion_rows.
    rewrite (list_num_observers _ _ Hne HL). cbn [bind].
    rewrite (max_reps_list _ _ Hne HL). cbn [bind].
    assert (HM := max_reps_spec dvs (votes_wf_some dvs Hwf)).
    set (R := fold_left bump_reps (flat_map os_vals dvs) 1) in *.
    destruct HM as (HR & HM & _).
    assert (Ho : exists b l, first_os dvs = Ok (OSeq b l)).
    { destruct dvs as [|dv0 dvs0]; [contradiction|].
      apply list_style_cons in HL as [(b & l & E & _) _].
      unfold first_os, py_index, get_os. simpl. rewrite E. simpl. eauto. }
    destruct Ho as (b0 & l0 & ->). cbn [bind].
    match goal with |- exists a, bind (bind ?m _) _ = _ => assert (Hm : exists rows, m = Ok rows) end.
    { apply mapM_total. intros dv Hdv. unfold list_style in HL. rewrite Forall_forall in HL.
      destruct (HL dv Hdv) as (b & l & E & Hl).
      match goal with |- exists b, bind ?m _ = _ => assert (Hm : exists rows, m = Ok rows) end.
      { apply mapM_total. intros s Hs. apply in_seq in Hs.
        destruct (nth_error l s) as [v|] eqn:Ev; [|apply nth_error_None in Ev; lia].
        unfold os_index, get_os. rewrite E. simpl. unfold py_index. rewrite Ev. simpl.
        assert (Hsome : some_vote dvs v).
        { exists dv. split; [exact Hdv|left]. exists b, l. split; [exact E|eapply nth_error_In; exact Ev]. }
        destruct (votes_wf_some dvs Hwf v Hsome) as (xs & Hx).
        eexists. apply assign_reps_Ok; [exact HR|]. exists xs. split; [exact Hx|]. split; [eapply HM; eassumption|reflexivity]. }
      destruct Hm as (c & Hc). rewrite Hc. simpl. eexists; reflexivity. }
    destruct Hm as (rows & Hr). rewrite Hr. simpl. eexists; reflexivity.
  Qed.

  Lemma dict_num_observers : forall (dvs : list dv_t) names, dvs <> [] -> dict_style dvs ->
    get_list_observers dvs = Ok names -> get_num_observers dvs = Ok (length names).
  Proof.
    intros dvs names Hne H E. unfold get_num_observers.
    destruct (dict_first dvs Hne H) as (d & ->). simpl. rewrite E. reflexivity.
  Qed.

  Lemma array_dict_sound : forall (dvs : list dv_t) names nobs a,
    dvs <> [] -> dict_style dvs -> observer_names dvs names ->
    opinion_score_3darray_with dvs nobs = Ok a ->
    dE a = length dvs /\ dS a = length names /\ max_repetitions dvs (dR a) /\
    forall e dv s name, nth_error dvs e = Some dv -> nth_error names s = Some name ->
      exists xs, voted_dict dv name xs /\
        forall k, k < dR a -> at3 a e s k = nth k xs nnan.
  Proof.
    intros dvs names nobs a Hne HD Hnm H.
    destruct (get_list_observers_dict dvs HD) as (names' & En & Hn').
    assert (names' = names).
    { eapply observer_names_unique; [exact Hn'|exact Hnm|]. intros; reflexivity. }
    subst names'. unfold opinion_score_3darray_with, opinion_rows in H.
    rewrite (dict_num_observers _ _ Hne HD En) in H. cbn [bind] in H.
    rewrite (max_reps_dict _ _ Hne HD) in H. cbn [bind] in H.
    set (R := fold_left bump_reps (flat_map os_vals dvs) 1) in *.
    destruct (dict_first dvs Hne HD) as (d0 & E0). rewrite E0 in H. cbn [bind] in H.
    rewrite En in H. cbn [bind] in H.
    match type of H with bind (bind ?m _) _ = _ => destruct m as [rows|] eqn:Er end; [|discriminate].
    cbn [bind] in H. injection H as <-. simpl.
    assert (HR : 1 <= R) by apply bump_ge1.
    assert (Hcells : forall e dv s name, nth_error dvs e = Some dv -> nth_error names s = Some name ->
       exists xs, voted_dict dv name xs /\ length xs <= R /\
         nth s (nth e rows []) [] = xs ++ repeat nnan (R - length xs)).
    { intros e dv s name He Hs. destruct (mapM_nth _ _ _ _ _ _ _ Er He) as (rw & Hrw & Hf).
      unfold dict_style in HD. rewrite Forall_forall in HD.
      destruct (HD dv (nth_error_In _ _ He)) as (d & Ed & Nd).
      unfold os_dict, get_os in Hf. rewrite Ed in Hf. cbn [bind] in Hf.
      destruct (mapM_nth _ _ _ _ _ _ _ Hf Hs) as (c & Hc & Hcf).
      rewrite (nth_error_nth_d _ rows e _ [] Hrw). rewrite (nth_error_nth_d _ rw s _ [] Hc).
      destruct (dget String.eqb d name) as [v|] eqn:Eg.
      - apply assign_reps_Ok in Hcf; [|exact HR]. destruct Hcf as (xs & Hx & Hl & ->).
        exists xs. split; [|auto]. exists d. split; [exact Ed|left]. exists v. split; [|exact Hx].
        apply (dget_In String.eqb string_eqb_spec); exact Eg.
      - injection Hcf as <-. exists []. split; [|split; [simpl; lia|simpl; rewrite Nat.sub_0_r; reflexivity]].
        exists d. split; [exact Ed|right]. split; [|reflexivity].
        apply (dget_None String.eqb string_eqb_spec); exact Eg. }
    repeat split.
    - exact HR.
    - intros v xs Hs Hv. apply some_vote_vals in Hs.
      destruct (fold_bump (flat_map os_vals dvs) 1) as (_ & H2 & _).
      inversion Hv; subst; simpl; try lia. specialize (H2 b (map PNum xs) Hs). rewrite map_length in H2. exact H2.
    - destruct (fold_bump (flat_map os_vals dvs) 1) as (_ & _ & [H3|(b & l & Hin & Hl)]); [left; exact H3|right].
      assert (Hs : some_vote dvs (PSeq b l)) by (apply some_vote_vals; exact Hin).
      assert (Hin' := Hs). destruct Hin' as (dv & Hdv & Hv).
      unfold dict_style in HD. rewrite Forall_forall in HD.
      destruct (HD dv Hdv) as (d1 & E1 & Nd).
      destruct Hv as [(b2 & l2 & E2 & Hv)|(d & n & E2 & Hv)]; [congruence|].
      rewrite E1 in E2. injection E2 as <-.
      destruct Hnm as [_ Hnm]. assert (Hnin : In n names) by (apply Hnm; exists dv, d1, (PSeq b l); auto).
      apply In_nth_error in Hdv as (e & He). apply In_nth_error in Hnin as (s & Hsn).
      destruct (Hcells e dv s n He Hsn) as (xs & (d2 & E2 & Hv2) & Hlx & _).
      rewrite E1 in E2. injection E2 as <-.
      destruct Hv2 as [(v & Hv2 & Hv3)|[Hv2 _]].
      + assert (v = PSeq b l).
        { apply (In_dget String.eqb string_eqb_spec) in Hv; [|exact Nd].
          apply (In_dget String.eqb string_eqb_spec) in Hv2; [|exact Nd]. congruence. }
        subst v. exists (PSeq b l), xs. repeat split; try assumption.
        inversion Hv3; subst. rewrite map_length in Hl. exact Hl.
      + exfalso. apply Hv2. apply in_map_iff. exists (n, PSeq b l). auto.
    - intros e dv s name He Hs. destruct (Hcells e dv s name He Hs) as (xs & Hx & Hl & Hr).
      exists xs. split; [exact Hx|]. intros k Hk. rewrite Hr. apply nth_pad; assumption.
  Qed.

  Lemma array_dict_total : forall (dvs : list dv_t) nobs,
    dvs <> [] -> dict_style dvs -> votes_wf dvs ->
    exists a, opinion_score_3darray_with dvs nobs = Ok a.
  Proof.
    intros dvs nobs Hne HD Hwf.
    destruct (get_list_observers_dict dvs HD) as (names & En & _).
    unfold opinion_score_3darray_with, opinion_rows.
    rewrite (dict_num_observers _ _ Hne HD En). cbn [bind].
    rewrite (max_reps_dict _ _ Hne HD). cbn [bind].
    assert (HM := max_reps_spec dvs (votes_wf_some dvs Hwf)).
    set (R := fold_left bump_reps (flat_map os_vals dvs) 1) in *.
    destruct HM as (HR & HM & _).
    destruct (dict_first dvs Hne HD) as (d0 & E0). rewrite E0, En. cbn [bind].
    match goal with |- exists a, bind (bind ?m _) _ = _ => assert (Hm : exists rows, m = Ok rows) end.
    { apply mapM_total. intros dv Hdv. unfold dict_style in HD. rewrite Forall_forall in HD.
      destruct (HD dv Hdv) as (d & Ed & Nd). unfold os_dict, get_os. rewrite Ed. cbn [bind].
      apply mapM_total. intros name Hname.
      destruct (dget String.eqb d name) as [v|] eqn:Eg; [|eexists; reflexivity].
      apply (dget_In String.eqb string_eqb_spec) in Eg.
      assert (Hsome : some_vote dvs v).
      { exists dv. split; [exact Hdv|right]. exists d, name. auto. }
      destruct (votes_wf_some dvs Hwf v Hsome) as (xs & Hx).
      eexists. apply assign_reps_Ok; [exact HR|]. exists xs. split; [exact Hx|]. split; [eapply HM; eassumption|reflexivity]. }
    destruct Hm as (rows & Hr). rewrite Hr. simpl. eexists; reflexivity.
  Qed.

  (** ** Reordering (C02) *)
  Lemma voted_dict_fun : forall (dv : dv_t) name xs ys d,
    dv_os dv = Some (ODict d) -> NoDup (map fst d) ->
    voted_dict dv name xs -> voted_dict dv name ys -> xs = ys.
  Proof.
    intros dv name xs ys d E Nd (d1 & E1 & H1) (d2 & E2 & H2).
    rewrite E in E1, E2. injection E1 as <-. injection E2 as <-.
    assert (K1 : forall v, In (name, v) d -> ~ In name (map fst d) -> False).
    { intros v Hv Hn. apply Hn. apply in_map_iff. exists (name, v); auto. }
    destruct H1 as [(v1 & I1 & V1)|[N1 ->]], H2 as [(v2 & I2 & V2)|[N2 ->]].
    - apply (In_dget String.eqb string_eqb_spec) in I1; [|exact Nd].
      apply (In_dget String.eqb string_eqb_spec) in I2; [|exact Nd].
      rewrite I1 in I2. injection I2 as ->. eapply vote_value_fun; eassumption.
    - exfalso; eapply K1; eassumption.
    - exfalso; eapply K1; eassumption.
    - reflexivity.
  Qed.

  Lemma same_votes_voted : forall (dv dv' : dv_t) name xs,
    same_votes dv dv' -> voted_dict dv name xs -> voted_dict dv' name xs.
  Proof.
    intros dv dv' name xs (d & d' & E & E' & P) (d1 & E1 & H).
    rewrite E in E1. injection E1 as <-. exists d'. split; [exact E'|].
    destruct H as [(v & I & V)|[Hn ->]].
    - left. exists v. split; [|exact V]. eapply Permutation_in; eassumption.
    - right. split; [|reflexivity]. intro H. apply Hn.
      eapply Permutation_in; [|exact H]. apply Permutation_map. symmetry. exact P.
  Qed.

  Lemma Forall2_In_l : forall A B (P : A -> B -> Prop) l l' a,
    Forall2 P l l' -> In a l -> exists b, In b l' /\ P a b.
  Proof.
    intros A B P l l' a H. induction H; intros Ha; [contradiction|].
    destruct Ha as [->|Ha]; [eexists; split; [left; reflexivity|assumption]|].
    destruct (IHForall2 Ha) as (b & Hb & Pb). exists b; split; [right; exact Hb|exact Pb].
  Qed.

  Lemma Forall2_In_r : forall A B (P : A -> B -> Prop) l l' b,
    Forall2 P l l' -> In b l' -> exists a, In a l /\ P a b.
  Proof.
    intros A B P l l' b H. induction H; intros Hb; [contradiction|].
    destruct Hb as [->|Hb]; [eexists; split; [left; reflexivity|assumption]|].
    destruct (IHForall2 Hb) as (a & Ha & Pa). exists a; split; [right; exact Ha|exact Pa].
  Qed.

  Lemma reordered_entries : forall (dvs dvs' : list dv_t) n v, reordered dvs dvs' ->
    ((exists dv d, In dv dvs /\ dv_os dv = Some (ODict d) /\ In (n, v) d) <->
     (exists dv d, In dv dvs' /\ dv_os dv = Some (ODict d) /\ In (n, v) d)).
  Proof.
    intros dvs dvs' n v (mid & P & F). split.
    - intros (dv & d & Hin & E & Hv). apply (Permutation_in _ P) in Hin.
      destruct (Forall2_In_l _ _ _ _ _ _ F Hin) as (dv' & Hin' & (d1 & d2 & E1 & E2 & Pd)).
      rewrite E in E1. injection E1 as <-. exists dv', d2. repeat split; try assumption.
      eapply Permutation_in; eassumption.
    - intros (dv' & d' & Hin & E & Hv).
      destruct (Forall2_In_r _ _ _ _ _ _ F Hin) as (dv & Hin' & (d1 & d2 & E1 & E2 & Pd)).
      rewrite E in E2. injection E2 as <-. exists dv, d1. repeat split; try assumption.
      + eapply Permutation_in; [symmetry; exact P|exact Hin'].
      + eapply Permutation_in; [symmetry; exact Pd|exact Hv].
  Qed.

  Lemma reordered_dict_style : forall dvs dvs' : list dv_t,
    reordered dvs dvs' -> dict_style dvs -> dict_style dvs'.
  Proof.
    intros dvs dvs' (mid & P & F) H. unfold dict_style in *. rewrite Forall_forall in *.
    intros dv' Hin. destruct (Forall2_In_r _ _ _ _ _ _ F Hin) as (dv & Hin' & (d1 & d2 & E1 & E2 & Pd)).
    exists d2. split; [exact E2|].
    destruct (H dv) as (d & E & Nd); [eapply Permutation_in; [symmetry; exact P|exact Hin']|].
    rewrite E in E1. injection E1 as <-. eapply Permutation_NoDup; [apply Permutation_map; exact Pd|exact Nd].
  Qed.

  Lemma observers_reordered : forall dvs dvs' : list dv_t,
    dict_style dvs -> reordered dvs dvs' ->
    exists names, get_list_observers dvs = Ok names /\ get_list_observers dvs' = Ok names /\
      observer_names dvs names /\ observer_names dvs' names.
  Proof.
    intros dvs dvs' HD HR. assert (HD' := reordered_dict_style _ _ HR HD).
    destruct (get_list_observers_dict dvs HD) as (n1 & E1 & O1).
    destruct (get_list_observers_dict dvs' HD') as (n2 & E2 & O2).
    assert (n1 = n2).
    { apply (observer_names_unique dvs dvs'); try assumption. intro n. split.
      - intros (dv & d & v & H). destruct (proj1 (reordered_entries dvs dvs' n v HR)) as (dv' & d' & H'); [eauto|].
        exists dv', d', v; exact H'.
      - intros (dv & d & v & H). destruct (proj2 (reordered_entries dvs dvs' n v HR)) as (dv' & d' & H'); [eauto|].
        exists dv', d', v; exact H'. }
    subst n2. exists n1. auto.
  Qed.

  Lemma max_reps_unique : forall (dvs dvs' : list dv_t) R R',
    (forall v, some_vote dvs v <-> some_vote dvs' v) ->
    max_repetitions dvs R -> max_repetitions dvs' R' -> R = R'.
  Proof.
    intros dvs dvs' R R' H (A1 & A2 & A3) (B1 & B2 & B3).
    apply Nat.le_antisymm.
    - destruct A3 as [->|(v & xs & Hs & Hv & <-)]; [exact B1|]. eapply B2; [apply H; exact Hs|exact Hv].
    - destruct B3 as [->|(v & xs & Hs & Hv & <-)]; [exact A1|]. eapply A2; [apply H; exact Hs|exact Hv].
  Qed.

  Lemma some_vote_dict : forall (dvs : list dv_t) v, dict_style dvs ->
    (some_vote dvs v <-> exists n dv d, In dv dvs /\ dv_os dv = Some (ODict d) /\ In (n, v) d).
  Proof.
    intros dvs v H. unfold dict_style in H. rewrite Forall_forall in H. split.
    - intros (dv & Hin & [(b & l & E & _)|(d & n & E & Hv)]).
      + destruct (H dv Hin) as (d & E' & _). congruence.
      + exists n, dv, d. auto.
    - intros (n & dv & d & Hin & E & Hv). exists dv. split; [exact Hin|right]. exists d, n. auto.
  Qed.

  Lemma array_reordered : forall (dvs dvs' : list dv_t) nobs nobs' a a',
    dvs <> [] -> dict_style dvs -> reordered dvs dvs' ->
    opinion_score_3darray_with dvs nobs = Ok a ->
    opinion_score_3darray_with dvs' nobs' = Ok a' ->
    dS a = dS a' /\ dR a = dR a' /\
    forall e e' dv dv', nth_error dvs e = Some dv -> nth_error dvs' e' = Some dv' -> same_votes dv dv' ->
      forall s k, s < dS a -> k < dR a -> at3 a e s k = at3 a' e' s k.
  Proof.
    intros dvs dvs' nobs nobs' a a' Hne HD HR Ha Ha'.
    assert (HD' := reordered_dict_style _ _ HR HD).
    assert (Hne' : dvs' <> []).
    { intros ->. destruct HR as (mid & P & F). inversion F; subst. apply Permutation_sym, Permutation_nil in P. contradiction. }
    destruct (observers_reordered dvs dvs' HD HR) as (names & _ & _ & O1 & O2).
    destruct (array_dict_sound _ _ _ _ Hne HD O1 Ha) as (_ & S1 & R1 & C1).
    destruct (array_dict_sound _ _ _ _ Hne' HD' O2 Ha') as (_ & S2 & R2 & C2).
    assert (ER : dR a = dR a').
    { eapply max_reps_unique; [|exact R1|exact R2]. intro v. rewrite !some_vote_dict by assumption.
      split; intros (n & H); exists n; apply (reordered_entries dvs dvs' n v HR); exact H. }
    split; [congruence|]. split; [exact ER|].
    intros e e' dv dv' He He' Hsame s k Hs Hk.
    destruct (nth_error names s) as [name|] eqn:En; [|apply nth_error_None in En; lia].
    destruct (C1 e dv s name He En) as (xs & V1 & K1).
    destruct (C2 e' dv' s name He' En) as (ys & V2 & K2).
    rewrite K1 by exact Hk. rewrite K2 by lia. f_equal.
    apply (same_votes_voted _ _ _ _ Hsame) in V1.
    unfold dict_style in HD'. rewrite Forall_forall in HD'.
    destruct (HD' dv' (nth_error_In _ _ He')) as (d' & E' & Nd').
    eapply voted_dict_fun; eassumption.
  Qed.
End DP.

(** ** Validation (C03) *)
Section Valid.
  Context {T : Type} {N : Num T} {K : Type}.

  Lemma zmax_fold : forall l m x, In x l \/ (x <= m)%Z -> (x <= fold_left Z.max l m)%Z.
  Proof.
    induction l as [|a l IH]; intros m x H; simpl.
    - destruct H as [[]|H]; exact H.
    - apply IH. destruct H as [[->|H]|H]; [right; lia|left; exact H|right; lia].
  Qed.

  Lemma forM_res : forall A (f : A -> res unit) l r, forM_ f l = Ok r <-> (forall a, In a l -> f a = Ok tt).
  Proof. intros A f l []. apply forM_Ok. Qed.

  Lemma assert_dataset_raw_iff : forall (ds : dataset T K),
    (exists r, assert_dataset_raw (ds_refs ds) (ds_dis ds) = Ok r) <-> raw_dataset_ok ds.
  Proof.
    intro ds. unfold assert_dataset_raw, assert_dataset_base, raw_dataset_ok. split.
    - intros (r & H). apply bind_Ok in H as (u & H1 & H2).
      apply bind_Ok in H1 as (m & Hm & H1). apply bind_Ok in H1 as (u1 & Hc & Hd).
      apply bind_Ok in H2 as (u2 & Ho & H2). apply bind_Ok in H2 as (o0 & Hf & H2).
      rewrite forM_res in Hc, Hd, Ho.
      assert (A5 : forall dv, In dv (ds_dis ds) -> exists o, dv_os dv = Some o /\ o <> OOther).
      { intros dv Hdv. specialize (Ho dv Hdv). destruct (dv_os dv) as [o|]; [|discriminate].
        apply assert_Ok in Ho. exists o. split; [reflexivity|]. intros ->. discriminate. }
      repeat split.
      + intro E. rewrite E in Hm. discriminate.
      + intro E. rewrite E in Hf. discriminate.
      + intros rv Hr. specialize (Hc (rv_cid rv)). rewrite assert_Ok in Hc.
        assert (Hi : In (rv_cid rv) (map rv_cid (ds_refs ds))) by (apply in_map; exact Hr).
        apply Hc in Hi. apply andb_true_iff in Hi as [Hi _]. apply Z.leb_le. exact Hi.
      + intros dv Hdv. specialize (Hd dv Hdv). apply assert_Ok in Hd.
        apply (memb_In _ _ Z_eqb_spec) in Hd. apply in_map_iff in Hd as (rv & E & Hr). exists rv; auto.
      + exact A5.
      + intros dv0 rest b l0 E E0 dv o Hdv Eo. rewrite E in *.
        unfold first_os, py_index, get_os in Hf. simpl in Hf. rewrite E0 in Hf. injection Hf as <-.
        simpl in H2. rewrite forM_res in H2. specialize (H2 dv Hdv).
        unfold get_os in H2. rewrite Eo in H2. simpl in H2.
        destruct o as [b' l|d|]; simpl in H2; try discriminate.
        * left. exists b', l. split; [reflexivity|]. apply assert_Ok in H2. apply Nat.eqb_eq in H2. auto.
        * right. exists d. split; [reflexivity|]. apply assert_Ok in H2. apply Nat.eqb_eq in H2. auto.
    - intros (A1 & A2 & A3 & A4 & A5 & A6).
      destruct (map rv_cid (ds_refs ds)) as [|c cs] eqn:Ec; [destruct (ds_refs ds); [contradiction|discriminate]|].
      assert (Hc : forM_ (fun cid => assert_ ((0 <=? cid)%Z && (cid <? fold_left Z.max cs c + 1)%Z)) (c :: cs) = Ok tt).
      { apply forM_Ok. intros x Hx. apply assert_Ok. apply andb_true_iff. split.
        - apply Z.leb_le. assert (Hx' : In x (map rv_cid (ds_refs ds))) by (rewrite Ec; exact Hx).
          apply in_map_iff in Hx' as (rv & <- & Hr). apply A3; exact Hr.
        - apply Z.ltb_lt. enough (x <= fold_left Z.max cs c)%Z by lia. apply zmax_fold.
          destruct Hx as [<-|Hx]; [right; lia|left; exact Hx]. }
      simpl zmax_list. cbn [bind]. rewrite Hc. cbn [bind].
      assert (Hd : forM_ (fun dv : dvideo T K => assert_ (memb Z.eqb (dv_cid dv) (c :: cs))) (ds_dis ds) = Ok tt).
      { apply forM_Ok. intros dv Hdv. apply assert_Ok. apply (memb_In _ _ Z_eqb_spec). rewrite <- Ec.
        destruct (A4 dv Hdv) as (rv & Hr & <-). apply in_map. exact Hr. }
      rewrite Hd. cbn [bind].
      match goal with |- exists r, bind ?m _ = _ => assert (Ho : m = Ok tt) end.
      { apply forM_Ok. intros dv Hdv. destruct (A5 dv Hdv) as (o & -> & Hn). apply assert_Ok.
        destruct o; try reflexivity. contradiction. }
      rewrite Ho. cbn [bind]. destruct (ds_dis ds) as [|dv0 rest] eqn:Ed; [contradiction|].
      destruct (A5 dv0 (or_introl eq_refl)) as (o0 & E0 & Hn0).
      unfold first_os, py_index, get_os at 1. simpl nth_error. cbn [bind]. rewrite E0. cbn [bind].
      destruct o0 as [b l0|d0|]; simpl; [|exists tt; reflexivity|contradiction].
      exists tt. apply forM_Ok. intros dv Hdv.
      destruct (A5 dv (or_intror Hdv)) as (o & Eo & Hn). unfold get_os. rewrite Eo. simpl.
      destruct (A6 dv0 rest b l0 eq_refl E0 dv o Hdv Eo) as [(b' & l & -> & Hl)|(d & -> & Hl)]; simpl;
      apply assert_Ok; apply Nat.eqb_eq; auto.
  Qed.
End Valid.
