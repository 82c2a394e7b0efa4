(** The votes recorded in a dataset are the votes present in its array. *)
From Coq Require Import String.
From Coq Require Import List ZArith Bool Arith Lia Reals Permutation.
From Verif Require Import PyBase Num ExtReal NumPy Dataset BaseProofs ExtRealProofs SpecDataset SpecMos
  DatasetProofs ArrayProofs Preproc Mos.
Import ListNotations.
Local Open Scope list_scope.

Lemma presents_repeat_nan : forall n, presents (repeat NaN n) = [].
Proof. induction n; simpl; auto. Qed.

Lemma presents_nth_pad : forall (xs : list ef) R (f : nat -> ef), length xs <= R ->
  (forall k, k < R -> f k = nth k xs NaN) -> presents (map f (seq 0 R)) = presents xs.
Proof.
  intros xs R f Hl Hf.
  replace (map f (seq 0 R)) with (xs ++ repeat NaN (R - length xs)).
  - rewrite presents_app, presents_repeat_nan, app_nil_r. reflexivity.
  - apply nth_ext with (d := NaN) (d' := NaN).
    + rewrite app_length, repeat_length, map_length, seq_length. lia.
    + intros k Hk. rewrite app_length, repeat_length in Hk. rewrite nth_map_seq by lia.
      rewrite Hf by lia. apply (@nth_pad ef Num_ef); [lia|exact Hl].
Qed.

(** The numbers a vote stands for. *)
Definition pv (v : pyv ef) : list ef :=
  match v with
  | PNum x => [x]
  | PSeq _ l => match nums l with Some xs => xs | None => [] end
  | PArr l => l
  end.
Lemma pv_value : forall v xs, vote_value v xs -> pv v = xs.
Proof. intros v xs []; simpl; try reflexivity. rewrite nums_map. reflexivity. Qed.
Lemma pv_concat : forall l xss, Forall2 vote_value l xss -> concat xss = flat_map pv l.
Proof. intros l xss H; induction H; simpl; [reflexivity|]. rewrite (pv_value _ _ H), IHForall2. reflexivity. Qed.

Lemma flat_map_seq_nth : forall A B (g : A -> list B) (l : list A) (f : nat -> list B),
  (forall s v, nth_error l s = Some v -> f s = g v) ->
  flat_map f (seq 0 (length l)) = flat_map g l.
Proof.
  intros A B g l f H.
  assert (G : forall l k, (forall s v, nth_error l s = Some v -> f (k + s) = g v) ->
            flat_map f (seq k (length l)) = flat_map g l).
  { induction l0 as [|v l0 IH]; intros k Hk; simpl; [reflexivity|].
    f_equal.
    - rewrite <- (Hk 0 v eq_refl). f_equal. lia.
    - apply IH. intros s w Hs. rewrite <- (Hk (S s) w Hs). f_equal. lia. }
  apply G. intros; apply H; assumption.
Qed.

Lemma dict_flat_map : forall B (g : pyv ef -> list B) (d : list (string * pyv ef)) names,
  NoDup names -> NoDup (map fst d) -> (forall n, In n (map fst d) -> In n names) ->
  Permutation (flat_map (fun n => match dget String.eqb d n with Some v => g v | None => [] end) names)
              (flat_map g (map snd d)).
Proof.
  intros B g d; induction d as [|[k v] d IH]; intros names Hn Hd Hin; simpl.
  - clear. induction names; simpl; auto.
  - simpl in Hd. inversion Hd as [|? ? Hk Hd']; subst.
    assert (Hkn : In k names) by (apply Hin; left; reflexivity).
    apply in_split in Hkn as (n1 & n2 & ->).
    assert (Hn' := NoDup_remove_1 _ _ _ Hn). assert (Hknot := NoDup_remove_2 _ _ _ Hn).
    rewrite flat_map_app. simpl. rewrite String.eqb_refl.
    assert (K : forall n, In n (n1 ++ n2) ->
       (fun n => match (if String.eqb n k then Some v else dget String.eqb d n) with Some v0 => g v0 | None => [] end) n =
       (fun n => match dget String.eqb d n with Some v0 => g v0 | None => [] end) n).
    { intros n Hi. destruct (String.eqb_spec n k); [subst; contradiction|reflexivity]. }
    rewrite (flat_map_ext_in _ _ _ _ n1 (fun n h => K n (in_or_app _ _ _ (or_introl h)))).
    rewrite (flat_map_ext_in _ _ _ _ n2 (fun n h => K n (in_or_app _ _ _ (or_intror h)))).
    rewrite <- (IH (n1 ++ n2)); [|exact Hn'|exact Hd'|].
    + rewrite flat_map_app. rewrite Permutation_app_swap_app. reflexivity.
    + intros n Hi. assert (Hi' := Hin n (or_intror Hi)). apply in_app_iff in Hi'. apply in_app_iff.
      destruct Hi' as [|[->|]]; auto. contradiction.
Qed.

Lemma recorded_list : forall dvs S a e dv vs,
  dvs <> [] -> list_style dvs S ->
  opinion_score_3darray_with dvs (get_num_observers dvs) = Ok a ->
  nth_error dvs e = Some dv -> recorded dv vs -> Permutation (presents vs) (video_votes a e).
Proof.
  intros dvs S a e dv vs Hne HL HA He Hr.
  destruct (array_list_sound dvs S a Hne HL HA) as (HE & HS & (_ & HR & _) & Hat).
  assert (HL' := HL). unfold list_style in HL'. rewrite Forall_forall in HL'.
  assert (Hdv := nth_error_In _ _ He).
  destruct (HL' dv Hdv) as (b & l & Eos & Hlen).
  destruct Hr as [(b' & l' & xss & E & F & P)|(d & xss & E & _)]; [|congruence].
  rewrite E in Eos. injection Eos as -> ->.
  rewrite (presents_perm _ _ P). rewrite (pv_concat _ _ F).
  unfold video_votes. rewrite !presents_flat_map. rewrite HS, <- Hlen.
  rewrite (flat_map_seq_nth _ _ (fun v => presents (pv v))); [reflexivity|].
  intros s v Hs.
  assert (Hsl : s < S) by (rewrite <- Hlen; apply nth_error_Some; congruence).
  destruct (Hat e dv s He Hsl) as (xs & (b0 & l0 & v0 & E0 & Hn & Hv) & Hx).
  rewrite E in E0. injection E0 as -> ->. rewrite Hs in Hn. injection Hn as <-.
  rewrite (pv_value _ _ Hv). apply presents_nth_pad; [|exact Hx].
  apply (HR v); [|exact Hv]. exists dv. split; [exact Hdv|]. left. exists b0, l0.
  split; [exact E|]. eapply nth_error_In; eassumption.
Qed.

Lemma recorded_dict : forall dvs a e dv vs nobs,
  dvs <> [] -> dict_style dvs ->
  opinion_score_3darray_with dvs nobs = Ok a ->
  nth_error dvs e = Some dv -> recorded dv vs -> Permutation (presents vs) (video_votes a e).
Proof.
  intros dvs a e dv vs nobs Hne HD HA He Hr.
  destruct (get_list_observers_dict dvs HD) as (names & En & Hnm).
  destruct (array_dict_sound dvs names nobs a Hne HD Hnm HA) as (HE & HS & (_ & HR & _) & Hat).
  assert (HD' := HD). unfold dict_style in HD'. rewrite Forall_forall in HD'.
  assert (Hdv := nth_error_In _ _ He).
  destruct (HD' dv Hdv) as (d & Eos & Hnd).
  destruct Hr as [(b' & l' & xss & E & _)|(d' & xss & E & F & P)]; [congruence|].
  rewrite E in Eos. injection Eos as ->.
  rewrite (presents_perm _ _ P). rewrite (pv_concat _ _ F).
  unfold video_votes. rewrite !presents_flat_map. rewrite HS.
  destruct Hnm as [Hsort Hin]. destruct (sorted_lt_le _ Hsort) as [_ Hndn].
  rewrite (flat_map_seq_nth _ _ (fun n => match dget String.eqb d n with Some v => presents (pv v) | None => [] end)).
  - symmetry. apply dict_flat_map; try assumption.
    intros n Hn. apply Hin. apply in_map_iff in Hn as ((n' & v) & E1 & Hi). simpl in E1. subst n'.
    exists dv, d, v. auto.
  - intros s name Hs.
    destruct (Hat e dv s name He Hs) as (xs & (d0 & E0 & Hv) & Hx).
    rewrite E in E0. injection E0 as <-.
    destruct Hv as [(v & Hi & Hv)|[Hni ->]].
    + rewrite (In_dget String.eqb string_eqb_spec _ _ _ Hnd Hi). rewrite (pv_value _ _ Hv).
      apply presents_nth_pad; [|exact Hx]. apply (HR v); [|exact Hv].
      exists dv. split; [exact Hdv|]. right. exists d, name. auto.
    + destruct (dget String.eqb d name) as [v|] eqn:Ed.
      * exfalso. apply Hni. apply (dget_In String.eqb string_eqb_spec) in Ed. apply in_map_iff. exists (name, v); auto.
      * rewrite (presents_nth_pad []); [reflexivity|simpl; lia|exact Hx].
Qed.

Lemma raw_reader_inv : forall ds rd, raw_reader ds = Ok rd ->
  raw_dataset_ok ds /\ rd_ds rd = ds /\ rd_dvs rd = ds_dis ds /\
  rd_arr rd = opinion_score_3darray_with (ds_dis ds) (get_num_observers (ds_dis ds)).
Proof.
  intros ds rd H. unfold raw_reader in H. apply bind_Ok in H as (u & Hu & H).
  injection H as <-. simpl. split; [|auto].
  apply assert_dataset_raw_iff. exists u. exact Hu.
Qed.

Lemma foldM_inv : forall A S (f : S -> A -> res S) l s s', foldM f l s = Ok s' ->
  forall x, In x l -> exists s1 s2, f s1 x = Ok s2.
Proof.
  induction l as [|a l IH]; intros s s' H x Hx; simpl in *; [contradiction|].
  apply bind_Ok in H as (s1 & H1 & H2). destruct Hx as [->|Hx]; [exists s, s1; exact H1|].
  eapply IH; eassumption.
Qed.

(** A dataset that can be read is homogeneous, or has no observers at all. *)
Lemma read_homogeneous : forall ds a, raw_dataset_ok ds -> python_dicts (ds_dis ds) ->
  opinion_score_3darray_with (ds_dis ds) (get_num_observers (ds_dis ds)) = Ok a ->
  (exists S, list_style (ds_dis ds) S) \/ dict_style (ds_dis ds) \/
  (dE a = length (ds_dis ds) /\ dS a = 0 /\ forall dv, In dv (ds_dis ds) -> (exists b, dv_os dv = Some (OSeq b [])) \/ dv_os dv = Some (ODict [])).
Proof.
  intros ds a (Hr & Hd & _ & _ & Hos & Hlen) Hpy HA.
  destruct (ds_dis ds) as [|dv0 rest] eqn:Eds; [contradiction|].
  destruct (Hos dv0 (or_introl eq_refl)) as (o0 & E0 & Hno).
  unfold opinion_score_3darray_with in HA. apply bind_Ok in HA as ([[W R] rows] & HA & EA).
  unfold opinion_rows in HA. apply bind_Ok in HA as (W' & HW & HA). apply bind_Ok in HA as (R' & HR & HA).
  assert (F0 : first_os (dv0 :: rest) = Ok o0) by (unfold first_os, py_index, get_os; simpl; rewrite E0; reflexivity).
  rewrite F0 in HA. cbn [bind] in HA.
  destruct o0 as [b0 l0|d0|]; [| |contradiction].
  - assert (Wl : W' = length l0).
    { unfold get_num_observers in HW. rewrite F0 in HW. simpl in HW. congruence. }
    apply bind_Ok in HA as (rs & HM & EW). injection EW as <- <- <-. injection EA as <-.
    destruct l0 as [|x l0].
    + right. right. simpl. split; [reflexivity|]. split; [exact Wl|].
      intros dv Hin. destruct (Hos dv Hin) as (o & E & Hno').
      destruct Hin as [<-|Hin]; [left; exists b0; exact E0|].
      destruct (Hlen dv0 rest b0 [] eq_refl E0 dv o Hin E) as [(b & l & -> & Hl)|(d & -> & Hl)].
      * destruct l; [|discriminate]. left; exists b; exact E.
      * destruct d; [|discriminate]. right; exact E.
    + left. exists (length (x :: l0)). unfold list_style. apply Forall_forall. intros dv Hin.
      destruct (Hos dv Hin) as (o & E & Hno').
      destruct Hin as [<-|Hin]; [exists b0, (x :: l0); auto|].
      destruct (Hlen dv0 rest b0 (x :: l0) eq_refl E0 dv o Hin E) as [(b & l & -> & Hl)|(d & -> & Hl)].
      { exists b, l; auto. }
      destruct (In_nth_error _ _ (or_intror Hin : In dv (dv0 :: rest))) as (i & Hi).
      destruct (mapM_nth _ _ _ _ _ _ _ HM Hi) as (bx & _ & HB).
      rewrite HW in HB. cbn [bind] in HB. apply bind_Ok in HB as (cells & HC & _).
      exfalso. rewrite Wl in HC. simpl in HC. apply bind_Ok in HC as (c & HC & _).
      unfold os_index, get_os in HC. rewrite E in HC. simpl in HC. discriminate.
  - right. left. unfold dict_style. apply Forall_forall. intros dv Hin.
    destruct (Hos dv Hin) as (o & E & Hno').
    unfold get_num_observers in HW. rewrite F0 in HW. cbn [bind] in HW.
    apply bind_Ok in HW as (obs & HO & _). unfold get_list_observers in HO.
    apply bind_Ok in HO as (dss & HM & _).
    destruct (In_nth_error _ _ Hin) as (i & Hi).
    destruct (mapM_nth _ _ _ _ _ _ _ HM Hi) as (bx & _ & HB).
    unfold os_dict, get_os in HB. rewrite E in HB. cbn [bind] in HB.
    destruct o; try discriminate. injection HB as ->. exists bx. split; [exact E|]. eapply Hpy; eassumption.
Qed.

(** Votes of video e in the array are the recorded votes. *)
Lemma read_votes : forall ds rd a, raw_reader ds = Ok rd -> python_dicts (ds_dis ds) -> rd_arr rd = Ok a ->
  dE a = length (ds_dis ds) /\
  forall e dv vs, nth_error (ds_dis ds) e = Some dv -> recorded dv vs ->
    Permutation (presents vs) (video_votes a e).
Proof.
  intros ds rd a Hrd Hpy HA. destruct (raw_reader_inv ds rd Hrd) as (Hok & _ & _ & E).
  rewrite E in HA. assert (Hne : ds_dis ds <> []) by apply Hok.
  destruct (read_homogeneous ds a Hok Hpy HA) as [(S & HL)|[HD|(HE & HS & Hz)]].
  - split; [apply (array_list_sound _ _ _ Hne HL HA)|]. intros. eapply recorded_list; eassumption.
  - destruct (get_list_observers_dict _ HD) as (names & _ & Hn).
    split; [apply (array_dict_sound _ _ _ _ Hne HD Hn HA)|]. intros. eapply recorded_dict; eassumption.
  - split; [exact HE|]. intros e dv vs He Hr. unfold video_votes. rewrite HS. simpl.
    assert (Hv : vs = []).
    { destruct (Hz dv (nth_error_In _ _ He)) as [(b & Eo)|Eo];
      destruct Hr as [(b' & l' & xss & E1 & F & P)|(d' & xss & E1 & F & P)]; rewrite Eo in E1;
      try discriminate; injection E1; intros; subst; inversion F; subst; simpl in P;
      apply Permutation_sym, Permutation_nil in P; exact P. }
    subst. constructor.
Qed.

(** Entries of the array are entries of some recorded vote, or missing. *)
Lemma read_finite : forall ds rd a, raw_reader ds = Ok rd -> python_dicts (ds_dis ds) ->
  finite_dataset (ds_dis ds) -> rd_arr rd = Ok a -> finite_votes a.
Proof.
  intros ds rd a Hrd Hpy Hfin HA. destruct (raw_reader_inv ds rd Hrd) as (Hok & _ & _ & E).
  rewrite E in HA. assert (Hne : ds_dis ds <> []) by apply Hok.
  intros e s r (He & Hs & Hr).
  assert (NTH : forall xs, (forall x, In x xs -> finnan x) -> finnan (nth r xs NaN)).
  { intros xs H. destruct (nth_in_or_default r xs NaN) as [Hi| ->]; [auto|simpl; auto]. }
  destruct (read_homogeneous ds a Hok Hpy HA) as [(S & HL)|[HD|(HE & HS & Hz)]].
  - destruct (array_list_sound _ _ _ Hne HL HA) as (HE & HS & HR & Hat).
    rewrite HE in He. rewrite HS in Hs. destruct (nth_error (ds_dis ds) e) as [dv|] eqn:Ed;
      [|apply nth_error_None in Ed; lia].
    destruct (Hat e dv s Ed Hs) as (xs & Hv & Hx). rewrite Hx by exact Hr. apply NTH. intros x Hxi.
    (* every vote of this video has a value *)
    assert (VV : exists xss, exists b l, dv_os dv = Some (OSeq b l) /\ Forall2 vote_value l xss).
    { assert (HL' := HL). unfold list_style in HL'. rewrite Forall_forall in HL'.
      destruct (HL' dv (nth_error_In _ _ Ed)) as (b & l & Eos & Hlen).
      assert (K : forall l2 k, (forall i v, nth_error l2 i = Some v -> exists xs, voted_list dv (k + i) xs /\ vote_value v xs) -> exists xss, Forall2 vote_value l2 xss).
      { induction l2 as [|v l2 IH]; intros k Hk; [exists []; constructor|].
        destruct (Hk 0 v eq_refl) as (xs0 & _ & Hv0). destruct (IH (Datatypes.S k)) as (xss & F).
        - intros i w Hi. destruct (Hk (Datatypes.S i) w Hi) as (ys & Hy & Hyv). exists ys. split; [|exact Hyv].
          replace (Datatypes.S k + i) with (k + Datatypes.S i) by lia. exact Hy.
        - exists (xs0 :: xss). constructor; assumption. }
      destruct (K l 0) as (xss & F).
      - intros i v Hi. assert (Hil : i < S) by (rewrite <- Hlen; apply nth_error_Some; congruence).
        destruct (Hat e dv i Ed Hil) as (ys & Hy & _). exists ys. split; [exact Hy|].
        destruct Hy as (b0 & l0 & v0 & E0 & Hn & Hv0). rewrite Eos in E0. injection E0 as <- <-. congruence.
      - exists xss, b, l. auto. }
    destruct VV as (xss & b & l & Eos & F).
    assert (Hrec : recorded dv (concat xss)) by (left; exists b, l, xss; auto).
    assert (HF := Hfin dv _ (nth_error_In _ _ Ed) Hrec). rewrite Forall_forall in HF. apply HF.
    destruct Hv as (b0 & l0 & v & E0 & Hn & Hv). rewrite Eos in E0. injection E0 as <- <-.
    rewrite (pv_concat _ _ F). apply in_flat_map. exists v. split; [eapply nth_error_In; eassumption|].
    rewrite (pv_value _ _ Hv). exact Hxi.
  - destruct (get_list_observers_dict _ HD) as (names & _ & Hn).
    destruct (array_dict_sound _ _ _ _ Hne HD Hn HA) as (HE & HS & HR & Hat).
    rewrite HE in He. rewrite HS in Hs. destruct (nth_error (ds_dis ds) e) as [dv|] eqn:Ed;
      [|apply nth_error_None in Ed; lia].
    destruct (nth_error names s) as [name|] eqn:En; [|apply nth_error_None in En; lia].
    destruct (Hat e dv s name Ed En) as (xs & Hv & Hx). rewrite Hx by exact Hr. apply NTH. intros x Hxi.
    assert (HD' := HD). unfold dict_style in HD'. rewrite Forall_forall in HD'.
    destruct (HD' dv (nth_error_In _ _ Ed)) as (d & Eos & Hnd).
    assert (VV : exists xss, Forall2 vote_value (map snd d) xss).
    { assert (K : forall d2, incl d2 d -> exists xss, Forall2 vote_value (map snd d2) xss).
      { induction d2 as [|[n v] d2 IH]; intro Hi; [exists []; constructor|].
        destruct IH as (xss & F); [intros y Hy; apply Hi; right; exact Hy|].
        assert (Hnv : In (n, v) d) by (apply Hi; left; reflexivity).
        assert (Hnn : In n names).
        { apply Hn. exists dv, d, v. split; [eapply nth_error_In; eassumption|auto]. }
        apply In_nth_error in Hnn as (i & Hi2).
        destruct (Hat e dv i n Ed Hi2) as (ys & (d1 & E1 & Hy) & _). rewrite Eos in E1. injection E1 as <-.
        destruct Hy as [(v' & Hv' & Hvv)|[Hno _]].
        - assert (v' = v).
          { assert (A1 := In_dget String.eqb string_eqb_spec _ _ _ Hnd Hnv).
            assert (A2 := In_dget String.eqb string_eqb_spec _ _ _ Hnd Hv'). congruence. }
          subst. exists (ys :: xss). constructor; assumption.
        - exfalso. apply Hno. apply in_map_iff. exists (n, v); auto. }
      apply (K d). intros y Hy; exact Hy. }
    destruct VV as (xss & F).
    assert (Hrec : recorded dv (concat xss)) by (right; exists d, xss; auto).
    assert (HF := Hfin dv _ (nth_error_In _ _ Ed) Hrec). rewrite Forall_forall in HF. apply HF.
    destruct Hv as (d0 & E0 & Hv). rewrite Eos in E0. injection E0 as <-.
    destruct Hv as [(v & Hi & Hv)|[_ ->]]; [|contradiction].
    rewrite (pv_concat _ _ F). apply in_flat_map. exists v. split; [apply in_map_iff; exists (name, v); auto|].
    rewrite (pv_value _ _ Hv). exact Hxi.
  - lia.
Qed.
