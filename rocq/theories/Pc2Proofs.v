(** Proofs about the paired comparison conversion: the produced dataset. *)
From Coq Require Import String.
From Coq Require Import List ZArith Bool Arith Reals Lia Lra Permutation Sorted.
From Verif Require Import PyBase Num ExtReal NumPy Dataset PcDataset BaseProofs ExtRealProofs SpecDataset SpecConv SpecPc DatasetProofs StepsProofs ConvProofs PcProofs.
Import ListNotations.
Local Open Scope list_scope.

Section Run.
  Context {T : Type} {N : Num T}.

  Definition after_ds (ds : dataset T string) (dvs' : list (dvideo T string)) : dataset T string :=
    Dataset (ds_refs ds) dvs' (ds_name ds) (ds_ref_score ds) (ds_attrs ds).

  Lemma pick_some_hit : forall (L : list (assign T)) a s b v, pick L a s b None = Some v -> exists x, In x L /\ hit a s b x = true.
  Proof.
    intros L a s b v H. destruct (existsb (hit a s b) L) eqn:E.
    - apply existsb_exists in E. exact E.
    - rewrite pick_miss in H; [discriminate|]. intros x Hx. destruct (hit a s b x) eqn:X; [|reflexivity].
      assert (existsb (hit a s b) L = true) by (apply existsb_exists; exists x; auto). congruence.
  Qed.

  Lemma run_inv : forall fuel ds kw o g pc after n, pc_source (ds_dis ds) -> to_pc_dataset fuel ds kw o g = Ok (pc, after, n) ->
    exists dvs' tbl rs,
      pc_check o (length (ds_dis ds)) = Ok tt /\ pc_convert (ds_dis ds) = Ok dvs' /\ dict_style dvs' /\ Forall2 same_content (ds_dis ds) dvs' /\
      subj_assets dvs' = Ok tbl /\ mapS (pc_pair fuel o g) (flat_map (subject_pairs o) tbl) 0 = Ok (rs, n) /\
      after = after_ds ds dvs' /\ ds_refs pc = ds_refs ds /\ attributes_kept ds kw pc /\ Forall2 pc_video (ds_dis ds) (ds_dis pc) /\
      forall a s b v, outcome pc a s b v <-> In a (map dv_aid (ds_dis ds)) /\ pick (concat rs) a s b None = Some v.
  Proof.
    intros fuel ds kw o g pc after n Hsrc H. destruct (convert_spec _ Hsrc) as (dvs' & Hc & Hd & Hf). destruct Hsrc as (Hne & ND & Hst).
    unfold to_pc_dataset in H. destruct (pc_check o (length (ds_dis ds))) as [[]|] eqn:E1; cbn [bind] in H; [|discriminate].
    rewrite Hc in H. cbn [bind] in H. destruct (subj_assets dvs') as [tbl|] eqn:E2; cbn [bind] in H; [|discriminate].
    destruct (mapS (pc_pair fuel o g) (flat_map (subject_pairs o) tbl) 0) as [[rs n']|] eqn:E3; cbn [bind fst snd] in H; [|discriminate].
    destruct (foldM (pc_store (assetid_index dvs')) (concat rs) (map (fun _ => []) dvs')) as [dicts|] eqn:E4; cbn [bind] in H; [|discriminate].
    apply Ok_inj in H. set (new := map (fun p => with_os (fst p) (ODict (snd p))) (combine dvs' dicts)) in *.
    assert (X1 : pc = prepare_new_dataset ds kw (ds_refs ds) new) by congruence. assert (X2 : after = after_ds ds dvs') by (unfold after_ds; congruence). assert (X3 : n' = n) by congruence.
    clear H. subst n'. exists dvs', tbl, rs. pose proof (same_content_aids _ _ Hf) as Haid.
    assert (ND' : NoDup (map dv_aid dvs')) by (rewrite Haid; exact ND).
    destruct (store_spec dvs' _ _ _ ND' (map_length _ _) E4) as [Ln Hs].
    assert (Hs' : forall i dv', nth_error dvs' i = Some dv' -> exists d', nth_error dicts i = Some d' /\ good_dict d' /\
       forall s b, dget pckey_eqb d' (s, b) = option_map PNum (pick (concat rs) (dv_aid dv') s b None)).
    { intros i dv' Hi. destruct (Hs i (dv_aid dv') []) as (d' & G1 & G2 & G3).
      - rewrite nth_error_map, Hi. reflexivity.
      - rewrite nth_error_map, Hi. reflexivity.
      - exists d'. split; [exact G1|]. split; [apply G2; split; [constructor|intros ? ? []]|]. intros s b. apply G3. reflexivity. }
    assert (Hnew : forall i dv', nth_error dvs' i = Some dv' -> exists d', nth_error new i = Some (with_os dv' (ODict d')) /\ good_dict d' /\
       forall s b, dget pckey_eqb d' (s, b) = option_map PNum (pick (concat rs) (dv_aid dv') s b None)).
    { intros i dv' Hi. destruct (Hs' i dv' Hi) as (d' & G1 & G2). exists d'. split; [|exact G2]. unfold new.
      rewrite nth_error_map, (nth_combine _ _ _ _ _ _ _ Hi G1). reflexivity. }
    assert (Lnew : length new = length dvs') by (unfold new; rewrite map_length, combine_length, Ln; lia).
    repeat (split; [first [assumption|reflexivity|subst pc; reflexivity]|]). 
    split; [subst pc; apply attributes_prepared|]. split.
    - subst pc. cbn [prepare_new_dataset ds_dis]. clear - Hf Hnew Lnew Hd. clearbody new.
      revert new Hnew Lnew. induction Hf as [|dv dv' l l' Sc F IH]; intros new Hnew Lnew; [destruct new; [constructor|discriminate]|].
      destruct new as [|nv new]; [discriminate|]. destruct (Hnew 0 dv' eq_refl) as (d & G1 & (G2 & G3) & _). cbn [nth_error] in G1.
      inversion Hd; subst. constructor.
      + destruct Sc as ((S1 & S2 & S3 & S4) & S5 & S6 & _). replace nv with (with_os dv' (ODict d)) by congruence.
        repeat split; cbn [with_os dv_cid dv_aid dv_path dv_extra dv_gt dv_gtstd dv_os]; try assumption. exists d. repeat split; assumption.
      + apply IH; [assumption| |simpl in Lnew; lia]. intros i dv'' Hi. apply (Hnew (S i) dv'' Hi).
    - intros a s b v. rewrite <- Haid. split.
      + intros (dv & d & Hin & Ea & Eo & Hv). subst pc. cbn [prepare_new_dataset ds_dis] in Hin. apply In_nth_error in Hin. destruct Hin as [i Hi].
        assert (Li : i < length dvs') by (rewrite <- Lnew; apply nth_error_Some; congruence).
        destruct (nth_error dvs' i) as [dv'|] eqn:Ed; [|apply nth_error_None in Ed; lia].
        destruct (Hnew i dv' Ed) as (d' & G1 & (G2 & _) & G3). assert (dv = with_os dv' (ODict d')) by congruence. subst dv.
        cbn [with_os dv_aid dv_os] in Ea, Eo. assert (d = d') by congruence. subst d a. split; [apply in_map; eapply nth_error_In, Ed|].
        apply (In_dget pckey_eqb pckey_spec _ _ _ G2) in Hv. rewrite G3 in Hv. destruct (pick _ _ _ _ _); cbn [option_map] in Hv; congruence.
      + intros [Hin Hp]. apply In_nth_error in Hin. destruct Hin as [i Hi]. rewrite nth_error_map in Hi. destruct (nth_error dvs' i) as [dv'|] eqn:Ed; cbn [option_map] in Hi; [|discriminate].
        assert (dv_aid dv' = a) by congruence. subst a. destruct (Hnew i dv' Ed) as (d' & G1 & _ & G3). exists (with_os dv' (ODict d')), d'. subst pc.
        split; [eapply nth_error_In, G1|]. split; [reflexivity|]. split; [reflexivity|]. apply (dget_In pckey_eqb pckey_spec). rewrite G3, Hp. reflexivity.
  Qed.

  (** Only the assignments of the pair itself matter. *)
  Lemma pick_concat : forall (ps : list (pair T)) (rs : list (list (assign T))), NoDup (map pkey ps) -> (forall p, In p ps -> (pr_b p < pr_a p)%Z) ->
    (forall k r, nth_error rs k = Some r -> exists p, nth_error ps k = Some p /\
       forall x, In x r -> as_s x = pr_s p /\ (as_a x = pr_a p /\ as_b x = pr_b p \/ as_a x = pr_b p /\ as_b x = pr_a p)) ->
    forall k p r, nth_error ps k = Some p -> nth_error rs k = Some r ->
      pick (concat rs) (pr_a p) (pr_s p) (pr_b p) None = pick r (pr_a p) (pr_s p) (pr_b p) None /\
      pick (concat rs) (pr_b p) (pr_s p) (pr_a p) None = pick r (pr_b p) (pr_s p) (pr_a p) None.
  Proof.
    intros ps rs ND Lt B k p r Hp Hr.
    assert (M : forall k' r' x, nth_error rs k' = Some r' -> k' <> k -> In x r' -> hit (pr_a p) (pr_s p) (pr_b p) x = false /\ hit (pr_b p) (pr_s p) (pr_a p) x = false).
    { intros k' r' x Hr' Hne Hx. destruct (B k' r' Hr') as (p' & Hp' & Bx). specialize (Bx x Hx). destruct Bx as [B1 B2].
      pose proof (Lt p (nth_error_In _ _ Hp)). pose proof (Lt p' (nth_error_In _ _ Hp')).
      assert (Hk : pkey p' <> pkey p).
      { intros E. apply Hne. eapply (proj1 (NoDup_nth_error _) ND); [rewrite map_length; apply nth_error_Some; congruence|]. rewrite !nth_error_map, Hp, Hp'. cbn. congruence. }
      split; (destruct (hit _ _ _ x) eqn:X; [|reflexivity]); apply hit_spec in X; destruct X as (X1 & X2 & X3); exfalso; apply Hk; unfold pkey; rewrite <- B1, X2;
        destruct B2 as [[C1 C2]|[C1 C2]]; first [f_equal; [f_equal|]; congruence|lia]. }
    destruct (nth_error_split _ _ Hr) as (l1 & l2 & E & Ll).
    assert (M1 : forall x, In x (concat l1) -> hit (pr_a p) (pr_s p) (pr_b p) x = false /\ hit (pr_b p) (pr_s p) (pr_a p) x = false).
    { intros x Hx. apply in_concat in Hx. destruct Hx as (r' & Hr' & Hx). apply In_nth_error in Hr'. destruct Hr' as [k' Hk'].
      assert (k' < length l1) by (apply nth_error_Some; congruence). apply (M k' r' x); [rewrite E, nth_error_app1 by lia; exact Hk'|lia|exact Hx]. }
    assert (M2 : forall x, In x (concat l2) -> hit (pr_a p) (pr_s p) (pr_b p) x = false /\ hit (pr_b p) (pr_s p) (pr_a p) x = false).
    { intros x Hx. apply in_concat in Hx. destruct Hx as (r' & Hr' & Hx). apply In_nth_error in Hr'. destruct Hr' as [k' Hk'].
      apply (M (S (length l1 + k')) r' x); [rewrite E, nth_error_app2 by lia; replace (S (length l1 + k') - length l1) with (S k') by lia; exact Hk'|lia|exact Hx]. }
    subst rs. rewrite concat_app. cbn [concat]. rewrite !pick_app. split.
    - rewrite (pick_miss (concat l2)) by (intros x Hx; apply M2, Hx). rewrite (pick_miss (concat l1)) by (intros x Hx; apply M1, Hx). reflexivity.
    - rewrite (pick_miss (concat l2)) by (intros x Hx; apply M2, Hx). rewrite (pick_miss (concat l1)) by (intros x Hx; apply M1, Hx). reflexivity.
  Qed.
End Run.

Lemma assert_true : forall b, assert_ b = Ok tt -> b = true.
Proof. intros [|]; [reflexivity|discriminate]. Qed.

Lemma check_sizes : forall (o : pcopts ef) nv, pc_check o nv = Ok tt ->
  (forall l, po_rates o = Some l -> length l = nv) /\ (forall l, po_coins o = Some l -> length l = nv) /\
  (forall l, po_noises o = Some l -> length l = nv) /\ (forall l, po_means o = Some l -> length l = nv).
Proof.
  intros o nv H. unfold pc_check in H. apply assert_true in H. rewrite !andb_true_iff in H.
  repeat match goal with H : _ /\ _ |- _ => destruct H end.
  repeat split; intros l E; match goal with X : o_all _ ?y = true, Y : ?y = Some _ |- _ => rewrite Y in X; cbn [o_all] in X end;
    repeat match goal with H : (_ && _)%bool = true |- _ => apply andb_true_iff in H; destruct H end; apply Nat.eqb_eq; assumption.
Qed.

Lemma vote_fun : forall (dv : dvideo ef string) s v v', (forall d, dv_os dv = Some (ODict d) -> NoDup (map fst d)) -> vote_of dv s v -> vote_of dv s v' -> v = v'.
Proof.
  intros dv s v v' ND H H'. inversion H as [d s0 v0 E Hd|b l i v0 E Hd]; inversion H' as [d' s1 v1 E' Hd'|b' l' i' v1 E' Hd']; subst.
  - assert (d' = d) by congruence. subst d'. apply (In_dget String.eqb string_eqb_spec _ _ _ (ND d E)) in Hd, Hd'. congruence.
  - congruence.
  - congruence.
  - apply str_of_nat_inj in H2. subst i'. congruence.
Qed.

Lemma py_index_z_at : forall A (m : list A) a k x, nth_error m k = Some x ->
  Z.of_nat k = (if (a <? 0)%Z then a + Z.of_nat (length m) else a)%Z -> py_index_z m a = Ok x.
Proof.
  intros A m a k x Hk E. assert (Lk : k < length m) by (apply nth_error_Some; congruence). unfold py_index_z, py_norm_index.
  destruct (Z.ltb_spec a 0) as [Ha|Ha].
  - replace ((0 <=? a)%Z) with false by (symmetry; apply Z.leb_gt; lia). cbn [andb].
    replace ((- Z.of_nat (length m) <=? a)%Z) with true by (symmetry; apply Z.leb_le; lia). replace (a <? 0)%Z with true by (symmetry; apply Z.ltb_lt; lia). cbn [andb].
    rewrite <- E, Nat2Z.id. unfold py_index. rewrite Hk. reflexivity.
  - replace ((0 <=? a)%Z) with true by (symmetry; apply Z.leb_le; lia). replace ((a <? Z.of_nat (length m))%Z) with true by (symmetry; apply Z.ltb_lt; lia). cbn [andb].
    rewrite <- E, Nat2Z.id. unfold py_index. rewrite Hk. reflexivity.
Qed.

Lemma source_vote_fun : forall dvs (dv : dvideo ef string) s v v', pc_source dvs -> In dv dvs -> vote_of dv s v -> vote_of dv s v' -> v = v'.
Proof.
  intros dvs dv s v v' (_ & _ & Hst) Hin. apply vote_fun. intros d E. destruct Hst as [[S Hl]|Hd].
  - unfold list_style in Hl. rewrite Forall_forall in Hl. destruct (Hl dv Hin) as (b & l & E' & _). congruence.
  - unfold dict_style in Hd. rewrite Forall_forall in Hd. destruct (Hd dv Hin) as (d' & E' & ND). congruence.
Qed.

Lemma scores_model : forall (o : pcopts ef) dvs p va vb, pc_source dvs -> scored o dvs -> In va dvs -> In vb dvs -> dv_aid va = pr_a p -> dv_aid vb = pr_b p ->
  vote_of va (pr_s p) (fst (pr_x p)) -> vote_of vb (pr_s p) (fst (pr_y p)) ->
  exists x y, pc_scores o p = Ok (x, y) /\ the_score o va (pr_s p) x /\ the_score o vb (pr_s p) y.
Proof.
  intros o dvs p va vb Hs Hsc Ia Ib Ea Eb Va Vb. unfold pc_scores.
  destruct (Hsc va _ _ Ia Va) as [x Sx]. destruct (Hsc vb _ _ Ib Vb) as [y Sy]. exists x, y. split; [|split; assumption].
  unfold the_score in Sx, Sy. destruct (po_means o) as [m|].
  - rewrite Ea in Sx. rewrite Eb in Sy. destruct Sx as (k & K1 & K2), Sy as (l & L1 & L2).
    rewrite (py_index_z_at _ _ _ _ _ K1 K2), (py_index_z_at _ _ _ _ _ L1 L2). reflexivity.
  - assert (G : forall dv v z, In dv dvs -> vote_of dv (pr_s p) v -> vote_of dv (pr_s p) (PNum z) \/ vote_of dv (pr_s p) (PArr [z]) -> pc_num v = Ok z).
    { intros dv v z Hin Hv [Hz|Hz]; rewrite (source_vote_fun dvs dv _ _ _ Hs Hin Hv Hz); reflexivity. }
    rewrite (G va _ x Ia Va Sx). cbn [bind]. rewrite (G vb _ y Ib Vb Sy). reflexivity.
Qed.

(** The parameters the code uses are those at the ranks of the two videos. *)
Lemma model_deciding_ex : forall (o : pcopts ef) dvs p va vb, pc_source dvs -> scored o dvs -> pc_check o (length dvs) = Ok tt ->
  In va dvs -> In vb dvs -> dv_aid va = pr_a p -> dv_aid vb = pr_b p ->
  vote_of va (pr_s p) (fst (pr_x p)) -> vote_of vb (pr_s p) (fst (pr_y p)) -> rank dvs (pr_s p) va (pr_i p) -> rank dvs (pr_s p) vb (pr_j p) ->
  exists q, model_deciding o p q /\ deciding_at o (pr_s p) va vb (pr_i p) (pr_j p) q.
Proof.
  intros o dvs p va vb Hs Hsc Hchk Ia Ib Ea Eb Va Vb Ra Rb.
  destruct (scores_model o dvs p va vb Hs Hsc Ia Ib Ea Eb Va Vb) as (x & y & S1 & S2 & S3).
  destruct (check_sizes o _ Hchk) as (Z1 & Z2 & Z3 & _). destruct Hs as (Hne & ND & _).
  assert (Li : pr_i p < length dvs) by exact (rank_lt dvs _ va _ ND Ia Ra). assert (Lj : pr_j p < length dvs) by exact (rank_lt dvs _ vb _ ND Ib Rb).
  assert (Rt : exists r r', pc_rate o p = Ok r /\ pair_mean (po_rate o) (po_rates o) (pr_i p) (pr_j p) r' /\ r = match r' with Some z => z | None => Fin 1 end).
  { unfold pc_rate, pair_mean. destruct (po_rate o) as [r|]; [exists r, (Some r); auto|]. destruct (po_rates o) as [l|]; [|exists (Fin 1), None; auto].
    specialize (Z1 l eq_refl). unfold py_index.
    destruct (nth_error l (pr_i p)) as [r1|] eqn:E1; [|apply nth_error_None in E1; lia]. destruct (nth_error l (pr_j p)) as [r2|] eqn:E2; [|apply nth_error_None in E2; lia].
    cbn [bind]. eexists. exists (Some (ef_div (ef_add r1 r2) (Fin 2))). split; [reflexivity|]. split; [exists r1, r2; auto|reflexivity]. }
  assert (Cn : exists c, pc_coin o p = Ok c /\ pair_mean (po_coin o) (po_coins o) (pr_i p) (pr_j p) c).
  { unfold pc_coin, pair_mean. destruct (po_coin o) as [r|]; [exists (Some r); auto|]. destruct (po_coins o) as [l|]; [|exists None; auto].
    specialize (Z2 l eq_refl). unfold py_index.
    destruct (nth_error l (pr_i p)) as [r1|] eqn:E1; [|apply nth_error_None in E1; lia]. destruct (nth_error l (pr_j p)) as [r2|] eqn:E2; [|apply nth_error_None in E2; lia].
    cbn [bind]. eexists. split; [reflexivity|]. exists r1, r2. auto. }
  assert (Ns : forall k, k < length dvs -> exists s, pair_own (po_noise o) (po_noises o) k s).
  { intros k Lk. unfold pair_own. destruct (po_noise o) as [r|]; [exists (Some r); auto|]. destruct (po_noises o) as [l|]; [|exists None; auto].
    specialize (Z3 l eq_refl). destruct (nth_error l k) as [r1|] eqn:E1; [|apply nth_error_None in E1; lia]. exists (Some r1), r1. auto. }
  destruct Rt as (r & r' & R1 & R2 & R3), Cn as (c & C1 & C2), (Ns _ Li) as (s1 & N1), (Ns _ Lj) as (s2 & N2).
  exists (Deciding r c s1 s2 x y (String.eqb (the_tie o) "even_split")). split.
  - repeat split; assumption.
  - split; [exists r'; split; [exact R2|exact R3]|]. repeat split; try assumption. unfold the_tie. cbn [q_even]. destruct (po_tie o); reflexivity.
Qed.

(** The parameters are determined. *)
Lemma pc_general : forall fuel ds kw o g pc after n, pc_source (ds_dis ds) -> scored o (ds_dis ds) ->
  to_pc_dataset fuel ds kw o g = Ok (pc, after, n) ->
  (forall s va vb i j, compared (ds_dis ds) (any_content o) s va vb -> rank (ds_dis ds) s va i -> rank (ds_dis ds) s vb j ->
     exists q, deciding_at o s va vb i j q /\ decided pc g q s (dv_aid va) (dv_aid vb)) /\
  (forall a s b v, outcome pc a s b v -> exists va vb, compared (ds_dis ds) (any_content o) s va vb /\
     (a = dv_aid va /\ b = dv_aid vb \/ a = dv_aid vb /\ b = dv_aid va)).
Proof.
  intros fuel ds kw o g pc after n Hs Hsc H.
  destruct (run_inv _ _ _ _ _ _ _ _ Hs H) as (dvs' & tbl & rs & Hchk & _ & Hd & Hf & Ht & Hm & _ & _ & _ & _ & Ho).
  pose proof Hs as (Hne & ND & _).
  destruct (all_pairs_spec (ds_dis ds) dvs' o tbl ND Hf Hd Ht) as (PN & PA & PB). set (ps := flat_map (subject_pairs o) tbl) in *.
  assert (Pair1 : forall p, In p ps -> forall m r m', pc_pair fuel o g p m = Ok (r, m') -> forall va vb, 
     compared (ds_dis ds) (any_content o) (pr_s p) va vb -> dv_aid va = pr_a p -> dv_aid vb = pr_b p ->
     exists q ws, deciding_at o (pr_s p) va vb (pr_i p) (pr_j p) q /\ rank (ds_dis ds) (pr_s p) va (pr_i p) /\ rank (ds_dis ds) (pr_s p) vb (pr_j p) /\
       comparisons g q (q_rate q) m ws m' /\ r = flat_map (asg p) ws).
  { intros p Hp m r m' Hr va vb Hc Ea Eb. destruct (PA p Hp) as (va' & vb' & Hc' & Ea' & Eb' & Va & Vb & Ra & Rb).
    destruct Hc as (Ia & Ib & _), Hc' as (Ia' & Ib' & _).
    assert (va' = va) by (apply (aid_unique (ds_dis ds)); [assumption..|congruence]). assert (vb' = vb) by (apply (aid_unique (ds_dis ds)); [assumption..|congruence]). subst va' vb'.
    destruct (model_deciding_ex o _ p va vb Hs Hsc Hchk Ia Ib Ea Eb Va Vb Ra Rb) as (q & Q1 & Q2).
    unfold pc_pair in Hr. rewrite (proj1 Q1) in Hr. cbn [bind] in Hr. destruct (while_spec o g p _ _ _ _ _ _ Q1 Hr) as (ws & W1 & W2).
    exists q, ws. repeat split; assumption || apply Q2. }
  assert (Lt : forall p, In p ps -> (pr_b p < pr_a p)%Z).
  { intros p Hp. destruct (PA p Hp) as (va & vb & (_ & _ & _ & _ & L & _) & Ea & Eb & _). lia. }
  assert (Blk : forall k r, nth_error rs k = Some r -> exists p, nth_error ps k = Some p /\
       forall x, In x r -> as_s x = pr_s p /\ (as_a x = pr_a p /\ as_b x = pr_b p \/ as_a x = pr_b p /\ as_b x = pr_a p)).
  { intros k r Hr. destruct (mapS_nth_inv _ _ _ _ _ _ _ Hm k r Hr) as (p & m & m' & Hp & Hrun). exists p. split; [exact Hp|].
    destruct (PA p (nth_error_In _ _ Hp)) as (va & vb & Hc & Ea & Eb & _).
    destruct (Pair1 p (nth_error_In _ _ Hp) m r m' Hrun va vb Hc Ea Eb) as (q & ws & _ & _ & _ & _ & ->). apply asg_pair. }
  split.
  - intros s va vb i j Hc Ri Rj. destruct (PB s va vb Hc) as (p & Hp & Hk). unfold pkey in Hk. injection Hk as <- Ea Eb.
    apply In_nth_error in Hp. destruct Hp as [k Hp]. destruct (mapS_nth _ _ _ _ _ _ _ Hm) as [_ Hm']. destruct (Hm' k p Hp) as (m & r & m' & Hr & Hrun).
    destruct (Pair1 p (nth_error_In _ _ Hp) m r m' Hrun va vb Hc (eq_sym Ea) (eq_sym Eb)) as (q & ws & Q & Ri' & Rj' & W1 & W2).
    rewrite (rank_fun _ _ _ _ _ Ri Ri'), (rank_fun _ _ _ _ _ Rj Rj'). exists q. split; [exact Q|]. exists m, ws, m'. split; [exact W1|].
    destruct (pick_concat ps rs PN Lt Blk k p r Hp Hr) as [K1 K2]. rewrite W2 in K1, K2. rewrite (pick_ab p ws None (Lt p (nth_error_In _ _ Hp))) in K1.
    rewrite (pick_ba p ws None (Lt p (nth_error_In _ _ Hp))) in K2. destruct Hc as (Ia & Ib & _).
    split; intros v; rewrite Ho, <- Ea, <- Eb; rewrite ?K1, ?K2; unfold last_gain; (split; [intros [_ X]; exact X|intros X; split; [|exact X]]).
    + rewrite Ea. apply in_map. exact Ia.
    + rewrite Eb. apply in_map. exact Ib.
  - intros a s b v Hv. apply Ho in Hv. destruct Hv as [_ Hv]. apply pick_some_hit in Hv. destruct Hv as (x & Hx & Hh). apply hit_spec in Hh. destruct Hh as (<- & <- & <-).
    apply in_concat in Hx. destruct Hx as (r & Hr & Hx). apply In_nth_error in Hr. destruct Hr as [k Hr]. destruct (Blk k r Hr) as (p & Hp & B). destruct (B x Hx) as [B1 B2].
    destruct (PA p (nth_error_In _ _ Hp)) as (va & vb & Hc & Ea & Eb & _). exists va, vb. split; [rewrite B1; exact Hc|]. rewrite Ea, Eb. exact B2.
Qed.
