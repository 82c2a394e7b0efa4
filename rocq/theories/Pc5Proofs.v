(** Proofs for claims C12 and C13. *)
From Coq Require Import String.
From Coq Require Import List ZArith Bool Arith Reals Lia Lra Permutation Sorted.
From Verif Require Import PyBase Num ExtReal NumPy Dataset PcDataset BaseProofs ExtRealProofs SpecDataset SpecMos SpecConv SpecPc DatasetProofs StepsProofs ConvProofs PcProofs Pc2Proofs Pc3Proofs Pc4Proofs.
Import ListNotations.
Local Open Scope list_scope.

(** ** C12 *)
Lemma arr3_eq_refl : forall T (a : arr3 T), arr3_eq a a.
Proof. intros. repeat split. Qed.

Lemma c12_dict : forall T (N : Num T) fuel (ds : dataset T string) kw o g pc after n, pc_source (ds_dis ds) -> dict_style (ds_dis ds) ->
  to_pc_dataset fuel ds kw o g = Ok (pc, after, n) -> after = ds.
Proof.
  intros T N fuel ds kw o g pc after n Hs Hd H. destruct (run_inv _ _ _ _ _ _ _ _ Hs H) as (dvs' & tbl & rs & _ & Hc & _ & _ & _ & _ & -> & _).
  rewrite (convert_dict _ (proj1 Hs) Hd) in Hc. apply Ok_inj in Hc. subst dvs'. destruct ds. reflexivity.
Qed.

Lemma idx_dict_snd : forall T (l : list (pyv T)), map snd (idx_dict l) = l.
Proof. intros. unfold idx_dict. rewrite map_map. cbn [snd]. apply enumerate_snd. Qed.

Lemma c12_list : forall T (N : Num T) fuel (ds : dataset T string) kw o g pc after n S, pc_source (ds_dis ds) -> list_style (ds_dis ds) S ->
  to_pc_dataset fuel ds kw o g = Ok (pc, after, n) ->
  ds_refs after = ds_refs ds /\ ds_name after = ds_name ds /\ ds_ref_score after = ds_ref_score ds /\ ds_attrs after = ds_attrs ds /\
  Forall2 (fun dv dv' => exists b l d, dv_os dv = Some (OSeq b l) /\ dv' = with_os dv (ODict d) /\ map snd d = l /\ map fst d = map str_of_nat (seq 0 S))
    (ds_dis ds) (ds_dis after).
Proof.
  intros T N fuel ds kw o g pc after n S Hs Hl H. destruct (run_inv _ _ _ _ _ _ _ _ Hs H) as (dvs' & tbl & rs & _ & Hc & _ & _ & _ & _ & -> & _).
  destruct (convert_list _ S (proj1 Hs) Hl) as (dvs2 & Hc2 & _ & _ & F). assert (dvs2 = dvs') by congruence. subst dvs2. cbn [after_ds ds_refs ds_name ds_ref_score ds_attrs ds_dis].
  repeat (split; [reflexivity|]). unfold list_style in Hl. clear - F Hl. induction F as [|dv dv' l l' (b & x & E1 & E2) F IH]; constructor.
  - inversion Hl as [|? ? (b' & x' & E3 & E4) _]; subst. exists b, x, (idx_dict x). rewrite idx_dict_snd, idx_dict_keys. repeat split; try assumption. assert (x' = x) by congruence. subst x'. reflexivity.
  - apply IH. inversion Hl; assumption.
Qed.

Lemma c12_read : forall T (N : Num T) fuel (ds : dataset T string) kw o g pc after n, pc_source (ds_dis ds) -> votes_wf (ds_dis ds) ->
  (forall S, list_style (ds_dis ds) S -> S <= 10) -> to_pc_dataset fuel ds kw o g = Ok (pc, after, n) ->
  exists a a', opinion_score_3darray_with (ds_dis ds) (get_num_observers (ds_dis ds)) = Ok a /\
    opinion_score_3darray_with (ds_dis after) (get_num_observers (ds_dis after)) = Ok a' /\ arr3_eq a a'.
Proof.
  intros T N fuel ds kw o g pc after n Hs Hw H10 H. pose proof Hs as (Hne & ND & [[S Hl]|Hd]).
  - destruct (c12_list _ _ _ _ _ _ _ _ _ _ S Hs Hl H) as (_ & _ & _ & _ & F). destruct (array_list_total _ S Hne Hl Hw) as [a Ha].
    assert (Hd' : dict_style (ds_dis after)).
    { unfold dict_style. clear - F. induction F as [|dv dv' l l' (b & x & d & E1 & E2 & E3 & E4) F IH]; constructor; [|exact IH].
      exists d. split; [subst dv'; reflexivity|]. rewrite E4. apply NoDup_map_inj; [apply seq_NoDup|intros; apply str_of_nat_inj; assumption]. }
    assert (Hw' : votes_wf (ds_dis after)).
    { unfold votes_wf in *. clear - F Hw. induction F as [|dv dv' l l' (b & x & d & E1 & E2 & E3 & E4) F IH]; constructor.
      - inversion Hw as [|? ? W _]; subst. rewrite E1 in W. cbn. rewrite Forall_forall in *. intros [k v] Hin. apply W. apply in_map_iff. exists (k, v). auto.
      - apply IH. inversion Hw; assumption. }
    assert (Hne' : ds_dis after <> []) by (intros E; rewrite E in F; inversion F; congruence).
    destruct (array_dict_total _ (get_num_observers (ds_dis after)) Hne' Hd' Hw') as [a' Ha']. exists a, a'. split; [exact Ha|]. split; [exact Ha'|].
    apply (columns_renamed T N (ds_dis ds) (ds_dis after) S str_of_nat a a' (get_num_observers (ds_dis after))); try assumption.
    + intros i j Hij Hj. apply digits_sorted; [assumption|]. specialize (H10 S Hl). lia.
    + symmetry. clear - F. induction F; simpl; congruence.
    + intros i dv Hi. clear - F Hi. revert i Hi. induction F as [|v v' l l' E F IH]; intros [|i] Hi; try discriminate.
      * injection Hi as <-. destruct E as (b & x & d & E1 & E2 & E3 & E4). exists v', b, x, d. repeat split; try assumption. subst v'. reflexivity.
      * apply (IH i Hi).
  - pose proof (c12_dict _ _ _ _ _ _ _ _ _ _ Hs Hd H) as ->. destruct (array_dict_total _ (get_num_observers (ds_dis ds)) Hne Hd Hw) as [a Ha].
    exists a, a. split; [exact Ha|]. split; [exact Ha|apply arr3_eq_refl].
Qed.

(** ** C13 *)
Lemma nth_aid_inj : forall T (dvs : list (dvideo T string)), NoDup (map dv_aid dvs) -> forall i j a, nth_error (map dv_aid dvs) i = Some a -> nth_error (map dv_aid dvs) j = Some a -> i = j.
Proof. intros T dvs ND i j a Hi Hj. apply (proj1 (NoDup_nth_error _) ND); [apply nth_error_Some; congruence|congruence]. Qed.

Lemma NoDup_prefix : forall A (l m : list A), NoDup (l ++ m) -> NoDup l.
Proof. intros A l m; induction l as [|x l IH]; intros H; constructor; inversion H; subst; [rewrite in_app_iff in *; tauto|auto]. Qed.
Lemma rank_position : forall T (dvs : list (dvideo T string)) s i dv, everyone_rated_all dvs -> increasing_ids dvs -> nth_error dvs i = Some dv ->
  (exists v, vote_of dv s v) -> rank dvs s dv i.
Proof.
  intros T dvs s i dv Hall Hinc Hi [v0 Hv]. assert (Li : i < length dvs) by (apply nth_error_Some; congruence).
  assert (ND : NoDup (map dv_aid dvs)).
  { apply NoDup_nth_error. intros p q Hp E. rewrite map_length in Hp. rewrite !nth_error_map in E. destruct (nth_error dvs p) as [x|] eqn:Ep; [|apply nth_error_None in Ep; lia].
    destruct (nth_error dvs q) as [y|] eqn:Eq; [|discriminate]. cbn in E. assert (E' : dv_aid x = dv_aid y) by congruence.
    destruct (Nat.lt_trichotomy p q) as [L|[L|L]]; [specialize (Hinc p q x y L Ep Eq); lia|exact L|specialize (Hinc q p y x L Eq Ep); lia]. }
  exists (map dv_aid (firstn i dvs)). split; [|split].
  - rewrite <- firstn_map. rewrite <- (firstn_skipn i (map dv_aid dvs)) in ND. eapply NoDup_prefix, ND.
  - rewrite map_length, firstn_length. lia.
  - intros b. split.
    + intros Hb. apply in_map_iff in Hb. destruct Hb as (x & <- & Hx). apply In_nth_error in Hx. destruct Hx as [k Hk].
      assert (Lk : k < i). { assert (k < length (firstn i dvs)) by (apply nth_error_Some; congruence). rewrite firstn_length in H. lia. }
      assert (Hk' : nth_error dvs k = Some x). { rewrite <- Hk. symmetry. rewrite <- (firstn_skipn i dvs) at 2. rewrite nth_error_app1; [reflexivity|]. rewrite firstn_length. lia. }
      split; [apply (Hinc k i x dv Lk Hk' Hi)|]. destruct (Hall dv x s v0 (nth_error_In _ _ Hi) (nth_error_In _ _ Hk') Hv) as [v Hv']. exists x, v. repeat split; [apply (nth_error_In _ _ Hk')|exact Hv'].
    + intros (Lb & x & v & Hin & <- & _). apply In_nth_error in Hin. destruct Hin as [k Hk]. apply in_map.
      assert (k < i). { destruct (Nat.lt_trichotomy k i) as [L|[L|L]]; [exact L| |specialize (Hinc i k dv x L Hi Hk); lia]. subst k. assert (x = dv) by congruence. subst x. lia. }
      apply (nth_error_In (firstn i dvs) k). rewrite <- Hk. symmetry. rewrite <- (firstn_skipn i dvs) at 1. rewrite nth_error_app1; [reflexivity|]. rewrite firstn_length. lia.
Qed.

Lemma c13 : forall fuel ds kw o g pc after n, pc_source (ds_dis ds) -> scored o (ds_dis ds) -> everyone_rated_all (ds_dis ds) -> increasing_ids (ds_dis ds) ->
  to_pc_dataset fuel ds kw o g = Ok (pc, after, n) ->
  forall s i j va vb, nth_error (ds_dis ds) i = Some va -> nth_error (ds_dis ds) j = Some vb -> compared (ds_dis ds) (any_content o) s va vb ->
    exists q, deciding_at o s va vb i j q /\ decided pc g q s (dv_aid va) (dv_aid vb).
Proof.
  intros fuel ds kw o g pc after n Hs Hsc Hall Hinc H s i j va vb Hi Hj Hc. destruct (pc_general _ _ _ _ _ _ _ _ Hs Hsc H) as [GA _].
  pose proof Hc as (_ & _ & V1 & V2 & _). apply GA; [exact Hc|apply rank_position; assumption|apply rank_position; assumption].
Qed.
