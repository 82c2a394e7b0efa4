(** Proofs for claim C116. *)
From Coq Require Import String.
From Coq Require Import List ZArith Bool Arith Reals Lra Lia.
From Verif Require Import PyBase Num ExtReal NumPy Dataset Preproc Mos OtherModels SpecDataset SpecMos SpecRuns SpecOther SpecPerFinal
  ExtRealProofs StepsProofs MosProofs Mocked2Proofs Reject2Proofs RunsProofs MosWitness OtherWitness LiveProofs LsProofs.
Import ListNotations.
Local Open Scope R_scope.

Lemma per_run_parts : forall (rd : reader ef) k m0, run_modeling MOS rd k = Ok m0 ->
  per_run_modeling rd k = Ok (per_postprocess k (mr_raw m0), mr_observers m0).
Proof.
  intros rd k m0 H. unfold per_run_modeling. destruct (mos_run_parts _ _ _ H) as (pp & Hp & Er & _ & Eo). rewrite Hp, Eo. cbn [bind]. rewrite Er. reflexivity.
Qed.
Lemma transform_cell : forall p2 p1 p0 x, finnan x -> polynomial p2 p1 p0 x
  (let o := nzero in
   let o := match option_map Fin p2 with Some c => nadd o (nmul (nmul c x) x) | None => o end in
   let o := match option_map Fin p1 with Some c => nadd o (nmul c x) | None => o end in
   match option_map Fin p0 with Some c => nadd o c | None => o end).
Proof.
  intros p2 p1 p0 [a| | |] H; try contradiction; cbv zeta.
  - unfold polynomial, coef. destruct p2, p1, p0; cbn [option_map]; unfold nzero; cbn [nadd nmul nofZ Num_ef ef_add ef_mul]; f_equal; lra.
  - unfold polynomial, coef. destruct p2, p1, p0; cbn [option_map]; unfold nzero; cbn [nadd nmul nofZ Num_ef ef_add ef_mul];
      try (left; split; [solve [left; discriminate|right; discriminate]|reflexivity]); right; (split; [reflexivity|]); (split; [reflexivity|]); try (f_equal; lra); reflexivity.
Qed.
Lemma c116_transform : forall (rd : reader ef) k m0 p2 p1 p0, run_modeling MOS rd k = Ok m0 -> finite_votes (mr_raw m0) ->
  kw_normalize_final k = false -> kw_transform_final k = Some (option_map Fin p2, option_map Fin p1, option_map Fin p0) ->
  exists x, per_run_modeling rd k = Ok (x, mr_observers m0) /\ cellwise (polynomial p2 p1 p0) (mr_raw m0) x.
Proof.
  intros rd k m0 p2 p1 p0 H F Hn Ht. eexists. split; [apply per_run_parts; exact H|]. unfold per_postprocess. rewrite Hn, Ht.
  split; [reflexivity|]. split; [reflexivity|]. split; [reflexivity|]. intros e s r Hi. cbn [map3 at3]. apply transform_cell. apply F. exact Hi.
Qed.

Lemma all_Fin : forall l : list ef, (forall x, In x l -> exists a, x = Fin a) -> l = map Fin (presents l).
Proof.
  induction l as [|x l IH]; intros H; [reflexivity|]. destruct (H x (or_introl eq_refl)) as [a ->]. cbn [presents map]. f_equal. apply IH. intros y Hy. apply H. right. exact Hy.
Qed.
Lemma complete_flat : forall a, none_missing a -> flat3 a = map Fin (all_votes a).
Proof.
  intros a H. rewrite <- flat3_presents. apply all_Fin. intros x Hx. apply flat3_In in Hx as (e & s & r & Hi & <-). apply H. exact Hi.
Qed.
Lemma c116_normalize : forall (rd : reader ef) k m0, run_modeling MOS rd k = Ok m0 -> none_missing (mr_raw m0) -> has_spread (all_votes (mr_raw m0)) ->
  kw_normalize_final k = true -> kw_transform_final k = None ->
  exists x sd, per_run_modeling rd k = Ok (x, mr_observers m0) /\ 0 < sd /\ sd * sd = pvar (all_votes (mr_raw m0)) /\
    cellwise (fun u v => exists a, u = Fin a /\ v = Fin ((a - Rmean (all_votes (mr_raw m0))) / sd)) (mr_raw m0) x.
Proof.
  intros rd k m0 H C Hs Hn Ht. set (q := all_votes (mr_raw m0)) in *.
  assert (Hne : q <> []) by (destruct Hs as (x & y & Hx & _); intro E; rewrite E in Hx; contradiction).
  assert (HP : 0 < pvar q). { apply spread_pos in Hs. unfold pvar. apply Rdiv_lt_0_compat; [exact Hs|apply INR_len_pos; exact Hne]. }
  eexists. exists (sqrt (pvar q)). assert (S0 := sqrt_lt_R0 _ HP). split; [apply per_run_parts; exact H|]. split; [exact S0|]. split; [apply sqrt_sqrt; lra|].
  unfold per_postprocess. rewrite Hn, Ht. split; [reflexivity|]. split; [reflexivity|]. split; [reflexivity|]. intros e s r Hi. cbn [map3 at3].
  destruct (C e s r Hi) as [a Ha]. exists a. split; [exact Ha|]. rewrite Ha, (complete_flat _ C). fold q. rewrite np_mean_Fin, nanmeanR_ne, np_std_Fin by exact Hne.
  assert (SD : nanstdR 0 q = Fin (sqrt (pvar q))).
  { unfold nanstdR. destruct (Nat.leb_spec (length q) 0); [destruct q; [contradiction|simpl in *; lia]|]. rewrite Nat.sub_0_r. reflexivity. }
  rewrite SD. efc. rewrite ef_sub_Fin, ef_div_Fin by lra. reflexivity.
Qed.
(** One missing vote makes every score NaN. *)
Lemma c116_missing : forall (rd : reader ef) k m0, run_modeling MOS rd k = Ok m0 -> (exists e s r, inside (mr_raw m0) e s r /\ at3 (mr_raw m0) e s r = NaN) ->
  kw_normalize_final k = true -> kw_transform_final k = None ->
  exists x, per_run_modeling rd k = Ok (x, mr_observers m0) /\ cellwise (fun _ v => v = NaN) (mr_raw m0) x.
Proof.
  intros rd k m0 H M Hn Ht. eexists. split; [apply per_run_parts; exact H|]. unfold per_postprocess. rewrite Hn, Ht.
  split; [reflexivity|]. split; [reflexivity|]. split; [reflexivity|]. intros e s r Hi. cbn [map3 at3].
  rewrite np_mean_nan by (apply flat3_In; exact M). destruct (at3 (mr_raw m0) e s r), (np_std (flat3 (mr_raw m0))); reflexivity.
Qed.

(** Datasets: complete votes 1, 3, 2, 3; a missing vote. *)
Definition wf_normal : kwargs ef := KW false false false false None true None.
Definition wf_line : kwargs ef := KW false false false false None false (Some (None, Some (Fin 2), Some (Fin 1))).
Definition wf_const : kwargs ef := KW false false false false None false (Some (None, None, Some (Fin 3))).
Lemma wf_run : forall ds k, k = wf_normal \/ k = wf_line \/ k = wf_const -> rd_arr (w_reader ds) = Ok (w_arr ds) -> (exists m, run_modeling MOS (w_reader ds) no_options = Ok m) ->
  exists m, run_modeling MOS (w_reader ds) k = Ok m /\ mr_raw m = w_arr ds.
Proof.
  intros ds k Hk Ha [m Hm]. unfold run_modeling, mos_run in *. destruct Hk as [->|[->| ->]]; cbn [run_kwargs bind] in *; unfold preprocess in *; rewrite Ha in *; cbn in *;
    (destruct (attach_observers (w_reader ds)) as [o|]; [|discriminate Hm]); eexists; split; reflexivity.
Qed.
Lemma wf_wc : forall k, k = wf_normal \/ k = wf_line \/ k = wf_const -> exists m, run_modeling MOS (w_reader wc_ds) k = Ok m /\ mr_raw m = w_arr wc_ds.
Proof. intros k Hk. apply wf_run; [exact Hk|reflexivity|]. exact (mos_total _ _ _ wc_reader wc_arr). Qed.
Lemma wf_wm : forall k, k = wf_normal \/ k = wf_line \/ k = wf_const -> exists m, run_modeling MOS (w_reader wm_ds) k = Ok m /\ mr_raw m = w_arr wm_ds.
Proof. intros k Hk. apply wf_run; [exact Hk|reflexivity|]. exact (mos_total wm_ds (w_reader wm_ds) (w_arr wm_ds) eq_refl eq_refl). Qed.
Lemma wm_cells : at3 (w_arr wm_ds) 0 0 0 = Fin 3 /\ at3 (w_arr wm_ds) 0 1 0 = NaN /\ inside (w_arr wm_ds) 0 0 0 /\ inside (w_arr wm_ds) 0 1 0.
Proof. split; [reflexivity|]. split; [reflexivity|]. split; repeat split; vm_compute; lia. Qed.
Lemma wm_finite : finite_votes (w_arr wm_ds).
Proof.
  intros e s r (H1 & H2 & H3). change (dE (w_arr wm_ds)) with 2%nat in H1. change (dS (w_arr wm_ds)) with 2%nat in H2. change (dR (w_arr wm_ds)) with 1%nat in H3.
  destruct e as [|[|e]]; [| |lia]; (destruct s as [|[|s]]; [| |lia]); (destruct r; [|lia]); exact I.
Qed.
Lemma wc_none_missing : none_missing (w_arr wc_ds).
Proof.
  intros e s r (H1 & H2 & H3). change (dE (w_arr wc_ds)) with 2%nat in H1. change (dS (w_arr wc_ds)) with 2%nat in H2. change (dR (w_arr wc_ds)) with 1%nat in H3.
  destruct e as [|[|e]]; [| |lia]; (destruct s as [|[|s]]; [| |lia]); (destruct r; [|lia]); eexists; reflexivity.
Qed.
Lemma wc_spread : has_spread (all_votes (w_arr wc_ds)).
Proof. exists 1, 3. change (all_votes (w_arr wc_ds)) with [1; 3; 2; 3]. split; [left; reflexivity|]. split; [right; left; reflexivity|]. lra. Qed.

(** A vote that is there becomes NaN ... *)
Lemma c116_normalize_refuted : exists (rd : reader ef) k m0 x e s r a, run_modeling MOS rd k = Ok m0 /\ finite_votes (mr_raw m0) /\ kw_normalize_final k = true /\
  per_run_modeling rd k = Ok (x, mr_observers m0) /\ inside (mr_raw m0) e s r /\ at3 (mr_raw m0) e s r = Fin a /\ at3 x e s r = NaN.
Proof.
  destruct (wf_wm wf_normal (or_introl eq_refl)) as (m & H & Er). destruct wm_cells as (C1 & C2 & I1 & I2).
  destruct (c116_missing _ _ _ H) as (x & Hx & _ & _ & _ & HC); [exists 0%nat, 1%nat, 0%nat; rewrite Er; split; assumption|reflexivity|reflexivity|].
  exists (w_reader wm_ds), wf_normal, m, x, 0%nat, 0%nat, 0%nat, 3. rewrite Er in *. split; [exact H|]. split; [exact wm_finite|]. split; [reflexivity|]. split; [exact Hx|].
  split; [exact I1|]. split; [exact C1|]. apply HC. exact I1.
Qed.
(** ... and a missing one a score. *)
Lemma c116_transform_refuted : exists (rd : reader ef) k m0 x e s r a, run_modeling MOS rd k = Ok m0 /\ finite_votes (mr_raw m0) /\ kw_normalize_final k = false /\
  per_run_modeling rd k = Ok (x, mr_observers m0) /\ inside (mr_raw m0) e s r /\ at3 (mr_raw m0) e s r = NaN /\ at3 x e s r = Fin a.
Proof.
  destruct (wf_wm wf_const (or_intror (or_intror eq_refl))) as (m & H & Er). destruct wm_cells as (C1 & C2 & I1 & I2).
  destruct (c116_transform _ _ _ None None (Some 3) H) as (x & Hx & _ & _ & _ & HC); [rewrite Er; exact wm_finite|reflexivity|reflexivity|].
  exists (w_reader wm_ds), wf_const, m, x, 0%nat, 1%nat, 0%nat, 3. rewrite Er in *. split; [exact H|]. split; [exact wm_finite|]. split; [reflexivity|]. split; [exact Hx|].
  split; [exact I2|]. split; [exact C2|]. specialize (HC _ _ _ I2). rewrite C2 in HC. destruct HC as [[[HC|HC] _]|(_ & _ & HC)]; [congruence|congruence|exact HC].
Qed.
