(** Theorems for claims C17-C22, C66 and C69. *)
From Coq Require Import String.
From Coq Require Import List ZArith Bool Arith Reals Lra Lia.
From Verif Require Import PyBase Num ExtReal NumPy Dataset Mocked SpecDataset SpecMos SpecPc SpecMocked
  ExtRealProofs MockedProofs Mocked2Proofs Mocked3Proofs.
Import ListNotations.
Local Open Scope string_scope.
Local Open Scope list_scope.

(** ** Datasets used by the examples *)
Definition mv (z : Z) : pyv ef := PNum (Fin (IZR z)).
Definition mdv (c a : Z) (p : string) (o : osval ef string) : dvideo ef string := DVideo c a p (Some o) None None [].
Definition mds (dvs : list (dvideo ef string)) : dataset ef string :=
  Dataset [RVideo 0 "r0" []; RVideo 1 "r1" []] dvs (Some "m") (Some (Some (Fin 5))) [].
Definition m_dict : dataset ef string := mds
  [mdv 0 0 "p0" (ODict [("b", mv 1); ("a", PSeq true [mv 4; mv 3])]); mdv 1 1 "p1" (ODict [("c", mv 5); ("a", mv 2)])]%Z.
Definition m_list : dataset ef string := mds
  [mdv 0 0 "p0" (OSeq true [mv 1; mv 4; mv 3]); mdv 1 1 "p1" (OSeq true [mv 2; mv 5; PNum NaN])]%Z.
Definition m_ids : dataset ef string := mds
  [mdv 0 7 "p0" (OSeq true [mv 1; mv 4]); mdv 1 0 "p1" (OSeq true [mv 2; mv 5])]%Z.

(** C17 for datasets that name their subjects: any selection of existing
    subjects, with repetition; anything else is refused. *)
Theorem C17_dict : forall (T : Type) (N : Num T) (ds : dataset T string) a sel,
  raw_reader_3darray ds = Ok a -> dict_style (ds_dis ds) ->
  (valid_subjects (dS a) sel -> exists a', select_subject_3darray ds (Some sel) = Ok a' /\ columns_of a sel a') /\
  (~ valid_subjects (dS a) sel -> select_subject_3darray ds (Some sel) = Err AssertionError).
Proof. exact @c17_dict. Qed.
Print Assumptions C17_dict.

(** C17 for list-style datasets, exactly what happens: the votes of a selected
    subject are there iff its index is below the number of selected subjects. *)
Theorem C17_list_partial : forall (T : Type) (N : Num T) (ds : dataset T string) S sel,
  raw_dataset_ok ds -> list_style (ds_dis ds) S -> votes_wf (ds_dis ds) ->
  valid_subjects S sel -> length sel <= S ->
  exists a', select_subject_3darray ds (Some sel) = Ok a' /\
    dE a' = length (ds_dis ds) /\ dS a' = length sel /\
    forall e dv k z, nth_error (ds_dis ds) e = Some dv -> nth_error sel k = Some z ->
      ((z < Z.of_nat (length sel))%Z -> exists xs, voted_list dv (Z.to_nat z) xs /\ length xs <= dR a' /\
          forall r, r < dR a' -> at3 a' e k r = nth r xs nnan) /\
      ((Z.of_nat (length sel) <= z)%Z -> forall r, at3 a' e k r = nnan).
Proof. exact @c17_list. Qed.
Print Assumptions C17_list_partial.

(** Selecting with repetition more entries than there are subjects fails. *)
Theorem C17_list_too_many : forall (T : Type) (N : Num T) (ds : dataset T string) S sel,
  raw_dataset_ok ds -> list_style (ds_dis ds) S -> valid_subjects S sel -> S < length sel ->
  select_subject_3darray ds (Some sel) = Err IndexError.
Proof. exact @c17_too_many. Qed.
Print Assumptions C17_list_too_many.

Lemma m_list_ok : raw_dataset_ok m_list.
Proof. apply raw_ok_assert. reflexivity. Qed.
Lemma m_list_style : list_style (ds_dis m_list) 3.
Proof. repeat constructor; eexists; eexists; split; reflexivity. Qed.
Lemma m_list_wf : votes_wf (ds_dis m_list).
Proof. repeat constructor; eexists; apply (vv_num _). Qed.
Lemma m_list_reads : exists a, raw_reader_3darray m_list = Ok a /\ dE a = 2 /\ dS a = 3 /\ dR a = 1 /\
  forall e s r, at3 a e s r = at3 (arr3_of_rows 2 3 1 [[[Fin 1]; [Fin 4]; [Fin 3]]; [[Fin 2]; [Fin 5]; [NaN]]]) e s r.
Proof. eexists. split; [reflexivity|]. repeat split. Qed.

(** The claim as stated is false of the code: subject 2 voted 3 on video 0,
    selecting it yields a missing vote. *)
Theorem C17_list_refuted : exists (ds : dataset ef string) a sel a',
  raw_reader_3darray ds = Ok a /\ valid_subjects (dS a) sel /\
  select_subject_3darray ds (Some sel) = Ok a' /\ ~ columns_of a sel a'.
Proof.
  exists m_list. eexists. exists [2%Z]. eexists. split; [reflexivity|]. split; [|split; [reflexivity|]].
  - intros z [<-|[]]. cbn. lia.
  - intros (_ & _ & _ & H). specialize (H 0 0 2%Z 0 eq_refl). cbn in H. discriminate H; lia.
Qed.
Print Assumptions C17_list_refuted.

Example C17_nonvacuous :
  (exists a a', raw_reader_3darray m_dict = Ok a /\ dict_style (ds_dis m_dict) /\ valid_subjects (dS a) [2; 0; 2]%Z /\
     select_subject_3darray m_dict (Some [2; 0; 2]%Z) = Ok a' /\ at3 a' 0 1 1 = Fin 3 /\ at3 a' 1 2 0 = Fin 5) /\
  (raw_dataset_ok m_list /\ list_style (ds_dis m_list) 3 /\ votes_wf (ds_dis m_list) /\ valid_subjects 3 [1; 0]%Z /\
   exists a', select_subject_3darray m_list (Some [1; 0]%Z) = Ok a' /\ at3 a' 0 0 0 = Fin 4 /\ at3 a' 1 1 0 = Fin 2) /\
  select_subject_3darray m_list (Some [0; 1; 0; 1]%Z) = Err IndexError.
Proof.
  split; [|split; [|reflexivity]].
  - eexists. eexists. split; [reflexivity|]. split; [|split; [|split; [reflexivity|split; reflexivity]]].
    + repeat constructor; eexists; (split; [reflexivity|]); cbn; repeat constructor; cbn; intuition discriminate.
    + intros z Hz. change (0 <= z < 3)%Z. cbn in Hz. intuition lia.
  - split; [exact m_list_ok|]. split; [exact m_list_style|]. split; [exact m_list_wf|]. split.
    + intros z Hz. cbn in *. intuition lia.
    + eexists. split; [reflexivity|split; reflexivity].
Qed.

(** C18 when the asset ids are the positions. *)
Theorem C18_positions_partial : forall (T : Type) (N : Num T) (ds : dataset T string) sel, raw_dataset_ok ds ->
  (dict_style (ds_dis ds) \/ exists S, list_style (ds_dis ds) S) ->
  ids_are_positions (ds_dis ds) -> sel <> [] -> valid_subjects (length (ds_dis ds)) sel ->
  exists l, select_dis_video_reader ds (Some sel) = Ok (l, opinion_score_3darray_with l (get_num_observers l)) /\
    Forall2 (fun z dv => nth_error (ds_dis ds) (Z.to_nat z) = Some dv) sel l.
Proof. exact @c18. Qed.
Print Assumptions C18_positions_partial.

(** In general it is the video with that asset id that is selected. *)
Theorem C18_by_asset_id : forall (T : Type) (N : Num T) (ds : dataset T string) sel l arr,
  select_dis_video_reader ds (Some sel) = Ok (l, arr) ->
  Forall2 (video_with_id (ds_dis ds)) sel l /\ arr = opinion_score_3darray_with l (get_num_observers l) /\
  valid_subjects (length (ds_dis ds)) sel.
Proof. exact @c18_by_id. Qed.
Print Assumptions C18_by_asset_id.

(** Position 0 yields another video; position 1 fails. *)
Theorem C18_refuted : exists (ds : dataset ef string), raw_dataset_ok ds /\
  (exists l arr, select_dis_video_reader ds (Some [0%Z]) = Ok (l, arr) /\ nth_error l 0 <> nth_error (ds_dis ds) 0) /\
  1 < length (ds_dis ds) /\ select_dis_video_reader ds (Some [1%Z]) = Err KeyError.
Proof.
  exists m_ids. split; [apply raw_ok_assert; reflexivity|]. split; [|split; [cbn; lia|reflexivity]].
  eexists. eexists. split; [reflexivity|]. cbn. discriminate.
Qed.
Print Assumptions C18_refuted.

Example C18_nonvacuous : raw_dataset_ok m_list /\ list_style (ds_dis m_list) 3 /\ ids_are_positions (ds_dis m_list) /\
  valid_subjects 2 [1; 0; 1]%Z /\
  exists l arr a, select_dis_video_reader m_list (Some [1; 0; 1]%Z) = Ok (l, arr) /\ map dv_path l = ["p1"; "p0"; "p1"] /\
    arr = Ok a /\ at3 a 1 1 0 = Fin 4 /\ at3 a 2 1 0 = Fin 5.
Proof.
  split; [exact m_list_ok|]. split; [exact m_list_style|]. split; [|split].
  - intros [|[|i]] dv H; cbn in H; [injection H as <-; reflexivity..|]. destruct i; discriminate.
  - intros z Hz. cbn in *. intuition lia.
  - eexists. eexists. eexists. split; [reflexivity|]. repeat split.
Qed.

(** C19: an entry is removed iff its draw does not exceed the probability. *)
Theorem C19_missing : forall ds a p (u : nat -> nat -> nat -> ef), raw_reader_3darray ds = Ok a -> (forall e s r, unit_draw (u e s r)) ->
  exists a', missing_3darray ds (Some (Fin p)) u = Ok a' /\ dE a' = dE a /\ dS a' = dS a /\ dR a' = dR a /\
    forall e s r, inside a e s r ->
      (forall x, u e s r = Fin x -> (x <= p)%R -> at3 a' e s r = NaN) /\
      (forall x, u e s r = Fin x -> (p < x)%R -> at3 a' e s r = at3 a e s r).
Proof. exact c19. Qed.
Print Assumptions C19_missing.

Theorem C19_only_removes : forall ds a p (u : nat -> nat -> nat -> ef), raw_reader_3darray ds = Ok a -> (forall e s r, unit_draw (u e s r)) ->
  exists a', missing_3darray ds (Some (Fin p)) u = Ok a' /\ dE a' = dE a /\ dS a' = dS a /\ dR a' = dR a /\
    (forall e s r, inside a e s r -> at3 a' e s r = at3 a e s r \/ at3 a' e s r = NaN) /\
    ((p = 0)%R -> (forall e s r, u e s r <> Fin 0) -> forall e s r, inside a e s r -> at3 a' e s r = at3 a e s r) /\
    ((1 <= p)%R -> forall e s r, inside a e s r -> at3 a' e s r = NaN).
Proof. exact c19_only_removes. Qed.
Print Assumptions C19_only_removes.

Definition m_draw (e s r : nat) : ef := if Nat.eqb e s then Fin (1/4) else Fin (3/4).
Lemma m_draw_unit : forall e s r, unit_draw (m_draw e s r).
Proof. intros e s r. unfold m_draw. destruct (Nat.eqb e s); eexists; (split; [reflexivity|]); lra. Qed.

Example C19_nonvacuous : (exists a, raw_reader_3darray m_list = Ok a) /\ (forall e s r, unit_draw (m_draw e s r)) /\
  exists a', missing_3darray m_list (Some (Fin (1/2))) m_draw = Ok a' /\ at3 a' 1 1 0 = NaN /\ at3 a' 0 1 0 = Fin 4.
Proof.
  split; [eexists; reflexivity|]. split; [exact m_draw_unit|].
  destruct m_list_reads as (a & Ha & D1 & D2 & D3 & HA).
  destruct (c19 m_list a (1/2) m_draw Ha m_draw_unit) as (a' & Ha' & _ & _ & _ & H). exists a'. split; [exact Ha'|]. split.
  - eapply (H 1 1 0); [unfold inside; lia|reflexivity|lra].
  - rewrite (proj2 (H 0 1 0 ltac:(unfold inside; lia)) (3/4)%R eq_refl ltac:(lra)). rewrite HA. reflexivity.
Qed.

(** C20: what happens to the votes hit, by behaviour; [corrupted] also says
    that nothing else changes. *)
Theorem C20_flip : forall ds a sel prob g lo hi,
  raw_reader_3darray ds = Ok a -> NoDup sel -> valid_subjects (dS a) sel -> proper_rng g -> real_prob prob ->
  finite_votes a -> smallest_vote a lo -> largest_vote a hi ->
  exists a', corrupt_subject_3darray ds (Some sel) (Some Flip) prob g = Ok a' /\
    corrupted prob g sel a a' (fun _ x y => match x with
      | Fin v => y = Fin (lo + hi - v)%R /\ (lo <= lo + hi - v <= hi)%R | _ => y = NaN end).
Proof. exact c20_flip. Qed.
Print Assumptions C20_flip.

Theorem C20_min : forall ds a sel prob g lo,
  raw_reader_3darray ds = Ok a -> NoDup sel -> valid_subjects (dS a) sel -> proper_rng g -> real_prob prob ->
  finite_votes a -> smallest_vote a lo ->
  exists a', corrupt_subject_3darray ds (Some sel) (Some BMin) prob g = Ok a' /\
    corrupted prob g sel a a' (fun _ _ y => y = Fin lo).
Proof. exact c20_min. Qed.
Print Assumptions C20_min.

Theorem C20_max : forall ds a sel prob g hi,
  raw_reader_3darray ds = Ok a -> NoDup sel -> valid_subjects (dS a) sel -> proper_rng g -> real_prob prob ->
  finite_votes a -> largest_vote a hi ->
  exists a', corrupt_subject_3darray ds (Some sel) (Some BMax) prob g = Ok a' /\
    corrupted prob g sel a a' (fun _ _ y => y = Fin hi).
Proof. exact c20_max. Qed.
Print Assumptions C20_max.

Theorem C20_mid : forall ds a sel prob g lo hi,
  raw_reader_3darray ds = Ok a -> NoDup sel -> valid_subjects (dS a) sel -> proper_rng g -> real_prob prob ->
  finite_votes a -> smallest_vote a lo -> largest_vote a hi ->
  exists a', corrupt_subject_3darray ds (Some sel) (Some BMid) prob g = Ok a' /\
    corrupted prob g sel a a' (fun _ _ y => y = Fin ((lo + hi) / 2)%R /\ (lo <= (lo + hi) / 2 <= hi)%R).
Proof. exact c20_mid. Qed.
Print Assumptions C20_mid.

Theorem C20_constant : forall ds a sel prob g lo hi,
  raw_reader_3darray ds = Ok a -> NoDup sel -> valid_subjects (dS a) sel -> proper_rng g -> real_prob prob ->
  finite_votes a -> smallest_vote a lo -> largest_vote a hi ->
  exists a' c, corrupt_subject_3darray ds (Some sel) (Some Constant) prob g = Ok a' /\
    (forall k, (lo <= c k <= hi)%R) /\ corrupted prob g sel a a' (fun k _ y => y = Fin (c k)).
Proof. exact c20_constant. Qed.
Print Assumptions C20_constant.

Theorem C20_shuffle : forall ds a sel b prob (g : corrupt_rng ef),
  raw_reader_3darray ds = Ok a -> NoDup sel -> valid_subjects (dS a) sel -> proper_rng g -> real_prob prob ->
  b = None \/ b = Some Shuffle ->
  exists a' p, corrupt_subject_3darray ds (Some sel) b prob g = Ok a' /\
    dE a' = dE a /\ dS a' = dS a /\ dR a' = dR a /\
    (forall k, permutes (dE a) (p k)) /\
    (forall k e, e < dE a -> ~ hit prob g k e -> p k e = e) /\
    (forall e s r, inside a e s r -> ~ In (Z.of_nat s) sel -> at3 a' e s r = at3 a e s r) /\
    (forall k z e r, nth_error sel k = Some z -> inside a e (Z.to_nat z) r ->
       at3 a' e (Z.to_nat z) r = at3 a (p k e) (Z.to_nat z) r).
Proof. exact c20_shuffle. Qed.
Print Assumptions C20_shuffle.

Definition m_rng : corrupt_rng ef :=
  CorruptRng (fun k e => if Nat.eqb e 0 then Fin (1/4) else Fin (3/4)) (fun _ n i => n - 1 - i) (fun _ => Fin (1/2)).
Lemma m_rng_proper : proper_rng m_rng.
Proof.
  unfold proper_rng, m_rng. cbn [cu cperm cconst]. repeat split.
  - intros k e. destruct (Nat.eqb e 0); eexists; (split; [reflexivity|]); lra.
  - intro k. eexists. split; [reflexivity|]. lra.
  - intros i Hi. lia.
  - intros i j Hi Hj H. lia.
Qed.
Lemma m_inside : forall a, dE a = 2 -> dS a = 3 -> dR a = 1 -> forall (P : nat -> nat -> nat -> Prop),
  P 0 0 0 -> P 0 1 0 -> P 0 2 0 -> P 1 0 0 -> P 1 1 0 -> P 1 2 0 -> forall e s r, @inside ef a e s r -> P e s r.
Proof.
  intros a D1 D2 D3 P H1 H2 H3 H4 H5 H6 e s r (I1 & I2 & I3). rewrite D1 in I1. rewrite D2 in I2. rewrite D3 in I3.
  assert (r = 0) by lia. subst r. destruct e as [|[|]]; destruct s as [|[|[|]]]; try assumption; lia.
Qed.

Example C20_nonvacuous : exists a, raw_reader_3darray m_list = Ok a /\ NoDup [2; 1]%Z /\ valid_subjects (dS a) [2; 1]%Z /\
  proper_rng m_rng /\ real_prob (Some (Fin (1/2))) /\ finite_votes a /\ smallest_vote a 1 /\ largest_vote a 5 /\
  hit (Some (Fin (1/2))) m_rng 1 0 /\ ~ hit (Some (Fin (1/2))) m_rng 1 1 /\
  exists a', corrupt_subject_3darray m_list (Some [2; 1]%Z) (Some Flip) (Some (Fin (1/2))) m_rng = Ok a' /\
    at3 a' 0 1 0 = Fin (1 + 5 - 4)%R /\ at3 a' 1 1 0 = Fin 5 /\ at3 a' 0 0 0 = Fin 1.
Proof.
  destruct m_list_reads as (a & Ha & D1 & D2 & D3 & HA). exists a. split; [exact Ha|].
  assert (Hnd : NoDup [2; 1]%Z) by (repeat constructor; cbn; intuition discriminate). split; [exact Hnd|].
  assert (HV : valid_subjects (dS a) [2; 1]%Z) by (rewrite D2; intros z Hz; cbn in *; intuition lia). split; [exact HV|].
  split; [exact m_rng_proper|]. split; [exact I|].
  assert (Hf : finite_votes a).
  { intros e s r HI. revert e s r HI. apply (m_inside a D1 D2 D3); rewrite HA; exact I. } split; [exact Hf|].
  assert (Hlo : smallest_vote a 1).
  { split; [exists 0, 0, 0; split; [unfold inside; lia|rewrite HA; reflexivity]|].
    intros e s r x HI. revert e s r HI.
    apply (m_inside a D1 D2 D3 (fun e s r => at3 a e s r = Fin x -> (1 <= x)%R)); rewrite HA; cbn; intro E; (discriminate || injection E as <-); lra. }
  split; [exact Hlo|].
  assert (Hhi : largest_vote a 5).
  { split; [exists 1, 1, 0; split; [unfold inside; lia|rewrite HA; reflexivity]|].
    intros e s r x HI. revert e s r HI.
    apply (m_inside a D1 D2 D3 (fun e s r => at3 a e s r = Fin x -> (x <= 5)%R)); rewrite HA; cbn; intro E; (discriminate || injection E as <-); lra. }
  split; [exact Hhi|].
  assert (H0 : hit (Some (Fin (1/2))) m_rng 1 0) by (eexists; split; [reflexivity|lra]).
  assert (H1 : ~ hit (Some (Fin (1/2))) m_rng 1 1) by (intros (u & E & Hu); cbn in E; injection E as <-; lra).
  split; [exact H0|]. split; [exact H1|].
  destruct (c20_flip m_list a [2; 1]%Z (Some (Fin (1/2))) m_rng 1 5 Ha Hnd HV m_rng_proper I Hf Hlo Hhi) as (a' & Ha' & _ & _ & _ & C1 & C2).
  exists a'. split; [exact Ha'|]. repeat split.
  - assert (HC := proj2 (C2 1 1%Z 0 0 eq_refl ltac:(unfold inside; cbn; lia)) H0). rewrite HA in HC. cbn in HC. apply HC.
  - assert (HC := proj1 (C2 1 1%Z 1 0 eq_refl ltac:(unfold inside; cbn; lia)) H1). rewrite HA in HC. exact HC.
  - rewrite C1; [rewrite HA; reflexivity|unfold inside; lia|cbn; intuition discriminate].
Qed.

(** C21 without repetitions. *)
Theorem C21_single_partial : forall (T : Type) (N : Num T) (ds : dataset T string) a, simulated ds a -> dR a = 1 ->
  exists ds' a', mocked_to_dataset ds (ds_dis ds) (Ok a) = Ok ds' /\
    raw_reader_3darray ds' = Ok a' /\ arr3_eq a a' /\
    Forall2 same_but_votes (ds_dis ds) (ds_dis ds') /\
    ds_refs ds' = ds_refs ds /\ ds_name ds' = ds_name ds /\ ds_ref_score ds' = ds_ref_score ds /\ ds_attrs ds' = ds_attrs ds.
Proof. exact @c21. Qed.
Print Assumptions C21_single_partial.

(** With repetitions the re-read always fails. *)
Theorem C21_repetitions_fail : forall (T : Type) (N : Num T) (ds : dataset T string) a, simulated ds a -> 1 < dR a -> 0 < dS a ->
  exists ds', mocked_to_dataset ds (ds_dis ds) (Ok a) = Ok ds' /\ raw_reader_3darray ds' = Err ValueError.
Proof. exact @c21_reps. Qed.
Print Assumptions C21_repetitions_fail.

Theorem C21_refuted : exists (ds : dataset ef string) a ds', simulated ds a /\
  mocked_to_dataset ds (ds_dis ds) (Ok a) = Ok ds' /\ raw_reader_3darray ds' = Err ValueError.
Proof.
  exists m_dict. eexists. eexists. split; [|split].
  - apply (sim_select m_dict _ (Some [2; 0]%Z)). reflexivity.
  - reflexivity.
  - reflexivity.
Qed.
Print Assumptions C21_refuted.

Example C21_nonvacuous : exists a ds', simulated m_list a /\ dR a = 1 /\ dS a = 2 /\ mocked_to_dataset m_list (ds_dis m_list) (Ok a) = Ok ds' /\
  exists a', raw_reader_3darray ds' = Ok a' /\ at3 a' 0 1 0 = Fin 1 /\ at3 a' 1 0 0 = Fin 5.
Proof.
  eexists. eexists. split; [apply (sim_select m_list _ (Some [1; 0]%Z)); reflexivity|]. split; [reflexivity|]. split; [reflexivity|].
  split; [reflexivity|]. eexists. split; [reflexivity|]. split; reflexivity.
Qed.

(** C22. *)
Theorem C22_written : forall (V : Type) (repr pformat : V -> string) (eval : string -> option V) d,
  NoDup (map fst d) -> In "ref_videos" (map fst d) -> In "dis_videos" (map fst d) ->
  (forall k v, In (k, v) d -> eval (repr v) = Some v /\ eval (pformat v) = Some v) ->
  exists stmts d', write_out_dataset repr pformat d = Ok stmts /\ import_file eval stmts = Some d' /\ NoDup (map fst d') /\
    forall k v, In (k, v) d' <-> public k /\ In (k, v) d.
Proof. exact @c22. Qed.
Print Assumptions C22_written.

Theorem C22_refused : forall (V : Type) (repr pformat : V -> string) d,
  ~ In "ref_videos" (map fst d) \/ ~ In "dis_videos" (map fst d) ->
  write_out_dataset repr pformat d = Err AssertionError.
Proof. exact @c22_missing. Qed.
Print Assumptions C22_refused.

Definition m_attrs : list (string * nat) :=
  [("__doc__", 3); ("license", 7); ("dis_videos", 12); ("dataset_name", 4); ("ref_videos", 10); ("subjects", 2)].
Definition m_eval (s : string) : option nat := Some (String.length s).
Fixpoint m_repr (n : nat) : string := match n with 0 => "" | S k => append "a" (m_repr k) end.
Example C22_nonvacuous :
  NoDup (map fst m_attrs) /\ (forall v, m_eval (m_repr v) = Some v) /\
  exists stmts, write_out_dataset m_repr m_repr m_attrs = Ok stmts /\
    map fst stmts = ["license"; "dataset_name"; "ref_videos"; "dis_videos"; "subjects"; "license"] /\
    import_file m_eval stmts = Some [("license", 7); ("dataset_name", 4); ("ref_videos", 10); ("dis_videos", 12); ("subjects", 2)].
Proof.
  split; [repeat constructor; cbn; intuition discriminate|]. split.
  - intro v. unfold m_eval. f_equal. induction v as [|v IH]; [reflexivity|]. cbn. rewrite IH. reflexivity.
  - eexists. split; [reflexivity|]. split; reflexivity.
Qed.

(** C66. *)
Theorem C66_generative : forall ds i q ob oi cb ca phi (g1 g2 g3 : nat -> nat -> ef) (h1 h2 h3 : nat -> nat -> R),
  raw_dataset_ok ds -> synth_params ds i q ob oi cb ca phi -> contents_numbered ds ->
  (forall e s, g1 e s = Fin (h1 e s)) -> (forall e s, g2 e s = Fin (h2 e s)) -> (forall e s, g3 e s = Fin (h3 e s)) ->
  exists a, synthetic_3darray ds i g1 g2 g3 = Ok a /\
    dE a = length (ds_dis ds) /\ dS a = length ob /\ dR a = 1 /\
    forall e s dv, nth_error (ds_dis ds) e = Some dv -> s < length ob ->
      at3 a e s 0 = Fin (nth e q 0 + (nth s ob 0 + h1 e s * nth s oi 0) +
         (nth (Z.to_nat (dv_cid dv)) cb 0 + h2 e s * nth (Z.to_nat (dv_cid dv)) ca 0) +
         match phi with Some l => h3 e s * nth e l 0 | None => 0 end)%R.
Proof. exact (fun ds i q ob oi cb ca phi g1 g2 g3 h1 h2 h3 H1 H2 H3 => synth_spec ds i q ob oi cb ca phi H1 H2 H3 (fun x => x) (fun x => x) false g1 g2 g3 h1 h2 h3 (fun x => eq_refl) (fun H => False_ind _ (diff_false_true H))). Qed.
Print Assumptions C66_generative.

Theorem C66_noiseless : forall ds i q ob oi cb ca phi (g1 g2 g3 : nat -> nat -> ef),
  raw_dataset_ok ds -> synth_params ds i q ob oi cb ca phi -> contents_numbered ds ->
  (forall e s, isfin (g1 e s)) -> (forall e s, isfin (g2 e s)) -> (forall e s, isfin (g3 e s)) ->
  (forall x, In x oi -> x = 0%R) -> (forall x, In x ca -> x = 0%R) -> (forall l x, phi = Some l -> In x l -> x = 0%R) ->
  exists a, synthetic_3darray ds i g1 g2 g3 = Ok a /\
    dE a = length (ds_dis ds) /\ dS a = length ob /\ dR a = 1 /\
    forall e s dv, nth_error (ds_dis ds) e = Some dv -> s < length ob ->
      at3 a e s 0 = Fin (nth e q 0 + nth s ob 0 + nth (Z.to_nat (dv_cid dv)) cb 0)%R.
Proof. exact c66_noiseless. Qed.
Print Assumptions C66_noiseless.

(** The logistic reader: the same with the spreads divided by pi/sqrt(3). *)
Theorem C66_logistic : forall ds i q ob oi cb ca (g1 g2 g3 : nat -> nat -> ef) (h1 h2 h3 : nat -> nat -> R),
  raw_dataset_ok ds -> synth_params ds i q ob oi cb ca None -> contents_numbered ds ->
  (forall e s, g1 e s = Fin (h1 e s)) -> (forall e s, g2 e s = Fin (h2 e s)) -> (forall e s, g3 e s = Fin (h3 e s)) ->
  exists a, synthetic_logistic_3darray ds i g1 g2 g3 = Ok a /\
    dE a = length (ds_dis ds) /\ dS a = length ob /\ dR a = 1 /\
    forall e s dv, nth_error (ds_dis ds) e = Some dv -> s < length ob ->
      at3 a e s 0 = Fin (nth e q 0 + (nth s ob 0 + h1 e s * (nth s oi 0 / (PI / sqrt 3))) +
         (nth (Z.to_nat (dv_cid dv)) cb 0 + h2 e s * (nth (Z.to_nat (dv_cid dv)) ca 0 / (PI / sqrt 3))) + 0)%R.
Proof. exact (fun ds i q ob oi cb ca g1 g2 g3 h1 h2 h3 H1 H2 H3 => synth_spec ds i q ob oi cb ca None H1 H2 H3 _ _ true g1 g2 g3 h1 h2 h3 logistic_scale (fun _ => eq_refl)). Qed.
Print Assumptions C66_logistic.

Definition m_synth : synth_in ef :=
  SynthIn (Some (map Fin [3; 4]%R)) (Some (map Fin [0; 1; -1]%R)) (Some (map Fin [1; 1; 2]%R)) (Some (map Fin [1; 2]%R)) (Some (map Fin [0; 1]%R)) (Some (map Fin [1; 3]%R)).
Example C66_nonvacuous :
  raw_dataset_ok m_list /\ contents_numbered m_list /\
  synth_params m_list m_synth [3; 4]%R [0; 1; -1]%R [1; 1; 2]%R [1; 2]%R [0; 1]%R (Some [1; 3]%R) /\
  exists a, synthetic_3darray m_list m_synth (fun _ _ => Fin 1) (fun _ _ => Fin 2) (fun _ _ => Fin (-1)) = Ok a /\
    at3 a 1 2 0 = Fin (4 + (-1 + 1 * 2) + (2 + 2 * 1) + -1 * 3)%R.
Proof.
  split; [exact m_list_ok|]. split; [|split].
  - intros dv H. cbn in H. destruct H as [<-|[<-|[]]]; cbn; lia.
  - repeat split. intros l [= <-]. reflexivity.
  - eexists. split; reflexivity.
Qed.

(** C69: simulated corruption of single votes. *)
Theorem C69_corrupt_data : forall ds a p rs (u w : nat -> nat -> nat -> ef),
  raw_reader_3darray ds = Ok a -> ds_ref_score ds = Some (Some (Fin rs)) ->
  (1 <= rs)%R -> (forall e s r, unit_draw (u e s r)) -> (forall e s r, unit_draw (w e s r)) ->
  exists a', corrupt_data_3darray ds (Some (Fin p)) u w = Ok a' /\ dE a' = dE a /\ dS a' = dS a /\ dR a' = dR a /\
    forall e s r, inside a e s r ->
      (forall x, u e s r = Fin x -> (p < x)%R -> at3 a' e s r = at3 a e s r) /\
      (forall x, u e s r = Fin x -> (x <= p)%R -> exists y, at3 a' e s r = Fin y /\ (1 <= y <= rs)%R).
Proof. exact c69. Qed.
Print Assumptions C69_corrupt_data.

(** It also invents votes where none were given. *)
Theorem C69_fills_missing_refuted : exists ds a p (u w : nat -> nat -> nat -> ef) a' e s r,
  raw_reader_3darray ds = Ok a /\ corrupt_data_3darray ds (Some (Fin p)) u w = Ok a' /\ inside a e s r /\
  at3 a e s r = NaN /\ isfin (at3 a' e s r).
Proof.
  destruct m_list_reads as (a & Ha & D1 & D2 & D3 & HA).
  destruct (c69 m_list a 1 5 m_draw m_draw Ha eq_refl ltac:(lra) m_draw_unit m_draw_unit) as (a' & Ha' & _ & _ & _ & H).
  exists m_list, a, 1%R, m_draw, m_draw, a', 1, 2, 0. split; [exact Ha|]. split; [exact Ha'|].
  assert (HI : inside a 1 2 0) by (unfold inside; lia). split; [exact HI|]. split; [rewrite HA; reflexivity|].
  destruct (proj2 (H 1 2 0 HI) (3/4)%R eq_refl ltac:(lra)) as (y & E & _). rewrite E. exact I.
Qed.
Print Assumptions C69_fills_missing_refuted.

Example C69_nonvacuous : (exists a, raw_reader_3darray m_list = Ok a) /\ ds_ref_score m_list = Some (Some (Fin 5)) /\
  (forall e s r, unit_draw (m_draw e s r)).
Proof. split; [eexists; reflexivity|]. split; [reflexivity|exact m_draw_unit]. Qed.
