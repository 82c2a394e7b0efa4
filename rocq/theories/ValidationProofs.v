(** Proofs about what the models of a validation analyse (C104). *)
From Coq Require Import String.
From Coq Require Import List ZArith Bool Arith Reals Lra Lia.
From Verif Require Import PyBase Num ExtReal NumPy Dataset Mocked Validation SpecDataset SpecMos SpecMocked SpecValidation
  BaseProofs ExtRealProofs MockedProofs Mocked2Proofs Mocked3Proofs.
Import ListNotations.
Local Open Scope list_scope.

Section Gen.
  Context {T : Type} {N : Num T} {G : Type} (rg : rng T G).
  Notation ds_t := (dataset T string).

  (** Reading gives arrays with [P], from every state. *)
  Definition reads_only (rd : reader (T := T) (G := G)) (P : arr3 T -> Prop) : Prop :=
    forall g a g', rd_read rd g = Ok (a, g') -> P a.

  Lemma run_models_see : forall A P (models : list (arr3 T -> res A)) rd g rs,
    reads_only rd P -> run_models models rd g = Ok rs -> models_see P models rs.
  Proof.
    intros A P models rd. induction models as [|m ms IH]; intros g rs HP H; cbn [run_models] in H.
    - injection H as <-. constructor.
    - apply bind_Ok in H as ((a & g') & Ha & H). apply bind_Ok in H as (r & Hr & H). apply bind_Ok in H as (rs' & Hrs & H).
      injection H as <-. constructor; [|exact (IH _ _ HP Hrs)]. exists a. split; [exact (HP _ _ _ Ha)|exact Hr].
  Qed.

  Lemma to_dataset_inv : forall (rd : reader (T := T) (G := G)) g d g', reader_to_dataset rd g = Ok (d, g') ->
    exists a, rd_read rd g = Ok (a, g') /\ mocked_to_dataset (rd_ds rd) (ds_dis (rd_ds rd)) (Ok a) = Ok d.
  Proof.
    intros rd g d g' H. unfold reader_to_dataset in H. apply bind_Ok in H as ((a & g1) & Ha & H).
    apply bind_Ok in H as (d' & Hd & H). injection H as <- <-. exists a. split; assumption.
  Qed.

  Lemma held : forall (ds : ds_t) a d, simulated ds a -> dR a = 1 -> mocked_to_dataset ds (ds_dis ds) (Ok a) = Ok d -> holds_votes d a.
  Proof.
    intros ds a d Hs HR Hd. destruct (c21 ds a Hs HR) as (d' & a' & H1 & H2 & H3 & _). rewrite Hd in H1. injection H1 as <-.
    exists a'. split; assumption.
  Qed.

  Lemma written_holds : forall (rd : reader (T := T) (G := G)) P write g w g',
    reads_only rd (fun a => P a /\ simulated (rd_ds rd) a /\ dR a = 1) ->
    written_dataset rd write g = Ok (w, g') -> file_holds P write w.
  Proof.
    intros rd P [|] g w g' HP H; cbn [written_dataset] in H.
    - apply bind_Ok in H as ((d & g1) & Hd & H). injection H as <- <-. apply to_dataset_inv in Hd as (a & Ha & Hd).
      destruct (HP _ _ _ Ha) as (H1 & H2 & H3). split; [reflexivity|]. exists a. split; [exact H1|].
      exact (held _ _ _ H2 H3 Hd).
    - injection H as <- <-. reflexivity.
  Qed.

  (** *** The synthetic readers *)
  Definition class_read (c : synth_class) := match c with SyntheticNormal => normal_read rg | SyntheticLogistic => logistic_read rg end.

  Lemma synth_dR : forall scale b (ds : ds_t) i g1 g2 g3 a, synth_array scale b ds i g1 g2 g3 = Ok a -> dR a = 1.
  Proof.
    intros scale b ds i g1 g2 g3 a H. unfold synth_array in H. repeat (apply bind_Ok in H as (? & _ & H)).
    injection H as <-. reflexivity.
  Qed.

  Lemma class_reads : forall c (ds : ds_t) i s, reads_only (Reader ds (class_read c ds i s)) (fun a => simulated ds a /\ dR a = 1).
  Proof.
    intros c ds i s g a g' H. cbn [rd_read] in H. destruct c; cbn [class_read] in H.
    - unfold normal_read in H. apply bind_Ok in H as (g0 & _ & H).
      destruct (normals rg _ _ g0) as [d1 g1]. destruct (normals rg _ _ g1) as [d2 g2].
      destruct (match si_qamb i with Some _ => _ | None => _ end) as [d3 g3].
      apply bind_Ok in H as (a' & Ha & H). injection H as <- <-.
      split; [exact (sim_synth ds a' i d1 d2 d3 Ha)|exact (synth_dR _ _ _ _ _ _ _ _ Ha)].
    - unfold logistic_read in H.
      destruct (logistics rg _ _ g) as [d1 g1]. destruct (logistics rg _ _ g1) as [d2 g2].
      apply bind_Ok in H as (a' & Ha & H). injection H as <- <-.
      split; [exact (sim_logistic ds a' i d1 d2 _ Ha)|exact (synth_dR _ _ _ _ _ _ _ _ Ha)].
  Qed.

  Lemma synth_reader_inv : forall c (ds : ds_t) i s rd, synth_reader rg c ds i s = Ok rd ->
    synth_assert ds i = Ok tt /\ rd = Reader ds (class_read c ds i s).
  Proof.
    intros c ds i s rd H. unfold synth_reader in H. apply bind_Ok in H as ([] & H1 & H). injection H as <-.
    split; [exact H1|]. destruct c; reflexivity.
  Qed.

  (** *** The reader that removes votes *)
  Lemma removing_inv : forall c (ds : ds_t) i s p g rd g',
    removing_reader rg (Reader ds (class_read c ds i s)) (Some p) s g = Ok (rd, g') ->
    exists a0 d a0', class_read c ds i s g = Ok (a0, g') /\ mocked_to_dataset ds (ds_dis ds) (Ok a0) = Ok d /\
      rd = Reader d (missing_read rg d p s) /\ raw_reader_3darray d = Ok a0' /\ arr3_eq a0 a0' /\ dR a0 = 1.
  Proof.
    intros c ds i s p g rd g' H. unfold removing_reader in H. apply bind_Ok in H as ((d & g1) & Hd & H).
    apply bind_Ok in H as ([] & _ & H). cbn [fst snd] in H. injection H as <- <-.
    apply to_dataset_inv in Hd as (a0 & Ha & Hd). cbn [rd_ds rd_read] in *.
    destruct (class_reads c ds i s g a0 g1 Ha) as (Hs & HR).
    destruct (held ds a0 d Hs HR Hd) as (a0' & Hr & He).
    exists a0, d, a0'. repeat (split; [assumption || reflexivity|]). exact HR.
  Qed.

  Lemma missing_dims : forall (d : ds_t) p u a a', raw_reader_3darray d = Ok a -> missing_3darray d p u = Ok a' -> dR a' = dR a.
  Proof.
    intros d p u a a' Hr Hm. destruct (read_inv d a Hr) as (H1 & _ & _ & HP & _). unfold missing_3darray in Hm.
    rewrite H1 in Hm. cbn [bind] in Hm. destruct p; [|discriminate]. rewrite HP in Hm. cbn [bind] in Hm. injection Hm as <-. reflexivity.
  Qed.

  Lemma missing_reads : forall (d : ds_t) p s a, raw_reader_3darray d = Ok a -> dR a = 1 ->
    reads_only (Reader d (missing_read rg d p s)) (fun a' => simulated d a' /\ dR a' = 1).
  Proof.
    intros d p s a Hr HR g a' g' H. cbn [rd_read] in H. unfold missing_read in H. apply bind_Ok in H as (a1 & _ & H).
    apply bind_Ok in H as (g0 & _ & H). destruct (uniforms rg _ _ _ g0) as [u g1]. apply bind_Ok in H as (a2 & Ha & H).
    injection H as <- <-. split; [exact (sim_missing d a2 _ _ Ha)|]. rewrite (missing_dims _ _ _ _ _ Hr Ha). exact HR.
  Qed.

  (** *** The run *)
  Lemma runs_inv : forall A c (ds : ds_t) i s missing write (models : list (arr3 T -> res A)) g w rs,
    validation_runs rg c ds i s missing write models g = Ok (w, rs) ->
    exists rd g1 g2, removing_reader rg (Reader ds (class_read c ds i s)) missing s g = Ok (rd, g1) /\
      written_dataset rd write g1 = Ok (w, g2) /\ run_models models rd g2 = Ok rs.
  Proof.
    intros A c ds i s missing write models g w rs H. unfold validation_runs in H. apply bind_Ok in H as ([] & _ & H).
    apply bind_Ok in H as (rd0 & H0 & H). apply synth_reader_inv in H0 as (_ & ->). apply bind_Ok in H as ((rd & g1) & H1 & H).
    cbn [fst snd] in H. apply bind_Ok in H as ((w' & g2) & H2 & H). cbn [fst snd] in H. apply bind_Ok in H as (rs' & H3 & H).
    injection H as <- <-. exists rd, g1, g2. repeat split; assumption.
  Qed.

  (** If every access of the reader gives arrays with [P] (re-readable ones),
      the file and the models all have such arrays. *)
  Lemma runs_see : forall A (P : arr3 T -> Prop) (models : list (arr3 T -> res A)) rd write g1 w g2 rs,
    reads_only rd P -> reads_only rd (fun a => simulated (rd_ds rd) a /\ dR a = 1) ->
    written_dataset rd write g1 = Ok (w, g2) -> run_models models rd g2 = Ok rs ->
    models_see P models rs /\ file_holds P write w.
  Proof.
    intros A P models rd write g1 w g2 rs HP HS Hw Hr. split; [exact (run_models_see _ _ _ _ _ _ HP Hr)|].
    apply (written_holds rd P write g1 w g2); [|exact Hw]. intros g a g' H. split; [exact (HP _ _ _ H)|exact (HS _ _ _ H)].
  Qed.

  Lemma removing_reads : forall c (ds : ds_t) i s missing g rd g',
    removing_reader rg (Reader ds (class_read c ds i s)) missing s g = Ok (rd, g') ->
    reads_only rd (fun a => simulated (rd_ds rd) a /\ dR a = 1).
  Proof.
    intros c ds i s [p|] g rd g' H.
    - apply removing_inv in H as (a0 & d & a0' & _ & _ & -> & Hr & (_ & _ & HR & _) & H1). cbn [rd_ds].
      apply (missing_reads d p s a0' Hr). congruence.
    - injection H as <- <-. apply class_reads.
  Qed.

  (** *** With an integer seed *)
  Lemma normal_seeded : forall (ds : ds_t) i z g g', normal_read rg ds i (SeedInt z) g = normal_read rg ds i (SeedInt z) g'.
  Proof. reflexivity. Qed.
  Lemma missing_seeded : forall (ds : ds_t) p z g g', missing_read rg ds p (SeedInt z) g = missing_read rg ds p (SeedInt z) g'.
  Proof. reflexivity. Qed.

  Lemma reads_one : forall rd : reader (T := T) (G := G), (forall g g', rd_read rd g = rd_read rd g') ->
    forall g0 : G, exists a, reads_only rd (fun a' => a' = a).
  Proof.
    intros rd H g0. destruct (rd_read rd g0) as [[a g1]|e] eqn:E.
    - exists a. intros g a' g' H'. rewrite (H g g0), E in H'. injection H' as <- _. reflexivity.
    - exists (Arr3 0 0 0 (fun _ _ _ => nzero)). intros g a' g' H'. rewrite (H g g0), E in H'. discriminate.
  Qed.

  Lemma c104_seeded : forall (ds : ds_t) i z missing, exists a,
    forall A write (models : list (arr3 T -> res A)) g w rs,
      validation_runs rg SyntheticNormal ds i (SeedInt z) missing write models g = Ok (w, rs) ->
      models_see (fun a' => a' = a) models rs /\ file_holds (fun a' => a' = a) write w.
  Proof.
    intros ds i z missing.
    assert (HD : exists a, forall g rd g', removing_reader rg (Reader ds (class_read SyntheticNormal ds i (SeedInt z))) missing (SeedInt z) g = Ok (rd, g') ->
                   reads_only rd (fun a' => a' = a)).
    { destruct missing as [p|].
      - destruct (removing_reader rg (Reader ds (class_read SyntheticNormal ds i (SeedInt z))) (Some p) (SeedInt z) (seeded rg z)) as [[rd g1]|e] eqn:E.
        + pose proof E as E0. apply removing_inv in E0 as (a0 & d & a0' & _ & _ & Erd & _).
          destruct (reads_one rd ltac:(rewrite Erd; intros; reflexivity) (seeded rg z)) as (a & Ha).
          exists a. intros g rd' g' H.
          change (removing_reader rg (Reader ds (class_read SyntheticNormal ds i (SeedInt z))) (Some p) (SeedInt z) (seeded rg z) = Ok (rd', g')) in H.
          rewrite E in H. injection H as <- _. exact Ha.
        + exists (Arr3 0 0 0 (fun _ _ _ => nzero)). intros g rd' g' H.
          change (removing_reader rg (Reader ds (class_read SyntheticNormal ds i (SeedInt z))) (Some p) (SeedInt z) (seeded rg z) = Ok (rd', g')) in H.
          rewrite E in H. discriminate.
      - destruct (reads_one (Reader ds (class_read SyntheticNormal ds i (SeedInt z))) ltac:(intros; reflexivity) (seeded rg z)) as (a & Ha).
        exists a. intros g rd g' H. injection H as <- _. exact Ha. }
    destruct HD as (a & Ha). exists a. intros A write models g w rs H. apply runs_inv in H as (rd & g1 & g2 & H1 & H2 & H3).
    exact (runs_see _ _ _ _ _ _ _ _ _ (Ha _ _ _ H1) (removing_reads _ _ _ _ _ _ _ _ H1) H2 H3).
  Qed.

  Lemma run_models_state : forall A (models : list (arr3 T -> res A)) (rd : reader (T := T) (G := G)), (forall g g', rd_read rd g = rd_read rd g') ->
    forall g g', run_models models rd g = run_models models rd g'.
  Proof.
    intros A models rd H. destruct models as [|m ms]; intros g g'; [reflexivity|]. cbn [run_models]. rewrite (H g g'). reflexivity.
  Qed.
  Lemma written_state : forall (rd : reader (T := T) (G := G)) write, (forall g g', rd_read rd g = rd_read rd g') ->
    forall g g', match written_dataset rd write g, written_dataset rd write g' with
                 | Ok (w, _), Ok (w', _) => w = w' | Err e, Err e' => e = e' | _, _ => False end.
  Proof.
    intros rd [|] H g g'; cbn [written_dataset]; [|reflexivity]. unfold reader_to_dataset. rewrite (H g g').
    destruct (rd_read rd g') as [[a g1]|]; cbn [bind]; [|reflexivity]. destruct (mocked_to_dataset _ _ _); cbn [bind]; reflexivity.
  Qed.

  Lemma c104_state : forall A (ds : ds_t) i z missing write (models : list (arr3 T -> res A)) g g',
    validation_runs rg SyntheticNormal ds i (SeedInt z) missing write models g =
    validation_runs rg SyntheticNormal ds i (SeedInt z) missing write models g'.
  Proof.
    assert (HT : forall A (models : list (arr3 T -> res A)) (rd : reader (T := T) (G := G)) write, (forall g g', rd_read rd g = rd_read rd g') -> forall g g',
      (do wg <- written_dataset rd write g; do rs <- run_models models rd (snd wg); Ok (fst wg, rs)) =
      (do wg <- written_dataset rd write g'; do rs <- run_models models rd (snd wg); Ok (fst wg, rs))).
    { intros A models rd write H g g'. assert (HW := written_state rd write H g g').
      destruct (written_dataset rd write g) as [[w g1]|], (written_dataset rd write g') as [[w' g1']|]; try contradiction; cbn [bind fst snd].
      - subst w'. rewrite (run_models_state A models rd H g1 g1'). reflexivity.
      - congruence. }
    intros A ds i z missing write models g g'. unfold validation_runs.
    destruct (assert_ _) as [[]|]; [|reflexivity]. cbn [bind]. unfold synth_reader. destruct (synth_assert ds i) as [[]|]; [|reflexivity].
    cbn [bind]. destruct missing as [p|].
    - change (removing_reader rg (Reader ds (normal_read rg ds i (SeedInt z))) (Some p) (SeedInt z) g')
        with (removing_reader rg (Reader ds (normal_read rg ds i (SeedInt z))) (Some p) (SeedInt z) g).
      reflexivity.
    - cbn [removing_reader bind fst snd]. apply HT. reflexivity.
  Qed.
End Gen.

(** ** The exact instance: what the votes are *)
Section Exact.
  Context {G : Type} (rg : rng ef G).
  Hypothesis HD : proper_draws rg.

  Lemma class_votes : forall c ds i s, reads_only (Reader ds (class_read rg c ds i s)) (synthetic_votes c ds i).
  Proof.
    destruct HD as (H1 & H2 & _). intros c ds i s g a g' H. cbn [rd_read] in H. destruct c; cbn [class_read] in H.
    - unfold normal_read in H. apply bind_Ok in H as (g0 & _ & H).
      pose proof (H1 (length (ds_dis ds)) (match si_obias i with Some l => length l | None => 0 end)) as F.
      destruct (normals rg _ _ g0) as [d1 g1] eqn:E1. destruct (normals rg _ _ g1) as [d2 g2] eqn:E2.
      destruct (match si_qamb i with Some _ => _ | None => _ end) as [d3 g3] eqn:E3.
      apply bind_Ok in H as (a' & Ha & H). injection H as <- <-. exists d1, d2, d3.
      split; [intros e s'; specialize (F g0 e s'); rewrite E1 in F; exact F|].
      split; [intros e s'; specialize (F g1 e s'); rewrite E2 in F; exact F|].
      split; [|exact Ha]. intros e s'. destruct (si_qamb i).
      + specialize (F g2 e s'). rewrite E3 in F. exact F.
      + injection E3 as <- _. exact I.
    - unfold logistic_read in H.
      pose proof (H2 (length (ds_dis ds)) (match si_obias i with Some l => length l | None => 0 end)) as F.
      destruct (logistics rg _ _ g) as [d1 g1] eqn:E1. destruct (logistics rg _ _ g1) as [d2 g2] eqn:E2.
      apply bind_Ok in H as (a' & Ha & H). injection H as <- <-. exists d1, d2, (fun _ _ => nzero).
      split; [intros e s'; specialize (F g e s'); rewrite E1 in F; exact F|].
      split; [intros e s'; specialize (F g1 e s'); rewrite E2 in F; exact F|].
      split; [intros; exact I|exact Ha].
  Qed.

  Lemma c104_unseeded : forall A c ds i s write (models : list (arr3 ef -> res A)) g w rs,
    validation_runs rg c ds i s None write models g = Ok (w, rs) ->
    models_see (synthetic_votes c ds i) models rs /\ file_holds (synthetic_votes c ds i) write w.
  Proof.
    intros A c ds i s write models g w rs H. apply runs_inv in H as (rd & g1 & g2 & H1 & H2 & H3).
    injection H1 as <- <-. exact (runs_see _ _ _ _ _ _ _ _ _ (class_votes c ds i s) (class_reads rg c ds i s) H2 H3).
  Qed.

  Lemma missing_p : forall A c ds i s p write (models : list (arr3 ef -> res A)) g w rs,
    validation_runs rg c ds i s (Some p) write models g = Ok (w, rs) -> exists x, p = Fin x /\ (0 <= x < 1)%R.
  Proof.
    intros A c ds i s p write models g w rs H. unfold validation_runs in H. apply bind_Ok in H as ([] & H & _).
    unfold assert_ in H. destruct p as [x| | |]; cbn in H; try discriminate. exists x. split; [reflexivity|].
    unfold Rleb, Rltb in H. destruct (Rle_dec 0 x), (Rlt_dec x 1); cbn in H; try discriminate. lra.
  Qed.

  Lemma missing_removed : forall d x s a0 a0', raw_reader_3darray d = Ok a0' -> arr3_eq a0 a0' ->
    reads_only (Reader d (missing_read rg d (Fin x) s)) (some_removed a0).
  Proof.
    destruct HD as (_ & _ & HU). intros d x s a0 a0' Hr (E1 & E2 & E3 & E4) g a g' H. cbn [rd_read] in H. unfold missing_read in H.
    apply bind_Ok in H as (a1 & _ & H). apply bind_Ok in H as (g0 & _ & H).
    pose proof (HU (dE a1) (dS a1) (dR a1) g0) as F. destruct (uniforms rg _ _ _ g0) as [u g1]. cbn [fst] in F.
    apply bind_Ok in H as (a2 & Ha & H). injection H as <- <-.
    destruct (c19_only_removes d a0' x u Hr F) as (a3 & H3 & D1 & D2 & D3 & HV & _). rewrite Ha in H3. injection H3 as <-.
    split; [congruence|]. split; [congruence|]. split; [congruence|]. intros e s' r Hi. rewrite (E4 e s' r Hi). apply HV.
    unfold inside in *. rewrite <- E1, <- E2, <- E3. exact Hi.
  Qed.

  Lemma c104_missing : forall A c ds i s p write (models : list (arr3 ef -> res A)) g w rs,
    validation_runs rg c ds i s (Some p) write models g = Ok (w, rs) ->
    exists a0, synthetic_votes c ds i a0 /\ models_see (some_removed a0) models rs /\ file_holds (some_removed a0) write w.
  Proof.
    intros A c ds i s p write models g w rs H. destruct (missing_p _ _ _ _ _ _ _ _ _ _ _ H) as (x & -> & _).
    apply runs_inv in H as (rd & g1 & g2 & H1 & H2 & H3). pose proof (removing_reads _ _ _ _ _ _ _ _ _ H1) as HS.
    apply removing_inv in H1 as (a0 & d & a0' & Ha & _ & -> & Hr & He & _).
    exists a0. split; [exact (class_votes c ds i s g a0 g1 Ha)|].
    exact (runs_see _ _ _ _ _ _ _ _ _ (missing_removed d x s a0 a0' Hr He) HS H2 H3).
  Qed.

  Lemma c104_noiseless : forall A ds i q ob oi cb ca phi s write (models : list (arr3 ef -> res A)) g w rs,
    raw_dataset_ok ds -> synth_params ds i q ob oi cb ca phi -> contents_numbered ds ->
    (forall x, In x oi -> x = 0%R) -> (forall x, In x ca -> x = 0%R) -> (forall l x, phi = Some l -> In x l -> x = 0%R) ->
    validation_runs rg SyntheticNormal ds i s None write models g = Ok (w, rs) ->
    models_see (exact_votes ds q ob cb) models rs /\ file_holds (exact_votes ds q ob cb) write w.
  Proof.
    intros A ds i q ob oi cb ca phi s write models g w rs Hok Hp Hc Z1 Z2 Z3 H.
    apply runs_inv in H as (rd & g1 & g2 & H1 & H2 & H3). injection H1 as <- <-.
    refine (runs_see _ _ _ _ _ _ _ _ _ _ (class_reads rg SyntheticNormal ds i s) H2 H3).
    intros g' a g'' Ha. destruct (class_votes SyntheticNormal ds i s g' a g'' Ha) as (d1 & d2 & d3 & F1 & F2 & F3 & E).
    destruct (c66_noiseless ds i q ob oi cb ca phi d1 d2 d3 Hok Hp Hc F1 F2 F3 Z1 Z2 Z3) as (a' & E' & HA).
    cbn in E. rewrite E in E'. injection E' as <-. exact HA.
  Qed.

  (** *** When it succeeds *)
  Definition reads_fine (rd : reader (T := ef) (G := G)) : Prop := forall g, exists a g', rd_read rd g = Ok (a, g').

  Lemma reseed_fits : forall s g, seed_fits s -> exists g', reseed rg s g = Ok g'.
  Proof.
    intros [| |z] g H; cbn [reseed]; try (eexists; reflexivity). specialize (H z eq_refl).
    destruct (Z.leb_spec 0 z), (Z.ltb_spec z 4294967296); try lia. eexists. reflexivity.
  Qed.

  Lemma synth_total : forall ds i q ob oi cb ca phi c d1 d2 d3,
    raw_dataset_ok ds -> synth_params ds i q ob oi cb ca phi -> contents_numbered ds ->
    (forall e s, isfin (d1 e s)) -> (forall e s, isfin (d2 e s)) -> (forall e s, isfin (d3 e s)) ->
    (c = SyntheticLogistic -> phi = None) ->
    exists a, match c with SyntheticNormal => synthetic_3darray ds i d1 d2 d3 | SyntheticLogistic => synthetic_logistic_3darray ds i d1 d2 d3 end = Ok a.
  Proof.
    intros ds i q ob oi cb ca phi c d1 d2 d3 Hok Hp Hc F1 F2 F3 HL.
    assert (F : forall g : nat -> nat -> ef, (forall e s, isfin (g e s)) -> forall e s, g e s = Fin (toR (g e s))).
    { intros h H e s. specialize (H e s). destruct (h e s); try contradiction. reflexivity. }
    destruct c.
    - destruct (synth_spec ds i q ob oi cb ca phi Hok Hp Hc (fun x => x) (fun x => x) false d1 d2 d3 _ _ _
        (fun x => eq_refl) (fun H => False_ind _ (diff_false_true H)) (F _ F1) (F _ F2) (F _ F3)) as (a & Ha & _). exists a. exact Ha.
    - rewrite (HL eq_refl) in Hp.
      destruct (synth_spec ds i q ob oi cb ca None Hok Hp Hc (fun x : ef => (x / (npi / nsqrt (nofZ 3)))%num) (fun x => (x / (PI / sqrt 3))%R) true d1 d2 d3 _ _ _ logistic_scale (fun _ => eq_refl) (F _ F1) (F _ F2) (F _ F3)) as (a & Ha & _).
      exists a. exact Ha.
  Qed.

  Lemma class_total : forall ds i q ob oi cb ca phi c s,
    raw_dataset_ok ds -> synth_params ds i q ob oi cb ca phi -> contents_numbered ds -> seed_fits s ->
    (c = SyntheticLogistic -> phi = None) -> reads_fine (Reader ds (class_read rg c ds i s)).
  Proof.
    destruct HD as (H1 & H2 & _). intros ds i q ob oi cb ca phi c s Hok Hp Hc Hs HL g. cbn [rd_read].
    pose proof (fun d1 d2 d3 => synth_total ds i q ob oi cb ca phi c d1 d2 d3 Hok Hp Hc) as HT.
    destruct c; cbn [class_read].
    - unfold normal_read. destruct (reseed_fits s g Hs) as (g0 & ->). cbn [bind].
      pose proof (H1 (length (ds_dis ds)) (match si_obias i with Some l => length l | None => 0 end)) as F.
      destruct (normals rg _ _ g0) as [d1 g1] eqn:E1. destruct (normals rg _ _ g1) as [d2 g2] eqn:E2.
      destruct (match si_qamb i with Some _ => _ | None => _ end) as [d3 g3] eqn:E3.
      destruct (HT d1 d2 d3) as (a & Ha); [| | |exact HL|].
      + intros e s'; specialize (F g0 e s'); rewrite E1 in F; exact F.
      + intros e s'; specialize (F g1 e s'); rewrite E2 in F; exact F.
      + intros e s'. destruct (si_qamb i); [specialize (F g2 e s'); rewrite E3 in F; exact F|injection E3 as <- _; exact I].
      + rewrite Ha. cbn [bind]. eexists. eexists. reflexivity.
    - unfold logistic_read.
      pose proof (H2 (length (ds_dis ds)) (match si_obias i with Some l => length l | None => 0 end)) as F.
      destruct (logistics rg _ _ g) as [d1 g1] eqn:E1. destruct (logistics rg _ _ g1) as [d2 g2] eqn:E2.
      destruct (HT d1 d2 (fun _ _ => nzero)) as (a & Ha); [| |intros; exact I|exact HL|].
      + intros e s'; specialize (F g e s'); rewrite E1 in F; exact F.
      + intros e s'; specialize (F g1 e s'); rewrite E2 in F; exact F.
      + rewrite Ha. cbn [bind]. eexists. eexists. reflexivity.
  Qed.

  Lemma to_dataset_total : forall rd : reader (T := ef) (G := G), reads_fine rd -> reads_only rd (fun a => simulated (rd_ds rd) a /\ dR a = 1) ->
    forall g, exists d g', reader_to_dataset rd g = Ok (d, g').
  Proof.
    intros rd HF HS g. destruct (HF g) as (a & g' & Ha). destruct (HS _ _ _ Ha) as (H1 & H2).
    destruct (c21 _ _ H1 H2) as (d & _ & Hd & _). exists d, g'. unfold reader_to_dataset. rewrite Ha. cbn [bind fst snd]. rewrite Hd. reflexivity.
  Qed.

  Lemma run_models_total : forall A (models : list (arr3 ef -> res A)) (rd : reader (T := ef) (G := G)),
    reads_fine rd -> (forall m a, In m models -> exists r, m a = Ok r) -> forall g, exists rs, run_models models rd g = Ok rs.
  Proof.
    intros A models rd HF. induction models as [|m ms IH]; intros HM g; [exists []; reflexivity|]. cbn [run_models].
    destruct (HF g) as (a & g' & ->). cbn [bind fst snd]. destruct (HM m a (or_introl eq_refl)) as (r & ->). cbn [bind].
    destruct (IH (fun m' a' H => HM m' a' (or_intror H)) g') as (rs & ->). eexists. reflexivity.
  Qed.

  Lemma synth_assert_ok : forall ds i q ob oi cb ca phi, raw_dataset_ok ds -> synth_params ds i q ob oi cb ca phi -> synth_assert ds i = Ok tt.
  Proof.
    intros ds i q ob oi cb ca phi Hok (E1 & E2 & E3 & E4 & E5 & _ & L1 & L2 & L3 & L4 & _). unfold synth_assert.
    rewrite (proj1 (raw_ok_assert _) Hok), E1, E2, E3, E4, E5. cbn [bind get_key]. rewrite !map_length, L1, L2, L3, L4, !Nat.eqb_refl. reflexivity.
  Qed.

  Lemma missing_total : forall d x s a0, raw_reader_3darray d = Ok a0 -> seed_fits s -> reads_fine (Reader d (missing_read rg d (Fin x) s)).
  Proof.
    destruct HD as (_ & _ & HU). intros d x s a0 Hr Hs g. cbn [rd_read]. unfold missing_read.
    destruct (read_inv d a0 Hr) as (_ & _ & _ & HP & _). rewrite HP. cbn [bind]. destruct (reseed_fits s g Hs) as (g0 & ->). cbn [bind].
    pose proof (HU (dE a0) (dS a0) (dR a0) g0) as F. destruct (uniforms rg _ _ _ g0) as [u g1]. cbn [fst] in F.
    destruct (c19_only_removes d a0 x u Hr F) as (a3 & -> & _). eexists. eexists. reflexivity.
  Qed.

  Lemma c104_total : forall A c ds i q ob oi cb ca phi s missing write (models : list (arr3 ef -> res A)) g,
    raw_dataset_ok ds -> synth_params ds i q ob oi cb ca phi -> contents_numbered ds -> seed_fits s ->
    (c = SyntheticLogistic -> phi = None) -> (forall p, missing = Some p -> exists x, p = Fin x /\ (0 <= x < 1)%R) ->
    (forall m a, In m models -> exists r, m a = Ok r) ->
    exists w rs, validation_runs rg c ds i s missing write models g = Ok (w, rs).
  Proof.
    intros A c ds i q ob oi cb ca phi s missing write models g Hok Hp Hc Hs HL HM HT.
    pose proof (class_total ds i q ob oi cb ca phi c s Hok Hp Hc Hs HL) as HR.
    pose proof (class_reads rg c ds i s) as HC.
    assert (HX : exists rd g1, removing_reader rg (Reader ds (class_read rg c ds i s)) missing s g = Ok (rd, g1) /\ reads_fine rd).
    { destruct missing as [p|]; [|exists (Reader ds (class_read rg c ds i s)), g; split; [reflexivity|exact HR]].
      destruct (HM p eq_refl) as (x & -> & _).
      destruct (HR g) as (a & g' & Ha). destruct (HC _ _ _ Ha) as (C1 & C2).
      destruct (c21 _ _ C1 C2) as (d & a0 & Hd & Hr & _).
      exists (Reader d (missing_read rg d (Fin x) s)), g'. split; [|exact (missing_total d x s a0 Hr Hs)].
      unfold removing_reader, reader_to_dataset. rewrite Ha. cbn [bind fst snd rd_ds]. rewrite Hd. cbn [bind fst snd].
      destruct (read_inv d a0 Hr) as (-> & _). reflexivity. }
    destruct HX as (rd & g1 & HX & HF).
    assert (HW : exists w g2, written_dataset rd write g1 = Ok (w, g2)).
    { destruct write; cbn [written_dataset]; [|eexists; eexists; reflexivity].
      destruct (to_dataset_total rd HF (removing_reads _ _ _ _ _ _ _ _ _ HX) g1) as (d & g2 & ->). eexists. eexists. reflexivity. }
    destruct HW as (w & g2 & HW). destruct (run_models_total A models rd HF HT g2) as (rs & Hrs).
    exists w, rs. unfold validation_runs. replace (assert_ _) with (Ok tt).
    - cbn [bind]. unfold synth_reader. rewrite (synth_assert_ok _ _ _ _ _ _ _ _ Hok Hp). cbn [bind].
      replace (match c with SyntheticNormal => normal_read rg ds i s | SyntheticLogistic => logistic_read rg ds i s end) with (class_read rg c ds i s) by (destruct c; reflexivity).
      rewrite HX. cbn [bind fst snd]. rewrite HW. cbn [bind fst snd]. rewrite Hrs. reflexivity.
    - destruct missing as [p|]; [|reflexivity]. destruct (HM p eq_refl) as (x & -> & Hx). cbn. unfold Rleb, Rltb.
      destruct (Rle_dec 0 x), (Rlt_dec x 1); try lra. reflexivity.
  Qed.
End Exact.

(** ** What is refused *)
Lemma c104_refused_p : forall G (rg : rng ef G) A c ds i s p write (models : list (arr3 ef -> res A)) g,
  ~ (exists x, p = Fin x /\ (0 <= x < 1)%R) -> validation_runs rg c ds i s (Some p) write models g = Err AssertionError.
Proof.
  intros G rg A c ds i s p write models g H. unfold validation_runs. replace (assert_ _) with (@Err unit AssertionError); [reflexivity|].
  destruct p as [x| | |]; cbn; try reflexivity. unfold Rleb, Rltb.
  destruct (Rle_dec 0 x), (Rlt_dec x 1); try reflexivity. exfalso. apply H. exists x. split; [reflexivity|lra].
Qed.

(** ** Each access makes draws of its own *)
Section Fresh.
  Context {T : Type} {N : Num T}.
  Lemma at_pos : forall g n m e s, e < n -> s < m -> g <= g + (e * m + s) < g + n * m.
  Proof. intros. nia. Qed.
  Lemma synth_draws : forall scale b (ds : dataset T string) i g1 g2 g3 h1 h2 h3 a,
    (forall l e s, si_obias i = Some l -> e < length (ds_dis ds) -> s < length l -> h1 e s = g1 e s /\ h2 e s = g2 e s /\ (si_qamb i <> None -> h3 e s = g3 e s)) ->
    synth_array scale b ds i g1 g2 g3 = Ok a -> exists a', synth_array scale b ds i h1 h2 h3 = Ok a' /\ arr3_eq a a'.
  Proof.
    intros scale b ds i g1 g2 g3 h1 h2 h3 a HD H. unfold synth_array in *.
    destruct (synth_assert ds i) as [[]|]; [|discriminate]. cbn [bind] in *.
    destruct (get_key (si_quality i)) as [q|]; [|discriminate]. cbn [bind] in *.
    destruct (si_obias i) as [ob|] eqn:OB; [|discriminate]. cbn [get_key bind] in *.
    destruct (get_key (si_oinc i)) as [oi|]; [|discriminate]. cbn [bind] in *.
    destruct (get_key (si_cbias i)) as [cb|]; [|discriminate]. cbn [bind] in *.
    destruct (get_key (si_camb i)) as [ca|]; [|discriminate]. cbn [bind] in *.
    destruct (per_content cb (ds_dis ds)) as [mu|]; [|discriminate]. cbn [bind] in *.
    destruct (per_content ca (ds_dis ds)) as [de|]; [|discriminate]. cbn [bind] in *. cbv zeta in *.
    destruct (si_qamb i) as [phi|].
    - destruct (assert_ (negb b)) as [[]|]; [|discriminate]. cbn [bind] in *. destruct (assert_ (Nat.eqb _ _)) as [[]|]; [|discriminate]. cbn [bind] in *.
      injection H as <-. eexists. split; [reflexivity|]. repeat (split; [reflexivity|]). cbn [dE dS dR at3]. intros e s r (He & Hs & Hr). cbn [dE dS dR map3] in He, Hs, Hr.
      destruct (HD ob e s eq_refl He Hs) as (-> & -> & K). rewrite K by discriminate. reflexivity.
    - cbn [bind] in *. injection H as <-. eexists. split; [reflexivity|]. repeat (split; [reflexivity|]). cbn [dE dS dR at3]. intros e s r (He & Hs & Hr). cbn [dE dS dR map3] in He, Hs, Hr.
      destruct (HD ob e s eq_refl He Hs) as (-> & -> & _). reflexivity.
  Qed.
  Lemma c104_fresh : forall c (ds : dataset T string) i g g', takes (fun u g => do rd <- synth_reader (tape u) c ds i NoSeed; rd_read rd g) g g'.
  Proof.
    intros c ds i g g' u v a HU H. unfold synth_reader in *. destruct (synth_assert ds i) as [[]|]; [|discriminate]. cbn [bind rd_read] in *.
    set (nE := length (ds_dis ds)) in *. set (nS := match si_obias i with Some l => length l | None => 0 end) in *.
    destruct c; cbn [class_read] in *.
    - unfold normal_read in *. cbn [reseed bind normals tape] in *. fold nE nS in H |- *.
      destruct (si_qamb i) as [phi|] eqn:QA.
      + cbv beta iota in *. destruct (synthetic_3darray ds i _ _ _) as [a0|] eqn:E; [|discriminate]. cbn [bind] in H. injection H as <- <-.
        edestruct (synth_draws (fun x => x) false ds i) with (2 := E) (h1 := fun e s => v (g + (e * nS + s))) (h2 := fun e s => v (g + nE * nS + (e * nS + s)))
          (h3 := fun e s => v (g + nE * nS + nE * nS + (e * nS + s))) as (a' & E' & EQ).
        { intros l e s OB He Hs. assert (nS = length l) by (unfold nS; rewrite OB; reflexivity). fold nE in He.
          assert (PE : e * nS + s < nE * nS) by (assert (K := at_pos 0 nE nS e s He ltac:(lia)); lia).
          split; [apply HU; lia|]. split; [apply HU; lia|]. intros _. apply HU; lia. }
        exists a'. unfold synthetic_3darray. rewrite E'. split; [reflexivity|exact EQ].
      + cbv beta iota in *. destruct (synthetic_3darray ds i _ _ _) as [a0|] eqn:E; [|discriminate]. cbn [bind] in H. injection H as <- <-.
        edestruct (synth_draws (fun x => x) false ds i) with (2 := E) (h1 := fun e s => v (g + (e * nS + s))) (h2 := fun e s => v (g + nE * nS + (e * nS + s)))
          (h3 := fun _ _ : nat => nzero) as (a' & E' & EQ).
        { intros l e s OB He Hs. assert (nS = length l) by (unfold nS; rewrite OB; reflexivity). fold nE in He.
          assert (PE : e * nS + s < nE * nS) by (assert (K := at_pos 0 nE nS e s He ltac:(lia)); lia).
          split; [apply HU; lia|]. split; [apply HU; lia|]. intros K. congruence. }
        exists a'. unfold synthetic_3darray. rewrite E'. split; [reflexivity|exact EQ].
    - unfold logistic_read in *. cbn [logistics tape] in *. fold nE nS in H |- *. cbv beta iota in *.
      destruct (synthetic_logistic_3darray ds i _ _ _) as [a0|] eqn:E; [|discriminate]. cbn [bind] in H. injection H as <- <-.
      edestruct (synth_draws (fun x => ndiv x (ndiv npi (nsqrt (nofZ 3)))) true ds i) with (2 := E) (h1 := fun e s => v (g + (e * nS + s))) (h2 := fun e s => v (g + nE * nS + (e * nS + s)))
          (h3 := fun _ _ : nat => nzero) as (a' & E' & EQ).
      { intros l e s OB He Hs. assert (nS = length l) by (unfold nS; rewrite OB; reflexivity). fold nE in He.
        assert (PE : e * nS + s < nE * nS) by (assert (K := at_pos 0 nE nS e s He ltac:(lia)); lia).
        split; [apply HU; lia|]. split; [apply HU; lia|]. intros _. reflexivity. }
      exists a'. unfold synthetic_logistic_3darray. rewrite E'. split; [reflexivity|exact EQ].
  Qed.
  Lemma c104_fresh_missing : forall (ds : dataset T string) p g g', takes (fun u g => missing_read (tape u) ds p NoSeed g) g g'.
  Proof.
    intros ds p g g' u v a HU H. unfold missing_read in *. destruct (plain_3darray (ds_dis ds)) as [b|] eqn:PB; [|discriminate].
    cbn [bind reseed uniforms tape] in *. cbv beta iota in *. unfold missing_3darray in *.
    destruct (assert_dataset_raw _ _); [|discriminate]. cbn [bind] in *. rewrite PB in *. cbn [bind] in *. injection H as <- <-.
    eexists. split; [reflexivity|]. repeat (split; [reflexivity|]). cbn [dE dS dR at3 map3]. intros e s r (He & Hs & Hr). cbn [dE dS dR map3] in He, Hs, Hr. rewrite HU; [reflexivity|].
    split; [lia|]. apply Nat.add_lt_mono_l. assert (e * dS b + s < dE b * dS b) by nia. nia.
  Qed.
End Fresh.
