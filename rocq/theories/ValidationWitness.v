(** Witnesses for C104: two distorted videos, three observers. *)
From Coq Require Import String.
From Coq Require Import List ZArith Bool Arith Reals Lra Lia.
From Verif Require Import PyBase Num ExtReal NumPy Dataset Mocked Validation SpecDataset SpecMos SpecMocked SpecValidation
  BaseProofs ExtRealProofs MockedProofs Mocked2Proofs Mocked3Proofs ValidationProofs.
Import ListNotations.
Local Open Scope string_scope.
Local Open Scope list_scope.

Definition vw_v (z : Z) : pyv ef := PNum (Fin (IZR z)).
Definition vw_dv (c a : Z) (p : string) (o : osval ef string) : dvideo ef string := DVideo c a p (Some o) None None [].
Definition vw_ds : dataset ef string :=
  Dataset [RVideo 0 "r0" []; RVideo 1 "r1" []]
    [vw_dv 0 0 "p0" (OSeq true [vw_v 1; vw_v 4; vw_v 3]); vw_dv 1 1 "p1" (OSeq true [vw_v 2; vw_v 5; vw_v 2])]%Z
    (Some "m") (Some (Some (Fin 5))) [].
Definition vw_in (oi ca : list R) : synth_in ef :=
  SynthIn (Some (map Fin [3; 4]%R)) (Some (map Fin [0; 1; -1]%R)) (Some (map Fin oi)) (Some (map Fin [1; 2]%R)) (Some (map Fin ca)) None.

(** A generator whose k-th call draws k everywhere; uniform draws are 1/2. *)
Definition vw_rng : rng ef nat :=
  Rng (fun z => Z.to_nat z) S
      (fun _ _ k => (fun _ _ => Fin (INR k), S k)) (fun _ _ k => (fun _ _ => Fin (INR k), S k))
      (fun _ _ _ k => (fun _ _ _ => Fin (1/2), S k)).

Lemma vw_proper : proper_draws vw_rng.
Proof. split; [intros; exact I|]. split; [intros; exact I|]. intros. exists (1/2)%R. split; [reflexivity|lra]. Qed.
Lemma vw_ok : raw_dataset_ok vw_ds.
Proof. apply raw_ok_assert. reflexivity. Qed.
Lemma vw_params : forall oi ca, length oi = 3 -> length ca = 2 -> synth_params vw_ds (vw_in oi ca) [3; 4]%R [0; 1; -1]%R oi [1; 2]%R ca None.
Proof. intros oi ca H1 H2. repeat split; auto. discriminate. Qed.
Lemma vw_numbered : contents_numbered vw_ds.
Proof. intros dv H. cbn in H. destruct H as [<-|[<-|[]]]; cbn; lia. Qed.

(** Two models that report the vote of the first observer on the first video. *)
Definition vw_model (a : arr3 ef) : res ef := Ok (at3 a 0 0 0).

Definition vw_noisy : synth_in ef := vw_in [1; 1; 1]%R [0; 0]%R.

(** From any state the next access gives a larger first vote. *)
Lemma vw_reads : forall c s, (c = SyntheticLogistic \/ forall z, s <> SeedInt z) ->
  exists x, (0 < x)%R /\ forall k, exists a k0 k', class_read vw_rng c vw_ds vw_noisy s k = Ok (a, k') /\ k <= k0 /\ k0 < k' /\
    at3 a 0 0 0 = Fin (4 + INR k0 * x) /\ dE a = 2 /\ dS a = 3 /\ dR a = 1.
Proof.
  intros c s H.
  assert (HP := vw_params [1; 1; 1]%R [0; 0]%R eq_refl eq_refl). fold vw_noisy in HP.
  destruct c.
  - destruct H as [H|H]; [discriminate|]. exists 1%R. split; [lra|]. intro k.
    pose (k0 := match s with NoSeed => k | SeedNone => S k | SeedInt z => 0 end).
    destruct (synth_spec vw_ds vw_noisy _ _ _ _ _ _ vw_ok HP vw_numbered (fun x => x) (fun x => x) false
      (fun _ _ => Fin (INR k0)) (fun _ _ => Fin (INR (S k0))) (fun _ _ => (@nzero ef Num_ef)) (fun _ _ => INR k0) (fun _ _ => INR (S k0)) (fun _ _ => 0%R)
      (fun x => eq_refl) (fun H => False_ind _ (diff_false_true H)) (fun _ _ => eq_refl) (fun _ _ => eq_refl) (fun _ _ => eq_refl)) as (a & Ha & D1 & D2 & D3 & HA).
    exists a, k0, (S (S k0)). split.
    { cbn [class_read]. unfold normal_read. replace (reseed vw_rng s k) with (Ok k0).
      - cbn [bind normals vw_rng si_qamb vw_noisy vw_in]. fold vw_noisy. unfold synthetic_3darray. rewrite Ha. reflexivity.
      - destruct s as [| |z]; [reflexivity|reflexivity|destruct (H z eq_refl)]. }
    split; [destruct s as [| |z]; cbn; [lia|lia|destruct (H z eq_refl)]|]. split; [lia|].
    split; [|split; [exact D1|split; [exact D2|exact D3]]].
    assert (HA0 := HA 0 0 _ eq_refl ltac:(cbn; lia)). rewrite HA0. cbn [nth Z.to_nat dv_cid vw_dv]. f_equal. lra.
  - exists (1 / (PI / sqrt 3))%R. assert (Hpi : (0 < PI / sqrt 3)%R).
    { apply Rdiv_lt_0_compat; [apply PI_RGT_0|apply sqrt_lt_R0; lra]. }
    split; [apply Rdiv_lt_0_compat; lra|]. intro k.
    destruct (synth_spec vw_ds vw_noisy _ _ _ _ _ None vw_ok HP vw_numbered (fun x : ef => (x / (npi / nsqrt (nofZ 3)))%num) (fun x => (x / (PI / sqrt 3))%R) true
      (fun _ _ => Fin (INR k)) (fun _ _ => Fin (INR (S k))) (fun _ _ => (@nzero ef Num_ef)) (fun _ _ => INR k) (fun _ _ => INR (S k)) (fun _ _ => 0%R)
      logistic_scale (fun _ => eq_refl) (fun _ _ => eq_refl) (fun _ _ => eq_refl) (fun _ _ => eq_refl)) as (a & Ha & D1 & D2 & D3 & HA).
    exists a, k, (S (S k)). split.
    { cbn [class_read]. unfold logistic_read. cbn [logistics vw_rng]. unfold synthetic_logistic_3darray. rewrite Ha. reflexivity. }
    split; [lia|]. split; [lia|]. split; [|split; [exact D1|split; [exact D2|exact D3]]].
    assert (HA0 := HA 0 0 _ eq_refl ltac:(cbn; lia)). rewrite HA0. cbn [nth Z.to_nat dv_cid vw_dv]. f_equal. field.
    split; [apply Rgt_not_eq, sqrt_lt_R0; lra|apply Rgt_not_eq, PI_RGT_0].
Qed.

Lemma vw_refutes : forall c s, (c = SyntheticLogistic \/ forall z, s <> SeedInt z) ->
  exists d x y, validation_runs vw_rng c vw_ds vw_noisy s None true [vw_model; vw_model] 0 = Ok (Some d, [x; y]) /\ x <> y /\
    forall a, holds_votes d a -> at3 a 0 0 0 <> x /\ at3 a 0 0 0 <> y.
Proof.
  intros c s H. destruct (vw_reads c s H) as (t & Ht & HR).
  destruct (HR 0) as (a0 & k0 & g0 & R0 & L0 & M0 & V0 & D1 & D2 & D3).
  destruct (HR g0) as (a1 & k1 & g1 & R1 & L1 & M1 & V1 & _). destruct (HR g1) as (a2 & k2 & g2 & R2 & L2 & M2 & V2 & _).
  destruct (class_reads vw_rng c vw_ds vw_noisy s 0 a0 g0 R0) as (S0 & _).
  destruct (c21 _ _ S0 D3) as (d & a' & Hd & Hr & He & _).
  assert (B : forall m n, m < n -> Fin (4 + INR m * t) <> Fin (4 + INR n * t)).
  { intros m n L E. injection E as E. apply lt_INR in L. nra. }
  exists d, (at3 a1 0 0 0), (at3 a2 0 0 0). split; [|split].
  - unfold validation_runs. cbn [assert_ bind]. unfold synth_reader.
    rewrite (synth_assert_ok vw_ds vw_noisy _ _ _ _ _ _ vw_ok (vw_params [1; 1; 1]%R [0; 0]%R eq_refl eq_refl)). cbn [bind].
    replace (match c with SyntheticNormal => normal_read vw_rng vw_ds vw_noisy s | SyntheticLogistic => logistic_read vw_rng vw_ds vw_noisy s end)
      with (class_read vw_rng c vw_ds vw_noisy s) by (destruct c; reflexivity).
    cbn [removing_reader bind fst snd written_dataset]. unfold reader_to_dataset. cbn [rd_read rd_ds]. rewrite R0. cbn [bind fst snd].
    rewrite Hd. cbn [bind fst snd run_models rd_read]. rewrite R1. cbn [bind fst snd vw_model run_models rd_read]. rewrite R2. reflexivity.
  - rewrite V1, V2. apply B. lia.
  - intros a (a'' & Hr' & He'). rewrite Hr in Hr'. injection Hr' as <-.
    assert (I0 : at3 a 0 0 0 = Fin (4 + INR k0 * t)).
    { destruct He as (E1 & E2 & E3 & E4), He' as (F1 & F2 & F3 & F4).
      rewrite (F4 0 0 0) by (unfold inside; lia). rewrite <- (E4 0 0 0) by (unfold inside; lia). exact V0. }
    rewrite I0, V1, V2. split; apply B; lia.
Qed.

Lemma vw_refuted : forall c s, (c = SyntheticLogistic \/ forall z, s <> SeedInt z) ->
  exists (rg : rng ef nat) ds i (m : arr3 ef -> res ef) d x y,
    proper_draws rg /\ raw_dataset_ok ds /\
    validation_runs rg c ds i s None true [m; m] 0 = Ok (Some d, [x; y]) /\ x <> y /\
    forall a z, holds_votes d a -> m a = Ok z -> z <> x /\ z <> y.
Proof.
  intros c s H. destruct (vw_refutes c s H) as (d & x & y & H1 & H2 & H3).
  exists vw_rng, vw_ds, vw_noisy, vw_model, d, x, y. split; [exact vw_proper|]. split; [exact vw_ok|]. split; [exact H1|]. split; [exact H2|].
  intros a z Ha Hz. injection Hz as <-. exact (H3 a Ha).
Qed.

Lemma vw_seeded :
  proper_draws vw_rng /\ raw_dataset_ok vw_ds /\ contents_numbered vw_ds /\
  synth_params vw_ds vw_noisy [3; 4]%R [0; 1; -1]%R [1; 1; 1]%R [1; 2]%R [0; 0]%R None /\ seed_fits (SeedInt 3) /\
  exists d, validation_runs vw_rng SyntheticNormal vw_ds vw_noisy (SeedInt 3) None true [vw_model; vw_model] 0 = Ok (Some d, [Fin 7; Fin 7]).
Proof.
  split; [exact vw_proper|]. split; [exact vw_ok|]. split; [exact vw_numbered|]. split; [apply vw_params; reflexivity|].
  split; [intros z [= <-]; lia|].
  assert (HP := vw_params [1; 1; 1]%R [0; 0]%R eq_refl eq_refl). fold vw_noisy in HP.
  destruct (c104_total vw_rng vw_proper ef SyntheticNormal vw_ds vw_noisy _ _ _ _ _ _ (SeedInt 3) None true [vw_model; vw_model] 0
    vw_ok HP vw_numbered ltac:(intros z [= <-]; lia) ltac:(discriminate) ltac:(discriminate)
    ltac:(intros m a [<-|[<-|[]]]; eexists; reflexivity)) as (w & rs & H).
  pose proof (runs_inv _ _ _ _ _ _ _ _ _ _ _ _ H) as (rd & g1 & g2 & E1 & E2 & E3). injection E1 as <- <-.
  destruct (synth_spec vw_ds vw_noisy _ _ _ _ _ _ vw_ok HP vw_numbered (fun x => x) (fun x => x) false
      (fun _ _ => Fin (INR 3)) (fun _ _ => Fin (INR 4)) (fun _ _ => (@nzero ef Num_ef)) (fun _ _ => INR 3) (fun _ _ => INR 4) (fun _ _ => 0%R)
      (fun x => eq_refl) (fun H => False_ind _ (diff_false_true H)) (fun _ _ => eq_refl) (fun _ _ => eq_refl) (fun _ _ => eq_refl)) as (a & Ha & D1 & D2 & D3 & HA).
  assert (HV : at3 a 0 0 0 = Fin 7).
  { rewrite (HA 0 0 _ eq_refl ltac:(cbn; lia)). cbn [nth Z.to_nat dv_cid vw_dv]. f_equal. cbn [INR]. lra. }
  assert (HR : forall g, normal_read vw_rng vw_ds vw_noisy (SeedInt 3) g = Ok (a, 5)).
  { intro g. unfold normal_read. change (reseed vw_rng (SeedInt 3) g) with (@Ok nat 3). cbn [bind normals vw_rng si_qamb vw_noisy vw_in].
    fold vw_noisy. unfold synthetic_3darray. rewrite Ha. reflexivity. }
  cbn [run_models rd_read] in E3. rewrite HR in E3. cbn [bind fst snd vw_model] in E3. rewrite HR in E3. cbn [bind fst snd vw_model] in E3.
  rewrite HV in E3. injection E3 as <-.
  assert (HF := written_holds _ (fun _ => True) true 0 w g2
     (fun g0 a0 g' E => conj I (class_reads vw_rng SyntheticNormal vw_ds vw_noisy (SeedInt 3) g0 a0 g' E)) E2).
  destruct w as [d|]; [|discriminate HF]. exists d. exact H.
Qed.

Lemma vw_missing : exists w rs,
  validation_runs vw_rng SyntheticNormal vw_ds vw_noisy NoSeed (Some (Fin (1/4))) true [vw_model; vw_model] 0 = Ok (w, rs) /\ length rs = 2.
Proof.
  assert (HP := vw_params [1; 1; 1]%R [0; 0]%R eq_refl eq_refl). fold vw_noisy in HP.
  destruct (c104_total vw_rng vw_proper ef SyntheticNormal vw_ds vw_noisy _ _ _ _ _ _ NoSeed (Some (Fin (1/4))) true [vw_model; vw_model] 0
    vw_ok HP vw_numbered ltac:(discriminate) ltac:(discriminate) ltac:(intros p [= <-]; exists (1/4)%R; split; [reflexivity|lra])
    ltac:(intros m a [<-|[<-|[]]]; eexists; reflexivity)) as (w & rs & H).
  exists w, rs. split; [exact H|]. destruct (c104_missing vw_rng vw_proper _ _ _ _ _ _ _ _ _ _ _ H) as (a0 & _ & HM & _).
  inversion HM as [|m1 r1 l1 l1' _ HM1]; subst. inversion HM1 as [|m2 r2 l2 l2' _ HM2]; subst. inversion HM2. reflexivity.
Qed.

Lemma vw_noiseless : exists w rs,
  validation_runs vw_rng SyntheticNormal vw_ds (vw_in [0; 0; 0]%R [0; 0]%R) NoSeed None true [vw_model; vw_model] 0 = Ok (w, rs) /\ rs = [Fin 4; Fin 4].
Proof.
  assert (HP := vw_params [0; 0; 0]%R [0; 0]%R eq_refl eq_refl).
  destruct (c104_total vw_rng vw_proper ef SyntheticNormal vw_ds _ _ _ _ _ _ _ NoSeed None true [vw_model; vw_model] 0
    vw_ok HP vw_numbered ltac:(discriminate) ltac:(discriminate) ltac:(discriminate)
    ltac:(intros m a [<-|[<-|[]]]; eexists; reflexivity)) as (w & rs & H).
  exists w, rs. split; [exact H|].
  destruct (c104_noiseless vw_rng vw_proper _ _ _ _ _ _ _ _ _ _ _ _ _ _ _ vw_ok HP vw_numbered
    ltac:(intros x Hx; cbn in Hx; intuition congruence) ltac:(intros x Hx; cbn in Hx; intuition congruence) ltac:(discriminate) H) as (HM & _).
  assert (HV : forall a r, exact_votes vw_ds [3; 4]%R [0; 1; -1]%R [1; 2]%R a -> vw_model a = Ok r -> r = Fin 4).
  { intros a r (_ & _ & _ & HA) Hr. injection Hr as <-. rewrite (HA 0 0 _ eq_refl ltac:(cbn; lia)). cbn [nth Z.to_nat dv_cid vw_dv]. f_equal. lra. }
  inversion HM as [|m1 r1 l1 l1' (a1 & P1 & Q1) HM1]; subst. inversion HM1 as [|m2 r2 l2 l2' (a2 & P2 & Q2) HM2]; subst. inversion HM2.
  rewrite (HV _ _ P1 Q1), (HV _ _ P2 Q2). reflexivity.
Qed.

Lemma vw_fresh : forall u, exists a, (do rd <- synth_reader (tape u) SyntheticNormal vw_ds vw_noisy NoSeed; rd_read rd 5) = Ok (a, 17).
Proof.
  intros u. assert (HP := vw_params [1; 1; 1]%R [0; 0]%R eq_refl eq_refl). fold vw_noisy in HP.
  unfold synth_reader. rewrite (synth_assert_ok vw_ds vw_noisy _ _ _ _ _ _ vw_ok HP). cbn [bind rd_read]. unfold normal_read. cbn [reseed bind normals tape].
  cbn [si_qamb vw_noisy vw_in si_obias]. fold vw_noisy. unfold synthetic_3darray.
  unfold synth_array. rewrite (synth_assert_ok vw_ds vw_noisy _ _ _ _ _ _ vw_ok HP). eexists. reflexivity.
Qed.
