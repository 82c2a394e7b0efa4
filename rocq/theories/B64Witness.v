(** Concrete votes in binary64. *)
From Coq Require Import String.
From Coq Require Import List ZArith Bool Arith Lia Reals Lra.
From Flocq Require Import Core IEEE754.BinarySingleNaN.
From Verif Require Import PyBase Num ExtReal NumPy Dataset Preproc Mos NumB64 SpecDataset SpecMos SpecB64 B64Proofs B64SumProofs B64MosProofs B64StdProofs B64SpreadProofs.
Import ListNotations.
Local Open Scope list_scope.
Local Open Scope string_scope.

Definition wb_dv (a : Z) (p : string) (l : list b64) : dvideo b64 string := DVideo 0 a p (Some (OSeq true (map PNum l))) None None [].
Definition wb_ds (ls : list (list b64)) : dataset b64 string :=
  Dataset [RVideo 0 "ref0" []] (map (fun p => wb_dv (Z.of_nat (fst p)) (snd p) (nth (fst p) ls []))
    (combine (seq 0 (length ls)) ["v0"; "v1"; "v2"])) (Some "wb") None [].
Definition b_ (k : Z) : b64 := b64_of k 0.

(** Votes 1, 2, 2; 5, 4 and one missing; none. *)
Definition wb_votes := wb_ds [[b_ 1; b_ 2; b_ 2]; [b_ 5; b64_nan; b_ 4]; [b64_nan; b64_nan; b64_nan]].
(** The number 0.1 three times. *)
Definition tenth : b64 := b64_of 3602879701896397 (-55).
Definition wb_tenths := wb_ds [[tenth; tenth; tenth]].

Section Runs.
  Variables bexp bln : b64 -> b64.
  Let NB := Num_b64 bexp bln.
  #[local] Existing Instance NB.

  Definition wb_reader (ds : dataset b64 string) : reader b64 :=
    Reader ds (ds_dis ds) (opinion_score_3darray_with (ds_dis ds) (get_num_observers (ds_dis ds))).
  Definition wb_arr (ds : dataset b64 string) : arr3 b64 :=
    match rd_arr (wb_reader ds) with Ok a => a | Err _ => Arr3 0 0 0 (fun _ _ _ => b64_nan) end.

  Lemma wb_reads : raw_reader wb_votes = Ok (wb_reader wb_votes) /\ rd_arr (wb_reader wb_votes) = Ok (wb_arr wb_votes).
  Proof. split; reflexivity. Qed.
  Lemma wt_reads : raw_reader wb_tenths = Ok (wb_reader wb_tenths) /\ rd_arr (wb_reader wb_tenths) = Ok (wb_arr wb_tenths).
  Proof. split; reflexivity. Qed.

  Lemma wb_run : exists m, run_modeling MOS (wb_reader wb_votes) no_opts = Ok m.
  Proof. eexists. reflexivity. Qed.
  Lemma wt_run : exists m, run_modeling MOS (wb_reader wb_tenths) no_opts = Ok m.
  Proof. eexists. reflexivity. Qed.
  Lemma wt_above : map (fun q => Bltb tenth q) (along1 np_nanmean (stack1 (wb_arr wb_tenths))) = [true].
  Proof. vm_compute. reflexivity. Qed.
  Lemma wt_cells : map (fun s => Beqb tenth (at3 (wb_arr wb_tenths) 0 s 0)) [0; 1; 2]%nat = [true; true; true].
  Proof. vm_compute. reflexivity. Qed.
  Lemma tenth_finite : is_finite tenth = true.
  Proof. vm_compute. reflexivity. Qed.
End Runs.

Lemma tenth_val : b2ef tenth = Fin (B2R tenth).
Proof. apply val_ef. split; [exact tenth_finite|reflexivity]. Qed.

Lemma bltb_val : forall x y v, is_finite x = true -> b2ef y = Fin v -> Bltb x y = true -> (B2R x < v)%R.
Proof.
  intros x y v Hx Hy H. apply val_ef in Hy as (Hy & <-). rewrite (Bltb_correct 53 1024) in H by assumption.
  apply Rlt_bool_true_iff in H || (revert H; case Rlt_bool_spec; [auto|discriminate]).
Qed.

Lemma whole_b : forall k, (Z.abs k < 2 ^ 53)%Z -> b2ef (b_ k) = Fin (IZR k).
Proof. intros k H. apply val_ef. exact (val_ofZ (fun x => x) (fun x => x) k H). Qed.

Definition wb_cells := [[b_ 1; b_ 2; b_ 2]; [b_ 5; b64_nan; b_ 4]; [b64_nan; b64_nan; b64_nan]].
Lemma wb_cell : forall bexp bln e s, (e < 3)%nat -> (s < 3)%nat -> at3 (wb_arr bexp bln wb_votes) e s 0 = nth s (nth e wb_cells []) b64_nan.
Proof.
  intros bexp bln e s He Hs. destruct e as [|[|[|e]]]; [| | |lia]; (destruct s as [|[|[|s]]]; [| | |lia]); reflexivity.
Qed.
Lemma wb_dims : forall bexp bln, dE (wb_arr bexp bln wb_votes) = 3%nat /\ dS (wb_arr bexp bln wb_votes) = 3%nat /\ dR (wb_arr bexp bln wb_votes) = 1%nat.
Proof. intros. repeat split. Qed.

Lemma wb_whole : forall bexp bln, whole_votes (wb_arr bexp bln wb_votes).
Proof.
  intros bexp bln e s r He Hs Hr. destruct (wb_dims bexp bln) as (D1 & D2 & D3). rewrite D1 in He. rewrite D2 in Hs. rewrite D3 in Hr.
  assert (r = 0)%nat as -> by lia. rewrite wb_cell by assumption.
  destruct e as [|[|[|e]]]; [| | |lia]; (destruct s as [|[|[|s]]]; [| | |lia]); cbn [nth wb_cells];
    first [left; reflexivity|right; eexists; apply whole_b; reflexivity].
Qed.

Lemma wb_video : forall bexp bln, let a := exact (wb_arr bexp bln wb_votes) in
  video_votes a 0 = [1; 2; 2]%R /\ video_votes a 1 = [5; 4]%R /\ video_votes a 2 = [].
Proof.
  intros bexp bln a. destruct (wb_dims bexp bln) as (D1 & D2 & D3).
  assert (C : forall e, (e < 3)%nat -> video_votes a e = presents (map b2ef (nth e wb_cells []))).
  { intros e He. unfold video_votes, a. cbn [exact dS dR at3]. rewrite D2, D3. cbn [seq flat_map map app]. rewrite !wb_cell by lia.
    destruct e as [|[|[|e]]]; [| | |lia]; reflexivity. }
  assert (B : b2ef b64_nan = NaN) by reflexivity.
  rewrite !C by lia. cbn [nth wb_cells map]. rewrite !whole_b by reflexivity. rewrite !B. repeat split.
Qed.

Lemma wb_small : forall bexp bln e, (e < 3)%nat -> small_whole (video_votes (exact (wb_arr bexp bln wb_votes)) e).
Proof.
  intros bexp bln e He. destruct (wb_video bexp bln) as (V0 & V1 & V2). destruct e as [|[|[|e]]]; [| | |lia]; rewrite ?V0, ?V1, ?V2; (split; [unfold few; cbn; lia|]);
    unfold abs_sum; cbn [map]; rewrite ?Rabs_pos_eq by lra; unfold Rsum; cbn [fold_right]; change (IZR (2 ^ 53)) with 9007199254740992%R; lra.
Qed.

(** The votes 0.1 *)
Lemma wt_cell : forall bexp bln s, (s < 3)%nat -> at3 (wb_arr bexp bln wb_tenths) 0 s 0 = tenth.
Proof. intros bexp bln s Hs. destruct s as [|[|[|s]]]; [| | |lia]; reflexivity. Qed.
Lemma wt_dims : forall bexp bln, dE (wb_arr bexp bln wb_tenths) = 1%nat /\ dS (wb_arr bexp bln wb_tenths) = 3%nat /\ dR (wb_arr bexp bln wb_tenths) = 1%nat.
Proof. intros. repeat split. Qed.
Lemma wt_video : forall bexp bln, let a := exact (wb_arr bexp bln wb_tenths) in
  video_votes a 0 = [B2R tenth; B2R tenth; B2R tenth].
Proof.
  intros bexp bln a. destruct (wt_dims bexp bln) as (D1 & D2 & D3). unfold video_votes, a. cbn [exact dS dR at3]. rewrite D2, D3.
  cbn [seq flat_map map app]. rewrite !wt_cell by lia. rewrite !tenth_val. reflexivity.
Qed.
Lemma wt_finite : forall bexp bln, finite_votes (exact (wb_arr bexp bln wb_tenths)).
Proof.
  intros bexp bln e s r (I1 & I2 & I3). destruct (wt_dims bexp bln) as (D1 & D2 & D3). cbn [exact dE dS dR] in I1, I2, I3.
  rewrite D1 in I1. rewrite D2 in I2. rewrite D3 in I3. assert (e = 0)%nat as -> by lia. assert (r = 0)%nat as -> by lia.
  cbn [exact at3]. rewrite wt_cell by assumption. rewrite tenth_val. exact I.
Qed.
Lemma tenth_small : (Rabs (B2R tenth) <= 1)%R.
Proof.
  assert (H : Bleb (Babs tenth) (b_ 1) = true) by (vm_compute; reflexivity).
  assert (F : is_finite (Babs tenth) = true) by (vm_compute; reflexivity).
  assert (F1 : val (b_ 1) 1%R) by (apply val_ef, whole_b; reflexivity). destruct F1 as (F1 & E1).
  rewrite (Bleb_correct 53 1024) in H by assumption. rewrite E1, B2R_Babs in H. revert H. case Rle_bool_spec; [auto|discriminate].
Qed.
Lemma wt_moderate : forall bexp bln, moderate (video_votes (exact (wb_arr bexp bln wb_tenths)) 0).
Proof.
  intros. rewrite wt_video. split; [unfold few; cbn; lia|]. unfold abs_sum. cbn [map]. unfold Rsum. cbn [fold_right]. pose proof tenth_small.
  apply Rle_trans with (bpow radix2 2); [change (bpow radix2 2) with 4%R; lra|apply bpow_le; lia].
Qed.

Lemma wt_outside : forall bexp bln m, @run_modeling b64 (Num_b64 bexp bln) MOS (wb_reader bexp bln wb_tenths) no_opts = Ok m ->
  exists q v, nth_error (mr_quality m) 0 = Some q /\ b2ef q = Fin v /\
    forall x, In x (video_votes (exact (wb_arr bexp bln wb_tenths)) 0) -> (x < v)%R.
Proof.
  intros bexp bln m Hm. destruct (wt_reads bexp bln) as (_ & HA). destruct (run_mos_quality bexp bln _ _ Hm) as (a & Ha & HQ).
  rewrite HA in Ha. assert (a = wb_arr bexp bln wb_tenths) as -> by (injection Ha as <-; reflexivity).
  destruct (b64_error bexp bln _ _ m HA Hm (wt_finite bexp bln)) as (_ & K). destruct (wt_dims bexp bln) as (D1 & D2 & D3).
  destruct (K 0%nat ltac:(rewrite D1; lia) (wt_moderate bexp bln)) as (q & Hq & _ & Q).
  destruct (Q ltac:(rewrite wt_video; discriminate)) as (v & Hv & _). exists q, v. split; [exact Hq|]. split; [exact Hv|].
  intros x Hx. rewrite wt_video in Hx. assert (x = B2R tenth) as -> by (destruct Hx as [<-|[<-|[<-|[]]]]; reflexivity).
  apply (bltb_val tenth q v tenth_finite Hv). pose proof (wt_above bexp bln) as W. rewrite <- HQ in W.
  destruct (mr_quality m) as [|q' l]; [discriminate|]. cbn in Hq. injection Hq as ->. cbn [map] in W. injection W as W _. exact W.
Qed.

(** ** The spread of the votes 0.1 *)
Lemma wt_modest : forall bexp bln, modest (video_votes (exact (wb_arr bexp bln wb_tenths)) 0).
Proof.
  intros. rewrite wt_video. split; [unfold few; cbn; lia|]. unfold abs_sum. cbn [map]. unfold Rsum. cbn [fold_right]. pose proof tenth_small.
  apply Rle_trans with (bpow radix2 2); [change (bpow radix2 2) with 4%R; lra|apply bpow_le; lia].
Qed.
Lemma wt_unanimous : forall bexp bln, unanimous (video_votes (exact (wb_arr bexp bln wb_tenths)) 0).
Proof. intros. rewrite wt_video. intros x y [<-|[<-|[<-|[]]]] [<-|[<-|[<-|[]]]]; reflexivity. Qed.
Lemma wt_std : forall bexp bln,
  Bltb (b_ 0) (@np_nanstd b64 (Num_b64 bexp bln) 1 (row (stack1 (wb_arr bexp bln wb_tenths)) 0)) = true.
Proof. intros. vm_compute. reflexivity. Qed.
Lemma some_eq : forall A (x y : A), Some x = Some y -> x = y.
Proof. intros A x y [= ->]. reflexivity. Qed.
Lemma wt_spread : forall bexp bln m, @run_modeling b64 (Num_b64 bexp bln) MOS (wb_reader bexp bln wb_tenths) no_opts = Ok m ->
  exists s v, nth_error (mr_ambiguity m) 0 = Some s /\ b2ef s = Fin v /\ (0 < v)%R.
Proof.
  intros bexp bln m Hm. destruct (wt_reads bexp bln) as (_ & HA). destruct (wt_dims bexp bln) as (D1 & D2 & D3).
  destruct (b64_spread bexp bln _ _ m HA Hm (wt_finite bexp bln) 0%nat ltac:(rewrite D1; lia) (wt_modest bexp bln)) as (s & sm & c & N1 & _ & _ & _ & _ & K).
  destruct K as (v & vm & vc & V & _); [rewrite wt_video; cbn; lia|]. exists s, v. split; [exact N1|]. split; [exact V|].
  destruct (run_mos_stats bexp bln _ m Hm) as (a' & Ha' & E & _). rewrite HA in Ha'.
  assert (a' = wb_arr bexp bln wb_tenths) as -> by (injection Ha' as <-; reflexivity).
  destruct (stats_at bexp bln (wb_arr bexp bln wb_tenths) 0 ltac:(rewrite D1; lia)) as (S1 & _). rewrite E, S1 in N1.
  assert (EQ : s = @np_nanstd b64 (Num_b64 bexp bln) 1 (row (stack1 (wb_arr bexp bln wb_tenths)) 0)) by (exact (some_eq _ _ _ (eq_sym N1))).
  assert (F0 : val (b_ 0) 0%R) by (apply val_ef, whole_b; reflexivity). destruct F0 as (F0 & E0).
  rewrite <- E0. apply (bltb_val (b_ 0) s v F0 V). rewrite EQ. apply wt_std.
Qed.

(** ** The votes 0.1, 0.2, 0.3 in two orders *)
Definition fifth : b64 := b64_of 3602879701896397 (-54).
Definition three10 : b64 := b64_of 5404319552844595 (-54).
Definition wb_up := wb_ds [[tenth; fifth; three10]].
Definition wb_down := wb_ds [[three10; fifth; tenth]].

Section Orders.
  Variables bexp bln : b64 -> b64.
  Lemma run_exists : forall (rd : reader b64) a o, rd_arr rd = Ok a -> attach_observers rd = Ok o ->
    exists m, @run_modeling b64 (Num_b64 bexp bln) MOS rd no_opts = Ok m.
  Proof.
    intros rd a o Ha Ho. unfold run_modeling, run_kwargs, mos_run, preprocess. cbn [bind]. rewrite Ha.
    cbn [bind no_opts kw_rej kw_rejtype kw_zscore kw_bias kw_dscore assert_ negb andb is_biasremv pp_arr pp_orig pp_rej]. rewrite Ho.
    cbn [bind]. eexists. reflexivity.
  Qed.
  Lemma wo_reads : forall x y z, let ds := wb_ds [[x; y; z]] in @raw_reader b64 (Num_b64 bexp bln) ds = Ok (wb_reader bexp bln ds) /\
    rd_arr (wb_reader bexp bln ds) = Ok (wb_arr bexp bln ds) /\
    (exists o, attach_observers (wb_reader bexp bln ds) = Ok o) /\
    dE (wb_arr bexp bln ds) = 1%nat /\ dS (wb_arr bexp bln ds) = 3%nat /\ dR (wb_arr bexp bln ds) = 1%nat /\
    row (stack1 (wb_arr bexp bln ds)) 0 = [x; y; z] /\
    at3 (wb_arr bexp bln ds) 0 0 0 = x /\ at3 (wb_arr bexp bln ds) 0 1 0 = y /\ at3 (wb_arr bexp bln ds) 0 2 0 = z.
  Proof. intros x y z ds. repeat split. eexists. reflexivity. Qed.
  Lemma wo_run : forall x y z, exists m, @run_modeling b64 (Num_b64 bexp bln) MOS (wb_reader bexp bln (wb_ds [[x; y; z]])) no_opts = Ok m.
  Proof. intros x y z. destruct (wo_reads x y z) as (_ & Ha & (o & Ho) & _). exact (run_exists _ _ _ Ha Ho). Qed.
  Lemma wo_video : forall x y z : b64, is_finite x = true -> is_finite y = true -> is_finite z = true ->
    let a := exact (wb_arr bexp bln (wb_ds [[x; y; z]])) in video_votes a 0 = [B2R x; B2R y; B2R z] /\ finite_votes a.
  Proof.
    intros x y z Fx Fy Fz a. destruct (wo_reads x y z) as (_ & _ & _ & D1 & D2 & D3 & _ & A1 & A2 & A3). unfold a.
    assert (E : forall u : b64, is_finite u = true -> b2ef u = Fin (B2R u)) by (intros u Hu; apply val_ef; split; [exact Hu|reflexivity]). split.
    - unfold video_votes. cbn [exact dS dR at3]. rewrite D2, D3. cbn [seq flat_map map app]. rewrite A1, A2, A3, !E by assumption. reflexivity.
    - intros e s r (I1 & I2 & I3). cbn [exact dE dS dR at3] in *. rewrite D1 in I1. rewrite D2 in I2. rewrite D3 in I3.
      assert (e = 0)%nat as -> by lia. assert (r = 0)%nat as -> by lia.
      destruct s as [|[|[|s]]]; [| | |lia]; rewrite ?A1, ?A2, ?A3, E by assumption; exact I.
  Qed.
  Lemma wo_less : Bltb (@np_nanmean b64 (Num_b64 bexp bln) [three10; fifth; tenth]) (@np_nanmean b64 (Num_b64 bexp bln) [tenth; fifth; three10]) = true.
  Proof. vm_compute. reflexivity. Qed.
  Lemma wo_finite : is_finite tenth = true /\ is_finite fifth = true /\ is_finite three10 = true /\
    is_finite (@np_nanmean b64 (Num_b64 bexp bln) [three10; fifth; tenth]) = true /\
    is_finite (@np_nanmean b64 (Num_b64 bexp bln) [tenth; fifth; three10]) = true.
  Proof. repeat split; vm_compute; reflexivity. Qed.
  Lemma wo_quality : forall x y z m, @run_modeling b64 (Num_b64 bexp bln) MOS (wb_reader bexp bln (wb_ds [[x; y; z]])) no_opts = Ok m ->
    nth_error (mr_quality m) 0 = Some (@np_nanmean b64 (Num_b64 bexp bln) [x; y; z]).
  Proof.
    intros x y z m Hm. destruct (run_mos_quality bexp bln _ _ Hm) as (a & Ha & ->). destruct (wo_reads x y z) as (_ & Ha' & _ & D1 & _ & _ & RW & _).
    rewrite Ha' in Ha. assert (a = wb_arr bexp bln (wb_ds [[x; y; z]])) as -> by (injection Ha as <-; reflexivity).
    unfold along1. cbn [n0 stack1]. rewrite nth_error_map. rewrite D1. cbn [seq nth_error option_map]. rewrite RW. reflexivity.
  Qed.
  Lemma wo_differ : exists rd rd' a a' m m', rd_arr rd = Ok a /\ rd_arr rd' = Ok a' /\
    @run_modeling b64 (Num_b64 bexp bln) MOS rd no_opts = Ok m /\ @run_modeling b64 (Num_b64 bexp bln) MOS rd' no_opts = Ok m' /\
    finite_votes (exact a) /\ finite_votes (exact a') /\
    Permutation.Permutation (video_votes (exact a) 0) (video_votes (exact a') 0) /\
    exists q q' v v', nth_error (mr_quality m) 0 = Some q /\ nth_error (mr_quality m') 0 = Some q' /\
      b2ef q = Fin v /\ b2ef q' = Fin v' /\ (v < v')%R.
  Proof.
    destruct wo_finite as (F1 & F2 & F3 & F4 & F5).
    destruct (wo_run three10 fifth tenth) as (m & Hm). destruct (wo_run tenth fifth three10) as (m' & Hm').
    destruct (wo_reads three10 fifth tenth) as (_ & Ha & _). destruct (wo_reads tenth fifth three10) as (_ & Ha' & _).
    destruct (wo_video three10 fifth tenth F3 F2 F1) as (V & FV). destruct (wo_video tenth fifth three10 F1 F2 F3) as (V' & FV').
    exists (wb_reader bexp bln wb_down), (wb_reader bexp bln wb_up), (wb_arr bexp bln wb_down), (wb_arr bexp bln wb_up), m, m'.
    split; [exact Ha|]. split; [exact Ha'|]. split; [exact Hm|]. split; [exact Hm'|]. split; [exact FV|]. split; [exact FV'|].
    split. { unfold wb_down, wb_up. rewrite V, V'. apply (Permutation.Permutation_rev [B2R three10; B2R fifth; B2R tenth]). }
    pose proof (wo_quality _ _ _ m Hm) as Q. pose proof (wo_quality _ _ _ m' Hm') as Q'. pose proof wo_less as L.
    set (q := @np_nanmean b64 (Num_b64 bexp bln) [three10; fifth; tenth]) in *. set (q' := @np_nanmean b64 (Num_b64 bexp bln) [tenth; fifth; three10]) in *.
    exists q, q', (B2R q), (B2R q'). split; [exact Q|]. split; [exact Q'|].
    assert (E' : b2ef q' = Fin (B2R q')) by (apply val_ef; split; [exact F5|reflexivity]).
    split; [apply val_ef; split; [exact F4|reflexivity]|]. split; [exact E'|]. exact (bltb_val q q' _ F4 E' L).
  Qed.
End Orders.
