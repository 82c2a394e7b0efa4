(** Concrete results for the formatted output. *)
From Coq Require Import String.
From Coq Require Import List ZArith Bool Arith Lia Reals Lra.
From Verif Require Import PyBase Num ExtReal NumPy Dataset Preproc Mos AP Mle PairedComp Routine Report SpecMos SpecAp SpecMle SpecRoutine BaseProofs ExtRealProofs
  StepsProofs MosProofs Reject2Proofs MosWitness ApProofs Ap2Proofs Ap3Proofs Ap4Proofs Ap5Proofs Ap6Proofs Ap7Proofs Ap8Proofs ApWitness Eval MleProofs Mle2Proofs Mle3Proofs Mle4Proofs Mle5Proofs Mle6Proofs Mle7Proofs MleWitness SpecBt BtProofs Bt2Proofs Bt5Proofs Bt6Proofs NormalCdf BtWitness PcDataset PcWitness
  ReportProofs Report2Proofs Report3Proofs.
Import ListNotations.
Local Open Scope list_scope.
Local Open Scope string_scope.
Local Open Scope R_scope.

(** One content, number c; two observers. *)
Definition wr_ds (c : Z) : dataset ef string :=
  Dataset [RVideo c "ref" [("content_name", "park")]]
    [ w_dv c 0 "v0" (ODict [("A", w_vote 4); ("B", w_vote 2)]); w_dv c 1 "v1" (ODict [("A", w_vote 1); ("B", w_vote 3)]) ]
    (Some "w") None [].
Lemma wr_reads : forall c, c = 0%Z \/ c = 1%Z -> raw_reader (wr_ds c) = Ok (w_reader (wr_ds c)) /\ rd_arr (w_reader (wr_ds c)) = Ok (w_arr (wr_ds c)) /\
  attach_observers (w_reader (wr_ds c)) = Ok (Some ["A"; "B"]).
Proof. intros c [->| ->]; repeat split. Qed.
Lemma wr_finite : forall c, finite_votes (w_arr (wr_ds c)). Proof. intro c. cells 2%nat 2%nat 1%nat; exact I. Qed.
Lemma wr_mos : forall c, c = 0%Z \/ c = 1%Z -> exists mm, run_modeling MOS (w_reader (wr_ds c)) no_options = Ok mm /\ mr_quality mm = wf_q.
Proof.
  intros c Hc. destruct (wr_reads c Hc) as (R & A & O). destruct (mos_total _ _ _ R A) as (mm & H). exists mm. split; [exact H|].
  unfold run_modeling, run_kwargs, mos_run, preprocess in H. cbn [bind] in H. rewrite A in H. cbn [bind] in H.
  unfold no_options in H. cbn [kw_dscore kw_zscore kw_bias kw_rej bind] in H. rewrite O in H. cbn [bind] in H. apply Ok_inj in H. subst mm.
  cbn [mr_quality pp_arr pp_orig]. unfold postprocess. cbn [kw_normalize_final kw_transform_final]. rewrite mos_quality_eq by apply wr_finite.
  unfold wf_q. efcbv. ev. reflexivity.
Qed.
Lemma wr_named : forall c, all_named (ds_refs (wr_ds c)).
Proof. intros c rv [<-|[]]. exists "park". reflexivity. Qed.
Lemma wr_no_gaps : no_gaps (ds_refs (wr_ds 0)).
Proof. intros c c' [<-|[]] H. left. cbn in *. lia. Qed.
Lemma wr_gap : ~ no_gaps (ds_refs (wr_ds 1)).
Proof. intro H. destruct (H 1%Z 0%Z (or_introl eq_refl) ltac:(lia)) as [E|[]]. discriminate. Qed.

(** The subject-oblivious solver stops at once. *)
Definition wr_a (c : Z) (x : ef) : list ef := if Z.eqb c 0 then [x] else [NaN; x].
Lemma wr_start : forall c, c = 0%Z \/ c = 1%Z -> mle_start SubjectOblivious (w_arr (wr_ds c)) [Z.to_nat c; Z.to_nat c] (Z.to_nat (c + 1)) wf_q = (wf_q, wf_b, wf_b, wr_a c (Fin 1)).
Proof.
  intros c [->| ->]; unfold mle_start; f_equal; efcbv; ev; efred; ev; efred; ev; rewrite ?sqrt1_ef; reflexivity.
Qed.
Lemma wr_astep : forall c, c = 0%Z \/ c = 1%Z -> fst (a_simplified (w_arr (wr_ds c)) [Z.to_nat c; Z.to_nat c] (Z.to_nat (c + 1)) wf_q wf_b wf_b (wr_a c (Fin 1))) = wr_a c (Fin 1).
Proof. intros c [->| ->]; efcbv; ev; efred; ev; efred; ev; reflexivity. Qed.
Lemma wr_refresh_a : forall c, c = 0%Z \/ c = 1%Z -> clip0 (refresh (wr_a c (Fin 1)) (wr_a c (Fin 1))) = wr_a c (Fin 1).
Proof. intros c [->| ->]; efcbv; ev; unfold nmaximum; efcbv; ev; cbn; ev; reflexivity. Qed.
Lemma wr_xstep : forall c, c = 0%Z \/ c = 1%Z -> fst (x_simplified (w_arr (wr_ds c)) [Z.to_nat c; Z.to_nat c] wf_q wf_b wf_b (wr_a c (Fin 1))) = wf_q.
Proof. intros c [->| ->]; efcbv; ev; efred; ev; efred; ev; reflexivity. Qed.

Section Runs.
  Variable chi : ef -> ef -> ef.
  Lemma wr_loop : forall c f, c = 0%Z \/ c = 1%Z -> exists st,
    mle_loop (S f) 0 SubjectOblivious Simplified GaussianPdf (Fin (1 / 100000000)) (w_arr (wr_ds c)) [Z.to_nat c; Z.to_nat c] (Z.to_nat (c + 1)) wf_q wf_b wf_b (wr_a c (Fin 1)) = Ok (st, 1%nat).
  Proof.
    intros c f Hc. rewrite loop_unfold. unfold mle_pass. cbn [pick bind]. change (zeros (dS (w_arr (wr_ds c)))) with wf_b.
    rewrite wr_astep, wr_refresh_a, wr_xstep by exact Hc. rewrite wf_refresh_q. unfold vecs. cbn [sx sb sv sa bind].
    assert (M : forall b v a b' v' a', moved (wf_q, b, v, a) (wf_q, b', v', a') = Ok (Fin 0)) by (intros; exact wf_moved). rewrite M. cbn [bind].
    unfold ll_s at 1, logpdf at 1. cbn [bind ef_ltb]. rewrite Rltb_t by lra. eexists. reflexivity.
  Qed.
  Lemma wr_run : forall c, c = 0%Z \/ c = 1%Z -> exists m, mle_run_modeling chi MLE_SO (w_reader (wr_ds c)) no_options (MleOpts None None None None) = Ok m.
  Proof.
    intros c Hc. destruct (wr_mos c Hc) as (mm & Hm & Eq). destruct (wr_reads c Hc) as (_ & Ha & Ho).
    assert (PP0 : preprocess (w_reader (wr_ds c)) no_options = Ok (PP (w_arr (wr_ds c)) (w_arr (wr_ds c)) None None)).
    { unfold preprocess, no_options. rewrite Ha. reflexivity. }
    rewrite (run_unfold chi MLE_SO (w_reader (wr_ds c)) no_options (MleOpts None None None None) no_options _ mm c _ eq_refl eq_refl ltac:(discriminate) PP0 eq_refl Hm Ho eq_refl).
    2: { cbn. repeat (constructor; [lia|]). constructor. }
    rewrite Eq, solve_split. unfold loop_from. cbn [pp_arr pp_orig]. change (map Z.to_nat (content_id_of_dis_videos (rd_dvs (w_reader (wr_ds c))))) with [Z.to_nat c; Z.to_nat c].
    cbn [mode_of]. rewrite (wr_start c Hc). destruct fuel_S as (fu & ->). destruct (wr_loop c fu Hc) as (st & L).
    change (threshold_of _) with (Fin (1 / 100000000)). change (pdf_of _) with GaussianPdf. change (gradient_of _) with Simplified. rewrite L. cbn [bind].
    destruct (report_total chi SubjectOblivious (MleOpts None None None None) (w_arr (wr_ds c)) (w_arr (wr_ds c)) [Z.to_nat c; Z.to_nat c] (Z.to_nat (c + 1)) st 1 eq_refl) as (m & R).
    rewrite R. cbn [bind]. eexists. reflexivity.
  Qed.
End Runs.

(** Three named observers, the third against the first two. *)
Definition wj_ds : dataset ef string := Dataset [RVideo 0 "ref" [("content_name", "park")]] [ w_dv 0 0 "v0" (ODict [("A", w_vote 1); ("B", w_vote 1); ("C", w_vote 5)]);
                           w_dv 0 1 "v1" (ODict [("A", w_vote 5); ("B", w_vote 5); ("C", w_vote 1)]) ] (Some "w") None [].
Definition wj_opts : kwargs ef := KW false false false true (Some Pearson) false None.
Lemma wj_reads : raw_reader wj_ds = Ok (w_reader wj_ds) /\ rd_arr (w_reader wj_ds) = Ok (w_arr wj_ds) /\ attach_observers (w_reader wj_ds) = Ok (Some ["A"; "B"; "C"]).
Proof. repeat split. Qed.
Lemma wj_complete : complete_votes (w_arr wj_ds). Proof. cells 2%nat 3%nat 1%nat; exact I. Qed.
Lemma wj_pp : exists pp, preprocess (w_reader wj_ds) wj_opts = Ok pp.
Proof.
  destruct wj_reads as (_ & A & _). assert (Hf := complete_fin _ wj_complete). unfold preprocess. rewrite A. cbn [bind wj_opts kw_dscore kw_zscore kw_bias kw_rej kw_rejtype assert_ negb andb]. cbv zeta.
  assert (T : exists r, observer_corr sp_pearsonr (w_arr wj_ds) = Ok r).
  { apply mapM_total. intros s Hin. apply in_seq in Hin. unfold sp_pearsonr. rewrite map_length. set (a := w_arr wj_ds) in *.
    change (fun e0 => negb (nisnan (np_nanmean (map (fun r0 => at3 a e0 s r0) (seq 0 (dR a)))))) with (fun e => negb (nisnan (sesR a e s))).
    rewrite (seen_eq a Hf s) by lia. assert (K : (2 <= length (seen a s))%nat).
    { change (dS a) with 3%nat in Hin. subst a. destruct s as [|[|[|s]]]; [apply (le_n 2)|apply (le_n 2)|apply (le_n 2)|lia]. }
    destruct (Nat.ltb_spec (length (seen a s)) 2); [lia|]. eexists; reflexivity. }
  destruct T as (r & T). unfold reject_corr. rewrite T. cbn [bind]. eexists. reflexivity.
Qed.
Lemma wj_scores : own_scores (w_arr wj_ds) 0 = [1; 5] /\ own_scores (w_arr wj_ds) 1 = [1; 5] /\ own_scores (w_arr wj_ds) 2 = [5; 1] /\
  forall s, (s < 3)%nat -> all_scores (w_arr wj_ds) s = [7/3; 11/3].
Proof.
  assert (O0 : own_scores (w_arr wj_ds) 0 = [Rmean [1]; Rmean [5]]) by reflexivity.
  assert (O1 : own_scores (w_arr wj_ds) 1 = [Rmean [1]; Rmean [5]]) by reflexivity.
  assert (O2 : own_scores (w_arr wj_ds) 2 = [Rmean [5]; Rmean [1]]) by reflexivity.
  assert (A : forall s, (s < 3)%nat -> all_scores (w_arr wj_ds) s = [Rmean [Rmean [1]; Rmean [1]; Rmean [5]]; Rmean [Rmean [5]; Rmean [5]; Rmean [1]]]).
  { intros s Hs. destruct s as [|[|[|s]]]; [reflexivity|reflexivity|reflexivity|lia]. }
  rewrite O0, O1, O2, !Rmean1. repeat split. intros s Hs. rewrite (A s Hs), !Rmean1, !Rmean3. f_equal; [lra|]. f_equal. lra.
Qed.
Lemma wj_pearson : pearson [1; 5] [7/3; 11/3] = 1 /\ pearson [5; 1] [7/3; 11/3] = -1.
Proof.
  unfold pearson, covsum, sumsq. rewrite !Rmean2. unfold Rsum. cbn [combine map fold_right fst snd].
  assert (P : sqrt 8 * sqrt (8/9) = 8/3).
  { rewrite <- sqrt_mult by lra. replace (8 * (8/9)) with ((8/3) * (8/3)) by field. apply sqrt4. lra. }
  split; match goal with |- ?c / (sqrt ?x * sqrt ?y) = _ => replace x with 8 by field; replace y with (8/9) by field end; rewrite P; field.
Qed.
Lemma wj_threshold : -1 <= threshold [1; 1; -1] < 1.
Proof.
  unfold threshold. rewrite Rmean3.
  assert (PV : pvar [1; 1; -1] = 8/9). { unfold pvar, sumsq. rewrite ?Rmean3. unfold Rmean, Rsum. cbn. field. }
  rewrite PV. assert (S1 : 0 <= sqrt (8/9)) by apply sqrt_pos. assert (S2 : sqrt (8/9) <= 1) by (rewrite <- sqrt_1; apply sqrt_le_1_alt; lra).
  unfold Rmin. destruct (Rle_dec _ _); lra.
Qed.
(** Only the third is rejected. *)
Lemma wj_kept : forall pp, preprocess (w_reader wj_ds) wj_opts = Ok pp -> columns (w_arr wj_ds) (pp_arr pp) [0; 1]%nat.
Proof.
  intros pp H. destruct wj_reads as (_ & A & _). assert (Hf := complete_fin _ wj_complete).
  destruct (corr_pp _ wj_opts _ eq_refl (or_introl eq_refl) H) as (pp0 & fl & r & z & H0 & _ & _ & _ & S).
  assert (A0 : pp_arr pp0 = w_arr wj_ds). { unfold preprocess in H0. rewrite A in H0. injection H0 as <-. reflexivity. }
  cbv zeta in S. rewrite A0 in S. destruct (S Hf) as (L1 & L2 & HS & _ & HF). clear S. change (dS (w_arr wj_ds)) with 3%nat in *.
  destruct wj_scores as (O0 & O1 & O2 & AS). destruct wj_pearson as (P1 & P2).
  assert (SP : forall x y, x <> y -> has_spread [x; y]) by (intros x y Ne; exists x, y; simpl; auto).
  assert (R : r = map Fin [1; 1; -1]).
  { destruct (HS 0%nat ltac:(lia)) as (v0 & E0 & C0 & _). destruct (HS 1%nat ltac:(lia)) as (v1 & E1 & C1 & _). destruct (HS 2%nat ltac:(lia)) as (v2 & E2 & C2 & _).
    specialize (C0 eq_refl). specialize (C1 eq_refl). specialize (C2 eq_refl). rewrite O0, AS in C0 by lia. rewrite O1, AS in C1 by lia. rewrite O2, AS in C2 by lia.
    destruct C0 as [(_ & _ & ->)|(Ne & _)]; [|exfalso; apply Ne; split; apply SP; lra].
    destruct C1 as [(_ & _ & ->)|(Ne & _)]; [|exfalso; apply Ne; split; apply SP; lra].
    destruct C2 as [(_ & _ & ->)|(Ne & _)]; [|exfalso; apply Ne; split; apply SP; lra].
    rewrite P1 in E0, E1. rewrite P2 in E2. destruct r as [|x [|y [|w [|u r]]]]; simpl in *; try discriminate. congruence. }
  destruct (HF _ R ltac:(lia)) as ((LF & FL & kept & (KS & KI) & KC) & _). destruct wj_threshold as [T1 T2].
  assert (F : fl = [false; false; true]).
  { assert (F2 : nth_error fl 2 = Some true) by (apply FL; [lia|]; exists (-1); split; [reflexivity|exact T1]).
    assert (N : forall s, (s < 2)%nat -> nth_error fl s <> Some true).
    { intros s Hs E. apply FL in E; [|lia]. destruct E as (x & Ex & Lx). destruct s as [|[|s]]; [| |lia]; cbn in Ex; injection Ex as <-; lra. }
    assert (N0 := N 0%nat ltac:(lia)). assert (N1 := N 1%nat ltac:(lia)).
    destruct fl as [|[] [|[] [|[] [|u fl]]]]; simpl in *; try discriminate; try congruence. }
  subst fl. replace [0; 1]%nat with kept; [exact KC|].
  assert (K : forall s, In s kept <-> s = 0%nat \/ s = 1%nat).
  { intro s. rewrite KI. destruct s as [|[|[|s]]]; cbn; (split; [intro Q; try discriminate; auto|intros [Q|Q]; try discriminate; auto]). destruct s; discriminate. }
  destruct kept as [|x [|y [|w kept]]].
  - destruct (proj2 (K 0%nat) (or_introl eq_refl)).
  - destruct (proj2 (K 0%nat) (or_introl eq_refl)) as [E|[]], (proj2 (K 1%nat) (or_intror eq_refl)) as [E'|[]]; congruence.
  - assert (XY := KS 0%nat 1%nat x y eq_refl eq_refl ltac:(lia)). destruct (proj1 (K x) (or_introl eq_refl)), (proj1 (K y) (or_intror (or_introl eq_refl))); subst; try lia. reflexivity.
  - assert (XY := KS 0%nat 1%nat x y eq_refl eq_refl ltac:(lia)). assert (YW := KS 1%nat 2%nat y w eq_refl eq_refl ltac:(lia)).
    destruct (proj1 (K w) (or_intror (or_intror (or_introl eq_refl)))); lia.
Qed.
Section Rejected.
  Variable chi : ef -> ef -> ef.
  Lemma wj_run : forall c, exists m, ap_run_modeling chi c (w_reader wj_ds) wj_opts None = Ok m /\ ap_observers m = Some ["A"; "B"; "C"] /\ length (ap_bias m) = 2%nat.
  Proof.
    intro c. destruct wj_pp as (pp & P). destruct (wj_kept pp P) as (D1 & D2 & D3 & AT). destruct wj_reads as (_ & A & O).
    change (dE (w_arr wj_ds)) with 2%nat in D1. change (dR (w_arr wj_ds)) with 1%nat in D2. cbn [length] in D3.
    assert (V : forall e s, (e < 2)%nat -> (s < 2)%nat -> exists v, at3 (pp_arr pp) e s 0 = Fin v).
    { intros e s He Hs. destruct s as [|[|s]]; [rewrite (AT 0%nat 0%nat eq_refl)|rewrite (AT 1%nat 1%nat eq_refl)|lia]; destruct e as [|[|e]]; try lia; eexists; reflexivity. }
    assert (HF : finite_votes (pp_arr pp)).
    { intros e s r (He & Hs & Hr). rewrite D1 in He. rewrite D2 in Hr. rewrite D3 in Hs. destruct r; [|lia]. destruct (V e s He Hs) as (v & ->). exact I. }
    assert (HR : all_rated (pp_arr pp)).
    { intros e He. rewrite D1 in He. destruct (V e 0%nat He ltac:(lia)) as (v & E). exists 0%nat, 0%nat, v. split; [repeat split; lia|exact E]. }
    assert (HV : all_voted (pp_arr pp)).
    { intros s Hs. rewrite D3 in Hs. destruct (V 0%nat s ltac:(lia) Hs) as (v & E). exists 0%nat, 0%nat, v. split; [repeat split; lia|exact E]. }
    assert (S : exists m1, ap_solve chi (is_alt c) true (pp_arr pp) (pp_orig pp) = Ok m1).
    { destruct (solve_spec chi (is_alt c) true (pp_arr pp) HF HR (fun _ => HV)) as (n & m & _ & E & _).
      unfold ap_solve in *. cbv zeta in *. destruct (ap_loop _ _ _ _ _) as [[e k]|]; [|discriminate]. cbn [bind] in *. destruct (zero_mean _ _ _). eexists. reflexivity. }
    destruct S as (m1 & S).
    assert (R : exists m, ap_run_modeling chi c (w_reader wj_ds) wj_opts None = Ok m /\ ap_observers m = Some ["A"; "B"; "C"]).
    { unfold ap_run_modeling. rewrite P. cbn [bind]. rewrite S. cbn [bind]. rewrite O. cbn [bind]. eexists. split; reflexivity. }
    destruct R as (m & R & RO). exists m. split; [exact R|]. split; [exact RO|].
    destruct (ap_len chi c _ _ _ _ R) as (a & pp' & _ & P' & L). assert (pp' = pp) by congruence. subst pp'. destruct L as (_ & _ & _ & _ & L & _). rewrite L. exact D3.
  Qed.
End Rejected.

(** Three observers compare two videos: two prefer the first. *)
Definition wk_ds : dataset ef (string * Z) :=
  Dataset [RVideo 0 "ref" []]
    [ DVideo 0 0 "v0" (Some (ODict [(("A", 1%Z), w_vote 1); (("B", 1%Z), w_vote 1); (("C", 1%Z), w_vote 0)])) None None [];
      DVideo 0 1 "v1" (Some (ODict [])) None None [] ] (Some "w") None [].
Definition wk_cell (i j r : nat) : ef :=
  match i, j, r with
  | O, 1%nat, O | O, 1%nat, 1%nat => Fin 1 | O, 1%nat, 2%nat => Fin 0
  | 1%nat, O, O | 1%nat, O, 1%nat => Fin (1 - 1) | 1%nat, O, 2%nat => Fin (1 - 0)
  | _, _, _ => NaN end.
Lemma wk_reads : exists a, pc_reader_3darray wk_ds = Ok a /\ dE a = 2%nat /\ dS a = 2%nat /\ dR a = 3%nat /\
  forall i j r, (i < 2)%nat -> (j < 2)%nat -> (r < 3)%nat -> at3 a i j r = wk_cell i j r.
Proof.
  unfold pc_reader_3darray. replace (pc_assert_dataset wk_ds) with (@Ok unit tt) by (symmetry; vm_compute; reflexivity). cbn [bind].
  unfold pc_opinion_3darray. cbn [pc_list_observers wk_ds ds_dis mapM get_os dv_os bind].
  match goal with |- context [get_unique_sorted_list String.eqb str_leb ?l] => change (get_unique_sorted_list String.eqb str_leb l) with ["A"; "B"; "C"] end.
  cbn [enumerate length seq combine foldM snd fst get_os dv_os bind].
  unfold pc_write. cbn [pc_value snd fst w_vote]. rewrite !(y_okval 1) by (right; right; reflexivity). rewrite !(y_okval 0) by (left; reflexivity). cbn.
  eexists. split; [reflexivity|]. split; [reflexivity|]. split; [reflexivity|]. split; [reflexivity|].
  intros i j r Hi Hj Hr. two; destruct r as [|[|[|]]]; try lia; cbn; reflexivity.
Qed.
Section Compared.
Variables (wk_arr : arr3 ef) (wk_E : dE wk_arr = 2%nat) (wk_S : dS wk_arr = 2%nat) (wk_R : dR wk_arr = 3%nat).
Hypothesis wk_at : forall i j r, (i < 2)%nat -> (j < 2)%nat -> (r < 3)%nat -> at3 wk_arr i j r = wk_cell i j r.
Lemma wk_finite : finite_votes wk_arr.
Proof.
  intros e s r (He & Hs & Hr). rewrite wk_E in He. rewrite wk_S in Hs. rewrite wk_R in Hr. rewrite wk_at by assumption. two; destruct r as [|[|[|]]]; try lia; exact I.
Qed.
Lemma wk_counts : forall i j, (i < 2)%nat -> (j < 2)%nat -> preferences wk_arr i j = wb i j.
Proof.
  intros i j Hi Hj. unfold preferences. rewrite wk_R. cbn [seq map]. rewrite !wk_at by lia. two; unfold wb, Rsum; cbn; ring.
Qed.
Lemma wk_n0 : n0 (win_matrix wk_arr) = 2%nat. Proof. exact wk_E. Qed.
Lemma wk_n1 : n1 (win_matrix wk_arr) = 2%nat. Proof. exact wk_S. Qed.
Lemma wk_bt : exists r, bt_run same 2 wk_arr = Ok r.
Proof.
  assert (C := win_counts wk_arr 2 wk_E wk_S wk_finite).
  assert (Q : forall i j, (i < 2)%nat -> (j < 2)%nat -> at2 (win_matrix wk_arr) i j = at2 wb_arr i j).
  { intros i j Hi Hj. destruct C as (_ & _ & C). rewrite C, wk_counts by assumption. reflexivity. }
  assert (L : bt_loop 2 (win_matrix wk_arr) (bt_start 2) = bt_loop 2 wb_arr (bt_start 2)).
  { assert (T : forall p, bt_step (win_matrix wk_arr) p = bt_step wb_arr p).
    { intro p. unfold bt_step, bt_raw, played, row. rewrite ?wk_n0, ?wk_n1. change (n0 wb_arr) with 2%nat. change (n1 wb_arr) with 2%nat.
      cbn [seq map]. rewrite !Q by lia. reflexivity. }
    cbn [bt_loop]. rewrite ?wk_n0. change (n0 wb_arr) with 2%nat. rewrite !T. reflexivity. }
  unfold bt_run, bt_resolve. rewrite ?wk_n0, ?wk_n1. cbn [Nat.eqb assert_ bind].
  rewrite L, wb_loop. cbn [bind same]. eexists. reflexivity.
Qed.
(** An oracle that stops Newton's method at once. *)
Definition still (x : arr2 ef) : res (arr2 ef) := Ok (Arr2 1 1 (fun _ _ => Fin 0)).
Lemma wk_nr : exists q, nr_run still 1 false wk_arr = Ok q.
Proof.
  assert (C := win_counts wk_arr 2 wk_E wk_S wk_finite).
  assert (P : nonneg_counts 2 (preferences wk_arr)) by (intros i j Hi Hj; rewrite wk_counts by assumption; apply wb_nonneg; assumption).
  assert (D := dL_Fin (win_matrix wk_arr) 2 (preferences wk_arr) (fun _ => 0) C P 0%nat ltac:(lia)).
  unfold nr_run, nr_resolve. rewrite ?wk_n0, ?wk_n1. cbn [Nat.eqb assert_ bind Nat.sub].
  change (map (fun _ : nat => nzero) (seq 0 2)) with (vec 2 (fun _ => 0)). cbn [nr_loop]. unfold nr_change, still. rewrite ?wk_n0. cbn [Nat.sub bind].
  cbn [seq map app at2]. rewrite D, np_sum_cons, np_sum_nil. unfold nzero. efc. cbn [ef_mul ef_add].
  assert (Z : sp_norm [Fin (0 * ngrad 2 (preferences wk_arr) (fun _ => 0) 0 + 0); Fin 0] = Ok (Fin 0)).
  { replace (0 * _ + 0) with 0 by ring. efcbv. ev. efred. ev. rewrite sqrt0_ef. reflexivity. }
  rewrite Z. cbn [bind]. unfold ngtb. rewrite pc_thr_ef. efc. cbn [ef_ltb]. rewrite Rltb_f by lra. cbn [bind]. eexists. reflexivity.
Qed.
Definition keep (f : list ef -> ef) (v : list ef) : bool * list ef := (true, v).
Lemma wk_th : exists r, th_run ncdf keep same true false wk_arr = Ok r.
Proof. unfold th_run, th_resolve. rewrite ?wk_n0, ?wk_n1. eexists. reflexivity. Qed.
End Compared.

(** ** The claims refuted *)
Lemma wk_refuted : exists (ds : dataset ef (string * Z)) a pinv q, pc_reader_3darray ds = Ok a /\ nr_run pinv 1 false a = Ok q /\
  forall obs t, format_output (ds_refs ds) [t] [named (ds_dis ds) (nr_report obs q)] = Err TypeError.
Proof.
  destruct wk_reads as (a & R & E & S & D & A). destruct (wk_nr a E S D A) as (q & Q). exists wk_ds, a, still, q. split; [exact R|]. split; [exact Q|].
  intros obs t. eapply nr_formats; eassumption.
Qed.
Lemma wj_refuted : forall chi c, exists ds rd k m, raw_reader ds = Ok rd /\ ap_run_modeling chi c rd k None = Ok m /\ all_named (ds_refs ds) /\
  forall t, format_output (ds_refs ds) [t] [named (rd_dvs rd) (ap_report m)] = Err AssertionError.
Proof.
  intros chi c. destruct (wj_run chi c) as (m & R & O & B). destruct wj_reads as (RD & _). exists wj_ds, (w_reader wj_ds), wj_opts, m. split; [exact RD|]. split; [exact R|].
  assert (AN : all_named (ds_refs wj_ds)) by (intros rv [<-|[]]; eexists; reflexivity). split; [exact AN|]. intro t.
  destruct (ap_fits chi wj_ds _ c _ _ m (ds_refs wj_ds) RD R) as (F & NN & _). apply one_rejected; [exact AN|exact NN|]. rewrite F. intro H. specialize (H _ O). rewrite B in H. discriminate.
Qed.
Lemma wr_refuted : forall chi, exists ds rd m, raw_reader ds = Ok rd /\ mle_run_modeling chi MLE_SO rd no_options (MleOpts None None None None) = Ok m /\ all_named (ds_refs ds) /\
  forall t, format_output (ds_refs ds) [t] [named (rd_dvs rd) (mle_report m)] = Err AssertionError.
Proof.
  intro chi. destruct (wr_run chi 1 (or_intror eq_refl)) as (m & R). destruct (wr_reads 1 (or_intror eq_refl)) as (RD & _). exists (wr_ds 1), (w_reader (wr_ds 1)), m.
  split; [exact RD|]. split; [exact R|]. split; [apply wr_named|]. intro t. destruct (mle_fits chi _ _ _ _ _ _ RD R) as (F & NN).
  apply one_rejected; [apply wr_named|exact NN|]. rewrite F. intros [E|[_ G]]; [discriminate|exact (wr_gap G)].
Qed.
Lemma wr_rated : all_rated (w_arr (wr_ds 0)).
Proof.
  apply rated_by. exists 0%nat. intros e He. change (e < 2)%nat in He. destruct e as [|[|e]]; [| |lia]; eexists; (split; [unfold inside; change (dE (w_arr (wr_ds 0))) with 2%nat; change (dS (w_arr (wr_ds 0))) with 2%nat; change (dR (w_arr (wr_ds 0))) with 1%nat; lia|reflexivity]).
Qed.
Lemma wr_examples : forall chi, exists rd mm ma ml, raw_reader (wr_ds 0) = Ok rd /\ run_modeling MOS rd no_options = Ok mm /\
  ap_run_modeling chi Projection rd no_options None = Ok ma /\ kw_rej (@no_options) = false /\
  mle_run_modeling chi MLE_SO rd no_options (MleOpts None None None None) = Ok ml /\ all_named (ds_refs (wr_ds 0)) /\ no_gaps (ds_refs (wr_ds 0)).
Proof.
  intro chi. destruct (wr_reads 0 (or_introl eq_refl)) as (RD & A & O). destruct (wr_mos 0 (or_introl eq_refl)) as (mm & M & _). destruct (wr_run chi 0 (or_introl eq_refl)) as (ml & L).
  destruct (run_ok chi Projection _ None _ _ A (wr_finite 0) wr_rated O) as (ma & P). exists (w_reader (wr_ds 0)), mm, ma, ml.
  repeat (split; [first [assumption|reflexivity]|]). split; [apply wr_named|exact wr_no_gaps].
Qed.

(** Two models, two videos, one observer, one content. *)
Definition ex_refs : list rvideo := [RVideo 0 "ref" [("content_name", "park")]].
Definition ex_a : mresult Z := MR (Some ["v0"; "v1"]) (Some (Some [1; 2]%Z)) (Some (Some [3; 4]%Z)) (Some (Some [[5; 6]; [7; 8]]%Z)) None
  None None None None None None None None None None None None (Some 9%Z) None.
Definition ex_b : mresult Z := MR (Some ["v0"; "v1"]) (Some (Some [10; 20]%Z)) None None (Some ["A"])
  (Some (Some [30]%Z)) None (Some (Some [[31]; [32]]%Z)) None None None None None (Some (Some [40]%Z)) None None None None (Some 50%Z).
Definition ex_bad : mresult Z := MR (Some ["v0"]) (Some (Some [10; 20]%Z)) None None None None None None None None None None None None None None None None None.
