(** Concrete runs for claims C84, C85 and C86. *)
From Coq Require Import String.
From Coq Require Import List ZArith Bool Arith Reals Lia Lra.
From Verif Require Import PyBase Num ExtReal NumPy Dataset Preproc Mos Perf Mocked Runs SpecDataset SpecMos SpecMocked SpecPerf SpecRuns BaseProofs ExtRealProofs
  ArrayProofs MosProofs StepsProofs MosReportProofs MockedProofs MosWitness PerfProofs RunsProofs Runs2Proofs.
Import ListNotations.
Local Open Scope list_scope.
Local Open Scope R_scope.

(** A plain MOS run works on the array as read. *)
Lemma plain_raw : forall (rd : reader ef) a m, rd_arr rd = Ok a -> run_modeling MOS rd no_options = Ok m -> mr_raw m = a.
Proof.
  intros rd a m Ha H. unfold run_modeling in H. cbn [run_kwargs bind] in H. unfold mos_run, preprocess in H. rewrite Ha in H.
  cbn [bind kw_rej kw_rejtype kw_zscore kw_bias kw_dscore no_options assert_ negb andb is_biasremv pp_arr pp_orig pp_bias] in H.
  destruct (attach_observers rd); [|discriminate]. cbn [bind] in H. apply Ok_inj in H. subst m. reflexivity.
Qed.
Lemma plain_run : forall (rd : reader ef) a o, rd_arr rd = Ok a -> attach_observers rd = Ok o -> exists m, run_modeling MOS rd no_options = Ok m.
Proof. intros rd a o Ha Ho. apply (plain_total MOS rd a o no_options Ha Ho); (apply no_conflict || reflexivity). Qed.
Lemma plain_observers : forall (rd : reader ef) m o, attach_observers rd = Ok o -> run_modeling MOS rd no_options = Ok m -> mr_observers m = o.
Proof.
  intros rd m o Ho H. unfold run_modeling in H. destruct (run_kwargs MOS no_options); [|discriminate]. cbn [bind] in H.
  destruct (mos_run MOS rd a); [|discriminate]. cbn [bind] in H. rewrite Ho in H. cbn [bind] in H. apply Ok_inj in H. subst m. reflexivity.
Qed.

(** Two videos, two subjects. *)
Lemma wc_votes : all_votes (w_arr wc_ds) = [1; 3; 2; 3].
Proof. reflexivity. Qed.
Lemma wc_scores : score_of_each (w_arr wc_ds) (fun e => Rmean (video_votes (w_arr wc_ds) e)) = [2; 2; 5/2; 5/2].
Proof.
  change (score_of_each (w_arr wc_ds) (fun e => Rmean (video_votes (w_arr wc_ds) e))) with [Rmean [1; 3]; Rmean [1; 3]; Rmean [2; 3]; Rmean [2; 3]].
  assert (A : Rmean [1; 3] = 2) by (rewrite Rmean2; lra). assert (B : Rmean [2; 3] = 5/2) by (rewrite Rmean2; lra). rewrite A, B. reflexivity.
Qed.
Lemma wc_run : exists m, run_modeling MOS (w_reader wc_ds) no_options = Ok m /\ mr_raw m = w_arr wc_ds.
Proof.
  destruct (plain_run (w_reader wc_ds) _ None wc_arr eq_refl) as (m & H). exists m. split; [exact H|]. exact (plain_raw _ _ m wc_arr H).
Qed.
Lemma wc_spread : has_spread (score_of_each (w_arr wc_ds) (fun e => Rmean (video_votes (w_arr wc_ds) e))).
Proof. rewrite wc_scores. exists 2, (5/2). cbn. split; [auto|]. split; [auto|lra]. Qed.

(** One video, one vote. *)
Definition w1_ds := w_ds [ w_dv 0 0 "v0" (OSeq false [w_vote 3]) ].
Lemma w1_arr : rd_arr (w_reader w1_ds) = Ok (w_arr w1_ds).
Proof. reflexivity. Qed.
Lemma w1_finite : finite_votes (w_arr w1_ds).
Proof.
  intros e s r (A & B & C). change (dE (w_arr w1_ds)) with 1%nat in A. change (dS (w_arr w1_ds)) with 1%nat in B. change (dR (w_arr w1_ds)) with 1%nat in C.
  destruct e; [|lia]. destruct s; [|lia]. destruct r; [|lia]. exact I.
Qed.
Lemma w1_run : exists m, run_modeling MOS (w_reader w1_ds) no_options = Ok m /\ mr_raw m = w_arr w1_ds.
Proof.
  destruct (plain_run (w_reader w1_ds) _ None w1_arr eq_refl) as (m & H). exists m. split; [exact H|]. exact (plain_raw _ _ m w1_arr H).
Qed.

Lemma single_vote : forall lstsq, exists m, run_modeling MOS (w_reader w1_ds) no_options = Ok m /\
  run_subjective_models lstsq (fun _ => Ok w1_ds) (fun _ => Err ValueError) mos_raw mos_rec "d.py" raw_reader (mos_models no_options [MOS]) = Err ValueError.
Proof.
  intro lstsq. destruct w1_run as (m & H & R). exists m. split; [exact H|].
  destruct (c85_mos lstsq _ (fun _ => Ok w1_ds) (fun _ => Err ValueError) "d.py" w1_ds raw_reader (w_reader w1_ds) (w_arr w1_ds) no_options [MOS] [m]) as (_ & Q).
  - left. split; [exists "d"%string; reflexivity|reflexivity].
  - reflexivity.
  - exact w1_arr.
  - exact w1_finite.
  - intros rs E. injection E as <-. exact I.
  - constructor; [exact H|constructor].
  - apply Q. intro F. inversion F as [|? ? A B]; subst. rewrite R in A. cbn in A. lia.
Qed.

Lemma presents_none : forall (l : list nat), presents (map (fun _ => NaN) l) = [].
Proof. induction l as [|x l IH]; [reflexivity|exact IH]. Qed.

(** List-style votes of two subjects; the sample is the second of them. *)
Lemma wc_ok : raw_dataset_ok wc_ds.
Proof. apply raw_ok_assert. reflexivity. Qed.
Lemma wc_style : list_style (ds_dis wc_ds) 2.
Proof. repeat constructor; eexists; eexists; split; reflexivity. Qed.
Lemma wc_wf : votes_wf (ds_dis wc_ds).
Proof. repeat constructor; eexists; apply (vv_num _). Qed.
Definition second (i n k : nat) : list nat := map (fun j => (n - 1 - j)%nat) (seq 0 k).
Lemma list_sample : forall lstsq, sample_one lstsq (fun _ => Ok wc_ds) (fun _ => Err ValueError) mos_raw mos_rec second (mos_models no_options [MOS]) (Some (Fin (1/2))) (0%nat, "d.py"%string) = Err ValueError.
Proof.
  intro lstsq.
  assert (L : loaded (fun _ => Ok wc_ds) (fun _ => Err ValueError) "d.py" (Ok wc_ds)) by (left; split; [exists "d"%string; reflexivity|reflexivity]).
  assert (K : whole (INR 2 * (1/2)) 1) by (split; cbn; lra).
  destruct (c85_list lstsq (fun _ => Ok wc_ds) (fun _ => Err ValueError) second _ mos_raw mos_rec (mos_models no_options [MOS]) (1/2) 0 "d.py" wc_ds 2 1 ltac:(lra) L wc_ok wc_style wc_wf K eq_refl)
    as (a' & A & B & C & E).
  { intros s [<-|[]]. cbn. lia. }
  rewrite E. set (rd := Reader wc_ds (ds_dis wc_ds) (Ok a')).
  assert (N : forall e s r, inside a' e s r -> at3 a' e s r = NaN).
  { intros e s r (I1 & I2 & I3). assert (s = 0)%nat by lia. subst s. destruct (nth_error (ds_dis wc_ds) e) as [dv|] eqn:Q; [|apply nth_error_None in Q; lia].
    apply (proj2 (C e dv 0%nat 1%nat Q eq_refl)). lia. }
  assert (F : finite_votes a') by (intros e s r I; rewrite N by exact I; exact I0 || (cbn; exact Logic.I)).
  destruct (plain_run rd a' None eq_refl eq_refl) as (m & H). assert (R := plain_raw rd a' m eq_refl H).
  destruct (c85_mos lstsq _ (fun _ => Ok wc_ds) (fun _ => Err ValueError) "d.py" wc_ds (fun d => Ok (Reader d (ds_dis d) (Ok a'))) rd a' no_options [MOS] [m] L eq_refl eq_refl F) as (_ & Q).
  - intros rs X. injection X as <-. exact I.
  - constructor; [exact H|constructor].
  - rewrite Q; [reflexivity|]. intro X. apply Forall_inv in X as X1.
    assert (Y : all_votes (mr_raw m) = []).
    { rewrite R. unfold all_votes. assert (Z : forall l, (forall e, In e l -> (e < dE a')%nat) -> flat_map (video_votes a') l = []).
      { induction l as [|e l IH]; intro W; [reflexivity|]. cbn [flat_map]. rewrite IH by (intros; apply W; right; assumption). rewrite app_nil_r. unfold video_votes.
        rewrite presents_flat_map. assert (V : forall l', (forall s, In s l' -> (s < dS a')%nat) -> flat_map (fun s => presents (map (fun r => at3 a' e s r) (seq 0 (dR a')))) l' = []).
        { induction l' as [|s l' IH']; intro V; [reflexivity|]. cbn [flat_map]. rewrite IH' by (intros; apply V; right; assumption). rewrite app_nil_r.
          rewrite (map_ext_in _ (fun _ => NaN)); [apply presents_none|]. intros r Hr. apply in_seq in Hr. apply N. repeat split; [apply W; left; reflexivity|apply V; left; reflexivity|lia]. }
        apply V. intros s Hs. apply in_seq in Hs. lia. }
      apply Z. intros e He. apply in_seq in He. lia. }
    rewrite Y in X1. cbn in X1. lia.
Qed.

(** Named votes of three subjects. *)
Definition wn_ds := w_ds [ w_dv 0 0 "v0" (ODict [("b", w_vote 1); ("a", PSeq true [w_vote 4; w_vote 3])]); w_dv 0 1 "v1" (ODict [("c", w_vote 5); ("a", w_vote 2)]) ]%string.
Lemma wn_dict : dict_style (ds_dis wn_ds).
Proof. repeat constructor; eexists; (split; [reflexivity|]); cbn; repeat constructor; cbn; intuition discriminate. Qed.
Lemma named_sample : exists ds sel rd m names, select_reader sel ds = Ok rd /\ run_modeling MOS rd no_options = Ok m /\ mr_observers m = Some names /\
  dS (mr_raw m) = length sel /\ length names <> dS (mr_raw m).
Proof.
  destruct (raw_reader_3darray wn_ds) as [a|] eqn:E; [|discriminate]. assert (D : dS a = 3%nat) by (apply (f_equal (fun r => match r with Ok x => dS x | Err _ => 0%nat end)) in E; exact (eq_sym E)).
  destruct (select_dict wn_ds a [2; 0]%Z E wn_dict) as (a' & (_ & S & _) & R).
  { intros z Hz. rewrite D. cbn in Hz. intuition lia. }
  destruct (plain_run (Reader wn_ds (ds_dis wn_ds) (Ok a')) a' (Some ["a"; "b"; "c"]%string) eq_refl eq_refl) as (m & H).
  exists wn_ds, [2; 0]%Z, (Reader wn_ds (ds_dis wn_ds) (Ok a')), m, ["a"; "b"; "c"]%string. split; [exact R|]. split; [exact H|].
  split; [apply (plain_observers (Reader wn_ds (ds_dis wn_ds) (Ok a')) m); [reflexivity|exact H]|]. rewrite (plain_raw (Reader wn_ds (ds_dis wn_ds) (Ok a')) a' m eq_refl H). rewrite S. cbn. auto.
Qed.
