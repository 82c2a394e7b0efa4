(** Concrete runs of the remaining rating models. *)
From Coq Require Import String.
From Coq Require Import List ZArith Bool Arith Reals Lra Lia.
From Verif Require Import PyBase Num ExtReal NumPy Dataset Preproc Mos AP Mle OtherModels SpecDataset SpecMos SpecAp SpecMle SpecOther
  BaseProofs ExtRealProofs ArrayProofs StepsProofs MosProofs MosWitness ApWitness MleWitness LsProofs LiveProofs Eval.
Import ListNotations.
Local Open Scope R_scope.
Local Open Scope string_scope.

(** ** The early maximum likelihood model: a fixed point *)
Lemma ln1_ef : ef_ln (Fin 1) = Fin 0.
Proof. cbn [ef_ln]. rewrite Rltb_f by lra. destruct (Req_EM_T 1 0); [lra|]. rewrite ln_1. reflexivity. Qed.
Lemma wf_leg_start : leg_start (w_arr wf_ds) = (wf_q, wf_b, wf_v, wf_a).
Proof. efcbv. ev. efred. ev. efred. ev. rewrite sqrt1_ef, ln1_ef. reflexivity. Qed.
Lemma wf_leg_bias : leg_bias (w_arr wf_ds) wf_q wf_b = wf_b.
Proof. efcbv. ev. efred. ev. reflexivity. Qed.
Lemma wf_leg_incons : leg_incons (w_arr wf_ds) wf_q wf_b wf_v = wf_v.
Proof. efcbv. ev. efred. ev. reflexivity. Qed.
Lemma wf_leg_quality : leg_quality (w_arr wf_ds) wf_q wf_b wf_v = wf_q.
Proof. efcbv. ev. efred. ev. reflexivity. Qed.
Lemma wf_leg_norm : sp_norm (vmap2 nsub wf_q wf_q) = Ok (Fin 0).
Proof. efcbv. ev. efred. ev. rewrite sqrt0_ef. reflexivity. Qed.
Lemma leg_fuel : exists f, leg_max_itr = S f.
Proof. exists (99 + 49 * 100)%nat. reflexivity. Qed.
Lemma wf_leg_loop : forall f, leg_loop (S f) 0 false (w_arr wf_ds) (wf_q, wf_b, wf_v, wf_a) = Ok ((wf_q, wf_b, wf_v, wf_a), 1%nat).
Proof.
  intro f. cbn [leg_loop leg_pass]. rewrite wf_leg_bias, wf_leg_incons, wf_leg_quality, wf_leg_norm. cbn [bind].
  assert (L : nltb (Fin 0) epsilon = true) by (unfold epsilon; efc; rewrite ndec_ef by lia; cbn [ef_ltb]; apply Rltb_t; lra).
  rewrite L. reflexivity.
Qed.
Lemma wf_leg : exists m, leg_run_modeling (w_reader wf_ds) no_options (LegOpts None None) = Ok m /\ or_quality m = wf_q /\ or_bias m = Some wf_b /\ or_incons m = Some wf_v.
Proof.
  unfold leg_run_modeling. change (preprocess (w_reader wf_ds) no_options) with (Ok (PP (w_arr wf_ds) (w_arr wf_ds) None None)).
  cbn [no_options kw_rej negb assert_ bind pp_arr lo_log lo_force]. change (Nat.eqb (dR (w_arr wf_ds)) 1) with true. cbn [assert_ bind].
  rewrite wf_leg_start. destruct leg_fuel as (f & ->). rewrite wf_leg_loop. cbn [bind leg_center]. unfold finish. destruct wf_reads as (_ & _ & o & Ho). rewrite Ho. cbn [bind]. eexists. split; [reflexivity|].
  cbn [or_quality or_bias or_incons]. change (postprocess no_options ?l) with l.
  assert (M : np_nanmean wf_b = Fin 0) by (efcbv; ev; efred; ev; reflexivity). rewrite M.
  repeat split; [efcbv; ev; reflexivity|f_equal; efcbv; ev; reflexivity].
Qed.

(** ** Least squares *)
Definition ls_pinv (E S : nat) (m : arr2 ef) : res (arr2 ef) := Ok (Arr2 (S + E) (E * S + 1) (fun i j => Fin (ls_inverse E S i j))).
Lemma ls_pinv_inverts : forall E S, (0 < E)%nat -> (0 < S)%nat -> inverts (ls_pinv E S) E S.
Proof.
  intros E S HE HS m _. eexists. exists (ls_inverse E S). split; [reflexivity|]. split; [repeat split|]. apply ls_inverse_is; assumption.
Qed.

(** ** LIVE_DMOS: eleven videos, one subject, one vote far from the others *)
Definition wl_dv (a v : Z) (p : string) := w_dv 0 a p (OSeq false [w_vote v]).
Definition wl_ds := w_ds [ wl_dv 0 5 "ref0"; wl_dv 1 5 "v1"; wl_dv 2 5 "v2"; wl_dv 3 5 "v3"; wl_dv 4 5 "v4"; wl_dv 5 5 "v5"; wl_dv 6 5 "v6"; wl_dv 7 5 "v7";
  wl_dv 8 5 "v8"; wl_dv 9 5 "v9"; wl_dv 10 1 "v10" ].
Lemma wl_reads : raw_reader wl_ds = Ok (w_reader wl_ds) /\ rd_arr (w_reader wl_ds) = Ok (w_arr wl_ds).
Proof. split; reflexivity. Qed.
Lemma wl_votes : forall e, (e < 11)%nat -> at3 (w_arr wl_ds) e 0 0 = Fin (if Nat.eqb e 10 then 1 else 5).
Proof. intros e He. do 11 (destruct e as [|e]; [reflexivity|]). lia. Qed.
Lemma wl_mos : along1 np_nanmean (stack1 (w_arr wl_ds)) = [Fin 5; Fin 5; Fin 5; Fin 5; Fin 5; Fin 5; Fin 5; Fin 5; Fin 5; Fin 5; Fin 1].
Proof.
  rewrite mean_rows.
  - change (dE (w_arr wl_ds)) with 11%nat. cbn [seq map].
    assert (M : forall e, (e < 11)%nat -> nanmeanR (video_votes (w_arr wl_ds) e) = Fin (if Nat.eqb e 10 then 1 else 5)).
    { intros e He. unfold video_votes. change (dS (w_arr wl_ds)) with 1%nat. change (dR (w_arr wl_ds)) with 1%nat. cbn [seq map flat_map app]. rewrite wl_votes by exact He.
      cbn [presents]. unfold nanmeanR. f_equal. apply Rmean1. }
    rewrite !M by lia. reflexivity.
  - intros e s r (He & Hs & Hr). change (e < 11)%nat in He. change (s < 1)%nat in Hs. change (r < 1)%nat in Hr. destruct s; [|lia]. destruct r; [|lia].
    rewrite wl_votes by exact He. exact I.
Qed.
Lemma wl_ref : get_ref_mos (ds_refs wl_ds) (ds_dis wl_ds) (ds_dis wl_ds) [Fin 5; Fin 5; Fin 5; Fin 5; Fin 5; Fin 5; Fin 5; Fin 5; Fin 5; Fin 5; Fin 1] = Ok (repeat (Fin 5) 11).
Proof. reflexivity. Qed.
Lemma wl_run : exists m, run_modeling DMOS (w_reader wl_ds) no_options = Ok m /\ dE (mr_raw m) = 11%nat /\ dS (mr_raw m) = 1%nat /\ dR (mr_raw m) = 1%nat /\ forall e, (e < 11)%nat -> at3 (mr_raw m) e 0 0 = Fin (if Nat.eqb e 10 then 1 else 5).
Proof.
  assert (D : dscore (ds_refs wl_ds) (ds_dis wl_ds) (ds_dis wl_ds) (Fin 5) (w_arr wl_ds) = Ok (map3 (fun e _ _ y => nsub (nadd y (Fin 5)) (vat (repeat (Fin 5) 11) e)) (w_arr wl_ds))).
  { unfold dscore. rewrite wl_mos. cbv zeta. rewrite wl_ref. reflexivity. }
  destruct (attach_total _ _ (proj1 wl_reads)) as (o & Ho).
  unfold run_modeling. cbn [run_kwargs no_options kw_dscore guard negb assert_ bind set_dscore]. unfold mos_run, preprocess.
  rewrite (proj2 wl_reads). cbn [bind kw_rej kw_rejtype kw_zscore kw_bias kw_dscore andb negb assert_ rd_ds rd_dvs w_reader]. change (ds_ref_score wl_ds) with (Some (Some (Fin 5))).
  cbv iota. cbn [bind]. rewrite D. cbn [bind is_biasremv]. rewrite Ho. cbn [bind].
  eexists. split; [reflexivity|]. cbn [mr_raw mos_and_stats pp_arr]. repeat (split; [reflexivity|]). intros e He. cbn [set_dscore no_options kw_zscore kw_bias map3 at3]. rewrite wl_votes by exact He.
  assert (V : vat (repeat (Fin 5) 11) e = Fin 5) by (do 11 (destruct e as [|e]; [reflexivity|]); lia). rewrite V. efc. cbn [ef_add ef_sub ef_neg]. f_equal. destruct (Nat.eqb e 10); lra.
Qed.
Lemma wl_finite : forall m, run_modeling DMOS (w_reader wl_ds) no_options = Ok m -> finite_votes (mr_raw m).
Proof.
  intros m H. destruct wl_run as (m' & H' & D1 & D2 & D3 & A). rewrite H in H'. apply Ok_inj in H'. subst m'.
  intros e s r (He & Hs & Hr). rewrite D1 in He. rewrite D2 in Hs. rewrite D3 in Hr. destruct s; [|lia]. destruct r; [|lia]. rewrite A by exact He. exact I.
Qed.
(** The last video scores below 0. *)
Lemma wl_below : exists m q, live_run_modeling (w_reader wl_ds) no_options = Ok m /\ nth_error (or_quality m) 10 = Some (Fin q) /\ q < 0.
Proof.
  destruct wl_run as (m1 & H & D1 & D2 & D3 & A).
  destruct (c79_plain _ _ H (wl_finite _ H)) as (m & z & Hm & (Z1 & Z2 & Z3 & Z) & L & Q). rewrite D1 in *. rewrite D2 in *. rewrite D3 in *.
  destruct (Z 0%nat ltac:(lia)) as [Sp _]. clear Z.
  assert (SV : forall a, dE a = 11%nat -> dR a = 1%nat -> subject_votes a 0 = presents [at3 a 0 0 0; at3 a 1 0 0; at3 a 2 0 0; at3 a 3 0 0; at3 a 4 0 0; at3 a 5 0 0; at3 a 6 0 0; at3 a 7 0 0; at3 a 8 0 0; at3 a 9 0 0; at3 a 10 0 0]).
  { intros a E1 E2. unfold subject_votes. rewrite E1, E2. reflexivity. }
  assert (HS : has_spread (subject_votes (mr_raw m1) 0)).
  { rewrite (SV _ D1 D3), !A by lia. cbn. exists 5, 1. split; [left; reflexivity|]. split; [do 10 right; left; reflexivity|lra]. }
  destruct (Sp HS) as (S0 & S1 & mu & sd & P & E). clear Sp.
  assert (Z0 : forall e, (e < 11)%nat -> at3 z e 0 0 = Fin (((if Nat.eqb e 10 then 1 else 5) - mu) / sd)).
  { intros e He. rewrite E by lia. rewrite A by exact He. reflexivity. }
  rewrite (SV z Z1 Z3), !Z0 in S0, S1 by lia. cbn [Nat.eqb presents] in S0, S1. set (u := (5 - mu) / sd) in *. set (w := (1 - mu) / sd) in *.
  assert (WU : w < u) by (unfold w, u, Rdiv; apply Rmult_lt_compat_r; [apply Rinv_0_lt_compat; exact P|lra]).
  destruct S1 as [[S1 _]|[_ (v & Ev & _ & S1)]]; [cbn in S1; lia|]. injection Ev as <-. rewrite S0 in S1. assert (Ew : w = (1 - mu) / sd) by reflexivity. clearbody u w. cbn in S0. cbn in S1.
  unfold sumsq in S1. unfold Rsum in S0, S1. cbn [map fold_right] in S0, S1. unfold Rdiv in S1. rewrite !Rmult_0_l in S1.
  assert (W : w = - 10 * u) by lra. assert (K : w < -3) by (subst w; nra).
  exists m. specialize (Q 10%nat ltac:(lia)). unfold video_votes in Q. rewrite Z2, Z3 in Q. cbn [seq map flat_map app] in Q. rewrite Z0 in Q by lia. cbn [Nat.eqb presents map] in Q. rewrite <- Ew in Q.
  exists ((w + 3) * 100 / 6). split; [exact Hm|]. split; [|lra].
  rewrite (nth_error_nth' _ NaN) by (rewrite L; lia). f_equal. destruct Q as [[Q _]|[_ Q]]; [discriminate|]. rewrite Q. f_equal. apply Rmean1.
Qed.

(** ** Scores per subject *)
(** One observer voted twice, recorded by name. *)
Definition wr_ds := w_ds [ w_dv 0 0 "v0" (ODict [("A", PSeq true [w_vote 3; w_vote 4])]) ].
Lemma wr_repeated : raw_reader wr_ds = Ok (w_reader wr_ds) /\ (exists m, run_modeling MOS (w_reader wr_ds) no_options = Ok m /\ dR (mr_raw m) = 2%nat) /\
  forall kw, per_dataset (w_reader wr_ds) no_options kw = Err TypeError.
Proof.
  split; [reflexivity|]. split; [|reflexivity]. destruct (mos_total wr_ds _ (w_arr wr_ds) eq_refl eq_refl) as (m & H). exists m. split; [exact H|].
  destruct (mos_run_parts _ _ _ H) as (pp & Hp & -> & _). apply Ok_inj in Hp. subst pp. reflexivity.
Qed.
(** One vote of a dict is missing. *)
Definition wm_ds := w_ds [ w_dv 0 0 "v0" (ODict [("A", w_vote 3); ("B", PNum NaN)]); w_dv 0 1 "v1" (ODict [("A", w_vote 2); ("B", w_vote 1)]) ].
