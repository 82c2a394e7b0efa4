(** Concrete datasets for bootstrapping. *)
From Coq Require Import String.
From Coq Require Import List ZArith Bool Arith Reals Lra Lia.
From Verif Require Import PyBase Num ExtReal NumPy Dataset Mocked Preproc Mos AP Mle Experimental SpecMos SpecAp SpecMle SpecExperimental BaseProofs ExtRealProofs
  ArrayProofs StepsProofs MosProofs MosWitness ApProofs Ap2Proofs ApWitness MleProofs Mle2Proofs Mle3Proofs Mle4Proofs Mle5Proofs Mle6Proofs Mle7Proofs Eval MleWitness.
Import ListNotations.
Local Open Scope R_scope.
Local Open Scope string_scope.

(** Stop after the first pass; no final shift. *)
Definition wx_opts : mleopts ef := MleOpts None None (Some PInf) (Some false).
(** Two videos, three subjects. *)
Definition wx_ds := w_ds [ w_dv 0 0 "v0" (OSeq false [w_vote 5; w_vote 2; w_vote 2]); w_dv 0 1 "v1" (OSeq false [w_vote 1; w_vote 2; w_vote 3]) ].
Definition wx_choice (i n : nat) : list Z := match n with 3%nat => [0; 0; 1]%Z | 2%nat => [1; 0]%Z | _ => map Z.of_nat (seq 0 n) end.
Lemma wx_draws : index_draws wx_choice.
Proof.
  intros i n. unfold wx_choice. destruct n as [|[|[|[|n]]]]; cbn [seq map length]; split; try reflexivity; try (repeat constructor; lia).
  - rewrite map_length, seq_length. reflexivity.
  - repeat (constructor; [lia|]). apply Forall_forall. intros z Hz. apply in_map_iff in Hz as (k & <- & Hk). apply in_seq in Hk. lia.
Qed.

Definition arr_of (r : res (arr3 ef)) : arr3 ef := match r with Ok a => a | Err _ => Arr3 0 0 0 (fun _ _ _ => NaN) end.
Definition wx_s : arr3 ef := arr_of (select_subject_3darray wx_ds (Some [0; 0; 1]%Z)).
Definition wx_vids := [ w_dv 0 1 "v1" (OSeq false [w_vote 1; w_vote 2; w_vote 3]); w_dv 0 0 "v0" (OSeq false [w_vote 5; w_vote 2; w_vote 2]) ].
Definition wx_v : arr3 ef := arr_of (opinion_score_3darray_with wx_vids (get_num_observers wx_vids)).

Section One.
  Lemma mos_on : forall ds dvs a obs, attach_observers (Reader ds dvs (Ok a)) = Ok obs ->
    exists mm, run_modeling MOS (Reader ds dvs (Ok a)) no_options = Ok mm /\ mr_quality mm = along1 np_nanmean (stack1 a).
  Proof.
    intros ds dvs a obs Ho. unfold run_modeling, run_kwargs, mos_run, preprocess. cbn [bind rd_arr]. simpl. rewrite Ho. simpl. eexists. split; reflexivity.
  Qed.
  Variable chi : ef -> ef -> ef.
  Lemma one_pass_run : forall ds dvs a obs q0 v0 st,
    map rv_cid (ds_refs ds) = [0; 1]%Z -> map Z.to_nat (content_id_of_dis_videos dvs) = [0; 0]%nat -> content_id_of_dis_videos dvs = [0; 0]%Z -> dE a = 2%nat ->
    attach_observers (Reader ds dvs (Ok a)) = Ok obs ->
    along1 np_nanmean (stack1 a) = q0 -> mle_start ContentOblivious a [0; 0]%nat 2 q0 = (q0, zeros (dS a), v0, zeros 2) ->
    mle_pass ContentOblivious Simplified GaussianPdf a [0; 0]%nat 2 q0 (zeros (dS a)) v0 (zeros 2) = Ok st -> Forall isfin q0 -> Forall isfin (sx st) ->
    exists m, mle_run chi MLE_CO (Reader ds dvs (Ok a)) no_options wx_opts = Ok m /\ ml_quality m = sx st /\ ml_bias m = Some (sb st) /\ ml_incons m = Some (sv st).
  Proof.
    intros ds dvs a obs q0 v0 st Hr Hc Hc2 HE Ho Hq Hs Hp Fq Fs. unfold mle_run, no_options, wx_opts. cbn [kw_rej negb assert_ bind mo_gradient rd_ds rd_dvs].
    unfold preprocess at 1. cbn [rd_arr bind kw_rej kw_rejtype kw_zscore kw_bias kw_dscore negb andb assert_ pp_arr pp_orig].
    rewrite Hr. cbn [zmax_list bind]. 
    destruct (mos_on ds dvs a obs Ho) as (mm & Hm & Em). unfold no_options in Hm. rewrite Hm. cbn [bind]. rewrite Em, Hq.
    rewrite HE, Hc2. cbn [length Nat.eqb assert_ bind]. change (forM_ _ [0; 0]%Z) with (@Ok unit tt). cbn [bind].
    change (Z.to_nat _) with 2%nat. change (map Z.to_nat [0; 0]%Z) with [0; 0]%nat. cbn [mode_of].
    rewrite solve_split, Hs. unfold loop_from. destruct fuel_S as (fu & ->). rewrite loop_unfold.
    change (gradient_of _) with Simplified. change (pdf_of _) with GaussianPdf. change (threshold_of _) with PInf.
    rewrite Hp. cbn [bind]. unfold moved, vecs, sp_norm.
    set (l := map _ (combine _ _)).
    assert (L : existsb (fun x => nisnan x || nisinf x)%bool l = false /\ exists rl, l = map Fin rl).
    { subst l. clear -Fq Fs. revert Fs. generalize (sx st). induction Fq as [|x q Hx Fq IH]; intros s Fs; [split; [reflexivity|exists []; reflexivity]|].
      destruct Fs as [|y s Hy Fs]; [split; [reflexivity|exists []; reflexivity]|]. destruct (IH s Fs) as [E (rl & R)]. destruct x, y; try contradiction.
      cbn [combine map fst snd existsb]. rewrite E, R. split; [reflexivity|]. eexists (_ :: rl). reflexivity. }
    destruct L as [-> (rl & ->)]. cbn [bind].
    assert (Sq : exists r, nsqrt (np_sum (map nsq (map Fin rl))) = Fin r).
    { rewrite map_map. assert (E : map (fun x => nsq (Fin x)) rl = map Fin (map (fun x => x * x) rl)) by (rewrite map_map; reflexivity). rewrite E, np_sum_Fin.
      exists (sqrt (Rsum (map (fun x => x * x) rl))). apply ef_sqrt_Fin. clear. induction rl as [|x l IH]; [cbn; unfold Rsum; cbn; lra|].
      cbn [map]. rewrite Rsum_cons. assert (0 <= x * x) by apply Rle_0_sqr. lra. }
    destruct Sq as (r & ->). unfold ll_s at 1, logpdf at 1. cbn [bind ef_ltb].
    unfold report. cbn [mo_force zero_mean]. cbv zeta. unfold ll_s, logpdf. cbn [pdf_of mo_pdf bind]. eexists. split; [reflexivity|]. split; [reflexivity|]. split; reflexivity.
  Qed.
End One.

(** The reference run. *)
Lemma wx_q0 : along1 np_nanmean (stack1 (w_arr wx_ds)) = [Fin 3; Fin 2].
Proof. efcbv. ev. efred. ev. reflexivity. Qed.
Lemma sqrt_of : forall x y, 0 <= x -> y = x * x -> ef_sqrt (Fin y) = Fin x.
Proof. intros x y H ->. rewrite ef_sqrt_Fin by (apply Rle_0_sqr). f_equal. apply sqrt_square. exact H. Qed.

Ltac roots := rewrite ?(sqrt_of (3 / 2) (9 / 4)), ?(sqrt_of (1 / 2) (1 / 4)), ?(sqrt_of 1 1), ?(sqrt_of (2 / 3) (4 / 9)), ?(sqrt_of (4 / 3) (16 / 9)) by lra.
Ltac start_tac := unfold mle_start; do 2 f_equal; efcbv; ev; efred; ev; efred; ev; roots; reflexivity.
Lemma wx_start0 : mle_start ContentOblivious (w_arr wx_ds) [0; 0]%nat 2 [Fin 3; Fin 2] = ([Fin 3; Fin 2], zeros 3, [Fin (3 / 2); Fin (1 / 2); Fin 1], zeros 2).
Proof. start_tac. Qed.
Lemma wx_qs : along1 np_nanmean (stack1 wx_s) = [Fin 4; Fin (4 / 3)].
Proof. efcbv. ev. efred. ev. reflexivity. Qed.
Lemma wx_starts : mle_start ContentOblivious wx_s [0; 0]%nat 2 [Fin 4; Fin (4 / 3)] = ([Fin 4; Fin (4 / 3)], zeros 3, [Fin (2 / 3); Fin (2 / 3); Fin (4 / 3)], zeros 2).
Proof. start_tac. Qed.
Lemma wx_qv : along1 np_nanmean (stack1 wx_v) = [Fin 2; Fin 3].
Proof. efcbv. ev. efred. ev. reflexivity. Qed.
Lemma wx_startv : mle_start ContentOblivious wx_v [0; 0]%nat 2 [Fin 2; Fin 3] = ([Fin 2; Fin 3], zeros 3, [Fin (3 / 2); Fin (1 / 2); Fin 1], zeros 2).
Proof. start_tac. Qed.

(** One pass, step by step. *)
Lemma pass_steps : forall a q v nb b1 nv v1 nx q1, dS a = 3%nat ->
  fst (b_simplified a [0; 0]%nat q (zeros 3) v (zeros 2)) = nb -> refresh (zeros 3) nb = b1 ->
  fst (v_simplified a [0; 0]%nat q b1 v (zeros 2)) = nv -> clip0 (refresh v nv) = v1 ->
  fst (x_simplified a [0; 0]%nat q b1 v1 (zeros 2)) = nx -> refresh q nx = q1 ->
  exists st, mle_pass ContentOblivious Simplified GaussianPdf a [0; 0]%nat 2 q (zeros 3) v (zeros 2) = Ok st /\
    sx st = q1 /\ sb st = b1 /\ sv st = v1.
Proof.
  intros a q v nb b1 nv v1 nx q1 HS Hb Rb Hv Rv Hx Rx. unfold mle_pass. cbn [pick bind]. rewrite Hb, Rb, Hv, Rv, Hx, Rx. eexists. split; [reflexivity|]. cbn [sx sb sv]. auto.
Qed.
Ltac step_tac := efcbv; ev; efred; ev; reflexivity.
Ltac clip_tac := efcbv; ev; unfold nmaximum; efred; cbn [ef_ltb ef_leb ef_isnan]; ev; reflexivity.
Lemma wx0_b : fst (b_simplified (w_arr wx_ds) [0; 0]%nat [Fin 3; Fin 2] (zeros 3) [Fin (3 / 2); Fin (1 / 2); Fin 1] (zeros 2)) = [Fin (1 / 2); Fin (-1 / 2); Fin 0].
Proof. step_tac. Qed.
Lemma wx0_rb : refresh (zeros 3) [Fin (1 / 2); Fin (-1 / 2); Fin 0] = [Fin (1 / 20); Fin (-1 / 20); Fin 0].
Proof. efcbv. ev. reflexivity. Qed.
Lemma wx0_v : fst (v_simplified (w_arr wx_ds) [0; 0]%nat [Fin 3; Fin 2] [Fin (1 / 20); Fin (-1 / 20); Fin 0] [Fin (3 / 2); Fin (1 / 2); Fin 1] (zeros 2)) = [Fin (354 / 227); Fin (262 / 443); Fin 1].
Proof. step_tac. Qed.
Lemma wx0_rv : clip0 (refresh [Fin (3 / 2); Fin (1 / 2); Fin 1] [Fin (354 / 227); Fin (262 / 443); Fin 1]) = [Fin (6837 / 4540); Fin (4511 / 8860); Fin 1].
Proof. clip_tac. Qed.
Lemma wx0_x : fst (x_simplified (w_arr wx_ds) [0; 0]%nat [Fin 3; Fin 2] [Fin (1 / 20); Fin (-1 / 20); Fin 0] [Fin (6837 / 4540); Fin (4511 / 8860); Fin 1] (zeros 2)) = [Fin (1642988790289134 / 720009828821407); Fin (10774420653083387 / 5040068801749849)].
Proof. step_tac. Qed.
Lemma wx0_rx : refresh [Fin 3; Fin 2] [Fin (1642988790289134 / 720009828821407); Fin (10774420653083387 / 5040068801749849)] = [Fin (21083254168467123 / 7200098288214070); Fin (101495659084580669 / 50400688017498490)].
Proof. efcbv. ev. reflexivity. Qed.
Lemma wx0_pass : exists st, mle_pass ContentOblivious Simplified GaussianPdf (w_arr wx_ds) [0; 0]%nat 2 [Fin 3; Fin 2] (zeros 3) [Fin (3 / 2); Fin (1 / 2); Fin 1] (zeros 2) = Ok st /\
  sx st = [Fin (21083254168467123 / 7200098288214070); Fin (101495659084580669 / 50400688017498490)] /\ sb st = [Fin (1 / 20); Fin (-1 / 20); Fin 0] /\ sv st = [Fin (6837 / 4540); Fin (4511 / 8860); Fin 1].
Proof. exact (pass_steps (w_arr wx_ds) _ _ _ _ _ _ _ _ eq_refl wx0_b wx0_rb wx0_v wx0_rv wx0_x wx0_rx). Qed.
Lemma wxs_b : fst (b_simplified wx_s [0; 0]%nat [Fin 4; Fin (4 / 3)] (zeros 3) [Fin (2 / 3); Fin (2 / 3); Fin (4 / 3)] (zeros 2)) = [Fin (1 / 3); Fin (1 / 3); Fin (-2 / 3)].
Proof. step_tac. Qed.
Lemma wxs_rb : refresh (zeros 3) [Fin (1 / 3); Fin (1 / 3); Fin (-2 / 3)] = [Fin (1 / 30); Fin (1 / 30); Fin (-1 / 15)].
Proof. efcbv. ev. reflexivity. Qed.
Lemma wxs_v : fst (v_simplified wx_s [0; 0]%nat [Fin 4; Fin (4 / 3)] [Fin (1 / 30); Fin (1 / 30); Fin (-1 / 15)] [Fin (2 / 3); Fin (2 / 3); Fin (4 / 3)] (zeros 2)) = [Fin (2248 / 3129); Fin (2248 / 3129); Fin (4496 / 3129)].
Proof. step_tac. Qed.
Lemma wxs_rv : clip0 (refresh [Fin (2 / 3); Fin (2 / 3); Fin (4 / 3)] [Fin (2248 / 3129); Fin (2248 / 3129); Fin (4496 / 3129)]) = [Fin (10511 / 15645); Fin (10511 / 15645); Fin (21022 / 15645)].
Proof. clip_tac. Qed.
Lemma wxs_x : fst (x_simplified wx_s [0; 0]%nat [Fin 4; Fin (4 / 3)] [Fin (1 / 30); Fin (1 / 30); Fin (-1 / 15)] [Fin (10511 / 15645); Fin (10511 / 15645); Fin (21022 / 15645)] (zeros 2)) = [Fin (209 / 45); Fin (49 / 45)].
Proof. step_tac. Qed.
Lemma wxs_rx : refresh [Fin 4; Fin (4 / 3)] [Fin (209 / 45); Fin (49 / 45)] = [Fin (1829 / 450); Fin (589 / 450)].
Proof. efcbv. ev. reflexivity. Qed.
Lemma wxs_pass : exists st, mle_pass ContentOblivious Simplified GaussianPdf wx_s [0; 0]%nat 2 [Fin 4; Fin (4 / 3)] (zeros 3) [Fin (2 / 3); Fin (2 / 3); Fin (4 / 3)] (zeros 2) = Ok st /\
  sx st = [Fin (1829 / 450); Fin (589 / 450)] /\ sb st = [Fin (1 / 30); Fin (1 / 30); Fin (-1 / 15)] /\ sv st = [Fin (10511 / 15645); Fin (10511 / 15645); Fin (21022 / 15645)].
Proof. exact (pass_steps wx_s _ _ _ _ _ _ _ _ eq_refl wxs_b wxs_rb wxs_v wxs_rv wxs_x wxs_rx). Qed.
Lemma wxv_b : fst (b_simplified wx_v [0; 0]%nat [Fin 2; Fin 3] (zeros 3) [Fin (3 / 2); Fin (1 / 2); Fin 1] (zeros 2)) = [Fin (1 / 2); Fin (-1 / 2); Fin 0].
Proof. step_tac. Qed.
Lemma wxv_rb : refresh (zeros 3) [Fin (1 / 2); Fin (-1 / 2); Fin 0] = [Fin (1 / 20); Fin (-1 / 20); Fin 0].
Proof. efcbv. ev. reflexivity. Qed.
Lemma wxv_v : fst (v_simplified wx_v [0; 0]%nat [Fin 2; Fin 3] [Fin (1 / 20); Fin (-1 / 20); Fin 0] [Fin (3 / 2); Fin (1 / 2); Fin 1] (zeros 2)) = [Fin (354 / 227); Fin (262 / 443); Fin 1].
Proof. step_tac. Qed.
Lemma wxv_rv : clip0 (refresh [Fin (3 / 2); Fin (1 / 2); Fin 1] [Fin (354 / 227); Fin (262 / 443); Fin 1]) = [Fin (6837 / 4540); Fin (4511 / 8860); Fin 1].
Proof. clip_tac. Qed.
Lemma wxv_x : fst (x_simplified wx_v [0; 0]%nat [Fin 2; Fin 3] [Fin (1 / 20); Fin (-1 / 20); Fin 0] [Fin (6837 / 4540); Fin (4511 / 8860); Fin 1] (zeros 2)) = [Fin (10774420653083387 / 5040068801749849); Fin (1642988790289134 / 720009828821407)].
Proof. step_tac. Qed.
Lemma wxv_rx : refresh [Fin 2; Fin 3] [Fin (10774420653083387 / 5040068801749849); Fin (1642988790289134 / 720009828821407)] = [Fin (101495659084580669 / 50400688017498490); Fin (21083254168467123 / 7200098288214070)].
Proof. efcbv. ev. reflexivity. Qed.
Lemma wxv_pass : exists st, mle_pass ContentOblivious Simplified GaussianPdf wx_v [0; 0]%nat 2 [Fin 2; Fin 3] (zeros 3) [Fin (3 / 2); Fin (1 / 2); Fin 1] (zeros 2) = Ok st /\
  sx st = [Fin (101495659084580669 / 50400688017498490); Fin (21083254168467123 / 7200098288214070)] /\ sb st = [Fin (1 / 20); Fin (-1 / 20); Fin 0] /\ sv st = [Fin (6837 / 4540); Fin (4511 / 8860); Fin 1].
Proof. exact (pass_steps wx_v _ _ _ _ _ _ _ _ eq_refl wxv_b wxv_rb wxv_v wxv_rv wxv_x wxv_rx). Qed.
