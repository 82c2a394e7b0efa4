(** Model of the MOS family: sureal/subjective_model.py:354-481, 1193-1445 and
    sureal/__init__.py. *)
From Coq Require Import String.
From Coq Require Import List ZArith Bool Arith.
From Verif Require Import PyBase Num NumPy Dataset Preproc.
Import ListNotations.
Local Open Scope list_scope.

Section Mos.
  Context {T : Type} {N : Num T}.
  Local Open Scope num_scope.

  (** sureal/tools/stats.py:16-21 vectorized_gaussian, one element. *)
  Definition gaussian (x loc scale : T) : T :=
    none_ / nsqrt (nofZ 2 * npi) / scale * nexp ((- nsq (x - loc)) / (nofZ 2 * nsq scale)).

  (** Literal 1.95996. *)
  Definition z95 : T := ndec 195996 100000.

  (** Result dictionary of the MOS models (sureal/subjective_model.py:383-412,
      367-372, 1376-1382). *)
  Record mosres := MosRes {
    mr_quality : list T; mr_std : list T;
    mr_ci_lo : list T; mr_ci_hi : list T;
    mr_ambiguity : list T; mr_raw : arr3 T; mr_recon : arr3 T;
    mr_dof : T; mr_ll : T; mr_aic : T; mr_bic : T;
    mr_bias : option (list T);
    mr_rej : option (list bool * list T * list T);
    mr_observers : option (list string) }.

  (** sureal/subjective_model.py:414-419 _get_reconstructions. *)
  Definition mos_reconstructions (q : list T) (S R : nat) : arr3 T :=
    Arr3 (length q) S R (fun e _ _ => vat q e).

  (** sureal/subjective_model.py:376-412 _get_mos_and_stats; [dof] is the
      class's _get_dof (421-423, overridden at 1385-1388). *)
  Definition mos_and_stats (dof : nat -> nat -> nat -> nat) (a a0 : arr3 T) : mosres :=
    let st := stack1 a in
    let mos := along1 np_nanmean st in
    let std := along1 (np_nanstd 1) st in
    let cnt := map (fun e => np_cnt (row st e)) (seq 0 (n0 st)) in
    let mos_std := map (fun p => fst p / nsqrt (nofnat (snd p))) (combine std cnt) in
    let ci := map (fun x => z95 * x) mos_std in
    let num_os := np_cnt (flat3 a) in
    let num_os0 := np_cnt (flat3 a0) in
    let d := nofnat (dof (dE a0) (dS a0) (dR a0)) / nofnat num_os0 in
    let ll := np_nansum (flat3 (map3 (fun e s r x => nln (gaussian x (vat mos e) (vat std e))) a))
              / nofnat num_os in
    let aic := nofZ 2 * d - nofZ 2 * ll in
    let bic := nln (nofnat num_os0) * d - nofZ 2 * ll in
    MosRes mos mos_std ci ci std a (mos_reconstructions mos (dS a) (dR a))
           d ll aic bic None None None.

  (** sureal/subjective_model.py:421-423 and 1385-1388. *)
  Definition dof_mos (E S R : nat) : nat := E * 2.
  Definition dof_biasremv (E S R : nat) : nat := E * 2 + S * R.

  (** The MOS classes of the package: TYPE strings MOS, DMOS, SR_MOS,
      SR_MOS_PCC, SR_MOS_SRCC, ZS_MOS, ZS_SR_MOS, SR_DMOS, ZS_SR_DMOS, BR_MOS,
      BR_SR_MOS, BR_SR_MOS_PCC, BR_SR_MOS_SRCC. *)
  Inductive mosclass :=
  | MOS | DMOS | SR_MOS | SR_MOS_PCC | SR_MOS_SRCC | ZS_MOS | ZS_SR_MOS
  | SR_DMOS | ZS_SR_DMOS | BR_MOS | BR_SR_MOS | BR_SR_MOS_PCC | BR_SR_MOS_SRCC.

  Definition set_dscore (k : kwargs T) := KW true (kw_zscore k) (kw_bias k) (kw_rej k) (kw_rejtype k) (kw_normalize_final k) (kw_transform_final k).
  Definition set_zscore (k : kwargs T) := KW (kw_dscore k) true (kw_bias k) (kw_rej k) (kw_rejtype k) (kw_normalize_final k) (kw_transform_final k).
  Definition set_bias (k : kwargs T) := KW (kw_dscore k) (kw_zscore k) true (kw_rej k) (kw_rejtype k) (kw_normalize_final k) (kw_transform_final k).
  Definition set_rej (k : kwargs T) := KW (kw_dscore k) (kw_zscore k) (kw_bias k) true (kw_rejtype k) (kw_normalize_final k) (kw_transform_final k).
  Definition set_rejtype (t : rejtype) (k : kwargs T) := KW (kw_dscore k) (kw_zscore k) (kw_bias k) (kw_rej k) (Some t) (kw_normalize_final k) (kw_transform_final k).

  (** if flag is True: assert False. *)
  Definition guard (flag : bool) : res unit := assert_ (negb flag).

  (** The run_modeling overrides: sureal/subjective_model.py:435-441 (DMOS),
      1198-1204, 1211-1218, 1226-1233, 1241-1247, 1255-1264, 1300-1309,
      1317-1329, 1362-1368, 1396-1407, 1415-1426, 1434-1445. *)
  Definition run_kwargs (c : mosclass) (k : kwargs T) : res (kwargs T) :=
    match c with
    | MOS => Ok k
    | DMOS => do _ <- guard (kw_dscore k); Ok (set_dscore k)
    | SR_MOS => do _ <- guard (kw_rej k); Ok (set_rej k)
    | SR_MOS_PCC => do _ <- guard (kw_rej k); Ok (set_rejtype Pearson (set_rej k))
    | SR_MOS_SRCC => do _ <- guard (kw_rej k); Ok (set_rejtype Spearman (set_rej k))
    | ZS_MOS => do _ <- guard (kw_zscore k); Ok (set_zscore k)
    | ZS_SR_MOS => do _ <- guard (kw_zscore k); do _ <- guard (kw_rej k); Ok (set_rej (set_zscore k))
    | SR_DMOS => do _ <- guard (kw_dscore k); do _ <- guard (kw_rej k); Ok (set_rej (set_dscore k))
    | ZS_SR_DMOS => do _ <- guard (kw_dscore k); do _ <- guard (kw_zscore k); do _ <- guard (kw_rej k);
                    Ok (set_rej (set_zscore (set_dscore k)))
    | BR_MOS => do _ <- guard (kw_bias k); Ok (set_bias k)
    | BR_SR_MOS => do _ <- guard (kw_bias k); do _ <- guard (kw_rej k); Ok (set_rej (set_bias k))
    | BR_SR_MOS_PCC => do _ <- guard (kw_bias k); do _ <- guard (kw_rej k);
        let k2 := set_rejtype Pearson (set_rej k) in
        do _ <- guard (kw_bias k2); Ok (set_bias k2)          (* super: 1362-1368 *)
    | BR_SR_MOS_SRCC => do _ <- guard (kw_bias k); do _ <- guard (kw_rej k);
        let k2 := set_rejtype Spearman (set_rej k) in
        do _ <- guard (kw_bias k2); Ok (set_bias k2)
    end.

  (** Classes deriving from BiasremvMosModel use its _run_modeling and dof. *)
  Definition is_biasremv (c : mosclass) : bool :=
    match c with BR_MOS | BR_SR_MOS | BR_SR_MOS_PCC | BR_SR_MOS_SRCC => true | _ => false end.

  (** sureal/subjective_model.py:361-374 and 1370-1383 _run_modeling. *)
  Definition mos_run (c : mosclass) (rd : reader T) (k : kwargs T) : res mosres :=
    do pp <- preprocess rd k;
    let m := mos_and_stats (if is_biasremv c then dof_biasremv else dof_mos) (pp_arr pp) (pp_orig pp) in
    do b <- (if is_biasremv c then
               match pp_bias pp with Some d => Ok (Some d) | None => Err KeyError end
             else Ok None);
    Ok (MosRes (mr_quality m) (mr_std m) (mr_ci_lo m) (mr_ci_hi m) (mr_ambiguity m)
               (mr_raw m) (mr_recon m) (mr_dof m) (mr_ll m) (mr_aic m) (mr_bic m)
               b (pp_rej pp) None).

  (** sureal/subjective_model.py:63-76 run_modeling: observers are attached when
      _get_list_observers succeeds; AssertionError and AttributeError are
      swallowed, anything else propagates. *)
  Definition attach_observers (rd : reader T) : res (option (list string)) :=
    match get_list_observers (rd_dvs rd) with
    | Ok o => Ok (Some o)
    | Err AssertionError | Err AttributeError => Ok None
    | Err e => Err e
    end.

  Definition run_modeling (c : mosclass) (rd : reader T) (k : kwargs T) : res mosres :=
    do k' <- run_kwargs c k;
    do m <- mos_run c rd k';
    do obs <- attach_observers rd;
    Ok (MosRes (postprocess k' (mr_quality m)) (mr_std m) (mr_ci_lo m) (mr_ci_hi m) (mr_ambiguity m)
               (mr_raw m) (mr_recon m) (mr_dof m) (mr_ll m) (mr_aic m) (mr_bic m)
               (mr_bias m) (mr_rej m) obs).

  (** sureal/subjective_model.py:459-481 LiveDmosModel._run_modeling. *)
  Definition live_dmos (rd : reader T) (k : kwargs T) : res (list T) :=
    do _ <- guard (kw_dscore k);
    do _ <- guard (kw_zscore k);
    do pp <- preprocess rd (set_zscore (set_dscore k));
    Ok (along1 np_nanmean (stack1
      (map3 (fun e s r x => (x + nofZ 3) * nofZ 100 / nofZ 6) (pp_arr pp)))).

  (** Construction of a plain reader: sureal/dataset_reader.py:17-19. *)
  Definition raw_reader (ds : dataset T string) : res (reader T) :=
    do _ <- assert_dataset_raw (ds_refs ds) (ds_dis ds);
    Ok (Reader ds (ds_dis ds)
          (opinion_score_3darray_with (ds_dis ds) (get_num_observers (ds_dis ds)))).
End Mos.
Arguments mosres : clear implicits.
