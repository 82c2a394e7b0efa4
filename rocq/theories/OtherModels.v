(** Model of the remaining rating models of sureal/subjective_model.py:
    LiveDmosModel (444-481), LeastSquaresModel (484-533),
    LegacyMaximumLikelihoodEstimationModel (536-661) and PerSubjectModel
    (1333-1354). *)
From Coq Require Import String.
From Coq Require Import List ZArith Bool Arith.
From Verif Require Import PyBase Num NumPy Dataset Preproc Mos AP Mle.
Import ListNotations.
Local Open Scope list_scope.

Section Other.
  Context {T : Type} {N : Num T}.
  Local Open Scope num_scope.

  (** Result dictionaries: quality_scores, observer_bias,
      observer_inconsistency, observers; an absent key is None
      (sureal/subjective_model.py:478-480, 528-531, 655-659). *)
  Record otherres := OtherRes {
    or_quality : list T; or_bias : option (list T); or_incons : option (list T);
    or_observers : option (list string) }.

  (** sureal/subjective_model.py:63-76 run_modeling: observers and the final
      post-processing are added to the result of _run_modeling. *)
  Definition finish (rd : reader T) (k : kwargs T) (q : list T) (b v : option (list T)) : res otherres :=
    do obs <- attach_observers rd;
    Ok (OtherRes (postprocess k q) b v obs).

  (** sureal/subjective_model.py:459-481 (see live_dmos) with run_modeling. *)
  Definition live_run_modeling (rd : reader T) (k : kwargs T) : res otherres :=
    do q <- live_dmos rd k; finish rd k q None None.

  (** ** Least squares *)
  (** The design matrix (sureal/subjective_model.py:508-521): row
      idx_video * S + idx_subject has 1.0 at idx_subject and at S + idx_video; the
      last row has 1 at S.  Written pointwise instead of by assignments. *)
  Definition ls_matrix (E S : nat) : arr2 T :=
    Arr2 (E * S + 1) (S + E) (fun r c =>
      if Nat.ltb r (E * S)
      then if Nat.eqb c (r mod S) || Nat.eqb c (S + r / S) then none_ else nzero
      else if Nat.eqb c S then none_ else nzero).

  (** sureal/subjective_model.py:514-522: score_mtx.ravel() followed by mos[0],
      the mean of the first row without its missing entries (pandas). *)
  Definition ls_rhs (x : arr3 T) : list T :=
    flat_map (fun e => map (fun s => at3 x e s 0) (seq 0 (dS x))) (seq 0 (dE x))
    ++ [np_nanmean (map (fun s => at3 x 0 s 0) (seq 0 (dS x)))].

  (** np.dot(P, y) for a matrix and a vector: ValueError unless the shapes
      agree (sureal/subjective_model.py:524). *)
  Definition mat_vec (p : arr2 T) (y : list T) : res (list T) :=
    if Nat.eqb (n1 p) (length y)
    then Ok (map (fun i => np_sum (map (fun j => at2 p i j * vat y j) (seq 0 (n1 p)))) (seq 0 (n0 p)))
    else Err ValueError.

  (** sureal/subjective_model.py:494-533 with run_modeling.  [pinv] is
      scipy.linalg.pinv; mos[0] of an empty frame is a KeyError. *)
  Definition ls_run_modeling (pinv : arr2 T -> res (arr2 T)) (rd : reader T) (k : kwargs T) : res otherres :=
    do _ <- assert_ (negb (kw_rej k));
    do pp <- preprocess rd k;
    let x := pp_arr pp in
    do _ <- assert_ (Nat.eqb (dR x) 1);
    do _ <- (if Nat.eqb (dE x) 0 then Err KeyError else Ok tt);
    do p <- pinv (ls_matrix (dE x) (dS x));
    do bq <- mat_vec p (ls_rhs x);
    finish rd k (skipn (dS x) bq) (Some (firstn (dS x) bq)) None.

  (** ** The early maximum likelihood model *)
  (** State: quality, bias, inconsistency and its logarithm. *)
  Definition legstate : Type := (list T * list T * list T * list T)%type.

  (** sureal/subjective_model.py:582-590: start values.  pandas' mean and std
      leave out missing entries. *)
  Definition leg_start (x : arr3 T) : legstate :=
    let q := along1 np_nanmean (stack1 x) in
    let v := along0 (np_nanstd 0) (stack0 (minus_quality x q)) in
    (q, zeros (dS x), v, map nln v).

  (** (8) sureal/subjective_model.py:606-609. *)
  Definition leg_bias (x : arr3 T) (q b : list T) : list T :=
    refresh b (vmap2 ndiv (sum_e (minus_quality x q)) (sum_e (one_or_nan x))).

  (** (9) sureal/subjective_model.py:620-624. *)
  Definition leg_incons (x : arr3 T) (q b v : list T) : list T :=
    let r := residual x q b in
    let num := sum_e (map3 (fun e s _ y => nofZ 2 * none_ * (nsq (vat v s) * vat v s) - nofZ 4 * vat v s * nsq y) r) in
    let den := sum_e (map3 (fun e s _ y => none_ * nsq (vat v s) - nofZ 3 * nsq y) r) in
    refresh v (vmap2 ndiv num den).

  (** (9') sureal/subjective_model.py:612-617: the logarithms. *)
  Definition leg_log (x : arr3 T) (q b v lv : list T) : list T :=
    let r := residual x q b in
    let num := sum_e (map3 (fun e s _ y => - none_ + nsq y / nsq (vat v s)) r) in
    let den := sum_e (map3 (fun e s _ y => nofZ (-2) * nsq y / nsq (vat v s)) r) in
    refresh lv (vmap2 nsub lv (vmap2 ndiv num den)).

  (** (7) sureal/subjective_model.py:627-631. *)
  Definition leg_quality (x : arr3 T) (q b v : list T) : list T :=
    let num := sum_s (map3 (fun e s _ y => (y - vat b s) / nsq (vat v s)) x) in
    let den := sum_s (map3 (fun e s _ y => y / nsq (vat v s)) (one_or_nan x)) in
    refresh q (vmap2 ndiv num den).

  (** sureal/subjective_model.py:602-631: one pass. *)
  Definition leg_pass (use_log : bool) (x : arr3 T) (st : legstate) : legstate :=
    let '(q, b, v, lv) := st in
    let b' := leg_bias x q b in
    let lv' := if use_log then leg_log x q b' v lv else lv in
    let v' := if use_log then map nexp lv' else leg_incons x q b' v in
    (leg_quality x q b' v', b', v', lv').

  (** MAX_ITR (sureal/subjective_model.py:594). *)
  Definition leg_max_itr : nat := 50 * 100.

  (** sureal/subjective_model.py:600-646: the loop. *)
  Fixpoint leg_loop (fuel itr : nat) (use_log : bool) (x : arr3 T) (st : legstate) : res (legstate * nat) :=
    match fuel with
    | O => Err Diverges
    | S f =>
        let st' := leg_pass use_log x st in
        let '(q, _, _, _) := st in
        let '(q', _, _, _) := st' in
        let itr := S itr in
        do d <- sp_norm (vmap2 nsub q q');
        if d <? epsilon then Ok (st', itr)
        else if Nat.leb leg_max_itr itr then Ok (st', itr)
        else leg_loop f itr use_log x st'
    end.

  (** sureal/subjective_model.py:650-653; b_s is a pandas Series, so its mean
      leaves out missing entries. *)
  Definition leg_center (force : bool) (q b : list T) : list T * list T :=
    if force then let m := np_nanmean b in (map (fun y => y + m) q, map (fun y => y - m) b) else (q, b).

  (** Options force_subjbias_zeromean (absent or None: True) and use_log
      (absent: False), sureal/subjective_model.py:565-580. *)
  Record legopts := LegOpts { lo_force : option bool; lo_log : option bool }.

  (** sureal/subjective_model.py:553-661 with run_modeling. *)
  Definition leg_run_modeling (rd : reader T) (k : kwargs T) (o : legopts) : res otherres :=
    do _ <- assert_ (negb (kw_rej k));
    do pp <- preprocess rd k;
    let x := pp_arr pp in
    do _ <- assert_ (Nat.eqb (dR x) 1);
    do en <- leg_loop leg_max_itr 0 (match lo_log o with Some l => l | None => false end) x (leg_start x);
    let '((q, b, v, _), _) := en in
    let '(q', b') := leg_center (match lo_force o with Some f => f | None => true end) q b in
    finish rd k q' (Some b') (Some v).

  (** ** Scores per subject *)
  (** sureal/subjective_model.py:1341-1346 with run_modeling (63-76, 316-351):
      the scores are the preprocessed array. *)
  Definition per_postprocess (k : kwargs T) (x : arr3 T) : arr3 T :=
    let l := flat3 x in
    let x1 := if kw_normalize_final k
              then let mu := np_mean l in let sd := np_std l in map3 (fun _ _ _ y => (y - mu) / sd) x
              else x in
    match kw_transform_final k with
    | None => x1
    | Some (p2, p1, p0) =>
        map3 (fun _ _ _ y =>
          let o := nzero in
          let o := match p2 with Some c => o + c * y * y | None => o end in
          let o := match p1 with Some c => o + c * y | None => o end in
          match p0 with Some c => o + c | None => o end) x1
    end.
  Definition per_run_modeling (rd : reader T) (k : kwargs T) : res (arr3 T * option (list string)) :=
    do pp <- preprocess rd k;
    do obs <- attach_observers rd;
    Ok (per_postprocess k (pp_arr pp), obs).

  (** The scores of a video as seen by to_persubject_dataset: one array of
      repetitions per subject (sureal/dataset_reader.py:311-334). *)
  Definition per_scores (x : arr3 T) : list (list (score T)) :=
    map (fun e => map (fun s => SArr (map (fun r => at3 x e s r) (seq 0 (dR x)))) (seq 0 (dS x))) (seq 0 (dE x)).

  (** sureal/subjective_model.py:1348-1350: the dataset with one entry per
      subject, after run_modeling. *)
  Definition per_dataset (rd : reader T) (k : kwargs T) (kw : convkw T) : res (dataset T string) :=
    do m <- per_run_modeling rd k;
    to_persubject_dataset (rd_ds rd) (rd_dvs rd) (per_scores (fst m)) kw.
End Other.
Arguments otherres : clear implicits.
