(** Model of sureal/experimental.py: the maximum likelihood model with
    bootstrapped confidence intervals.  Random draws are an argument. *)
From Coq Require Import String.
From Coq Require Import List ZArith Bool Arith.
From Verif Require Import PyBase Num NumPy Dataset Mocked Preproc Mos AP Mle.
Import ListNotations.
Local Open Scope list_scope.

Section Experimental.
  Context {T : Type} {N : Num T}.
  (** scipy.stats.chi2.ppf, as in Mle.v. *)
  Context (chi2_ppf : T -> T -> T).
  (** [choice i n]: np.random.seed(i) followed by np.random.choice(range(n),
      size=n, replace=True) (sureal/experimental.py:80-81, 113-114). *)
  Context (choice : nat -> nat -> list Z).
  Local Open Scope num_scope.

  (** np.percentile with the default linear interpolation, as called at
      sureal/experimental.py:102-103, 135-136, 140-141, of a list with at least
      one entry; [k] counts fortieths, so 2.5 is 1 and 97.5 is 39.  A NaN entry
      makes the result NaN. *)
  Definition np_percentile (k : nat) (l : list T) : T :=
    if existsb nisnan l then nnan else
    let s := isort nleb l in
    let h := (k * (length l - 1))%nat in
    let i := (h / 40)%nat in
    let lo := vat s i in
    let hi := vat s (Nat.min (i + 1) (length l - 1)) in
    lo + (hi - lo) * (nofnat (h mod 40) / nofnat 40).

  (** np.array([r[key] for r in results]) and its percentile over axis 0.
      Rows of different lengths are not an array of numbers (ValueError). *)
  Definition percentile_rows (k : nat) (rows : list (list T)) : res (list T) :=
    match rows with
    | [] => Err IndexError
    | r0 :: _ =>
        if forallb (fun r => Nat.eqb (length r) (length r0)) rows
        then Ok (map (fun e => np_percentile k (map (fun r => vat r e) rows)) (seq 0 (length r0)))
        else Err ValueError
    end.

  (** u - v.  Simplified: shapes that differ are an error even where numpy
      would broadcast a vector of length 1. *)
  Definition vsub (u v : list T) : res (list T) :=
    if Nat.eqb (length u) (length v) then Ok (vmap2 nsub u v) else Err ValueError.

  (** [ref - percentile 2.5, percentile 97.5 - ref]
      (sureal/experimental.py:100-105, 133-143). *)
  Definition bootstrap_margins (ref : list T) (rows : list (list T)) : res (list T * list T) :=
    do p <- percentile_rows 1 rows;
    do lo <- vsub ref p;
    do p' <- percentile_rows 39 rows;
    do hi <- vsub p' ref;
    Ok (lo, hi).

  (** np.array(l)[sel]. *)
  Definition take_entries (l : list T) (sel : list Z) : res (list T) :=
    mapM (fun z => match py_norm_index (length l) z with Some i => Ok (vat l i) | None => Err IndexError end) sel.

  (** result['...'] of an entry that need not be there. *)
  Definition entry_of {A} (o : option A) : res A := match o with Some a => Ok a | None => Err KeyError end.

  (** A result with other quality_scores and observer_bias. *)
  Definition with_scores (m : mleres T) (q : list T) (b : list T) : mleres T :=
    MleRes (ml_raw m) q (ml_quality_std m) (ml_quality_lo m) (ml_quality_hi m) (ml_iter m)
           (Some b) (ml_bias_std m) (ml_bias_lo m) (ml_bias_hi m)
           (ml_incons m) (ml_incons_std m) (ml_incons_lo m) (ml_incons_hi m)
           (ml_ambiguity m) (ml_ambiguity_std m) (ml_ambiguity_lo m) (ml_ambiguity_hi m)
           (ml_recon m) (ml_dof m) (ml_ll m) (ml_aic m) (ml_bic m) (ml_observers m).

  (** np.mean(got - ref[sel]) (sureal/experimental.py:89-92, 122-125). *)
  Definition bootstrap_offset (got ref : list T) (sel : list Z) : res T :=
    do r <- take_entries ref sel;
    do d <- vsub got r;
    Ok (np_mean d).

  (** The classes: TYPE strings MLE_BSTP and MLE_CO_BSTP
      (sureal/experimental.py:11, 147-149) and the class whose _run_modeling and
      mode they use. *)
  Inductive bootclass := MLE_BSTP | MLE_CO_BSTP.
  Definition boot_base (c : bootclass) : mleclass := match c with MLE_BSTP => MLE | MLE_CO_BSTP => MLE_CO end.

  (** The reader of the selected subjects (sureal/experimental.py:83-84). *)
  Definition subject_reader (ds : dataset T string) (sel : list Z) : reader T :=
    Reader ds (ds_dis ds) (select_subject_3darray ds (Some sel)).

  (** sureal/experimental.py:77-99: replicate number [i]. *)
  Definition subject_replicate (c : bootclass) (ds : dataset T string) (ref : mleres T) (n : nat)
             (k : kwargs T) (o : mleopts T) (i : nat) : res (mleres T) :=
    let sel := choice i n in
    do m <- mle_run chi2_ppf (boot_base c) (subject_reader ds sel) k o;
    do b <- entry_of (ml_bias m);
    do rb <- entry_of (ml_bias ref);
    do off <- bootstrap_offset b rb sel;
    Ok (with_scores m (vshift off (ml_quality m)) (vshift_down off b)).

  (** sureal/experimental.py:74-105 _bootstrap_subjects. *)
  Definition bootstrap_subjects (c : bootclass) (ds : dataset T string) (ref : mleres T) (n nboot : nat)
             (k : kwargs T) (o : mleopts T) : res (list T * list T) :=
    do reps <- mapM (subject_replicate c ds ref n k o) (seq 0 nboot);
    bootstrap_margins (ml_quality ref) (map (fun r => ml_quality r) reps).

  (** sureal/experimental.py:110-132: replicate number [i]. *)
  Definition video_replicate (c : bootclass) (ds : dataset T string) (ref : mleres T) (n : nat)
             (k : kwargs T) (o : mleopts T) (i : nat) : res (mleres T) :=
    let sel := choice i n in
    do sr <- select_dis_video_reader ds (Some sel);
    do m <- mle_run chi2_ppf (boot_base c) (Reader ds (fst sr) (snd sr)) k o;
    do off <- bootstrap_offset (ml_quality m) (ml_quality ref) sel;
    do b <- entry_of (ml_bias m);
    Ok (with_scores m (vshift_down off (ml_quality m)) (vshift off b)).

  (** sureal/experimental.py:107-143 _boostrap_dis_videos. *)
  Definition bootstrap_dis_videos (c : bootclass) (ds : dataset T string) (ref : mleres T) (n nboot : nat)
             (k : kwargs T) (o : mleopts T) : res ((list T * list T) * (list T * list T)) :=
    do reps <- mapM (video_replicate c ds ref n k o) (seq 0 nboot);
    do bs <- mapM (fun r => entry_of (ml_bias r)) reps;
    do rb <- entry_of (ml_bias ref);
    do ci_b <- bootstrap_margins rb bs;
    do vs <- mapM (fun r => entry_of (ml_incons r)) reps;
    do rv <- entry_of (ml_incons ref);
    do ci_v <- bootstrap_margins rv vs;
    Ok (ci_b, ci_v).

  (** n_bootstrap, bootstrap_subjects and boostrap_dis_videos
      (sureal/experimental.py:35-47). *)
  Record bootopts := BootOpts { bo_n : option Z; bo_subjects : option bool; bo_videos : option bool }.

  (** Result dictionary: that of the maximum likelihood model with the three
      confidence intervals replaced or deleted (sureal/experimental.py:49-63). *)
  Record bootres := BootRes {
    br_mle : mleres T;
    br_quality_ci : option (list T * list T);
    br_bias_ci : option (list T * list T);
    br_incons_ci : option (list T * list T) }.

  (** sureal/experimental.py:18-72 _run_modeling, for readers whose to_dataset is
      the dataset they read. *)
  Definition boot_run (c : bootclass) (rd : reader T) (k : kwargs T) (o : mleopts T) (bo : bootopts) : res bootres :=
    let force := match mo_force o with Some f => f | None => true end in
    let o' := MleOpts (mo_gradient o) (mo_pdf o) (mo_delta o) (Some false) in
    do ref <- mle_run chi2_ppf (boot_base c) rd k o';
    do nsubj <- get_num_observers (rd_dvs rd);
    let nvid := length (rd_dvs rd) in
    let n := match bo_n bo with Some n => n | None => 30%Z end in
    do _ <- assert_ (0 <? n)%Z;
    do qci <- (if match bo_subjects bo with Some f => f | None => true end
               then do ci <- bootstrap_subjects c (rd_ds rd) ref nsubj (Z.to_nat n) k o'; Ok (Some ci)
               else Ok None);
    do oci <- (if match bo_videos bo with Some f => f | None => true end
               then do ci <- bootstrap_dis_videos c (rd_ds rd) ref nvid (Z.to_nat n) k o'; Ok (Some (fst ci), Some (snd ci))
               else Ok (None, None));
    do fin <- (if force
               then do b <- entry_of (ml_bias ref);
                    let mean_b := np_mean b in
                    Ok (with_scores ref (vshift mean_b (ml_quality ref)) (vshift_down mean_b b))
               else Ok ref);
    Ok (BootRes fin qci (fst oci) (snd oci)).
End Experimental.
Arguments bootres : clear implicits.
