(** Performance metrics: sureal/perf_metric.py. *)
From Coq Require Import List ZArith Bool Arith.
From Verif Require Import PyBase Num NumPy Preproc.
Import ListNotations.
Local Open Scope list_scope.

Section Perf.
  Context {T : Type} {N : Num T}.
  Local Open Scope num_scope.

  (** A ground truth: a number, or a list of raw scores (perf_metric.py:25-26). *)
  Inductive truth := Aggregate (x : T) | RawScores (l : list T).

  (** sureal/perf_metric.py:82-84 with the default aggr_method np.mean. *)
  Definition aggregate (g : truth) : T := match g with Aggregate x => x | RawScores l => np_mean l end.

  (** numpy.linalg.lstsq with a two-column matrix: the two coefficients. *)
  Variable lstsq : list (T * T) -> list T -> res (T * T).

  (** np.max / np.min of a list: ValueError when it is empty, NaN wins. *)
  Definition np_max (l : list T) : res T := match l with [] => Err ValueError | x :: l' => Ok (fold_left nmaximum l' x) end.
  Definition np_min (l : list T) : res T := match l with [] => Err ValueError | x :: l' => Ok (fold_left nminimum l' x) end.

  (** sureal/perf_metric.py:61: normalisation to (0, 1). *)
  Definition normalised (lo hi y : T) : T := (y - lo) / (hi - lo).
  (** sureal/perf_metric.py:63 *)
  Definition logit (y : T) : T := - nln (none_ / y - none_).
  (** sureal/perf_metric.py:70, 73 *)
  Definition logistic_map (lo hi a b x : T) : T :=
    none_ / (none_ + nexp (- (x - a) / b)) * (hi - lo) + lo.

  (** sureal/perf_metric.py:55-75 sigmoid_adjust.  lstsq refuses different
      numbers of rows (LinAlgError). *)
  Definition sigmoid_adjust (xs ys : list T) : res (list T) :=
    do mx <- np_max ys;
    do mn <- np_min ys;
    let hi := mx + ndec 1 10 in
    let lo := mn - ndec 1 10 in
    let zs := map (fun y => logit (normalised lo hi y)) ys in
    do _ <- (if Nat.eqb (length xs) (length ys) then Ok tt else Err LinAlgError);
    do ab <- lstsq (map (fun z => (none_, z)) zs) xs;
    Ok (map (logistic_map lo hi (fst ab) (snd ab)) xs).

  (** sureal/perf_metric.py:77-91 _preprocess *)
  Definition perf_preprocess (mapping : bool) (gts : list truth) (preds : list T) : res (list T * list T) :=
    let gs := map aggregate gts in
    do ps <- (if mapping then sigmoid_adjust preds gs else Ok preds);
    Ok (gs, ps).

  (** sureal/perf_metric.py:101-103 *)
  Definition rmse (g p : list T) : T :=
    nsqrt (np_mean (map (fun q => nsq (fst q - snd q)) (combine g p))).

  (** scipy.stats.kendalltau (tau-b): concordant minus discordant pairs over the
      geometric mean of the numbers of pairs not tied on either side; NaN when
      one side is all ties or the list is empty. *)
  Definition nsign (x y : T) : T := if x <? y then none_ else if y <? x then - none_ else nzero.
  Fixpoint pairs {A} (l : list A) : list (A * A) :=
    match l with [] => [] | x :: l' => map (fun y => (x, y)) l' ++ pairs l' end.
  Definition sp_kendalltau (x y : list T) : T :=
    let ps := pairs (combine x y) in
    let con := np_sum (map (fun p => nsign (fst (fst p)) (fst (snd p)) * nsign (snd (fst p)) (snd (snd p))) ps) in
    let nx := np_sum (map (fun p => nsq (nsign (fst (fst p)) (fst (snd p)))) ps) in
    let ny := np_sum (map (fun p => nsq (nsign (snd (fst p)) (snd (snd p)))) ps) in
    con / nsqrt nx / nsqrt ny.

  (** The four metric classes, sureal/perf_metric.py:94-141. *)
  Inductive metric := RMSE | SRCC | PCC | KENDALL.
  Definition perf_evaluate (m : metric) (g p : list T) : res T :=
    match m with
    | RMSE => Ok (rmse g p)
    | SRCC => sp_spearmanr g p
    | PCC => sp_pearsonr g p
    | KENDALL => Ok (sp_kendalltau g p)
    end.

  (** sureal/perf_metric.py:22-48: construction (lengths must agree), then
      evaluate(enable_mapping=mapping)['score']. *)
  Definition perf_score (m : metric) (mapping : bool) (gts : list truth) (preds : list T) : res T :=
    do _ <- assert_ (Nat.eqb (length gts) (length preds));
    do gp <- perf_preprocess mapping gts preds;
    perf_evaluate m (fst gp) (snd gp).

  (** sureal/routine.py:34-45 _get_reconstruction_stats, one metric: pairs with a
      missing entry are left out; zip( *[]) cannot be unpacked (ValueError). *)
  Definition reconstruction_stat (m : metric) (raw rec : list T) : res T :=
    let ps := filter (fun p => negb (nisnan (snd p)) && negb (nisnan (fst p))) (combine raw rec) in
    match ps with
    | [] => Err ValueError
    | _ => perf_score m false (map (fun p => Aggregate (fst p)) ps) (map snd ps)
    end.

  (** sureal/routine.py:971-980 get_ci_percentage.  [ci]: the rows of
      result[errkey]; two rows of different lengths do not form a 2-d array
      (ValueError).  Simplified: with another number of rows the exception is
      always the assertion's. *)
  Definition in_ci (x y l u : T) : bool := (y - l <=? x) && (x <=? y + u).
  Definition get_ci_percentage (xs ys : list T) (ci : list (list T)) : res T :=
    match ci with
    | [l; u] =>
        if negb (Nat.eqb (length l) (length u)) then Err ValueError else
        do _ <- assert_ (Nat.eqb (length xs) (length ys) && Nat.eqb (length ys) (length l));
        let ind := map (fun p => in_ci (fst (fst p)) (snd (fst p)) (fst (snd p)) (snd (snd p))) (combine (combine xs ys) (combine l u)) in
        match ind with
        | [] => Err ZeroDivisionError
        | _ => Ok (nofnat (count_if (fun b : bool => b) ind) / nofnat (length ind) * nofZ 100)
        end
    | _ => Err AssertionError
    end.
End Perf.
Arguments truth : clear implicits.
