(** The figures of validate_with_synthetic_dataset (sureal/routine.py:808-968) and of
    plot_scatter_target_vs_compared_models (1070-1156): the data handed to
    matplotlib, with the numbers in the legends.  Fonts, grids and titles are left
    out.  Simplified: axes that cannot take the data for their size (np.arange over a
    huge range, negative error bars) raise nothing here. *)
From Coq Require Import String.
From Coq Require Import List ZArith Bool Arith.
From Verif Require Import PyBase Num NumPy Preproc Perf Dataset Runs.
Import ListNotations.
Local Open Scope list_scope.

Section Panels.
  Context {T : Type} {N : Num T}.
  Local Open Scope num_scope.

  (** Python's min and max of a list: the first one wins unless another is strictly
      smaller (larger); ValueError when there is none. *)
  Definition py_min (l : list T) : res T := match l with [] => Err ValueError | x :: l' => Ok (fold_left (fun m y => if y <? m then y else m) l' x) end.
  Definition py_max (l : list T) : res T := match l with [] => Err ValueError | x :: l' => Ok (fold_left (fun m y => if m <? y then y else m) l' x) end.
  (** [x - x == 0]: neither NaN nor infinite *)
  Definition is_finite (x : T) : bool := x - x =? nzero.
  (** The ends of np.arange(min(x), max(x), step=0.01), which refuses ends that are
      not finite (ValueError) (routine.py:866, 881, 914, 947, 965). *)
  Definition diagonal (x : list T) : res (T * T) :=
    do lo <- py_min x;
    do hi <- py_max x;
    if is_finite lo && is_finite hi then Ok (lo, hi) else Err ValueError.
  (** RmsePerfMetric(x, y).evaluate(enable_mapping=False)['score'] *)
  Definition rmse_of (x y : list T) : res T :=
    perf_score (fun _ _ => Err LinAlgError) RMSE false (map Aggregate x) y.

  (** What one model adds to one panel: axes, model, colour, marker, points, error
      bars, the RMSE and the CI% of the legend, the ends of the diagonal. *)
  Record panel := Panel {
    pa_axes : string; pa_model : string; pa_color : string; pa_marker : string; pa_points : list (T * T);
    pa_error : option (list (list T)); pa_rmse : T; pa_percent : option T; pa_diagonal : T * T }.

  (** routine.py:844-845, 873-874, 888-889, 921-922, 954-955 *)
  Definition or_default (d : list (string * string)) (name default : string) : string :=
    match dget String.eqb d name with Some c => c | None => default end.

  (** One of the five blocks, routine.py:840-867, 869-882, 884-915, 917-948, 950-966.
      [cut]: the three blocks that cut both lists to the shorter one. *)
  Definition panel_of (axes : list string) (color_dict marker_dict : list (string * string)) (do_errorbar : bool)
      (model key : string) (cut : bool) (truth : option (list T)) (e : estimates T) : res (list panel) :=
    if negb (memb String.eqb key axes) then Ok [] else
    match es_value e, truth with
    | Some y, Some x =>
        do perc <- match es_ci e with
                   | Some ci => do p <- get_ci_percentage x y ci; Ok (Some p)
                   | None => Ok None
                   end;
        let n := Nat.min (length x) (length y) in
        let x' := if cut then firstn n x else x in
        let y' := if cut then firstn n y else y in
        do r <- rmse_of x' y';
        let with_error := do_errorbar && match es_ci e with Some _ => true | None => false end in
        do d <- diagonal x';
        Ok [Panel key model (or_default color_dict model "black") (or_default marker_dict model ".")
              (combine x' y') (if with_error then es_ci e else None) r (if with_error then perc else None) d]
    | _, _ => Ok []
    end.

  (** The entries of synthetic_result and of a result that are read. *)
  Record truths := Truths { tr_syn : synthetic T; tr_std : option (list T); tr_ambiguity : option (list T) }.
  Record vfull := VFull { vf_res : vresult T; vf_std : option (list T); vf_ambiguity : option (list T) }.

  (** routine.py:840-966: the five panels of one model. *)
  Definition panels_of (axes : list string) (color_dict marker_dict : list (string * string)) (do_errorbar : bool)
      (t : truths) (model : string) (r : vfull) : res (list panel) :=
    let blk := panel_of axes color_dict marker_dict do_errorbar model in
    do a <- blk "quality_scores"%string false (sy_quality (tr_syn t)) (v_quality (vf_res r));
    do b <- blk "quality_scores_std"%string false (tr_std t) (Est (vf_std r) None);
    do c <- blk "observer_bias"%string true (sy_bias (tr_syn t)) (v_bias (vf_res r));
    do d <- blk "observer_inconsistency"%string true (sy_incons (tr_syn t)) (v_incons (vf_res r));
    do e <- blk "quality_ambiguity"%string true (tr_ambiguity t) (Est (vf_ambiguity r) None);
    Ok (a ++ b ++ c ++ d ++ e).

  (** routine.py:822-966, one round of the loop: percentages, then panels. *)
  Definition validate_round (axes : list string) (color_dict marker_dict : list (string * string)) (do_errorbar : bool)
      (t : truths) (st : vdict T * list panel) (r : string * vfull) : res (vdict T * list panel) :=
    do d <- validate_one (tr_syn t) (fst st) (fst r, vf_res (snd r));
    do ps <- panels_of axes color_dict marker_dict do_errorbar t (fst r) (snd r);
    Ok (d, snd st ++ ps).

  (** routine.py:769-770, 802-968 *)
  Definition validate_figures (axes : list string) (color_dict marker_dict : list (string * string)) (do_errorbar : bool)
      (missing_probability : option T) (models : list (string * res vfull)) (t : truths) : res (vdict T * list panel) :=
    do _ <- match missing_probability with
            | None => Ok tt
            | Some p => assert_ ((nzero <=? p) && (p <? none_))
            end;
    do rs <- mapM (fun m => do r <- snd m; Ok (fst m, r)) models;
    foldM (validate_round axes color_dict marker_dict do_errorbar t) rs
          (collect (map (fun r => (fst r, vf_res (snd r))) rs), []).

  (** ** plot_scatter_target_vs_compared_models *)
  (** A column of the figure: the names on the axes with the percentage of the
      subjects (int(fraction * 100), for a product between 0 and 100), the points, the differences and
      the numbers in the title. *)
  Record scatter := Scatter {
    sc_target : string * option nat; sc_compared : string * option nat; sc_points : list (T * T); sc_diffs : list T;
    sc_plcc : T; sc_srocc : T; sc_mean : T; sc_std : T }.

  (** int(subj_fraction * 100) (routine.py:1121, 1124) *)
  Definition percent_tag (f : option T) : option nat :=
    match f with
    | None => None
    | Some x => Some (length (filter (fun k => nofnat (S k) <=? x * nofZ 100) (seq 0 100)))
    end.

  (** routine.py:1111-1137: one column from the two lists of scores; lists of
      different lengths do not subtract, or do not correlate (ValueError). *)
  Definition scatter_of (target compared : string) (ft fc : option T) (xs ys : list T) : res scatter :=
    do _ <- (if Nat.eqb (length xs) (length ys) then Ok tt else Err ValueError);
    let diffs := map (fun p => snd p - fst p) (combine xs ys) in
    do plcc <- sp_pearsonr xs ys;
    do srocc <- sp_spearmanr xs ys;
    Ok (Scatter (target, percent_tag ft) (compared, percent_tag fc) (combine xs ys) diffs plcc srocc (np_mean diffs) (np_std diffs)).

  Section Scatter.
    Context {D : Type}.
    (** get_sample_stats_wrapper_method(dataset, fraction, model, seed): for the one
        dataset the results of the one model; None for a result without
        'quality_scores'.  [k] counts the calls. *)
    Variable sample : nat -> D -> option T -> string -> res (list (list (option (list T)))).

    (** routine.py:1105-1137, one column: one after the other the results of the two
        models for the first dataset, on the same two axes. *)
    Definition column (ft fc : option T) (c : string * list (list (option (list T))) * (string * list (list (option (list T))))) : res (list scatter) :=
      let '((target, tr), (compared, cr)) := c in
      match tr, cr with
      | t0 :: _, c0 :: _ =>
          mapM (fun p => match p with
                         | (Some xs, Some ys) => scatter_of target compared ft fc xs ys
                         | _ => Err KeyError
                         end) (combine t0 c0)
      | _, _ => Err IndexError
      end.

    (** routine.py:1080-1138, one dataset whose first call has number [k];
        plt.subplots refuses to make no column (ValueError). *)
    Definition scatter_dataset (targets compareds : list string) (ft fc : option T) (k : nat) (ds : D) : res (list (list scatter)) :=
      do trs <- mapM (fun im => sample (k + fst im) ds ft (snd im)) (enumerate targets);
      do crs <- mapM (fun im => sample (k + length targets + fst im) ds fc (snd im)) (enumerate compareds);
      match crs with
      | [] => Err ValueError
      | _ => mapM (column ft fc) (combine (combine targets trs) (combine compareds crs))
      end.

    (** routine.py:1070-1138 *)
    Definition scatter_target_vs_compared (targets compareds : list string) (ft fc : option T) (datasets : list D) : res (list (list (list scatter))) :=
      mapM (fun id => scatter_dataset targets compareds ft fc (fst id * (length targets + length compareds)) (snd id)) (enumerate datasets).
  End Scatter.

  (** _get_sample_stats_wrapper after the run (routine.py:1150-1156): the first
      result of every dataset loses two entries. *)
  Definition without_arrays {V} (results : list (list (list (string * V)))) : res (list (list (list (string * V)))) :=
    mapM (fun rs => match rs with
                    | [] => Err IndexError
                    | r :: rs' => Ok (filter (fun kv => negb (String.eqb (fst kv) "raw_scores" || String.eqb (fst kv) "reconstructions")) r :: rs')
                    end) results.
End Panels.
Arguments panel : clear implicits. Arguments truths : clear implicits. Arguments vfull : clear implicits. Arguments scatter : clear implicits.
