(** What is drawn: the data handed to matplotlib by run_subjective_models
    (sureal/routine.py:107-606) and visualize_pc_dataset (735-751).  Captions, grids,
    fonts and colour maps are left out. *)
From Coq Require Import String.
From Coq Require Import List ZArith Bool Arith.
From Verif Require Import PyBase Num NumPy Dataset Stats Perf.
Import ListNotations.
Local Open Scope list_scope.

(** ** Which figures *)
(** The argument do_plot: None, a list of names, or a text. *)
Inductive do_plot_arg := PNone | PList (l : list string) | PText (s : string).
(** [sub in s] for texts *)
Fixpoint contains (sub s : string) : bool :=
  String.prefix sub s || match s with EmptyString => false | String _ r => contains sub r end.
(** [do_plot == 'all' or name in do_plot] (routine.py:47-48, 107, 128, 155, 182, 211,
    242, 275, 343, 524) *)
Definition wanted (d : do_plot_arg) (name : string) : bool :=
  match d with
  | PNone => false
  | PList l => memb String.eqb name l
  | PText s => String.eqb s "all" || contains name s
  end.
Definition plot_names : list string :=
  ["raw_scores"; "raw_counts"; "raw_counts_per_subject"; "raw_scores_minus_quality_scores";
   "raw_scores_minus_quality_scores_and_observer_bias"; "quality_scores_vs_raw_scores";
   "quality_scores"; "subject_scores"; "content_scores"]%string.

(** routine.py:81 *)
Definition colors : list string := let c := ["black"; "gray"; "blue"; "red"]%string in c ++ c.
(** colors[shift_count] *)
Definition color (shift : nat) : res string := match nth_error colors shift with Some c => Ok c | None => Err IndexError end.

Section Figures.
  Context {T : Type} {N : Num T}.
  Local Open Scope num_scope.

  (** ** Sizes *)
  (** routine.py:590-599; [w // 100] and [h // 100] are the whole hundreds of
      cols / 30 and of rows / 30 after the first division. *)
  Definition imshow_size (rows cols : nat) : T * T :=
    let w := nofnat cols / nofZ 30 in
    let h := nofnat rows / nofZ 30 in
    let x := (cols / 3000)%nat in
    let '(w1, h1, d) := if nofZ 100 <? w then (w / nofnat x, h / nofnat x, x) else (w, h, 1%nat) in
    let y := (rows / (3000 * d))%nat in
    let '(w2, h2) := if nofZ 100 <? h1 then (w1 / nofnat y, h1 / nofnat y) else (w1, h1) in
    (w2 + nofZ 2, h2 + nofZ 2).
  (** routine.py:602-606 *)
  Definition plot_size (num : option nat) : T * T :=
    match num with
    | None => (nofZ 10, nofZ 3)
    | Some n => (nmaximum (nsqrt (nofnat n) + nofZ 2) (nofZ 10), nofZ 3)
    end.
  (** Where it is drawn: on axes of ax_dict, or in a new figure. *)
  Inductive place := OnAxes (key : string) | NewFigure (w h : T).
  Definition placed (axes : list string) (key : string) (size : T * T) : place :=
    if memb String.eqb key axes then OnAxes key else NewFigure (fst size) (snd size).

  (** ** Images and counts *)
  (** np.nanmean(a, axis=2).T (routine.py:110, 131, 158, 192, 223, 245): a row for every subject *)
  Definition mean_matrix (a : arr3 T) : arr2 T :=
    Arr2 (dS a) (dE a) (fun i j => np_nanmean (map (fun r => at3 a j i r) (seq 0 (dR a)))).
  (** routine.py:141-146, 168-173: the points of one histogram, by value; the counts
      of all of them.  np.apply_along_axis refuses an array without lines, and
      [xs, ys, vs = zip( *datas)] an empty list, both with ValueError. *)
  Definition count_points (line : nat) (h : list (T * nat)) : list (nat * T * nat) :=
    map (fun p => (line, fst p, snd p)) (isort (fun p q => fst p <=? fst q) h).
  Definition counts_of (lines : list (list T)) : res (list (nat * T * nat)) :=
    match flat_map (fun il => count_points (fst il) (histc (snd il))) (enumerate lines) with
    | [] => Err ValueError
    | pts => Ok pts
    end.
  (** routine.py:191, 221-222; for vectors of the lengths of the array *)
  Definition minus_scores (a : arr3 T) (q : list T) : arr3 T := map3 (fun j i r v => v - vat q j) a.
  Definition minus_biases (a : arr3 T) (b : list T) : arr3 T := map3 (fun j i r v => v - vat b i) a.

  (** ** What the figures read in a result
      The margins of an estimate: the key may be missing, and its value may not be
      a pair of vectors (TypeError is caught). *)
  Definition margins : Type := option (option (list T * list T)).
  Record shown := Shown {
    sh_type : string; sh_quality : option (list T); sh_quality_ci : margins; sh_bic : option T; sh_recon : bool;
    sh_bias : option (list T); sh_bias_ci : margins; sh_incons : option (list T); sh_incons_ci : margins;
    sh_rejected : option (list bool); sh_rejected1 : option (list T); sh_rejected2 : option (list T);
    sh_observers : option (list string); sh_ambiguity : option (list T); sh_ambiguity_ci : margins }.

  (** The legend of a series: the type, maybe the NBIC, maybe the average margin. *)
  Record label := Label { lb_type : string; lb_bic : option T; lb_ci : option T }.
  Inductive style := SBar | SError (err : option (list T * list T)) | SDots.
  Record series := Series { se_label : label; se_style : style; se_color : string; se_x : list T; se_y : list T }.
  (** plot_type: 'bar', 'errorbar' or another text *)
  Inductive plot_type := PBar | PError | POther.

  (** np.mean(np.array(e[0]) + np.array(e[1])) *)
  Definition average_ci (e : list T * list T) : T := np_mean (map (fun p => fst p + snd p) (combine (fst e) (snd e))).
  (** routine.py:308-331, 385-409, 427-451, 547-571: one series of estimates.
      [margins] have the length of [ys]. *)
  Definition series_of (pt : plot_type) (shift : nat) (type : string) (bic : option T) (ys : list T) (ci : margins) : res series :=
    let bar_x := map (fun k => nofnat k + nofnat shift * ndec 4 10) (seq 0 (length ys)) in
    let x := map (fun k => nofnat k + nofnat shift * ndec 4 10 + ndec 2 10) (seq 0 (length ys)) in
    match pt with
    | POther => Err AssertionError
    | PBar => do c <- color shift; Ok (Series (Label type bic None) SBar c bar_x ys)
    | PError =>
        do c <- color shift;
        match ci with
        | Some (Some e) => Ok (Series (Label type bic (Some (average_ci e))) (SError (Some e)) c x ys)
        | Some None => Ok (Series (Label type bic None) (SError None) c x ys)
        | None => Ok (Series (Label type bic None) SDots c x ys)
        end
    end.
  (** [min(xs)] (routine.py:335, 411, 453) *)
  Definition limits (ys : list T) : res unit := match ys with [] => Err ValueError | _ => Ok tt end.

  Inductive drawing :=
  | DImage (name : string) (type : option string) (at_ : place) (m : arr2 T)
  | DCounts (name : string) (at_ : place) (pts : list (nat * T * nat)) (xlim : nat)
  | DGrid (type : string) (nrows ncols : nat) (lo hi : T) (panels : list (list (T * T)))
  | DSeries (name : string) (at_ : place) (l : list series)
  | DTicks (name : string) (labels : list string).

  (** ** The figures *)
  (** routine.py:107-126 *)
  Definition fig_raw_scores (axes : list string) (a : arr3 T) : res (list drawing) :=
    Ok [DImage "raw_scores" None (placed axes "ax_raw_scores" (imshow_size (dS a) (dE a))) (mean_matrix a)].
  (** routine.py:128-153 *)
  Definition fig_raw_counts (axes : list string) (a : arr3 T) : res (list drawing) :=
    let m := mean_matrix a in
    do pts <- counts_of (map (col m) (seq 0 (n1 m)));
    Ok [DCounts "raw_counts" (placed axes "ax_raw_counts" (plot_size (Some (n1 m)))) pts (n1 m)].
  (** routine.py:155-180; the key in ax_dict has no prefix *)
  Definition fig_raw_counts_per_subject (axes : list string) (a : arr3 T) : res (list drawing) :=
    let m := mean_matrix a in
    do pts <- counts_of (map (row m) (seq 0 (n0 m)));
    Ok [DCounts "raw_counts_per_subject" (placed axes "raw_counts_per_subject" (plot_size (Some (n0 m)))) pts (n0 m)].
  (** routine.py:182-209 *)
  Definition fig_minus_quality (axes : list string) (a : arr3 T) (rs : list shown) : res (list drawing) :=
    Ok (flat_map (fun r => match sh_quality r with
          | Some q => let m := mean_matrix (minus_scores a q) in
                      [DImage "raw_scores_minus_quality_scores" (Some (sh_type r)) (placed axes "ax_raw_scores_minus_quality_scores" (imshow_size (n0 m) (n1 m))) m]
          | None => []
          end) rs).
  (** routine.py:211-240 *)
  Definition fig_minus_both (axes : list string) (a : arr3 T) (rs : list shown) : res (list drawing) :=
    Ok (flat_map (fun r => match sh_quality r, sh_bias r with
          | Some q, Some b => let m := mean_matrix (minus_biases (minus_scores a q) b) in
                      [DImage "raw_scores_minus_quality_scores_and_observer_bias" (Some (sh_type r))
                         (placed axes "ax_raw_scores_minus_quality_scores_and_observer_bias" (imshow_size (n0 m) (n1 m))) m]
          | _, _ => []
          end) rs).

  (** np.nanmin, np.nanmax (routine.py:249-250): of no number, NaN *)
  Definition np_nanmin (l : list T) : T := match notnan l with [] => nnan | x :: r => fold_left nminimum r x end.
  Definition np_nanmax (l : list T) : T := match notnan l with [] => nnan | x :: r => fold_left nmaximum r x end.
  (** routine.py:252-253 *)
  Definition grid_rows (n : nat) : nat := Nat.sqrt n.
  Definition grid_cols (n : nat) : nat := ((n + grid_rows n - 1) / grid_rows n)%nat.
  (** routine.py:242-273; [axs.flatten()[i_obs]] is an IndexError beyond the grid, and NaN
      as a limit of the axes (265-266) a ValueError *)
  Definition fig_quality_vs_raw (a : arr3 T) (rs : list shown) : res (list drawing) :=
    let m := mean_matrix a in
    let n := n0 m in
    do _ <- assert_ (Nat.ltb 1 n);
    let all := flat_map (row m) (seq 0 n) in
    do _ <- match all with [] => Err ValueError | _ => Ok tt end;
    do ds <- mapM (fun r => match sh_quality r with
               | Some q => if nisnan (np_nanmin all) then Err ValueError else if Nat.leb n (grid_rows n * grid_cols n)
                           then Ok [DGrid (sh_type r) (grid_rows n) (grid_cols n) (np_nanmin all) (np_nanmax all) (map (fun i => combine (row m i) q) (seq 0 n))]
                           else Err IndexError
               | None => Ok []
               end) rs;
    Ok (concat ds).

  (** np.argsort (routine.py:292): which of several equal scores comes first is up
      to it. *)
  Variable argsort : list T -> list nat.

  Definition pick (q : list T) (order : list nat) : res (list T) :=
    mapM (fun k => match nth_error q k with Some v => Ok v | None => Err IndexError end) order.
  (** routine.py:297-336: the scores are taken in the order, the margins as they are *)
  Fixpoint quality_series (pt : plot_type) (order : list nat) (shift : nat) (rs : list shown) : res (list series) :=
    match rs with
    | [] => Ok []
    | r :: rs' =>
        match sh_quality r with
        | None => quality_series pt order shift rs'
        | Some q =>
            do ys <- pick q order;
            do s <- series_of pt shift (sh_type r) (if sh_recon r then sh_bic r else None) ys (sh_quality_ci r);
            do _ <- limits ys;
            do l <- quality_series pt order (S shift) rs';
            Ok (s :: l)
        end
    end.
  (** The number of columns: the first result with the entry (routine.py:283-287,
      352-356, 533-537) *)
  Definition first_length {A} (get : shown -> option (list A)) (rs : list shown) : option nat :=
    match flat_map (fun r => match get r with Some l => [length l] | None => [] end) rs with [] => None | n :: _ => Some n end.
  (** routine.py:275-341; the order is that of the first result *)
  Definition fig_quality (axes : list string) (pt : plot_type) (sort : bool) (rs : list shown) : res (list drawing) :=
    match rs with
    | [] => Err IndexError
    | r :: _ =>
        match sh_quality r with
        | None => Err KeyError
        | Some q =>
            let order := if sort then argsort q else seq 0 (length q) in
            do l <- quality_series pt order 0 rs;
            Ok [DSeries "quality_scores" (placed axes "ax_quality_scores" (plot_size (first_length sh_quality rs))) l]
        end
    end.

  (** The state of the loop of routine.py:379-497: the series on the five axes,
      the length of the last one, and the ticks. *)
  Record subject_fig := SubjectFig {
    sf_bias : list series; sf_incons : list series; sf_rejected : list series; sf_rejected1 : list series; sf_rejected2 : list series;
    sf_len : option nat; sf_ticks : option (list string); sf_shift : nat }.
  (** The three bar charts of rejected subjects (routine.py:457-494), drawn if their axes are given *)
  Definition reject_series (given : bool) (shift : nat) (type : string) (ys : option (list T)) : res (option series) :=
    match ys with
    | Some v => if given then (do s <- series_of PBar shift type None v None; do _ <- limits v; Ok (Some s)) else Ok None
    | None => Ok None
    end.
  Definition add {A} (l : list A) (o : option A) : list A := match o with Some x => l ++ [x] | None => l end.
  Definition len_or (old : option nat) (drawn : option series) : option nat := match drawn with Some s => Some (length (se_y s)) | None => old end.
  (** routine.py:379-497: one result *)
  Definition subject_step (axes : list string) (pt : plot_type) (st : subject_fig) (r : shown) : res subject_fig :=
    let shift := sf_shift st in
    do b <- match sh_bias r with
            | Some v => do s <- series_of pt shift (sh_type r) None v (sh_bias_ci r); do _ <- limits v; Ok (Some s)
            | None => Ok None
            end;
    do ticks <- match sh_bias r, sh_observers r with
                | Some v, Some o => if Nat.eqb (length v) (length o) then Ok (Some o) else Err AssertionError
                | _, _ => Ok (sf_ticks st)
                end;
    do i <- match sh_incons r with
            | Some v => do s <- series_of pt shift (sh_type r) None v (sh_incons_ci r); do _ <- limits v; Ok (Some s)
            | None => Ok None
            end;
    do j <- reject_series (memb String.eqb "ax_rejected"%string axes) shift (sh_type r)
              (match sh_rejected r with Some l => Some (map (fun x : bool => if x then none_ else nzero) l) | None => None end);
    do j1 <- reject_series (memb String.eqb "ax_rejected_1st_stats"%string axes) shift (sh_type r) (sh_rejected1 r);
    do j2 <- reject_series (memb String.eqb "ax_rejected_2nd_stats"%string axes) shift (sh_type r) (sh_rejected2 r);
    let present {A} (x : option A) : bool := match x with Some _ => true | None => false end in
    Ok (SubjectFig (add (sf_bias st) b) (add (sf_incons st) i) (add (sf_rejected st) j) (add (sf_rejected1 st) j1) (add (sf_rejected2 st) j2)
          (len_or (len_or (len_or (len_or (len_or (sf_len st) b) i) j) j1) j2) ticks
          (if present (sh_bias r) || present (sh_incons r) || present (sh_rejected r) then S shift else shift)).
  (** The texts "#1", "#2", ... are kept as numbers here (routine.py:499-511). *)
  Variable numbered : nat -> string.
  (** routine.py:343-522 *)
  Definition fig_subjects (axes : list string) (pt : plot_type) (rs : list shown) : res (list drawing) :=
    let given k := memb String.eqb k axes in
    let size := plot_size (first_length sh_bias rs) in
    let new := NewFigure (fst size) (snd size * nofZ 2 + nofZ 2) in
    let both := given "ax_observer_bias"%string && given "ax_observer_inconsistency"%string in
    do st <- foldM (subject_step axes pt) rs (SubjectFig [] [] [] [] [] None None 0);
    let rejected key l := if given key then [DSeries key (OnAxes key) l] else [] in
    Ok ([DSeries "observer_bias" (if both then OnAxes "ax_observer_bias" else new) (sf_bias st);
         DSeries "observer_inconsistency" (if both then OnAxes "ax_observer_inconsistency" else new) (sf_incons st)] ++
        rejected "ax_rejected"%string (sf_rejected st) ++ rejected "ax_rejected_1st_stats"%string (sf_rejected1 st) ++
        rejected "ax_rejected_2nd_stats"%string (sf_rejected2 st) ++
        match sf_ticks st, sf_len st with
        | Some o, _ => [DTicks "observer_inconsistency" o]
        | None, Some (S n) =>
            let t := map (fun k => numbered (S k)) (seq 0 (S n)) in
            [DTicks "observer_inconsistency" t] ++
            flat_map (fun key => if given key then [DTicks key t] else []) ["ax_rejected"; "ax_rejected_1st_stats"; "ax_rejected_2nd_stats"]%string
        | None, _ => []
        end).

  (** routine.py:540-575 *)
  Fixpoint content_series (pt : plot_type) (shift : nat) (rs : list shown) : res (list series) :=
    match rs with
    | [] => Ok []
    | r :: rs' =>
        match sh_ambiguity r with
        | None => content_series pt shift rs'
        | Some v => do s <- series_of pt shift (sh_type r) None v (sh_ambiguity_ci r);
                    do l <- content_series pt (S shift) rs';
                    Ok (s :: l)
        end
    end.
  (** my_xticks[content_id] = content_name (routine.py:577-579); negative numbers
      count from the end *)
  Definition set_tick (ticks : list string) (r : rvideo) : res (list string) :=
    match dget String.eqb (rv_extra r) "content_name"%string with
    | None => Err KeyError
    | Some name =>
        let n := Z.of_nat (length ticks) in
        let k := if (rv_cid r <? 0)%Z then (rv_cid r + n)%Z else rv_cid r in
        if (0 <=? k)%Z && (k <? n)%Z
        then Ok (firstn (Z.to_nat k) ticks ++ name :: skipn (S (Z.to_nat k)) ticks)
        else Err IndexError
    end.
  (** routine.py:524-585 *)
  Definition fig_contents (axes : list string) (pt : plot_type) (refs : list rvideo) (rs : list shown) : res (list drawing) :=
    do l <- content_series pt 0 rs;
    let d := DSeries "content_ambiguity" (placed axes "ax_content_ambiguity" (plot_size (first_length sh_ambiguity rs))) l in
    match last (map (fun s => length (se_y s)) l) 0%nat with
    | O => Ok [d]
    | n => do t <- foldM set_tick refs (repeat ""%string n); Ok [d; DTicks "content_ambiguity" t]
    end.

  (** routine.py:107-586: the figures asked for, in the order of [plot_names]; what
      was drawn before an exception, and the exception.  A figure that raises is
      not counted. *)
  Definition figure (axes : list string) (pt : plot_type) (sort : bool) (a : arr3 T) (refs : list rvideo) (rs : list shown) (name : string) : res (list drawing) :=
    if String.eqb name "raw_scores" then fig_raw_scores axes a
    else if String.eqb name "raw_counts" then fig_raw_counts axes a
    else if String.eqb name "raw_counts_per_subject" then fig_raw_counts_per_subject axes a
    else if String.eqb name "raw_scores_minus_quality_scores" then fig_minus_quality axes a rs
    else if String.eqb name "raw_scores_minus_quality_scores_and_observer_bias" then fig_minus_both axes a rs
    else if String.eqb name "quality_scores_vs_raw_scores" then fig_quality_vs_raw a rs
    else if String.eqb name "quality_scores" then fig_quality axes pt sort rs
    else if String.eqb name "subject_scores" then fig_subjects axes pt rs
    else fig_contents axes pt refs rs.
  Fixpoint draw (fig : string -> res (list drawing)) (names : list string) : list drawing * res unit :=
    match names with
    | [] => ([], Ok tt)
    | n :: names' =>
        match fig n with
        | Err e => ([], Err e)
        | Ok ds => let '(more, r) := draw fig names' in (ds ++ more, r)
        end
    end.
  Definition draw_all (d : do_plot_arg) (axes : list string) (pt : plot_type) (sort : bool) (a : arr3 T) (refs : list rvideo) (rs : list shown) : list drawing * res unit :=
    draw (figure axes pt sort a refs rs) (filter (wanted d) plot_names).

  (** ** visualize_pc_dataset, routine.py:735-751: the winning rates *)
  Definition wins (a : arr3 T) (i j : nat) : T := np_nansum (map (at3 a i j) (seq 0 (dR a))).
  Definition winning_rate (a : arr3 T) : arr2 T :=
    Arr2 (dE a) (dS a) (fun i j => wins a i j / (wins a i j + wins a j i)).
End Figures.
