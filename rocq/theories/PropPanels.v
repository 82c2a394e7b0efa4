(** Theorems for claims C102 and C103: the panels of the validation, the comparison
    of models. *)
From Coq Require Import String.
From Coq Require Import List ZArith Bool Arith Reals Lra Lia.
From Verif Require Import PyBase Num ExtReal Perf Runs SpecMos SpecPerf SpecRuns Panels SpecPanels PanelsProofs Panels2Proofs PanelsWitness.
Import ListNotations.
Local Open Scope list_scope.
Local Open Scope R_scope.

(** C102: for every model in order, for each of the five things that has axes, a
    truth and an estimate, one panel of its pairs; nothing else is drawn.  The
    returned percentages are those of the validation without figures. *)
Theorem C102_figures : forall axes colors markers eb t p models rs, probability_ok p -> Forall2 (fun m r => fst m = fst r /\ snd m = Ok (snd r)) models rs ->
  (forall r e, In r rs -> In e (compared t (snd r)) -> comparable e) ->
  exists d ps, validate_figures axes colors markers eb (option_map Fin p) models t = Ok (d, ps) /\
    validate_results (option_map Fin p) (map outcome models) (tr_syn t) = Ok d /\
    Forall2 (shows colors markers eb) (flat_map (due axes t) rs) ps.
Proof. exact figures_all. Qed.
Print Assumptions C102_figures.
Example C102_figures_ex : (forall r e, In r w_runs -> In e (compared w_truths (snd r)) -> comparable e) /\
  map (fun d => (fst d, fst (fst (snd d)))) (flat_map (due ["observer_bias"; "quality_scores"]%string w_truths) w_runs) =
    [("A", "quality_scores"); ("A", "observer_bias"); ("B", "quality_scores")]%string.
Proof. exact (conj w_comparable w_due). Qed.

(** C102: figures change no result. *)
Theorem C102_results : forall axes colors markers eb t p models d ps, validate_figures axes colors markers eb p models t = Ok (d, ps) ->
  validate_results p (map outcome models) (tr_syn t) = Ok d.
Proof. exact figures_results. Qed.
Print Assumptions C102_results.
Theorem C102_no_axes : forall axes colors markers eb t p models, axes = [] -> validate_figures axes colors markers eb p models t =
  match validate_results p (map outcome models) (tr_syn t) with Ok d => Ok (d, []) | Err e => Err e end.
Proof. exact figures_bare. Qed.
Print Assumptions C102_no_axes.
Example C102_results_ex : exists d ps, validate_figures ["observer_bias"; "quality_scores"]%string [] [] true None w_models w_truths = Ok (d, ps) /\ length ps = 3%nat.
Proof. exact w_figures. Qed.

(** C102: of lists of different lengths the panels of biases, inconsistencies and
    ambiguities show the common part, unless there are margins; the others refuse them. *)
Theorem C102_cut : forall axes colors markers eb model key x y, In key axes -> x <> [] -> y <> [] ->
  exists p, panel_of axes colors markers eb model key true (Some (map Fin x)) (Est (Some (map Fin y)) None) = Ok [p] /\
    pa_model p = model /\ pa_axes p = key /\ chosen colors model "black" (pa_color p) /\ chosen markers model "." (pa_marker p) /\
    pa_error p = None /\ pa_percent p = None /\
    shows_pairs (firstn (length y) x) (firstn (length x) y) p.
Proof. exact panel_cut. Qed.
Print Assumptions C102_cut.
Theorem C102_refused : forall axes colors markers eb model key cut xs ys ci, In key axes -> length ys <> length xs ->
  (cut = false /\ ci = None) \/ (exists l u, ci = Some [l; u] /\ length l = length u) ->
  panel_of axes colors markers eb model key cut (Some xs) (Est (Some ys) ci) = Err AssertionError.
Proof. exact panel_refused. Qed.
Print Assumptions C102_refused.
Theorem C102_empty : forall axes colors markers eb model key cut ys ci, In key axes -> exists e,
  panel_of axes colors markers eb model key cut (Some []) (Est (Some ys) ci) = Err e.
Proof. exact panel_empty. Qed.
Print Assumptions C102_empty.
Example C102_cut_ex : In "observer_bias"%string ["observer_bias"%string] /\ [1; 2; 3] <> [] /\ [4; 5] <> [] /\
  shows_pairs (firstn 2 [1; 2; 3]) (firstn 3 [4; 5]) w_cut.
Proof. exact w_cut_shows. Qed.
Example C102_refused_ex : panel_of ["observer_bias"]%string [] [] false "A" "observer_bias" true (Some [Fin 1; Fin 2]) (Est (Some [Fin 1]) (Some [[Fin 1]; [Fin 1]])) = Err AssertionError.
Proof. apply C102_refused; [left; reflexivity|discriminate|right; exists [Fin 1], [Fin 1]; auto]. Qed.

(** C103: the k-th target beside the k-th compared model, as far as there are both;
    the scores of every video, the differences, their mean and deviation, and the
    two correlations. *)
Theorem C103_figure : forall D sample targets compareds ft fc, fraction_ok ft -> fraction_ok fc ->
  forall k (ds : D) (xs ys : nat -> list R) n, (2 <= n)%nat -> compareds <> [] ->
  (forall i m, nth_error targets i = Some m -> sample (k + i)%nat ds (option_map Fin ft) m = Ok [[Some (map Fin (xs i))]] /\ length (xs i) = n) ->
  (forall i m, nth_error compareds i = Some m -> sample (k + length targets + i)%nat ds (option_map Fin fc) m = Ok [[Some (map Fin (ys i))]] /\ length (ys i) = n) ->
  exists cols, scatter_dataset sample targets compareds (option_map Fin ft) (option_map Fin fc) k ds = Ok cols /\
    length cols = Nat.min (length targets) (length compareds) /\
    forall i t c, nth_error targets i = Some t -> nth_error compareds i = Some c ->
      exists s, nth_error cols i = Some [s] /\ shows_scores (xs i) (ys i) s /\ names t c ft fc s.
Proof. exact (fun D => @figure_of D). Qed.
Print Assumptions C103_figure.
Example C103_figure_ex : exists s, scatter_dataset w_sample ["A"]%string ["B"]%string None (Some (Fin (1/2))) 0 tt = Ok [[s]] /\
  shows_scores [1; 2; 4] [2; 2; 5] s /\ names "A" "B" None (Some (1/2)) s.
Proof. exact w_scatter. Qed.

(** C103: whatever the runs give, columns hold nothing but pairs of the same place. *)
Theorem C103_pairs : forall D sample targets compareds ft fc k (ds : D) cols, scatter_dataset sample targets compareds ft fc k ds = Ok cols ->
  compareds <> [] /\ length cols = Nat.min (length targets) (length compareds) /\
  (forall i m, nth_error targets i = Some m -> exists r, sample (k + i)%nat ds ft m = Ok r) /\
  (forall i m, nth_error compareds i = Some m -> exists r, sample (k + length targets + i)%nat ds fc m = Ok r) /\
  forall i t c, nth_error targets i = Some t -> nth_error compareds i = Some c ->
    exists t0 tr c0 cr col, sample (k + i)%nat ds ft t = Ok (t0 :: tr) /\ sample (k + length targets + i)%nat ds fc c = Ok (c0 :: cr) /\
      nth_error cols i = Some col /\ Forall2 (fun p s => exists xs ys, p = (Some xs, Some ys) /\ scatter_of t c ft fc xs ys = Ok s) (combine t0 c0) col.
Proof. exact (fun D => @pairing D). Qed.
Print Assumptions C103_pairs.
Theorem C103_no_compared : forall D sample targets compareds ft fc k (ds : D), compareds = [] ->
  exists e, scatter_dataset sample targets compareds ft fc k ds = Err e.
Proof. exact (fun D => @no_column D). Qed.
Print Assumptions C103_no_compared.
Theorem C103_refused : forall target compared ft fc (xs ys : list ef), length ys <> length xs \/ (length xs < 2)%nat ->
  scatter_of target compared ft fc xs ys = Err ValueError.
Proof. exact scatter_refused. Qed.
Print Assumptions C103_refused.
Example C103_refused_ex : scatter_of "A" "B" None None [Fin 1] [Fin 2] = Err ValueError /\ scatter_of "A" "B" None None [Fin 1; Fin 3] [Fin 2] = Err ValueError.
Proof. split; apply C103_refused; [right; cbn; lia|left; discriminate]. Qed.

(** C103 "every model given is compared" is false: of lists of different lengths the
    rest is run and not drawn. *)
Theorem C103_refuted : exists (sample : nat -> unit -> option ef -> string -> res (list (list (option (list ef))))) targets compareds cols m,
  In m targets /\ scatter_dataset sample targets compareds None None 0 tt = Ok cols /\
  forall col s, In col cols -> In s col -> fst (sc_target s) <> m /\ fst (sc_compared s) <> m.
Proof. exact w_left_out. Qed.
Print Assumptions C103_refuted.

(** C103: the results to be stored lose the two arrays and nothing else. *)
Theorem C103_arrays : forall V (results out : list (list (list (string * V)))), without_arrays results = Ok out ->
  Forall2 (fun rs os => exists r o tl, rs = r :: tl /\ os = o :: tl /\
    forall k v, In (k, v) o <-> In (k, v) r /\ k <> "raw_scores"%string /\ k <> "reconstructions"%string) results out.
Proof. exact arrays_gone. Qed.
Print Assumptions C103_arrays.
Example C103_arrays_ex : without_arrays [[[("raw_scores", 1%nat); ("quality_scores", 2%nat)]]]%string = Ok [[[("quality_scores", 2%nat)]]]%string.
Proof. reflexivity. Qed.
