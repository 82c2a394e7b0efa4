(** Vocabulary for claims C102 and C103: the panels of the validation and of the
    comparison of models. *)
From Coq Require Import String.
From Coq Require Import List ZArith Bool Arith Reals.
From Verif Require Import PyBase Num ExtReal Perf Runs Panels SpecMos SpecPerf.
Import ListNotations.
Local Open Scope list_scope.
Local Open Scope R_scope.

(** The five things compared: name, truth, estimates. *)
Definition compared (t : truths ef) (r : vfull ef) : list (string * option (list ef) * estimates ef) :=
  [("quality_scores"%string, sy_quality (tr_syn t), v_quality (vf_res r));
   ("quality_scores_std"%string, tr_std t, Est (vf_std r) None);
   ("observer_bias"%string, sy_bias (tr_syn t), v_bias (vf_res r));
   ("observer_inconsistency"%string, sy_incons (tr_syn t), v_incons (vf_res r));
   ("quality_ambiguity"%string, tr_ambiguity t, Est (vf_ambiguity r) None)].

(** Truth and estimates are both there. *)
Definition both (e : string * option (list ef) * estimates ef) : bool :=
  match e with (_, Some _, Est (Some _) _) => true | _ => false end.
(** Those of them with axes. *)
Definition due (axes : list string) (t : truths ef) (r : string * vfull ef) : list (string * (string * option (list ef) * estimates ef)) :=
  map (fun e => (fst r, e)) (filter (fun e => if in_dec string_dec (fst (fst e)) axes then both e else false) (compared t (snd r))).

(** As many numbers as truths, at least one; two margins for each, if there are
    margins. *)
Definition comparable (e : string * option (list ef) * estimates ef) : Prop :=
  forall xs ys, snd (fst e) = Some xs -> es_value (snd e) = Some ys ->
    xs <> [] /\ length ys = length xs /\ (exists x, xs = map Fin x) /\ (exists y, ys = map Fin y) /\
    forall ci, es_ci (snd e) = Some ci -> exists l u, ci = [l; u] /\ length l = length xs /\ length u = length xs.

(** The value in a dictionary with a default; of several entries with the name the
    first counts. *)
Definition chosen (d : list (string * string)) (name default c : string) : Prop :=
  (~ In name (map fst d) /\ c = default) \/
  (exists d1 d2, d = d1 ++ (name, c) :: d2 /\ ~ In name (map fst d1)).

(** The points are the pairs of x and y, the diagonal goes from the smallest to the
    largest x, the RMSE is their distance. *)
Definition shows_pairs (x y : list R) (p : panel ef) : Prop :=
  length (pa_points p) = length x /\
  (forall i u v, nth_error x i = Some u -> nth_error y i = Some v -> nth_error (pa_points p) i = Some (Fin u, Fin v)) /\
  pa_rmse p = Fin (distance x y) /\
  exists lo hi, smallest lo x /\ largest hi x /\ pa_diagonal p = (Fin lo, Fin hi).
(** Error bars, with the percentage of truths covered by them, if asked for and there. *)
Definition shows_margins (do_errorbar : bool) (x y : list R) (ci : option (list (list ef))) (p : panel ef) : Prop :=
  match do_errorbar, ci with
  | true, Some [l; u] => pa_error p = Some [l; u] /\
      forall c, covered_positions (map Fin x) (map Fin y) l u (length x) c -> pa_percent p = Some (Fin (100 * (INR (length c) / INR (length x))))
  | _, _ => pa_error p = None /\ pa_percent p = None
  end.
Definition shows (colors markers : list (string * string)) (do_errorbar : bool) (d : string * (string * option (list ef) * estimates ef)) (p : panel ef) : Prop :=
  exists x y, snd (fst (snd d)) = Some (map Fin x) /\ es_value (snd (snd d)) = Some (map Fin y) /\
    pa_model p = fst d /\ pa_axes p = fst (fst (snd d)) /\
    chosen colors (fst d) "black" (pa_color p) /\ chosen markers (fst d) "." (pa_marker p) /\
    shows_pairs x y p /\ shows_margins do_errorbar x y (es_ci (snd (snd d))) p.

(** Scores xs of one model against scores ys of another. *)
Definition ranked (l : list R) : list R := map (avg_rank l) l.
Definition shows_scores (xs ys : list R) (s : scatter ef) : Prop :=
  length (sc_points s) = length xs /\
  (forall i u v, nth_error xs i = Some u -> nth_error ys i = Some v ->
     nth_error (sc_points s) i = Some (Fin u, Fin v) /\ nth_error (sc_diffs s) i = Some (Fin (v - u))) /\
  length (sc_diffs s) = length xs /\
  sc_mean s = Fin (Rmean ys - Rmean xs) /\
  (exists d, sc_diffs s = map Fin d /\ sc_std s = Fin (sqrt (pvar d))) /\
  is_corr (sc_plcc s) xs ys /\ is_corr (sc_srocc s) (ranked xs) (ranked ys).
Definition fraction_ok (f : option R) : Prop := forall x, f = Some x -> 0 < x <= 1.
(** The percentage beside a name: the whole percents of the fraction. *)
Definition percent_of (f : option R) (k : option nat) : Prop :=
  match f, k with
  | None, None => True
  | Some x, Some n => INR n <= 100 * x < INR n + 1
  | _, _ => False
  end.
Definition names (target compared : string) (ft fc : option R) (s : scatter ef) : Prop :=
  fst (sc_target s) = target /\ fst (sc_compared s) = compared /\
  percent_of ft (snd (sc_target s)) /\ percent_of fc (snd (sc_compared s)).

(** The models as the validation without figures sees them. *)
Definition outcome (m : string * res (vfull ef)) : string * res (vresult ef) :=
  (fst m, match snd m with Ok r => Ok (vf_res r) | Err e => Err e end).
