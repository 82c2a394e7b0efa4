(** Vocabulary for claims C84-C86: pairs of votes and reconstructions,
    running a list of models, coverage percentages by model type. *)
From Coq Require Import String.
From Coq Require Import List Bool Arith Reals.
From Verif Require Import PyBase Num ExtReal NumPy Dataset Preproc Mos Perf Runs SpecMos.
Import ListNotations.
Local Open Scope list_scope.
Local Open Scope R_scope.

(** The pairs of two lists whose entries are both there. *)
Fixpoint complete_pairs (raw rec : list ef) : list (R * R) :=
  match raw, rec with
  | Fin x :: raw', Fin y :: rec' => (x, y) :: complete_pairs raw' rec'
  | _ :: raw', _ :: rec' => complete_pairs raw' rec'
  | _, _ => []
  end.

(** Arrays of the same dimensions. *)
Definition same_shape (a b : arr3 ef) : Prop := dE a = dE b /\ dS a = dS b /\ dR a = dR b.

(** Every vote of the array, video by video. *)
Definition all_votes (a : arr3 ef) : list R := flat_map (video_votes a) (seq 0 (dE a)).
(** Beside every vote the score [q] of its video. *)
Definition score_of_each (a : arr3 ef) (q : nat -> R) : list R :=
  flat_map (fun e => map (fun _ => q e) (video_votes a e)) (seq 0 (dE a)).

(** The path ends in the letters of [suf]. *)
Definition has_suffix (suf path : string) : Prop := exists pre, path = (pre ++ suf)%string.

(** The models of the list run one after the other up to the first that raises. *)
Inductive runs_in_order {A M} : list (A -> res M) -> A -> res (list M) -> Prop :=
| runs_end : forall a, runs_in_order [] a (Ok [])
| runs_stop : forall m ms a e, m a = Err e -> runs_in_order (m :: ms) a (Err e)
| runs_fail : forall m ms a r e, m a = Ok r -> runs_in_order ms a (Err e) -> runs_in_order (m :: ms) a (Err e)
| runs_ok : forall m ms a r rs, m a = Ok r -> runs_in_order ms a (Ok rs) -> runs_in_order (m :: ms) a (Ok (r :: rs)).

(** What a path yields: its ending chooses the importer. *)
Definition loaded {D} (import_py import_json : string -> res D) (path : string) (r : res D) : Prop :=
  (has_suffix ".py" path /\ r = import_py path) \/
  (has_suffix ".json" path /\ r = import_json path) \/
  (~ has_suffix ".py" path /\ ~ has_suffix ".json" path /\ r = Err AssertionError).

(** A result with the file names of the videos and, if it holds votes and
    reconstructions, their statistics. *)
Definition extended {M} lstsq (rd : reader ef) (raw_of rec_of : M -> option (arr3 ef)) (r : M) (o : run_result ef M) : Prop :=
  rr_result o = r /\ rr_names o = map dv_path (rd_dvs rd) /\
  ((exists raw rec st, raw_of r = Some raw /\ rec_of r = Some rec /\ reconstruction_stats lstsq raw rec = Ok st /\ rr_stats o = Some st) \/
   ((raw_of r = None \/ rec_of r = None) /\ rr_stats o = None)).

(** A list of MOS classes, run with the same keyword arguments, and the entries
    'raw_scores' and 'reconstructions' of their results. *)
Definition mos_models (k : kwargs ef) (cs : list mosclass) : list (reader ef -> res (mosres ef)) := map (fun c rd => run_modeling c rd k) cs.
Definition mos_raw (m : mosres ef) : option (arr3 ef) := Some (mr_raw m).
Definition mos_rec (m : mosres ef) : option (arr3 ef) := Some (mr_recon m).

(** The number of whole units in [x]. *)
Definition whole (x : R) (k : nat) : Prop := INR k <= x < INR k + 1.

(** Estimates and truth that have a coverage percentage: all three entries are
    there. *)
Definition measurable (syn : option (list ef)) (e : estimates ef) : Prop := syn <> None /\ es_value e <> None /\ es_ci e <> None.
Definition measured (syn : option (list ef)) (e : estimates ef) (v : ef) : Prop :=
  exists xs ys ci, syn = Some xs /\ es_value e = Some ys /\ es_ci e = Some ci /\ get_ci_percentage xs ys ci = Ok v.

(** If there should be a percentage, there is one. *)
Definition fine (syn : option (list ef)) (e : estimates ef) : Prop := measurable syn e -> exists v, measured syn e v.
Definition probability_ok (p : option R) : Prop := match p with None => True | Some x => 0 <= x < 1 end.

(** Position of the last result of type [t]. *)
Definition last_at (rs : list (string * vresult ef)) (t : string) (i : nat) : Prop :=
  (exists r, nth_error rs i = Some (t, r)) /\ forall j r, nth_error rs j = Some (t, r) -> (j <= i)%nat.
(** The percentage of the last result of type [t] that has one. *)
Definition last_percent (syn : option (list ef)) (f : vresult ef -> estimates ef) (rs : list (string * vresult ef)) (t : string) (o : option ef) : Prop :=
  (exists i r v, nth_error rs i = Some (t, r) /\ measured syn (f r) v /\ o = Some v /\
     forall j r', (i < j)%nat -> nth_error rs j = Some (t, r') -> ~ measurable syn (f r')) \/
  ((forall i r, nth_error rs i = Some (t, r) -> ~ measurable syn (f r)) /\ o = None).
