(** Specification vocabulary for the formatted output.  Nothing here mentions the
    model's checking and writing functions. *)
From Coq Require Import String.
From Coq Require Import List ZArith Bool Arith Sorted.
From Verif Require Import PyBase Dataset Routine.
Import ListNotations.
Local Open Scope list_scope.

Section SpecRoutine.
  Context {V : Type}.
  Implicit Types (r : mresult V) (out : formatted V).

  Inductive part := Videos | Observers | Contents.
  Definition part_of (out : formatted V) (p : part) : list (entry V) :=
    match p with Videos => f_videos out | Observers => f_observers out | Contents => f_contents out end.

  (** A column that is there and is a list with x at position i. *)
  Definition has_at (c : option (column V)) (i : nat) (x : V) : Prop := exists l, c = Some (Some l) /\ nth_error l i = Some x.
  (** Margins that are there, with (a, b) at position i. *)
  Definition has_pair_at (c : option (margins V)) (i : nat) (a b : V) : Prop :=
    exists lo hi, c = Some (Some [lo; hi]) /\ nth_error lo i = Some a /\ nth_error hi i = Some b.

  (** What a result has to say about video / observer / content number i under
      an output key. *)
  Inductive says (r : mresult V) : part -> nat -> string -> cell V -> Prop :=
  | says_q i x : has_at (r_quality r) i x -> says r Videos i "quality_score" (CVal x)
  | says_q_std i x : has_at (r_quality_std r) i x -> says r Videos i "quality_score_std" (CVal x)
  | says_q_ci i a b : has_pair_at (r_quality_ci r) i a b -> says r Videos i "quality_score_ci95" (CTuple [a; b])
  | says_b i x : r_bias r <> None -> has_at (r_bias r) i x -> says r Observers i "observer_bias" (CVal x)
  | says_b_std i x : r_bias r <> None -> has_at (r_bias_std r) i x -> says r Observers i "observer_bias_std" (CVal x)
  | says_b_ci i a b : r_bias r <> None -> has_pair_at (r_bias_ci r) i a b -> says r Observers i "observer_bias_ci95" (CTuple [a; b])
  | says_v i x : r_bias r <> None -> has_at (r_incons r) i x -> says r Observers i "observer_inconsistency" (CVal x)
  | says_v_std i x : r_bias r <> None -> has_at (r_incons_std r) i x -> says r Observers i "observer_inconsistency_std" (CVal x)
  | says_v_ci i a b : r_bias r <> None -> has_pair_at (r_incons_ci r) i a b -> says r Observers i "observer_inconsistency_ci95" (CTuple [a; b])
  | says_m i x : r_bias r <> None -> has_at (r_scores_mean r) i x -> says r Observers i "observer_scores_mean" (CVal x)
  | says_m_std i x : r_bias r <> None -> has_at (r_scores_std r) i x -> says r Observers i "observer_scores_std" (CVal x)
  | says_a i x : r_ambiguity r <> None -> has_at (r_ambiguity r) i x -> says r Contents i "content_ambiguity" (CVal x)
  | says_a_std i x : r_ambiguity r <> None -> has_at (r_ambiguity_std r) i x -> says r Contents i "content_ambiguity_std" (CVal x)
  | says_a_ci i a b : r_ambiguity r <> None -> has_pair_at (r_ambiguity_ci r) i a b -> says r Contents i "content_ambiguity_ci95" (CTuple [a; b]).

  (** Every reference has a content_name. *)
  Definition all_named (refs : list rvideo) : Prop :=
    forall rv, In rv refs -> exists n, dget String.eqb (rv_extra rv) "content_name"%string = Some n.
  (** Every content id from 0 to the largest is some reference's. *)
  Definition no_gaps (refs : list rvideo) : Prop :=
    forall c c', In c (map rv_cid refs) -> (0 <= c' <= c)%Z -> In c' (map rv_cid refs).
  (** The contents in order: increasing content_id; of several references with
      one content_id the last one's name. *)
  Definition name_of_content (refs : list rvideo) (c : Z) (n : string) : Prop :=
    exists a rv b, refs = a ++ rv :: b /\ rv_cid rv = c /\ dget String.eqb (rv_extra rv) "content_name"%string = Some n /\
      forall rv', In rv' b -> rv_cid rv' <> c.
  Definition contents_in_order (refs : list rvideo) (names : list string) : Prop :=
    exists cs, StronglySorted Z.lt cs /\ (forall c, In c cs <-> In c (map rv_cid refs)) /\ Forall2 (name_of_content refs) cs names.

  (** The name of item number i of a part, according to a result. *)
  Inductive names (refs : list rvideo) (r : mresult V) : part -> nat -> string -> Prop :=
  | names_video i l n : r_names r = Some l -> nth_error l i = Some n -> names refs r Videos i n
  | names_observer i o n : r_bias r <> None -> r_observers r = Some o -> nth_error o i = Some n -> names refs r Observers i n
  | names_default i l : r_bias r = Some (Some l) -> r_observers r = None -> i < length l ->
      names refs r Observers i ("observer" ++ str_of_nat i)
  | names_content i cs n : r_ambiguity r <> None -> contents_in_order refs cs -> nth_error cs i = Some n -> names refs r Contents i n.

  (** Lengths fit. *)
  Definition col_fits (n : nat) (c : option (column V)) : Prop := match c with None => True | Some None => False | Some (Some l) => length l = n end.
  Definition ci_fits (n : nat) (c : option (margins V)) : Prop :=
    match c with
    | None => True
    | Some (Some [lo; hi]) => Nat.min (length lo) (length hi) = n
    | Some _ => False
    end.
  Definition videos_fit r : Prop :=
    exists q ns, r_quality r = Some (Some q) /\ r_names r = Some ns /\ length ns = length q /\
      col_fits (length q) (r_quality_std r) /\ ci_fits (length q) (r_quality_ci r).
  Definition observers_fit r : Prop :=
    match r_bias r with
    | None => True
    | Some None => False
    | Some (Some b) =>
        (forall o, r_observers r = Some o -> length o = length b) /\
        col_fits (length b) (r_bias_std r) /\ ci_fits (length b) (r_bias_ci r) /\
        col_fits (length b) (r_incons r) /\ col_fits (length b) (r_incons_std r) /\ ci_fits (length b) (r_incons_ci r) /\
        col_fits (length b) (r_scores_mean r) /\ col_fits (length b) (r_scores_std r)
    end.
  Definition contents_fit (refs : list rvideo) r : Prop :=
    match r_ambiguity r with
    | None => True
    | Some None => False
    | Some (Some a) =>
        all_named refs /\ (exists cs, contents_in_order refs cs /\ length cs = length a) /\
        col_fits (length a) (r_ambiguity_std r) /\ ci_fits (length a) (r_ambiguity_ci r)
    end.
  Definition fits (refs : list rvideo) r : Prop := videos_fit r /\ observers_fit r /\ contents_fit refs r.

  (** Results that name the same item name it equally. *)
  Definition agree (refs : list rvideo) (rs : list (mresult V)) : Prop :=
    forall r r' p i n n', In r rs -> In r' rs -> names refs r p i n -> names refs r' p i n' -> n = n'.

  (** No column is None. *)
  Definition col_list (c : option (column V)) : Prop := c <> Some None.
  Definition ci_list (c : option (margins V)) : Prop := c <> Some None.
  Definition no_none r : Prop :=
    col_list (r_quality r) /\ col_list (r_quality_std r) /\ ci_list (r_quality_ci r) /\
    col_list (r_bias r) /\ col_list (r_bias_std r) /\ ci_list (r_bias_ci r) /\
    col_list (r_incons r) /\ col_list (r_incons_std r) /\ ci_list (r_incons_ci r) /\
    col_list (r_scores_mean r) /\ col_list (r_scores_std r) /\
    col_list (r_ambiguity r) /\ col_list (r_ambiguity_std r) /\ ci_list (r_ambiguity_ci r).

  (** Looking a value up in the output. *)
  Definition reported (e : entry V) (t key : string) (c : cell V) : Prop :=
    exists m, dget String.eqb (en_models e) t = Some m /\ dget String.eqb m key = Some c.
End SpecRoutine.
