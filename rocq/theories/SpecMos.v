(** Specification vocabulary for rating arrays and mean opinion scores.  Uses
    only the data types and real arithmetic, not the model's functions. *)
From Coq Require Import String.
From Coq Require Import List ZArith Bool Arith Reals Permutation.
From Verif Require Import PyBase Num ExtReal NumPy Dataset Preproc Mos SpecDataset.
Import ListNotations.
Local Open Scope list_scope.
Local Open Scope R_scope.

(** All votes present for video e, over subjects and repetitions. *)
Definition video_votes (a : arr3 ef) (e : nat) : list R :=
  presents (flat_map (fun s => map (fun r => at3 a e s r) (seq 0 (dR a))) (seq 0 (dS a))).

(** All votes present of subject s, over videos and repetitions. *)
Definition subject_votes (a : arr3 ef) (s : nat) : list R :=
  presents (flat_map (fun e => map (fun r => at3 a e s r) (seq 0 (dR a))) (seq 0 (dE a))).

(** A position of the array. *)
Definition inside {T} (a : arr3 T) (e s r : nat) : Prop := (e < dE a /\ s < dS a /\ r < dR a)%nat.

(** Every entry is a finite number or missing; every entry is a number. *)
Definition finite_votes (a : arr3 ef) : Prop := forall e s r, inside a e s r -> finnan (at3 a e s r).
Definition complete_votes (a : arr3 ef) : Prop := forall e s r, inside a e s r -> isfin (at3 a e s r).

(** Same shape and same entries. *)
Definition arr3_eq {T} (a b : arr3 T) : Prop :=
  dE a = dE b /\ dS a = dS b /\ dR a = dR b /\ forall e s r, inside a e s r -> at3 a e s r = at3 b e s r.

(** The mean of a list of numbers, missing when the list is empty. *)
Definition is_mean (q : ef) (l : list R) : Prop :=
  (l = [] /\ q = NaN) \/ (l <> [] /\ q = Fin (Rsum l / INR (length l))).

(** Sum of squared deviations from m. *)
Definition sumsq (m : R) (l : list R) : R := Rsum (map (fun x => (x - m) * (x - m)) l).

(** [q] is the Bessel-corrected sample standard deviation of l, missing below
    two values. *)
Definition is_sample_std (q : ef) (l : list R) : Prop :=
  ((length l < 2)%nat /\ q = NaN) \/
  ((2 <= length l)%nat /\ exists v, q = Fin v /\ 0 <= v /\
      v * v * (INR (length l) - 1) = sumsq (Rsum l / INR (length l)) l).

(** The votes entered for a video in the dataset, in any order. *)
Definition recorded (dv : dvideo ef string) (vs : list ef) : Prop :=
  (exists b l xss, dv_os dv = Some (OSeq b l) /\ Forall2 vote_value l xss /\ Permutation vs (concat xss)) \/
  (exists d xss, dv_os dv = Some (ODict d) /\ Forall2 vote_value (map snd d) xss /\ Permutation vs (concat xss)).

(** Every video recorded only finite (or missing) votes. *)
Definition finite_dataset (dvs : list (dvideo ef string)) : Prop :=
  forall dv vs, In dv dvs -> recorded dv vs -> Forall finnan vs.

(** What Python guarantees of dicts: a key occurs once. *)
Definition python_dicts (dvs : list (dvideo ef string)) : Prop :=
  forall dv d, In dv dvs -> dv_os dv = Some (ODict d) -> NoDup (map fst d).

(** p permutes 0..n-1. *)
Definition permutes (n : nat) (p : nat -> nat) : Prop :=
  (forall i, (i < n)%nat -> (p i < n)%nat) /\
  (forall i j, (i < n)%nat -> (j < n)%nat -> p i = p j -> i = j).

(** x -> k*x + c on votes; a missing vote stays missing. *)
Definition affine (k c : R) (x : ef) : ef := match x with Fin v => Fin (k * v + c) | y => y end.
(** Multiplication of a result by a number. *)
Definition scaled (k : R) (x : ef) : ef := match x with Fin v => Fin (k * v) | y => y end.

(** All votes of the array transformed. *)
Definition transformed (f : ef -> ef) (a a' : arr3 ef) : Prop :=
  dE a' = dE a /\ dS a' = dS a /\ dR a' = dR a /\
  forall e s r, inside a e s r -> at3 a' e s r = f (at3 a e s r).

(** The reference video of a content: the last one listed with that id. *)
Definition ref_of_content (refs : list rvideo) (c : Z) (r : rvideo) : Prop :=
  exists l1 l2, refs = l1 ++ r :: l2 /\ rv_cid r = c /\ forall r', In r' l2 -> rv_cid r' <> c.

(** Distorted video number i is the reference video of the content c. *)
Definition is_reference (refs : list rvideo) (dvs : list (dvideo ef string)) (c : Z) (i : nat) : Prop :=
  exists dv r, nth_error dvs i = Some dv /\ dv_cid dv = c /\
    ref_of_content refs c r /\ rv_path r = dv_path dv.

(** Exactly one distorted video is the reference of content c. *)
Definition one_reference refs dvs c : Prop := exists! i, is_reference refs dvs c i.

(** Interval widths given by a sample standard deviation v over n votes. *)
Definition half_width (v : R) (n : nat) : R := 195996 / 100000 * (v / sqrt (INR n)).

(** What the MOS result says about video e, given its votes l. *)
Definition mos_entry_ok (q amb std lo hi : ef) (l : list R) : Prop :=
  is_mean q l /\ is_sample_std amb l /\
  ((length l < 2)%nat -> std = NaN /\ lo = NaN /\ hi = NaN) /\
  ((2 <= length l)%nat -> exists v, amb = Fin v /\ std = Fin (v / sqrt (INR (length l))) /\
      lo = Fin (half_width v (length l)) /\ hi = Fin (half_width v (length l)) /\
      0 <= v / sqrt (INR (length l)) /\ 0 <= half_width v (length l)).

(** Two different votes. *)
Definition has_spread (l : list R) : Prop := exists x y, In x l /\ In y l /\ x <> y.

(** Differences of subject s's votes from the mean vote of the video. *)
Definition bias_diffs (a : arr3 ef) (s : nat) : list R :=
  flat_map (fun e => flat_map (fun r =>
    match at3 a e s r with
    | Fin x => [x - Rsum (video_votes a e) / INR (length (video_votes a e))]
    | _ => []
    end) (seq 0 (dR a))) (seq 0 (dE a)).

(** ** Outlier voting (ITU-R BT.500) *)
Definition pvar (l : list R) : R := sumsq (Rmean l) l / INR (length l).
Definition moment4 (l : list R) : R :=
  Rsum (map (fun x => (x - Rmean l) * (x - Rmean l) * ((x - Rmean l) * (x - Rmean l))) l) / INR (length l).
(** Kurtosis between 2 and 4. *)
Definition regular (l : list R) : Prop :=
  pvar l <> 0 /\ 2 <= moment4 l / (pvar l * pvar l) <= 4.
Definition factor (l : list R) (c : R) : Prop := (regular l /\ c = 2) \/ (~ regular l /\ c = sqrt 20).

(** The vote at (e, s, r) is an outlier to the high or to the low side. *)
Definition high_vote (a : arr3 ef) (s e r : nat) : Prop :=
  exists x c, at3 a e s r = Fin x /\ factor (video_votes a e) c /\
    Rmean (video_votes a e) + c * sqrt (pvar (video_votes a e)) <= x.
Definition low_vote (a : arr3 ef) (s e r : nat) : Prop :=
  exists x c, at3 a e s r = Fin x /\ factor (video_votes a e) c /\
    x <= Rmean (video_votes a e) - c * sqrt (pvar (video_votes a e)).

(** n positions (e, r) of the array satisfy P. *)
Definition counted (a : arr3 ef) (P : nat -> nat -> Prop) (n : nat) : Prop :=
  exists L : list (nat * nat), NoDup L /\
    (forall e r, In (e, r) L <-> (e < dE a)%nat /\ (r < dR a)%nat /\ P e r) /\ length L = n.

(** Subject s votes outside the bounds in more than 5% of the presentations,
    and about equally often on both sides. *)
Definition outlier_subject (a : arr3 ef) (s : nat) : Prop :=
  exists p q, counted a (high_vote a s) p /\ counted a (low_vote a s) q /\
    5 / 100 * INR (dE a * dR a) < INR p + INR q /\
    Rabs (INR p - INR q) < 3 / 10 * (INR p + INR q).

(** [b] consists of the columns [kept] of [a]. *)
Definition columns (a b : arr3 ef) (kept : list nat) : Prop :=
  dE b = dE a /\ dR b = dR a /\ dS b = length kept /\
  forall j s, nth_error kept j = Some s -> forall e r, at3 b e j r = at3 a e s r.

(** The unflagged positions in increasing order. *)
Definition unflagged (flags : list bool) (kept : list nat) : Prop :=
  (forall i j x y, nth_error kept i = Some x -> nth_error kept j = Some y -> (i < j)%nat -> (x < y)%nat) /\
  forall s, In s kept <-> nth_error flags s = Some false.

(** ** Options *)
(** Same options without subject rejection. *)
Definition without_rejection (k : kwargs ef) : kwargs ef :=
  KW (kw_dscore k) (kw_zscore k) (kw_bias k) false None (kw_normalize_final k) (kw_transform_final k).
(** Same options without the final normalisation and transformation. *)
Definition without_final (k : kwargs ef) : kwargs ef :=
  KW (kw_dscore k) (kw_zscore k) (kw_bias k) (kw_rej k) (kw_rejtype k) false None.
(** No option given. *)
Definition no_options : kwargs ef := KW false false false false None false None.

(** Partition of the subjects of [a] into rejected ones and the columns of [b]. *)
Definition rejection_result (a b : arr3 ef) (rejected : nat -> Prop) (flags : list bool) : Prop :=
  length flags = dS a /\
  (forall s, (s < dS a)%nat -> (nth_error flags s = Some true <-> rejected s)) /\
  exists kept, unflagged flags kept /\ columns a b kept.

(** ** Announced steps of the classes *)
Record steps := Steps { st_dscore : bool; st_zscore : bool; st_bias : bool; st_rej : bool; st_type : option rejtype }.
Definition announced (c : mosclass) : steps :=
  match c with
  | MOS            => Steps false false false false None
  | DMOS           => Steps true  false false false None
  | SR_MOS         => Steps false false false true  None
  | SR_MOS_PCC     => Steps false false false true  (Some Pearson)
  | SR_MOS_SRCC    => Steps false false false true  (Some Spearman)
  | ZS_MOS         => Steps false true  false false None
  | ZS_SR_MOS      => Steps false true  false true  None
  | SR_DMOS        => Steps true  false false true  None
  | ZS_SR_DMOS     => Steps true  true  false true  None
  | BR_MOS         => Steps false false true  false None
  | BR_SR_MOS      => Steps false false true  true  None
  | BR_SR_MOS_PCC  => Steps false false true  true  (Some Pearson)
  | BR_SR_MOS_SRCC => Steps false false true  true  (Some Spearman)
  end.
(** A step both announced and asked for. *)
Definition conflict (c : mosclass) (k : kwargs ef) : Prop :=
  (st_dscore (announced c) = true /\ kw_dscore k = true) \/ (st_zscore (announced c) = true /\ kw_zscore k = true) \/
  (st_bias (announced c) = true /\ kw_bias k = true) \/ (st_rej (announced c) = true /\ kw_rej k = true).
(** The options of the caller plus the announced steps. *)
Definition plus_announced (c : mosclass) (k : kwargs ef) : kwargs ef :=
  let s := announced c in
  KW (st_dscore s || kw_dscore k) (st_zscore s || kw_zscore k) (st_bias s || kw_bias k) (st_rej s || kw_rej k)
     (match st_type s with Some t => Some t | None => kw_rejtype k end) (kw_normalize_final k) (kw_transform_final k).
(** Equal except for the degrees of freedom, the information criteria and the
    reported observer bias. *)
Definition same_but_dof (m m' : mosres ef) : Prop :=
  mr_quality m = mr_quality m' /\ mr_std m = mr_std m' /\ mr_ci_lo m = mr_ci_lo m' /\ mr_ci_hi m = mr_ci_hi m' /\
  mr_ambiguity m = mr_ambiguity m' /\ mr_raw m = mr_raw m' /\ mr_recon m = mr_recon m' /\ mr_ll m = mr_ll m' /\
  mr_rej m = mr_rej m' /\ mr_observers m = mr_observers m'.
(** Equal except for the quality scores. *)
Definition same_but_quality (m m' : mosres ef) : Prop :=
  mr_std m = mr_std m' /\ mr_ci_lo m = mr_ci_lo m' /\ mr_ci_hi m = mr_ci_hi m' /\
  mr_ambiguity m = mr_ambiguity m' /\ mr_raw m = mr_raw m' /\ mr_recon m = mr_recon m' /\
  mr_dof m = mr_dof m' /\ mr_ll m = mr_ll m' /\ mr_aic m = mr_aic m' /\ mr_bic m = mr_bic m' /\
  mr_bias m = mr_bias m' /\ mr_rej m = mr_rej m' /\ mr_observers m = mr_observers m'.
Definition same_mos_results (m m' : mosres ef) : Prop :=
  mr_quality m = mr_quality m' /\ mr_std m = mr_std m' /\ mr_ci_lo m = mr_ci_lo m' /\
  mr_ci_hi m = mr_ci_hi m' /\ mr_ambiguity m = mr_ambiguity m' /\ mr_dof m = mr_dof m' /\
  mr_ll m = mr_ll m' /\ mr_aic m = mr_aic m' /\ mr_bic m = mr_bic m'.

(** Pearson correlation of two equally long lists. *)
Definition covsum (x y : list R) : R :=
  Rsum (map (fun p => (fst p - Rmean x) * (snd p - Rmean y)) (combine x y)).
Definition pearson (x y : list R) : R := covsum x y / (sqrt (sumsq (Rmean x) x) * sqrt (sumsq (Rmean y) y)).

(** Votes of subject s for video e over the repetitions. *)
Definition rep_votes (a : arr3 ef) (e s : nat) : list R := presents (map (fun r => at3 a e s r) (seq 0 (dR a))).
Definition nonempty {A} (l : list A) : bool := match l with [] => false | _ => true end.
(** Mean over the subjects of their mean vote for video e. *)
Definition mean_of_means (a : arr3 ef) (e : nat) : R :=
  Rmean (map (fun s => Rmean (rep_votes a e s)) (filter (fun s => nonempty (rep_votes a e s)) (seq 0 (dS a)))).
(** Videos seen by subject s, its scores and the overall scores of these videos. *)
Definition seen (a : arr3 ef) (s : nat) : list nat := filter (fun e => nonempty (rep_votes a e s)) (seq 0 (dE a)).
Definition own_scores (a : arr3 ef) (s : nat) : list R := map (fun e => Rmean (rep_votes a e s)) (seen a s).
Definition all_scores (a : arr3 ef) (s : nat) : list R := map (mean_of_means a) (seen a s).
(** Average rank of each element. *)
Definition ranks (l : list R) : list R :=
  map (fun x => INR (length (filter (fun y => Rltb y x) l)) + (INR (length (filter (fun y => Reqbb y x) l)) + 1) / 2) l.
(** A correlation coefficient, undefined when one side is constant. *)
Definition is_corr (v : ef) (x y : list R) : Prop :=
  (has_spread x /\ has_spread y /\ v = Fin (pearson x y)) \/ (~ (has_spread x /\ has_spread y) /\ v = NaN).
(** Threshold on the correlations: mean minus one standard deviation, at most 0.7. *)
Definition threshold (rs : list R) : R := Rmin (7/10) (Rmean rs - sqrt (pvar rs)).
