(** Specification vocabulary for the remaining rating models: least squares
    systems, the early maximum likelihood model and scores per subject. *)
From Coq Require Import String.
From Coq Require Import List ZArith Bool Arith Reals.
From Verif Require Import PyBase Num ExtReal NumPy Dataset Preproc Mos AP Mle OtherModels SpecDataset SpecConv SpecMos SpecAp SpecMle.
Import ListNotations.
Local Open Scope R_scope.

(** ** Least squares *)
Definition sum_to (n : nat) (f : nat -> R) : R := Rsum (map f (seq 0 n)).

(** A matrix of numbers. *)
Definition is_matrix (p : arr2 ef) (m n : nat) (a : nat -> nat -> R) : Prop :=
  n0 p = m /\ n1 p = n /\ forall i j, (i < m)%nat -> (j < n)%nat -> at2 p i j = Fin (a i j).

(** The first and third Penrose conditions: A P A = A, and A P is symmetric. *)
Definition pseudo_inverse (m n : nat) (a p : nat -> nat -> R) : Prop :=
  (forall i j, (i < m)%nat -> (j < n)%nat ->
     sum_to m (fun l => sum_to n (fun k => a i k * p k l) * a l j) = a i j) /\
  (forall i j, (i < m)%nat -> (j < m)%nat -> sum_to n (fun k => a i k * p k j) = sum_to n (fun k => a j k * p k i)).

(** Unknowns: the biases of the subjects, then the qualities of the videos.
    Equations: one for each vote, q_e + b_s, and one for the first video. *)
Definition design (E S : nat) (r c : nat) : R :=
  if Nat.ltb r (E * S)
  then if Nat.eqb c (r mod S) || Nat.eqb c (S + r / S) then 1 else 0
  else if Nat.eqb c S then 1 else 0.

(** [pinv] answers with a pseudo-inverse for that system. *)
Definition inverts (pinv : arr2 ef -> res (arr2 ef)) (E S : nat) : Prop :=
  forall m, is_matrix m (E * S + 1) (S + E) (design E S) ->
    exists p a, pinv m = Ok p /\ is_matrix p (S + E) (E * S + 1) a /\ pseudo_inverse (E * S + 1) (S + E) (design E S) a.

(** Mean of all votes, when there is one per subject and video. *)
Definition grand_mean (x : arr3 ef) : R := sum_to (dE x) (mean_vote x) / INR (dE x).
Definition own_mean (x : arr3 ef) (i : nat) : R := ssum x i (fun _ v => v) / scount x i.

(** ** The early maximum likelihood model *)
(** Log-likelihood of all votes: a vote of subject i on video e has mean
    q_e + b_i and standard deviation |v_i|. *)
Definition plain_lik (x : arr3 ef) (q b v : nat -> R) : R :=
  tsum x (fun e i w => log_density w (q e + b i) (Rabs (v i))).

(** A vector holds the given numbers for every video (subject) with a vote. *)
Definition holds_videos (x : arr3 ef) (l : list ef) (f : nat -> R) : Prop :=
  length l = dE x /\ forall e, (e < dE x)%nat -> rated x e -> nth e l NaN = Fin (f e).
Definition holds_subjects (x : arr3 ef) (l : list ef) (f : nat -> R) : Prop :=
  length l = dS x /\ forall i, (i < dS x)%nat -> voted x i -> nth i l NaN = Fin (f i).
Definition nonzero_spread (x : arr3 ef) (v : nat -> R) : Prop := forall i, (i < dS x)%nat -> voted x i -> v i <> 0.
Definition positive_spread (x : arr3 ef) (v : nat -> R) : Prop := forall i, (i < dS x)%nat -> voted x i -> 0 < v i.

(** [val] is one tenth of the way along a Newton step for f from t0. *)
Definition newton_move (f : R -> R) (t0 : R) (val : ef) : Prop :=
  exists step curv, newton_step f t0 step curv /\ val = damped t0 step.

(** States after n passes, and the change of the scores. *)
Definition leg_passes (use_log : bool) (x : arr3 ef) (n : nat) (s : legstate) : legstate := Nat.iter n (leg_pass use_log x) s.
Definition leg_moved (s s' : legstate) : res ef :=
  let '(q, _, _, _) := s in let '(q', _, _, _) := s' in sp_norm (map (fun p => ef_sub (fst p) (snd p)) (combine q q')).
(** The first change below 1e-8, or the 5000th pass. *)
Definition leg_stops (use_log : bool) (x : arr3 ef) (s : legstate) (n : nat) : Prop :=
  (1 <= n <= 50 * 100)%nat /\
  (exists d, leg_moved (leg_passes use_log x (n - 1) s) (leg_passes use_log x n s) = Ok d /\ (ef_ltb d (Fin (1 / 100000000)) = true \/ n = (50 * 100)%nat)) /\
  (forall j, (1 <= j < n)%nat -> exists d, leg_moved (leg_passes use_log x (j - 1) s) (leg_passes use_log x j s) = Ok d /\ ef_ltb d (Fin (1 / 100000000)) = false).
(** The change in the n-th pass is not a number; the earlier ones are not below 1e-8. *)
Definition leg_breaks (use_log : bool) (x : arr3 ef) (s : legstate) (n : nat) : Prop :=
  (1 <= n <= 50 * 100)%nat /\
  leg_moved (leg_passes use_log x (n - 1) s) (leg_passes use_log x n s) = Err ValueError /\
  (forall j, (1 <= j < n)%nat -> exists d, leg_moved (leg_passes use_log x (j - 1) s) (leg_passes use_log x j s) = Ok d /\ ef_ltb d (Fin (1 / 100000000)) = false).

(** Options with their defaults. *)
Definition log_of (o : legopts) : bool := match lo_log o with Some l => l | None => false end.
Definition force_of (o : legopts) : bool := match lo_force o with Some f => f | None => true end.
(** (q', b') is (q, b) shifted so that the biases add up to 0. *)
Definition centred (q b q' b' : list ef) : Prop :=
  length q' = length q /\ length b' = length b /\ Rsum (presents b') = 0 /\
  (forall i, nth i b NaN = NaN -> nth i b' NaN = NaN) /\
  (forall e i t u, nth e q NaN = Fin t -> nth i b NaN = Fin u ->
     exists t' u', nth e q' NaN = Fin t' /\ nth i b' NaN = Fin u' /\ t' + u' = t + u).

(** ** LIVE_DMOS *)
(** Differential and z-scoring, with the other preprocessing options as given. *)
Definition live_options (k : kwargs ef) : kwargs ef := KW true true (kw_bias k) (kw_rej k) (kw_rejtype k) false None.

(** z holds the z-scores of the votes a: every subject with two different votes
    is shifted and scaled to mean 0 and standard deviation 1, the others have no
    scores. *)
Definition z_scores (a z : arr3 ef) : Prop :=
  dE z = dE a /\ dS z = dS a /\ dR z = dR a /\
  forall s, (s < dS a)%nat ->
    (has_spread (subject_votes a s) ->
       Rsum (subject_votes z s) = 0 /\ is_sample_std (Fin 1) (subject_votes z s) /\
       exists mu sd, 0 < sd /\ forall e r, (e < dE a)%nat -> (r < dR a)%nat ->
         at3 z e s r = match at3 a e s r with Fin y => Fin ((y - mu) / sd) | _ => NaN end) /\
    (~ has_spread (subject_votes a s) -> forall e r, (e < dE a)%nat -> (r < dR a)%nat -> at3 z e s r = NaN).

(** ** Scores per subject *)
(** Without final normalisation or transform. *)
Definition no_final (k : kwargs ef) : Prop := kw_normalize_final k = false /\ kw_transform_final k = None.
(** The vote of subject s on video e. *)
Definition score_of (x : arr3 ef) (e s : nat) : score ef := SArr (map (fun r => at3 x e s r) (seq 0 (dR x))).
(** The scores of video e, one per subject (for votes without repetition), that
    become entries: all of them, or when the votes are recorded by name those
    that are there. *)
Definition kept_scores (x : arr3 ef) (dv : dvideo ef string) (e : nat) : list ef :=
  let l := map (fun s => at3 x e s 0) (seq 0 (dS x)) in
  match dv_os dv with
  | Some (ODict _) => filter (fun v => match v with NaN => false | _ => true end) l
  | _ => l
  end.
(** The number of votes recorded with the video. *)
Definition recorded_votes (dv : dvideo ef string) (n : nat) : Prop :=
  (exists b l, dv_os dv = Some (OSeq b l) /\ n = length l) \/ (exists d, dv_os dv = Some (ODict d) /\ n = length d).
(** The video with one score as groundtruth. *)
Definition score_copy (dv : dvideo ef string) (v : ef) (dv' : dvideo ef string) : Prop :=
  same_video dv dv' /\ dv_os dv' = None /\ dv_gtstd dv' = dv_gtstd dv /\ dv_gt dv' = Some (GNum v).
(** [pinv] answers with some matrix of the shape of a pseudo-inverse. *)
Definition answers (pinv : arr2 ef -> res (arr2 ef)) (E S : nat) : Prop :=
  forall m, is_matrix m (E * S + 1) (S + E) (design E S) -> exists p, pinv m = Ok p /\ n0 p = (S + E)%nat /\ n1 p = (E * S + 1)%nat.
