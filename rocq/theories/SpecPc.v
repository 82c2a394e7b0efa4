(** Specification vocabulary for the paired comparison conversion and reader
    (claims C09-C16). *)
From Coq Require Import String.
From Coq Require Import List ZArith Bool Arith Reals.
From Verif Require Import PyBase Num ExtReal NumPy Dataset PcDataset SpecDataset SpecConv.
Import ListNotations.
Local Open Scope list_scope.

(** The vote that the subject called s left on a video.  The subjects of a
    list-style dataset are called "0", "1", ... *)
Inductive vote_of {T} (dv : dvideo T string) : string -> pyv T -> Prop :=
| vo_dict : forall d s v, dv_os dv = Some (ODict d) -> In (s, v) d -> vote_of dv s v
| vo_list : forall b l i v, dv_os dv = Some (OSeq b l) -> nth_error l i = Some v -> vote_of dv (str_of_nat i) v.

(** The datasets considered: list- or dict-style with distinct asset ids. *)
Definition pc_source {T} (dvs : list (dvideo T string)) : Prop :=
  dvs <> [] /\ NoDup (map dv_aid dvs) /\ ((exists S, list_style dvs S) \/ dict_style dvs).

(** Subject s rated the two videos and the pair is to be compared; va is the
    one with the larger asset id. *)
Definition compared {T} (dvs : list (dvideo T string)) (any_content : bool) (s : string) (va vb : dvideo T string) : Prop :=
  In va dvs /\ In vb dvs /\ (exists v, vote_of va s v) /\ (exists v, vote_of vb s v) /\
  (dv_aid vb < dv_aid va)%Z /\ (any_content = true \/ dv_cid va = dv_cid vb).

(** pc_type='within_subject' was given. *)
Definition any_content {T} (o : pcopts T) : bool := match po_type o with Some t => String.eqb t "within_subject" | None => false end.

(** The produced dataset has entry v for video a against video b by subject s. *)
Definition outcome {T} (pc : dataset T (string * Z)) (a : Z) (s : string) (b : Z) (v : T) : Prop :=
  exists dv d, In dv (ds_dis pc) /\ dv_aid dv = a /\ dv_os dv = Some (ODict d) /\ In ((s, b), PNum v) d.

(** A video of the produced dataset next to its source. *)
Definition pc_video {T} (dv : dvideo T string) (dv' : dvideo T (string * Z)) : Prop :=
  same_video dv dv' /\ dv_gt dv' = dv_gt dv /\ dv_gtstd dv' = dv_gtstd dv /\
  exists d, dv_os dv' = Some (ODict d) /\ NoDup (map fst d) /\ forall k v, In (k, v) d -> exists x, v = PNum x.

(** ** How one pair is decided from the random stream *)
Inductive verdict := First | Second | Split.

(** Everything that decides a pair: expected number of comparisons, coin toss
    rate, noise levels, scores, whether ties are split. *)
Record deciding := Deciding {
  q_rate : ef; q_coin : option ef; q_noise1 : option ef; q_noise2 : option ef; q_score1 : ef; q_score2 : ef; q_even : bool }.

Definition coin (x : ef) : verdict := if ef_ltb (Fin (1/2)) x then First else Second.

(** Decision by (noisy) scores x and y. *)
Inductive by_scores (g : rng ef) (even : bool) (x y : ef) (n : nat) : verdict -> nat -> Prop :=
| bs_first : ef_ltb y x = true -> by_scores g even x y n First n
| bs_second : ef_ltb x y = true -> by_scores g even x y n Second n
| bs_split : ef_ltb y x = false -> ef_ltb x y = false -> even = true -> by_scores g even x y n Split n
| bs_toss : ef_ltb y x = false -> ef_ltb x y = false -> even = false -> by_scores g even x y n (coin (ru g n)) (S n).

(** One comparison, from draw n on. *)
Inductive one_comparison (g : rng ef) (q : deciding) (n : nat) : verdict -> nat -> Prop :=
| oc_toss : forall c, q_coin q = Some c -> ef_ltb (ru g n) c = true -> one_comparison g q n (coin (ru g (S n))) (S (S n))
| oc_scores : forall n0 n1 n2 x y w,
    (q_coin q = None /\ n0 = n \/ exists c, q_coin q = Some c /\ ef_ltb (ru g n) c = false /\ n0 = S n) ->
    (q_noise1 q = None /\ q_noise2 q = None /\ x = q_score1 q /\ y = q_score2 q /\ n1 = n0 \/
     exists s1 s2, q_noise1 q = Some s1 /\ q_noise2 q = Some s2 /\ n1 = S (S n0) /\
       x = ef_add (q_score1 q) (rg g n0 s1) /\ y = ef_add (q_score2 q) (rg g (S n0) s2)) ->
    by_scores g (q_even q) x y n1 w n2 -> one_comparison g q n w n2.

(** All comparisons of the pair: one per unit of the rate, and one more with
    the probability given by the fractional part. *)
Inductive comparisons (g : rng ef) (q : deciding) : ef -> nat -> list verdict -> nat -> Prop :=
| cs_none : forall r n, ef_ltb (Fin 0) r = false -> comparisons g q r n [] n
| cs_unit : forall r n w n1 l n2, ef_leb (Fin 1) r = true -> one_comparison g q n w n1 ->
    comparisons g q (ef_sub r (Fin 1)) n1 l n2 -> comparisons g q r n (w :: l) n2
| cs_skip : forall r n, ef_ltb (Fin 0) r = true -> ef_leb (Fin 1) r = false -> ef_ltb r (ru g n) = true -> comparisons g q r n [] (S n)
| cs_keep : forall r n w n1, ef_ltb (Fin 0) r = true -> ef_leb (Fin 1) r = false -> ef_ltb r (ru g n) = false ->
    one_comparison g q (S n) w n1 -> comparisons g q r n [w] n1.

(** What a verdict records for the first and for the second video; a later
    verdict overwrites. *)
Definition gain1 (w : verdict) : option ef := match w with First => Some (Fin 1) | Split => Some (Fin (1/2)) | Second => None end.
Definition gain2 (w : verdict) : option ef := match w with Second => Some (Fin 1) | Split => Some (Fin (1/2)) | First => None end.
Definition last_gain (f : verdict -> option ef) (l : list verdict) : option ef :=
  fold_left (fun acc w => match f w with Some x => Some x | None => acc end) l None.

(** The value of an option for a pair: the common one, or the mean of the
    entries i and j of the per-asset list, or none. *)
Definition pair_mean (common : option ef) (per_asset : option (list ef)) (i j : nat) (x : option ef) : Prop :=
  match common, per_asset with
  | Some r, _ => x = Some r
  | None, Some l => exists r1 r2, nth_error l i = Some r1 /\ nth_error l j = Some r2 /\ x = Some (ef_div (ef_add r1 r2) (Fin 2))
  | None, None => x = None
  end.
Definition pair_own (common : option ef) (per_asset : option (list ef)) (i : nat) (x : option ef) : Prop :=
  match common, per_asset with
  | Some r, _ => x = Some r
  | None, Some l => exists r1, nth_error l i = Some r1 /\ x = Some r1
  | None, None => x = None
  end.
Definition the_score (o : pcopts ef) (dv : dvideo ef string) (s : string) (x : ef) : Prop :=
  match po_means o with
  | Some m => exists k, nth_error m k = Some x /\ Z.of_nat k = (if (dv_aid dv <? 0)%Z then dv_aid dv + Z.of_nat (length m) else dv_aid dv)%Z
  | None => vote_of dv s (PNum x) \/ vote_of dv s (PArr [x])
  end.

(** The parameters for subject s and videos va, vb when per-asset options are
    read at entries i and j. *)
Definition deciding_at (o : pcopts ef) (s : string) (va vb : dvideo ef string) (i j : nat) (q : deciding) : Prop :=
  (exists r, pair_mean (po_rate o) (po_rates o) i j r /\ q_rate q = match r with Some x => x | None => Fin 1 end) /\
  pair_mean (po_coin o) (po_coins o) i j (q_coin q) /\
  pair_own (po_noise o) (po_noises o) i (q_noise1 q) /\
  pair_own (po_noise o) (po_noises o) j (q_noise2 q) /\
  the_score o va s (q_score1 q) /\ the_score o vb s (q_score2 q) /\
  q_even q = match po_tie o with Some t => String.eqb t "even_split" | None => true end.

(** The pair is decided with these parameters, and the produced dataset has
    exactly the resulting entries. *)
Definition decided (pc : dataset ef (string * Z)) (g : rng ef) (q : deciding) (s : string) (a b : Z) : Prop :=
  exists n l n', comparisons g q (q_rate q) n l n' /\
    (forall v, outcome pc a s b v <-> last_gain gain1 l = Some v) /\
    (forall v, outcome pc b s a v <-> last_gain gain2 l = Some v).

(** k is the number of videos rated by s with a smaller asset id. *)
Definition rank {T} (dvs : list (dvideo T string)) (s : string) (dv : dvideo T string) (k : nat) : Prop :=
  exists l, NoDup l /\ length l = k /\
    forall b, In b l <-> (b < dv_aid dv)%Z /\ exists dv' v, In dv' dvs /\ dv_aid dv' = b /\ vote_of dv' s v.

(** The deterministic options: neither coin tosses nor noise, ties are split. *)
Definition deterministic {T} (o : pcopts T) : Prop :=
  po_coin o = None /\ po_coins o = None /\ po_noise o = None /\ po_noises o = None /\ po_means o = None /\
  (po_tie o = None \/ po_tie o = Some "even_split"%string).

(** ** The paired comparison tensor *)
(** Subjects with at least one entry, in increasing order. *)
Definition pc_observers {T} (dvs : list (dvideo T (string * Z))) (names : list string) : Prop :=
  Sorted.StronglySorted str_lt names /\
  forall n, In n names <-> exists dv d b v, In dv dvs /\ dv_os dv = Some (ODict d) /\ In ((n, b), v) d.

(** The number that subject s gave to the video. *)
Definition rated (dv : dvideo ef string) (s : string) (x : ef) : Prop := vote_of dv s (PNum x) \/ vote_of dv s (PArr [x]).
(** Every vote is one finite number. *)
Definition finite_single (dvs : list (dvideo ef string)) : Prop :=
  forall dv s v, In dv dvs -> vote_of dv s v -> exists x, v = PNum (Fin x) \/ v = PArr [Fin x].
(** Every rated video has a score to compare. *)
Definition scored (o : pcopts ef) (dvs : list (dvideo ef string)) : Prop :=
  forall dv s v, In dv dvs -> vote_of dv s v -> exists x, the_score o dv s x.
(** Every sampling rate is a number of at most k. *)
Definition rates_within (o : pcopts ef) (k : nat) : Prop :=
  (forall r, po_rate o = Some r -> exists x, r = Fin x /\ (x <= INR k)%R) /\
  (forall l r, po_rates o = Some l -> In r l -> exists x, r = Fin x /\ (x <= INR k)%R) /\
  (po_rate o = None -> po_rates o = None -> 1 <= k).
(** The comparison type and tie breaking method exist, all other options absent. *)
Definition plain {T} (o : pcopts T) : Prop :=
  po_rate o = None /\ po_rates o = None /\ po_coin o = None /\ po_coins o = None /\ po_noise o = None /\ po_noises o = None /\ po_means o = None.
Definition known_type {T} (o : pcopts T) : Prop :=
  po_type o = None \/ po_type o = Some "within_subject_within_content"%string \/ po_type o = Some "within_subject"%string.
(** The same options without sampling. *)
Definition unsampled {T} (o : pcopts T) : pcopts T :=
  PcOpts (po_type o) (po_tie o) None None (po_coin o) (po_coins o) (po_noise o) (po_noises o) (po_means o).
(** What is recorded for the first of two compared numbers: 1 when it is the
    greater one, 1/2 when neither is (equal, or one of them is missing). *)
Definition wins_or_ties (x y v : ef) : Prop :=
  ef_ltb y x = true /\ v = Fin 1 \/ ef_ltb y x = false /\ ef_ltb x y = false /\ v = Fin (1/2).
(** The entries of a pair belong together: a win alone, or halves on both sides. *)
Definition coherent (pc : dataset ef (string * Z)) : Prop :=
  forall a s b v, outcome pc a s b v ->
    (v = Fin 1 /\ forall w, ~ outcome pc b s a w) \/ (v = Fin (1/2) /\ forall w, outcome pc b s a w <-> w = Fin (1/2)).
(** Nobody who rated any video skipped another one. *)
Definition everyone_rated_all {T} (dvs : list (dvideo T string)) : Prop :=
  forall dv dv' s v, In dv dvs -> In dv' dvs -> vote_of dv s v -> exists v', vote_of dv' s v'.
Definition increasing_ids {T} (dvs : list (dvideo T string)) : Prop :=
  forall i j dv dv', i < j -> nth_error dvs i = Some dv -> nth_error dvs j = Some dv' -> (dv_aid dv < dv_aid dv')%Z.
(** An accepted value. *)
Definition pc_val (x : R) : Prop := x = 0%R \/ x = (1/2)%R \/ x = 1%R.
(** Video i of the list has asset id i. *)
Definition ids_are_positions {T K} (dvs : list (dvideo T K)) : Prop :=
  forall i dv, nth_error dvs i = Some dv -> dv_aid dv = Z.of_nat i.
(** No video is compared with itself, ids are not negative, and the two entries
    of a pair, if both are there, agree; a subject has one entry per pair and
    direction (as in any dict). *)
Definition consistent (pc : dataset ef (string * Z)) : Prop :=
  (forall a s b v, outcome pc a s b v -> a <> b /\ (0 <= b)%Z) /\
  (forall a s b x y, outcome pc a s b (Fin x) -> outcome pc b s a (Fin y) -> (x + y = 1)%R) /\
  (forall a s b v w, outcome pc a s b v -> outcome pc a s b w -> v = w).

(** Acceptable options for a dataset of nv videos. *)
Definition at_least_0 (x : ef) : Prop := x = PInf \/ exists r, x = Fin r /\ (0 <= r)%R.
Definition in_0_1 (x : ef) : Prop := exists r, x = Fin r /\ (0 <= r <= 1)%R.
Definition each {A} (P : A -> Prop) (o : option A) : Prop := forall x, o = Some x -> P x.
Definition not_both {A B} (o : option A) (o' : option B) : Prop := o = None \/ o' = None.
Definition full_list (P : ef -> Prop) (nv : nat) (l : list ef) : Prop := length l = nv /\ Forall P l.
Record valid_options (o : pcopts ef) (nv : nat) : Prop := ValidOptions {
  vo_type : po_type o = None \/ po_type o = Some "within_subject_within_content"%string \/ po_type o = Some "within_subject"%string;
  vo_tie : po_tie o = None \/ po_tie o = Some "even_split"%string \/ po_tie o = Some "coin_toss"%string;
  vo_rates : not_both (po_rate o) (po_rates o) /\ each at_least_0 (po_rate o) /\ each (full_list at_least_0 nv) (po_rates o);
  vo_coins : not_both (po_coin o) (po_coins o) /\ each in_0_1 (po_coin o) /\ each (full_list in_0_1 nv) (po_coins o);
  vo_noises : not_both (po_noise o) (po_noises o) /\ each at_least_0 (po_noise o) /\ each (full_list at_least_0 nv) (po_noises o);
  vo_means : forall l, po_means o = Some l -> length l = nv }.
