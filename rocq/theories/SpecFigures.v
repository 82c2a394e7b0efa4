(** Vocabulary for claims C96-C101: what the figures show.  Only the data types
    and real arithmetic. *)
From Coq Require Import String.
From Coq Require Import List ZArith Bool Arith Reals Sorted Permutation.
From Verif Require Import PyBase Num ExtReal NumPy Dataset Figures SpecDataset SpecMos SpecStats.
Import ListNotations.
Local Open Scope list_scope.
Local Open Scope R_scope.

(** A row for every subject, a column for every video, in it the mean of what
    the subject gave the video. *)
Definition shows_means (a : arr3 ef) (m : arr2 ef) : Prop :=
  n0 m = dS a /\ n1 m = dE a /\
  forall i j, (i < dS a)%nat -> (j < dE a)%nat -> is_mean (at2 m i j) (rep_votes a j i).
(** The same with something subtracted wherever there is a vote. *)
Definition shows_rest (a : arr3 ef) (off : nat -> nat -> R) (m : arr2 ef) : Prop :=
  n0 m = dS a /\ n1 m = dE a /\
  forall i j, (i < dS a)%nat -> (j < dE a)%nat ->
    (rep_votes a j i = [] /\ at2 m i j = NaN) \/
    (rep_votes a j i <> [] /\ at2 m i j = Fin (Rmean (rep_votes a j i) - off i j)).

(** Points (line, value, count), by line and then by value. *)
Definition before (p q : nat * ef * nat) : Prop :=
  let '(k, v, _) := p in let '(k', v', _) := q in
  (k < k')%nat \/ (k = k' /\ exists x x', v = Fin x /\ v' = Fin x' /\ x < x').
(** The counts of the points on a line, added. *)
Definition on_line (k : nat) (pts : list (nat * ef * nat)) : nat :=
  fold_right Nat.add 0%nat (map snd (filter (fun p => Nat.eqb (fst (fst p)) k) pts)).
(** For every line and value that occurs, the number of members with this value;
    [votes k i] are the votes behind the value of member i. *)
Definition counts_shown (lines members : nat) (votes : nat -> nat -> list R) (pts : list (nat * ef * nat)) : Prop :=
  (forall k v c, In (k, v, c) pts <-> (k < lines)%nat /\ (0 < c)%nat /\ v <> NaN /\ number (fun i => is_mean v (votes k i)) (seq 0 members) c) /\
  StronglySorted before pts /\
  (forall k, (k < lines)%nat -> number (fun i => votes k i <> []) (seq 0 members) (on_line k pts)).

(** The order of a list of real scores: a permutation of the positions that
    makes them ascend. *)
Definition ascending (l : list R) : Prop := forall i j x y, (i < j)%nat -> nth_error l i = Some x -> nth_error l j = Some y -> x <= y.
Definition sorts (argsort : list ef -> list nat) : Prop :=
  forall l, Permutation (argsort (map Fin l)) (seq 0 (length l)) /\
            ascending (map (fun k => nth k l 0) (argsort (map Fin l))).
(** Places of a bar or a point of the model number s above video number k. *)
Definition bar_place (s k : nat) : R := INR k + INR s * (4 / 10).
Definition dot_place (s k : nat) : R := INR k + INR s * (4 / 10) + 2 / 10.
(** Two bars of width 0.4 overlap. *)
Definition overlap (x y : R) : Prop := Rabs (x - y) < 4 / 10.

(** The image of a result: residuals after its scores, or after its scores and
    its biases. *)
Definition has_scores (a : arr3 ef) (r : @shown ef) (q : list R) : Prop := sh_quality r = Some (map Fin q) /\ length q = dE a.
Definition has_biases (a : arr3 ef) (r : @shown ef) (b : list R) : Prop := sh_bias r = Some (map Fin b) /\ length b = dS a.
Definition rest_image (a : arr3 ef) (r : @shown ef) (d : @drawing ef) : Prop :=
  exists q p m, has_scores a r q /\ d = DImage "raw_scores_minus_quality_scores" (Some (sh_type r)) p m /\
    shows_rest a (fun i j => nth j q 0) m.
Definition rest2_image (a : arr3 ef) (r : @shown ef) (d : @drawing ef) : Prop :=
  exists q b p m, has_scores a r q /\ has_biases a r b /\
    d = DImage "raw_scores_minus_quality_scores_and_observer_bias" (Some (sh_type r)) p m /\
    shows_rest a (fun i j => nth j q 0 + nth i b 0) m.
Definition given {A} (o : option A) : bool := match o with Some _ => true | None => false end.
(** The scores (biases) of the results that have any are numbers for all videos (subjects). *)
Definition scores_ok (a : arr3 ef) (rs : list (@shown ef)) : Prop :=
  forall r, In r rs -> (given (sh_quality r) = true -> exists q, has_scores a r q).
Definition biases_ok (a : arr3 ef) (rs : list (@shown ef)) : Prop :=
  forall r, In r rs -> (given (sh_bias r) = true -> exists b, has_biases a r b).

(** ** Which figures are asked for *)
Definition asked (d : do_plot_arg) (n : string) : Prop :=
  match d with
  | PNone => False
  | PList l => In n l
  | PText s => s = "all"%string \/ exists x y, s = (x ++ n ++ y)%string
  end.
(** A part of a list, in the same order. *)
Inductive sublist {A} : list A -> list A -> Prop :=
| sub_nil : sublist [] []
| sub_take : forall x l l', sublist l l' -> sublist (x :: l) (x :: l')
| sub_drop : forall x l l', sublist l l' -> sublist l (x :: l').
(** All of them drawn in turn, or those before the first one that fails. *)
Definition drawn (fig : string -> res (list (@drawing ef))) (names : list string) (out : list (@drawing ef) * res unit) : Prop :=
  (exists dss, Forall2 (fun n ds => fig n = Ok ds) names dss /\ out = (concat dss, Ok tt)) \/
  (exists done n rest dss e, names = done ++ n :: rest /\ Forall2 (fun n ds => fig n = Ok ds) done dss /\ fig n = Err e /\ out = (concat dss, Err e)).

(** ** Winning rates *)
(** The two cells of a comparison: both missing, or x and 1 - x. *)
Definition two_sided (a : arr3 ef) : Prop :=
  dS a = dE a /\ forall i j s, (i < dE a)%nat -> (j < dE a)%nat -> i <> j -> (s < dR a)%nat ->
    (at3 a i j s = NaN /\ at3 a j i s = NaN) \/ exists x, 0 <= x <= 1 /\ at3 a i j s = Fin x /\ at3 a j i s = Fin (1 - x).
(** Who compared i and j. *)
Definition compared (a : arr3 ef) (i j s : nat) : Prop := at3 a i j s <> NaN.

(** ** A panel for every subject: what it gave a video against the score of the
    video, on axes from the smallest to the largest of these means. *)
Definition versus (a : arr3 ef) (r : @shown ef) (d : @drawing ef) : Prop :=
  exists q nr nc lo hi panels, has_scores a r q /\ d = DGrid (sh_type r) nr nc (Fin lo) (Fin hi) panels /\
    length panels = dS a /\ (dS a <= nr * nc)%nat /\ (nr * (nc - 1) < dS a)%nat /\
    (forall i, (i < dS a)%nat -> exists p, nth_error panels i = Some p /\ length p = dE a /\
       forall j, (j < dE a)%nat -> exists v, is_mean v (rep_votes a j i) /\ nth_error p j = Some (v, Fin (nth j q 0))) /\
    (exists i j, (i < dS a)%nat /\ (j < dE a)%nat /\ is_mean (Fin lo) (rep_votes a j i)) /\
    (exists i j, (i < dS a)%nat /\ (j < dE a)%nat /\ is_mean (Fin hi) (rep_votes a j i)) /\
    (forall i j x, (i < dS a)%nat -> (j < dE a)%nat -> is_mean (Fin x) (rep_votes a j i) -> lo <= x <= hi).

(** ** Series of estimates *)
(** Where number s shows its value number k. *)
Definition place_of (pt : plot_type) (s k : nat) : R := match pt with PBar => bar_place s k | _ => dot_place s k end.
(** The estimates [ys] of a result, taken in the given order. *)
Definition estimates_shown (pt : plot_type) (order : list nat) (s : nat) (type : string) (ys : list R) (ci : @margins ef) (x : @series ef) : Prop :=
  lb_type (se_label x) = type /\ nth_error colors s = Some (se_color x) /\
  length (se_x x) = length order /\ length (se_y x) = length order /\
  (forall k v, nth_error order k = Some v -> (v < length ys)%nat /\ nth_error (se_y x) k = Some (Fin (nth v ys 0)) /\ nth_error (se_x x) k = Some (Fin (place_of pt s k))) /\
  match pt, ci with
  | PBar, _ => se_style x = SBar
  | _, None => se_style x = SDots
  | _, Some e => se_style x = SError e
  end.
(** What the legend says: the information criterion and, beside error bars, the
    average width of the intervals. *)
Definition legend (pt : plot_type) (bic : option ef) (ci : @margins ef) (x : @series ef) : Prop :=
  lb_bic (se_label x) = bic /\
  match pt, ci with
  | PError, Some (Some (lo, hi)) => forall l h, lo = map Fin l -> hi = map Fin h -> length l = length h -> l <> [] ->
      lb_ci (se_label x) = Some (Fin ((Rsum l + Rsum h) / INR (length l)))
  | _, _ => lb_ci (se_label x) = None
  end.
(** The results with an entry, numbered from [s]. *)
Definition numbered_from {A} (s : nat) (l : list A) : list (nat * A) := combine (seq s (length l)) l.
Definition quality_shown (pt : plot_type) (order : list nat) (sr : nat * @shown ef) (x : @series ef) : Prop :=
  exists q, sh_quality (snd sr) = Some (map Fin q) /\ estimates_shown pt order (fst sr) (sh_type (snd sr)) q (sh_quality_ci (snd sr)) x /\ legend pt (if sh_recon (snd sr) then sh_bic (snd sr) else None) (sh_quality_ci (snd sr)) x.
(** The scores of the results that have any are n numbers. *)
Definition n_scores (n : nat) (rs : list (@shown ef)) : Prop :=
  forall r, In r rs -> given (sh_quality r) = true -> exists q, sh_quality r = Some (map Fin q) /\ length q = n.
(** The margins of the score shown at position k are those of the same video. *)
Definition own_margins (r : @shown ef) (order : list nat) (x : @series ef) : Prop :=
  forall lo hi lo' hi', sh_quality_ci r = Some (Some (lo, hi)) -> se_style x = SError (Some (lo', hi')) ->
    forall k v, nth_error order k = Some v -> nth_error lo' k = nth_error lo v /\ nth_error hi' k = nth_error hi v.

(** ** Names below the contents *)
(** Content number of a reference video, counted from the end when negative. *)
Definition points_to (n : nat) (r : rvideo) (k : nat) : Prop := (k < n)%nat /\ (rv_cid r = Z.of_nat k \/ rv_cid r = Z.of_nat k - Z.of_nat n)%Z.
Definition content_name (r : rvideo) (name : string) : Prop := dget String.eqb (rv_extra r) "content_name"%string = Some name.
(** The name of the last reference video of the content; nothing without one. *)
Definition named (n : nat) (refs : list rvideo) (k : nat) (t : string) : Prop :=
  (exists l r l', refs = l ++ r :: l' /\ points_to n r k /\ content_name r t /\ forall r', In r' l' -> ~ points_to n r' k) \/
  ((forall r, In r refs -> ~ points_to n r k) /\ t = ""%string).

(** ** The subjects *)
(** The results drawn in the figure of the subjects. *)
Definition counted (r : @shown ef) : bool := given (sh_bias r) || given (sh_incons r) || given (sh_rejected r).
Definition ones (o : option (list bool)) : option (list ef) :=
  match o with Some l => Some (map (fun x : bool => if x then Fin 1 else Fin 0) l) | None => None end.
(** An entry of a result with a value for every subject (or content). *)
Definition entry_shown (pt : plot_type) (get : @shown ef -> option (list ef)) (ci : @shown ef -> @margins ef) (n : nat) (sr : nat * @shown ef) (x : @series ef) : Prop :=
  exists ys, get (snd sr) = Some (map Fin ys) /\ length ys = n /\ estimates_shown pt (seq 0 n) (fst sr) (sh_type (snd sr)) ys (ci (snd sr)) x /\ legend pt None (ci (snd sr)) x.
Definition entries (pt : plot_type) (get : @shown ef -> option (list ef)) (ci : @shown ef -> @margins ef) (n s : nat) (rs : list (@shown ef)) (l : list (@series ef)) : Prop :=
  Forall2 (entry_shown pt get ci n) (filter (fun sr => given (get (snd sr))) (numbered_from s (filter counted rs))) l.
Definition no_margins (r : @shown ef) : @margins ef := None.
Definition rejected_of (r : @shown ef) : option (list ef) := ones (sh_rejected r).
(** A chart of rejected subjects: drawn if there are axes for it. *)
Definition chart (axes : list string) (key : string) (get : @shown ef -> option (list ef)) (n : nat) (rs : list (@shown ef)) (ds : list (@drawing ef)) : Prop :=
  (~ In key axes /\ ds = []) \/ (In key axes /\ exists l, ds = [DSeries key (OnAxes key) l] /\ entries PBar get no_margins n 0 rs l).
Definition of_length (n : nat) (o : option (list ef)) : Prop := forall v, o = Some v -> exists ys, v = map Fin ys /\ length ys = n.
(** Results of one study with n subjects. *)
Definition subjects_ok (n : nat) (rs : list (@shown ef)) : Prop :=
  forall r, In r rs -> of_length n (sh_bias r) /\ of_length n (sh_incons r) /\ of_length n (rejected_of r) /\ of_length n (sh_rejected1 r) /\ of_length n (sh_rejected2 r) /\
    (forall o, sh_observers r = Some o -> length o = n) /\ (given (sh_rejected1 r) = true -> counted r = true) /\ (given (sh_rejected2 r) = true -> counted r = true).
(** The names of the subjects in the last result that has biases and names. *)
Definition has_names (r : @shown ef) (o : list string) : Prop := given (sh_bias r) = true /\ sh_observers r = Some o.
Definition last_names (rs : list (@shown ef)) (o : list string) : Prop :=
  exists l r l', rs = l ++ r :: l' /\ has_names r o /\ forall r' o', In r' l' -> ~ has_names r' o'.
(** Something is drawn for the result. *)
Definition any_drawn (axes : list string) (r : @shown ef) : Prop :=
  given (sh_bias r) = true \/ given (sh_incons r) = true \/ (given (sh_rejected r) = true /\ In "ax_rejected"%string axes) \/
  (given (sh_rejected1 r) = true /\ In "ax_rejected_1st_stats"%string axes) \/ (given (sh_rejected2 r) = true /\ In "ax_rejected_2nd_stats"%string axes).
(** The names under the axes. *)
Definition names_below (numbered : nat -> string) (axes : list string) (n : nat) (rs : list (@shown ef)) (ds : list (@drawing ef)) : Prop :=
  (exists o, last_names rs o /\ length o = n /\ ds = [DTicks "observer_inconsistency" o]) \/
  ((forall r o, In r rs -> ~ has_names r o) /\ (exists r, In r rs /\ any_drawn axes r) /\
   exists t keys, t = map numbered (seq 1 n) /\ ds = map (fun key => DTicks key t) ("observer_inconsistency"%string :: keys) /\
     sublist keys ["ax_rejected"; "ax_rejected_1st_stats"; "ax_rejected_2nd_stats"]%string /\
     forall key, In key keys <-> In key ["ax_rejected"; "ax_rejected_1st_stats"; "ax_rejected_2nd_stats"]%string /\ In key axes) \/
  ((forall r, In r rs -> ~ any_drawn axes r) /\ ds = []).
