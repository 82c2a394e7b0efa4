(** Intervals, monotone functions and inverses over the reals: the notions in
    which claim C83 is stated, independent of Inverse.v. *)
From Coq Require Import Reals List Bool.
From Verif Require Import PyBase ExtReal.
Import ListNotations.
Local Open Scope R_scope.

(** The interval between two ends, each of them maybe missing, maybe excluded. *)
Definition in_dom (lo hi : option R) (olo ohi : bool) (x : R) : Prop :=
  (forall a, lo = Some a -> if olo then a < x else a <= x) /\
  (forall b, hi = Some b -> if ohi then x < b else x <= b).

(** The ends are in order. *)
Definition ordered (lo hi : option R) : Prop := forall a b, lo = Some a -> hi = Some b -> a < b.

(** Strictly increasing ([inc]) or strictly decreasing on the interval, ends
    included. *)
Definition monotone (inc : bool) (g : R -> R) (lo hi : option R) : Prop :=
  forall x y, in_dom lo hi false false x -> in_dom lo hi false false y -> x < y -> if inc then g x < g y else g y < g x.

(** A program computing [g] on the interval (it may do anything elsewhere). *)
Definition computes (f : ef -> res ef) (g : R -> R) (lo hi : option R) (olo ohi : bool) : Prop :=
  forall x, in_dom lo hi olo ohi x -> f (Fin x) = Ok (Fin (g x)).

(** The least and the greatest value of [g] over the interval: given by the
    caller, otherwise taken at the end of the interval where it is reached. *)
Definition low_limit (inc : bool) (g : R -> R) (lo hi given : option R) : option R :=
  match given with Some m => Some m | None => option_map g (if inc then lo else hi) end.
Definition high_limit (inc : bool) (g : R -> R) (lo hi given : option R) : option R :=
  match given with Some m => Some m | None => option_map g (if inc then hi else lo) end.

(** [y] lies between the limits, strictly on the side of an excluded end. *)
Definition between (inc : bool) (g : R -> R) (lo hi : option R) (olo ohi : bool) (im_lo im_hi : option R) (y : R) : Prop :=
  (forall m, low_limit inc g lo hi im_lo = Some m -> if (if inc then olo else ohi) then m < y else m <= y) /\
  (forall m, high_limit inc g lo hi im_hi = Some m -> if (if inc then ohi else olo) then y < m else y <= m).

(** A program computing the squared distance of [g] to [y] on the interval and
    plus infinity outside it. *)
Definition distance_program (g : R -> R) (lo hi : option R) (olo ohi : bool) (y : R) (obj : ef -> res ef) : Prop :=
  (forall x, in_dom lo hi olo ohi x -> obj (Fin x) = Ok (Fin ((g x - y) * (g x - y)))) /\
  (forall x, ~ in_dom lo hi olo ohi x -> obj (Fin x) = Ok PInf).

(** [x] is a minimum of the program [obj]: never more than at any other point. *)
Definition minimum_of (obj : ef -> res ef) (x : R) : Prop :=
  forall x', exists v v', obj (Fin x) = Ok v /\ obj (Fin x') = Ok v' /\ ef_leb v v' = true.

(** Quarter points of a bounded interval, one and two beside a single end, 0 and
    1 on the whole line. *)
Definition start_points (lo hi : option R) : R * R :=
  match lo, hi with
  | Some a, Some b => (a + (b - a) / 4, b - (b - a) / 4)
  | Some a, None => (a + 1, a + 2)
  | None, Some b => (b - 2, b - 1)
  | None, None => (0, 1)
  end.

(** An end as the call receives it. *)
Definition efo (x : option R) : option ef := option_map Fin x.

(** What one requested value gives: the end of the interval where it is taken,
    otherwise what the minimiser makes of the squared distance, and whether the
    search counts as successful. *)
Definition entry (minimize : (ef -> res ef) -> ef * ef -> option (ef * bool)) g lo hi (olo ohi : bool) (y : R) (x : ef) (ok : bool) : Prop :=
  (exists b, hi = Some b /\ ohi = false /\ y = g b /\ x = Fin b /\ ok = true) \/
  (exists a, lo = Some a /\ olo = false /\ y = g a /\ x = Fin a /\ ok = true) \/
  ((forall b, hi = Some b -> ohi = false -> y <> g b) /\ (forall a, lo = Some a -> olo = false -> y <> g a) /\
   exists obj, distance_program g lo hi olo ohi y obj /\
     match minimize obj (Fin (fst (start_points lo hi)), Fin (snd (start_points lo hi))) with
     | Some r => (x, ok) = r
     | None => x = NaN /\ ok = false
     end).

(** A function and an interval which meet the documented requirements: strictly
    monotone, with values at the ends wherever no limit is given. *)
Definition suited f g lo hi olo ohi inc im_lo im_hi : Prop :=
  ordered lo hi /\ ordered im_lo im_hi /\ monotone inc g lo hi /\ computes f g lo hi olo ohi /\
  (im_lo = None -> forall e, (if inc : bool then lo else hi) = Some e -> f (Fin e) = Ok (Fin (g e))) /\
  (im_hi = None -> forall e, (if inc : bool then hi else lo) = Some e -> f (Fin e) = Ok (Fin (g e))).
