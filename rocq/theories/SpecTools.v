(** Specification vocabulary for the helpers: schedules, call histories,
    argument vectors, class hierarchies. *)
From Coq Require Import String.
From Coq Require Import List ZArith Bool Arith.
From Verif Require Import PyBase Tools Classes.
Import ListNotations.
Local Open Scope list_scope.

(** ** parallel_map *)
(** s can be reached by some schedule es of n jobs. *)
Definition reached {V} (limit : Z) (value : nat -> V) (n : nat) (es : list pm_event) (s : pm_state V) : Prop :=
  pm_run limit value (pm_init n) es = Some s.
(** Every job stored its result. *)
Definition all_stored (n : nat) (es : list pm_event) : Prop := forall i, i < n -> In (Store i) es.

(** ** Argument vectors *)
(** i is a position of argv (counted from the end when negative) and holds x. *)
Definition holds_at (argv : list string) (i : Z) (x : string) : Prop :=
  (0 <= i /\ nth_error argv (Z.to_nat i) = Some x)%Z \/
  (i < 0 /\ 0 <= i + Z.of_nat (length argv) /\ nth_error argv (Z.to_nat (i + Z.of_nat (length argv))) = Some x)%Z.
(** Every position of the range exists. *)
Definition in_bounds (argv : list string) (b e : Z) : Prop :=
  (b < e -> - Z.of_nat (length argv) <= b /\ e <= Z.of_nat (length argv))%Z.
(** i is the first position of the range [b, e) that holds x. *)
Definition first_at (argv : list string) (b e i : Z) (x : string) : Prop :=
  (b <= i < e)%Z /\ holds_at argv i x /\ forall j, (b <= j < i)%Z -> ~ holds_at argv j x.
Definition absent (argv : list string) (b e : Z) (x : string) : Prop :=
  forall i, (b <= i < e)%Z -> ~ holds_at argv i x.

(** ** Class hierarchies *)
(** d is a direct subclass of c; d is below c. *)
Definition derives (h : hierarchy) (c d : nat) : Prop := exists k, nth_error h d = Some k /\ In c (k_bases k).
Inductive below (h : hierarchy) (c : nat) : nat -> Prop :=
| below_direct : forall d, derives h c d -> below h c d
| below_step : forall m d, below h c m -> derives h m d -> below h c d.
(** The TYPE of class d is t. *)
Definition typed (h : hierarchy) (d : nat) (t : string) : Prop := exists k, nth_error h d = Some k /\ k_type k = Some t.
(** Classes are defined after their bases. *)
Definition defined_in_order (h : hierarchy) : Prop := forall d k c, nth_error h d = Some k -> In c (k_bases k) -> c < d.
(** Below c the classes form a tree: each has one base among c and the classes
    below c, and names no base twice. *)
Definition tree_below (h : hierarchy) (c : nat) : Prop :=
  forall d m m', below h c d -> (m = c \/ below h c m) -> (m' = c \/ below h c m') -> derives h m d -> derives h m' d -> m = m'.

(** d is c or below c. *)
Definition at_or_below (h : hierarchy) (c d : nat) : Prop := d = c \/ below h c d.
(** The only class below c with TYPE t. *)
Definition only_typed (h : hierarchy) (c : nat) (t : string) (d : nat) : Prop :=
  below h c d /\ typed h d t /\ forall d', below h c d' -> typed h d' t -> d' = d.

(** ** Call histories *)
(** An equality test that is an equivalence. *)
Definition equivalence {A} (same : A -> A -> bool) : Prop :=
  (forall a, same a a = true) /\ (forall a b, same a b = same b a) /\ forall a b c, same a b = true -> same b c = true -> same a c = true.
(** No position is repeated: two evaluations on the same key are one. *)
Definition evaluated_once {A} (same : A -> A -> bool) (evals : list A) (P : A -> Prop) : Prop :=
  forall i j a b, nth_error evals i = Some a -> nth_error evals j = Some b -> same a b = true -> P a -> i = j.
(** A crash that leaves no truncated file: before the file is opened, or after
    the whole text was written. *)
Definition harmless {A V} (f : A -> res V) (dump : V -> string * bool) (e : @persist_event A) : Prop :=
  match e with
  | Called _ => True
  | Killed a None => True
  | Killed a (Some n) => forall v, f a = Ok v -> String.length (fst (dump v)) <= n
  end.
Definition arg_of {A} (e : @persist_event A) : A := match e with Called a => a | Killed a _ => a end.
(** The answers a history should give. *)
Definition answers {A V} (f : A -> res V) (l : list persist_event) : list (A * res V) :=
  flat_map (fun e => match e with Called a => [(a, f a)] | Killed _ _ => [] end) l.

(** ** The models of the package *)
Definition rating_names : list string :=
  ["MOS"; "DMOS"; "LIVE_DMOS"; "LS"; "MLE_legacy"; "MLE"; "MLE_CO"; "MLE_SO"; "SR_MOS"; "SR_MOS_PCC"; "SR_MOS_SRCC"; "ZS_MOS"; "ZS_SR_MOS";
   "DMOS_MLE"; "DMOS_MLE_CO"; "SR_DMOS"; "ZS_SR_DMOS"; "PERSUBJECT"; "BR_MOS"; "BR_SR_MOS"; "BR_SR_MOS_PCC"; "BR_SR_MOS_SRCC";
   "Subject_MLE_Projection"; "Subject_MLE_Projection2"; "MLE_CO_AP"; "MLE_CO_AP2"; "BT500"; "P913"; "P910"]%string.
Definition paired_names : list string := ["BT_NR"; "BT_MLE"; "THURSTONE_MLE"]%string.
(** t names the rating model c; t names the paired comparison model c ([base] is
    SubjectiveModel, [pc] is PairedCompSubjectiveModel). *)
Definition rating_named (h : hierarchy) (base pc : nat) (t : string) (c : nat) : Prop := only_typed h base t c /\ ~ at_or_below h pc c.
Definition paired_named (h : hierarchy) (base pc : nat) (t : string) (c : nat) : Prop := only_typed h base t c /\ at_or_below h pc c.
