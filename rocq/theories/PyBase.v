(** Python values used by the model: exceptions, ordered dictionaries, lists.
    Mirrors language behaviour rather than a file of /repo; every definition
    says which construct it stands for and where /repo relies on it. *)
From Coq Require Import List ZArith Bool String Ascii Lia.
Import ListNotations.
Local Open Scope Z_scope.

(** Exceptions that /repo's code can raise on the modelled paths
    (e.g. sureal/dataset_reader.py:26,28,136; sureal/tools/misc.py:26-33). *)
Inductive exn :=
| AssertionError | KeyError | IndexError | ValueError | TypeError
| AttributeError | NotImplementedError | ZeroDivisionError | LinAlgError
| Diverges.  (* not an exception: the fuel given to a while loop ran out *)

(** Outcome of a Python call: a value or a raised exception. *)
Inductive res (A : Type) := Ok (a : A) | Err (e : exn).
Arguments Ok {A} a.
Arguments Err {A} e.

(** Sequencing of statements: an exception stops the computation. *)
Definition bind {A B} (x : res A) (f : A -> res B) : res B :=
  match x with Ok a => f a | Err e => Err e end.

Notation "'do' x <- m ; k" := (bind m (fun x => k))
  (at level 200, x name, m at level 100, k at level 200).

(** The [assert c] statement (e.g. sureal/dataset_reader.py:28). *)
Definition assert_ (c : bool) : res unit := if c then Ok tt else Err AssertionError.

(** A [for] loop that collects one value per element and stops at the first
    exception (e.g. sureal/dataset_reader.py:216-222). *)
Fixpoint mapM {A B} (f : A -> res B) (l : list A) : res (list B) :=
  match l with
  | [] => Ok []
  | a :: l' => do b <- f a; do bs <- mapM f l'; Ok (b :: bs)
  end.

(** A [for] loop threading a mutable state (e.g. sureal/dataset_reader.py:431-434). *)
Fixpoint foldM {A S} (f : S -> A -> res S) (l : list A) (s : S) : res S :=
  match l with
  | [] => Ok s
  | a :: l' => do s' <- f s a; foldM f l' s'
  end.

(** A [for] loop of checks only (e.g. sureal/dataset_reader.py:27-30). *)
Definition forM_ {A} (f : A -> res unit) (l : list A) : res unit :=
  foldM (fun _ a => f a) l tt.

(** [l[i]] for a non-negative index, IndexError past the end. *)
Definition py_index {A} (l : list A) (i : nat) : res A :=
  match nth_error l i with Some a => Ok a | None => Err IndexError end.

(** [l[i]] for any Python integer: negative indices count from the end
    (sureal/dataset_reader.py:1031 relies on it through numpy). *)
Definition py_norm_index (n : nat) (i : Z) : option nat :=
  if (0 <=? i) && (i <? Z.of_nat n) then Some (Z.to_nat i)
  else if (- Z.of_nat n <=? i) && (i <? 0) then Some (Z.to_nat (i + Z.of_nat n))
  else None.

(** Python dictionaries: association lists in insertion order.  Setting an
    existing key keeps its position (language guarantee since 3.7). *)
Section Dict.
  Context {K V : Type} (keqb : K -> K -> bool).

  Fixpoint dget (d : list (K * V)) (k : K) : option V :=
    match d with
    | [] => None
    | (k', v) :: d' => if keqb k k' then Some v else dget d' k
    end.

  Fixpoint dset (d : list (K * V)) (k : K) (v : V) : list (K * V) :=
    match d with
    | [] => [(k, v)]
    | (k', v') :: d' => if keqb k k' then (k', v) :: d' else (k', v') :: dset d' k v
    end.

  Definition dmem (d : list (K * V)) (k : K) : bool :=
    match dget d k with Some _ => true | None => false end.

  Definition dkeys (d : list (K * V)) : list K := map fst d.
  Definition dvals (d : list (K * V)) : list V := map snd d.

  (** [d[k]] raising KeyError. *)
  Definition dget_res (d : list (K * V)) (k : K) : res V :=
    match dget d k with Some v => Ok v | None => Err KeyError end.

  (** Deletion, [del d[k]]. *)
  Definition ddel (d : list (K * V)) (k : K) : list (K * V) :=
    filter (fun kv => negb (keqb k (fst kv))) d.
End Dict.

(** Order of Python strings: lexicographic by code point; ASCII strings here
    ([sorted] in sureal/tools/misc.py:26-33). *)
Fixpoint str_leb (a b : string) : bool :=
  match a, b with
  | EmptyString, _ => true
  | String _ _, EmptyString => false
  | String x a', String y b' =>
      if Nat.ltb (nat_of_ascii x) (nat_of_ascii y) then true
      else if Nat.ltb (nat_of_ascii y) (nat_of_ascii x) then false
      else str_leb a' b'
  end.

(** Insertion into a sorted list; [sorted] is modelled by insertion sort
    (the result of sorting is unique up to equal keys). *)
Fixpoint ins {A} (leb : A -> A -> bool) (x : A) (l : list A) : list A :=
  match l with
  | [] => [x]
  | y :: l' => if leb x y then x :: l else y :: ins leb x l'
  end.
Definition isort {A} (leb : A -> A -> bool) (l : list A) : list A :=
  fold_right (ins leb) [] l.

(** [set(l)] followed by a sort only needs the distinct elements. *)
Fixpoint undup {A} (eqb : A -> A -> bool) (l : list A) : list A :=
  match l with
  | [] => []
  | x :: l' => if existsb (eqb x) l' then undup eqb l' else x :: undup eqb l'
  end.

(** sureal/tools/misc.py:26-33 get_unique_sorted_list: [sorted(list(set(l)))]. *)
Definition get_unique_sorted_list {A} (eqb leb : A -> A -> bool) (l : list A) : list A :=
  isort leb (undup eqb l).

(** [x in l]. *)
Definition memb {A} (eqb : A -> A -> bool) (x : A) (l : list A) : bool := existsb (eqb x) l.

(** Functional update of a list position, [l[i] = v] for i in range. *)
Fixpoint list_set {A} (l : list A) (i : nat) (v : A) : list A :=
  match l, i with
  | [], _ => []
  | _ :: l', O => v :: l'
  | x :: l', S i' => x :: list_set l' i' v
  end.

(** Decimal representation of a natural number, [str(n)]
    (sureal/dataset_reader.py:399-408, 587-611). *)
Definition digit (n : nat) : ascii := ascii_of_nat (48 + n).
Fixpoint str_nat_aux (fuel n : nat) (acc : string) : string :=
  match fuel with
  | O => acc
  | S f => let acc' := String (digit (Nat.modulo n 10)) acc in
           if Nat.ltb n 10 then acc' else str_nat_aux f (Nat.div n 10) acc'
  end.
Definition str_of_nat (n : nat) : string := str_nat_aux (S n) n EmptyString.
