(** Helpers of the package: sureal/tools/misc.py and sureal/tools/decorator.py. *)
From Coq Require Import String.
From Coq Require Import List ZArith Bool Arith.
From Verif Require Import PyBase.
Import ListNotations.
Local Open Scope list_scope.

(** ** parallel_map, sureal/tools/misc.py:173-231 *)
Section ParallelMap.
  Context {V : Type}.

  (** Where the parent process is in its loop.
      [Scan l]: misc.py:210-212, the workers of the copied active set still to
      look at; [Launch]: misc.py:215-219; [Check]: misc.py:222-223 (the sleep of
      misc.py:225-226 has no effect); [Finished]: after the loop. *)
  Inductive pm_pc := Scan (todo : list nat) | Launch | Check | Finished.

  (** Jobs are numbered (misc.py:194-196).  [pm_running]: worker processes that
      have been started and are still alive; [pm_dict]: the shared return_dict;
      [pm_log]: job numbers in the order they were started. *)
  Record pm_state := PM {
    pm_waiting : list nat; pm_active : list nat; pm_running : list nat;
    pm_log : list nat; pm_dict : list (nat * V); pm_at : pm_pc }.

  (** misc.py:198-204: nothing started, an empty shared dictionary. *)
  Definition pm_init (n : nat) : pm_state := PM (seq 0 n) [] [] [] [] (Scan []).

  (** What happens next: the parent takes a step ([pick] chooses the next element
      of the set iterated over in misc.py:210 or popped in misc.py:217), a live worker stores its result
      (misc.py:187-190) or a live worker ends, having stored it or not. *)
  Inductive pm_event := Parent (pick : nat) | Store (w : nat) | Exit (w : nat).

  (** Removal of an element of a set of job numbers. *)
  Definition remove_nat (x : nat) (l : list nat) : list nat := filter (fun y => negb (Nat.eqb y x)) l.

  (** max_active_procs, misc.py:182; [limit] is any Python integer. *)
  Variables (limit : Z) (value : nat -> V).

  (** One event; None when it cannot happen. *)
  Definition pm_step (s : pm_state) (e : pm_event) : option pm_state :=
    match e with
    | Store w =>
        if memb Nat.eqb w (pm_running s)
        then Some (PM (pm_waiting s) (pm_active s) (pm_running s) (pm_log s) (dset Nat.eqb (pm_dict s) w (value w)) (pm_at s))
        else None
    | Exit w =>
        if memb Nat.eqb w (pm_running s)
        then Some (PM (pm_waiting s) (pm_active s) (remove_nat w (pm_running s)) (pm_log s) (pm_dict s) (pm_at s))
        else None
    | Parent pick =>
        match pm_at s with
        | Scan (x :: l) =>
            if memb Nat.eqb pick (x :: l)
            then Some (PM (pm_waiting s)
                          (if memb Nat.eqb pick (pm_running s) then pm_active s else remove_nat pick (pm_active s))
                          (pm_running s) (pm_log s) (pm_dict s) (Scan (remove_nat pick (x :: l))))
            else None
        | Scan [] => Some (PM (pm_waiting s) (pm_active s) (pm_running s) (pm_log s) (pm_dict s) Launch)
        | Launch =>
            if (Z.of_nat (length (pm_active s)) <? limit)%Z && negb (Nat.eqb (length (pm_waiting s)) 0)
            then if memb Nat.eqb pick (pm_waiting s)
                 then Some (PM (remove_nat pick (pm_waiting s)) (pick :: pm_active s) (pick :: pm_running s)
                               (pm_log s ++ [pick]) (pm_dict s) Check)
                 else None
            else Some (PM (pm_waiting s) (pm_active s) (pm_running s) (pm_log s) (pm_dict s) Check)
        | Check =>
            if Nat.eqb (length (pm_waiting s)) 0 && Nat.eqb (length (pm_active s)) 0
            then Some (PM (pm_waiting s) (pm_active s) (pm_running s) (pm_log s) (pm_dict s) Finished)
            else Some (PM (pm_waiting s) (pm_active s) (pm_running s) (pm_log s) (pm_dict s) (Scan (pm_active s)))
        | Finished => None
        end
    end.

  (** A schedule: a sequence of events, each possible when it happens. *)
  Fixpoint pm_run (s : pm_state) (es : list pm_event) : option pm_state :=
    match es with
    | [] => Some s
    | e :: es' => match pm_step s e with Some s' => pm_run s' es' | None => None end
    end.

  (** misc.py:229 rets = list(map(lambda idx: return_dict[idx], range(len(list_args)))):
      KeyError for a job that stored nothing; TypeError when list_args has no
      length (sureal/tools/stats.py:71 passes a zip object). *)
  Definition pm_collect (has_len : bool) (n : nat) (d : list (nat * V)) : res (list V) :=
    if has_len then mapM (fun i => dget_res Nat.eqb d i) (seq 0 n) else Err TypeError.
End ParallelMap.
Arguments pm_state : clear implicits.

(** ** memoized, sureal/tools/decorator.py:82-109 *)
Section Memoized.
  Context {A V : Type}.
  (** [same]: equality of argument tuples as dictionary keys; [hashable]: false
      for tuples holding a list, dict or set. *)
  Variables (same : A -> A -> bool) (hashable : A -> bool) (f : A -> res V).

  (** self.cache and, for counting, the arguments func was evaluated on. *)
  Record memo := Memo { m_cache : list (A * V); m_evals : list A }.
  Definition memo_new : memo := Memo [] [].

  (** decorator.py:99-107 __call__.  A tuple always has the attribute __hash__,
      so the first branch is never taken; [args in self.cache] hashes the tuple. *)
  Definition memo_call (m : memo) (args : A) : memo * res V :=
    if negb (hashable args) then (m, Err TypeError) else
    match dget same (m_cache m) args with
    | Some v => (m, Ok v)
    | None =>
        match f args with
        | Ok v => (Memo (dset same (m_cache m) args v) (m_evals m ++ [args]), Ok v)
        | Err e => (Memo (m_cache m) (m_evals m ++ [args]), Err e)
        end
    end.

  (** A sequence of calls: the values seen by the callers. *)
  Fixpoint memo_calls (m : memo) (l : list A) : memo * list (res V) :=
    match l with
    | [] => (m, [])
    | a :: l' => let (m1, r) := memo_call m a in let (m2, rs) := memo_calls m1 l' in (m2, r :: rs)
    end.
End Memoized.

(** ** persist_to_dir, sureal/tools/decorator.py:39-60 *)
Section Persist.
  Context {A V : Type}.
  (** [name]: the sha1 of the function's name and str(args) (decorator.py:47);
      [dump]: what json.dump writes, and whether it completes or raises TypeError
      part of the way; [load]: json.load on the text of a file (ValueError when
      it is not JSON). *)
  Variables (name : A -> string) (f : A -> res V) (dump : V -> string * bool) (load : string -> res V).

  (** The files of the directory (created on demand, decorator.py:50-51). *)
  Definition files := list (string * string).

  (** new_func run to its end, decorator.py:46-56. *)
  Definition persist_call (d : files) (args : A) : files * res V :=
    match dget String.eqb d (name args) with
    | Some text => (d, load text)
    | None =>
        match f args with
        | Err e => (d, Err e)
        | Ok v => (dset String.eqb d (name args) (fst (dump v)),
                   if snd (dump v) then Ok v else Err TypeError)
        end
    end.

  (** new_func killed: None before the file is opened, [Some n] when n characters
      have reached the file (open with 'wt' has created it by then). *)
  Definition persist_crash (d : files) (args : A) (written : option nat) : files :=
    match dget String.eqb d (name args), written, f args with
    | None, Some n, Ok v => dset String.eqb d (name args) (substring 0 n (fst (dump v)))
    | _, _, _ => d
    end.

  Inductive persist_event := Called (a : A) | Killed (a : A) (written : option nat).

  (** A history of calls and crashes; the answers of the completed calls. *)
  Fixpoint persist_history (d : files) (l : list persist_event) : files * list (A * res V) :=
    match l with
    | [] => (d, [])
    | Called a :: l' =>
        let (d1, r) := persist_call d a in
        let (d2, rs) := persist_history d1 l' in (d2, (a, r) :: rs)
    | Killed a w :: l' => persist_history (persist_crash d a w) l'
    end.
End Persist.

(** ** Command line options, sureal/tools/misc.py:125-170 *)
(** argv[i] for a Python integer. *)
Definition py_at {A} (l : list A) (i : Z) : res A :=
  match py_norm_index (length l) i with Some n => py_index l n | None => Err IndexError end.

(** range(begin, end) *)
Definition py_range (b e : Z) : list Z := map (fun k => (b + Z.of_nat k)%Z) (seq 0 (Z.to_nat (e - b))).

(** misc.py:142-144: the loop; the value of itr when it is left. *)
Fixpoint opt_loop (argv : list string) (option : string) (is : list Z) (itr : Datatypes.option Z) : res (Datatypes.option Z) :=
  match is with
  | [] => Ok itr
  | i :: is' => do x <- py_at argv i; if String.eqb x option then Ok (Some i) else opt_loop argv option is' (Some i)
  end.

(** misc.py:125-147 get_cmd_option *)
Definition get_cmd_option (argv : list string) (b e : Z) (option : string) : res (Datatypes.option string) :=
  do itr <- opt_loop argv option (py_range b e) None;
  match itr with
  | Some i => if negb (i =? e)%Z && negb (i + 1 =? e)%Z then (do x <- py_at argv (i + 1); Ok (Some x)) else Ok None
  | None => Ok None
  end.

(** misc.py:150-170 cmd_option_exists *)
Fixpoint exists_loop (argv : list string) (option : string) (is : list Z) : res bool :=
  match is with
  | [] => Ok false
  | i :: is' => do x <- py_at argv i; if String.eqb x option then Ok true else exists_loop argv option is'
  end.
Definition cmd_option_exists (argv : list string) (b e : Z) (option : string) : res bool :=
  exists_loop argv option (py_range b e).
