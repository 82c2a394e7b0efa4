(** File names (sureal/tools/misc.py:36-77), version strings
    (sureal/core/mixin.py:32-46) and the file cache of
    sureal/tools/decorator.py:12-36. *)
From Coq Require Import Ascii String.
From Coq Require Import List ZArith Bool Arith.
From Verif Require Import PyBase.
Import ListNotations.
Local Open Scope string_scope.

(** [s.split(c)] for one character *)
Fixpoint split_on (c : ascii) (s : string) : list string :=
  match s with
  | EmptyString => [""]
  | String a r =>
      if Ascii.eqb a c then "" :: split_on c r
      else match split_on c r with h :: t => String a h :: t | [] => [String a ""] end
  end.

(** [s.split(c)[-1]] *)
Definition last_part (c : ascii) (s : string) : string := last (split_on c s) "".

(** [s.rfind(c)], None for -1 *)
Fixpoint rfind (c : ascii) (s : string) : option nat :=
  match s with
  | EmptyString => None
  | String a r => match rfind c r with Some i => Some (S i) | None => if Ascii.eqb a c then Some 0 else None end
  end.

(** os.path.splitext on POSIX (called in sureal/tools/misc.py:51): the last dot
    counts when it is in the last component and not only preceded by dots there. *)
Definition splitext (p : string) : string * string :=
  let first := match rfind "/" p with Some i => S i | None => 0 end in
  match rfind "." p with
  | Some d =>
      if Nat.leb first d && existsb (fun a => negb (Ascii.eqb a ".")) (list_ascii_of_string (substring first (d - first) p))
      then (substring 0 d p, substring d (String.length p - d) p)
      else (p, "")
  | None => (p, "")
  end.

(** sureal/tools/misc.py:36-51 *)
Definition get_file_name_without_extension (path : string) : string := fst (splitext (last_part "/" path)).
(** sureal/tools/misc.py:54-65 *)
Definition get_file_name_with_extension (path : string) : string := last_part "/" path.
(** sureal/tools/misc.py:68-77 *)
Definition get_file_name_extension (path : string) : string := last_part "." path.

(** [[a-zA-Z0-9._-]] (sureal/core/mixin.py:37) *)
Definition version_char (a : ascii) : bool :=
  let n := nat_of_ascii a in
  (Nat.leb 97 n && Nat.leb n 122) || (Nat.leb 65 n && Nat.leb n 90) || (Nat.leb 48 n && Nat.leb n 57) ||
  Ascii.eqb a "." || Ascii.eqb a "_" || Ascii.eqb a "-".
(** [$] matches at the end and before a newline that ends the string. *)
Definition newline : ascii := Ascii.ascii_of_nat 10.
Definition at_end (s : string) : bool := match s with EmptyString => true | String a EmptyString => Ascii.eqb a newline | _ => false end.
(** re.match(r"^[a-zA-Z0-9._-]+$", s) *)
Fixpoint version_match (s : string) : bool :=
  match s with
  | EmptyString => false
  | String a r => version_char a && (at_end r || version_match r)
  end.
(** sureal/core/mixin.py:29-38 *)
Definition assert_type_version (version : string) : res unit := assert_ (version_match version).
(** sureal/core/mixin.py:40-42 *)
Definition type_version_string (type version : string) : string := type ++ "_V" ++ version.
(** sureal/core/mixin.py:44-46 *)
Definition cozy_type_version_string (type version : string) : string := type ++ " VERSION " ++ version.

(** ** persist_to_file, sureal/tools/decorator.py:12-36 *)
Section PersistFile.
  Context {A V : Type}.
  (** [load]: json.load of the text of the file (an unreadable file, IOError, is
      taken for one that does not parse); [digest]: the hexadecimal SHA-1 of bytes. *)
  Variables (load : string -> res (list (string * V))) (digest : string -> string) (name : A -> string) (f : A -> res V) (dump : list (string * V) -> string).
  (** Python 3 text and bytes; hashlib.sha1(x).hexdigest() refuses text. *)
  Inductive buffer := Text (s : string) | Bytes (s : string).
  Definition sha1 (x : buffer) : res string := match x with Text _ => Err TypeError | Bytes s => Ok (digest s) end.

  (** What decorating leads to: sys.exit(1) ends the program (decorator.py:24-25). *)
  Inductive decorated := Exits (code : Z) | Cached (cache : list (string * V)) | Raises (e : exn).

  (** decorator.py:17-25; None when the file does not exist.  json.load fails with
      ValueError; other exceptions are not caught. *)
  Definition persist_to_file (file : option string) : decorated :=
    match file with
    | None => Cached []
    | Some text => match load text with
                   | Ok c => Cached c
                   | Err ValueError => Exits 1
                   | Err e => Raises e
                   end
    end.

  (** decorator.py:27-32 new_func: the cache, the file and the answer; line 28 hashes
      the text itself ([name args] is str(__name__) + str(args)). *)
  Definition persist_file_call (cache : list (string * V)) (file : option string) (args : A) : list (string * V) * option string * res V :=
    match sha1 (Text (name args)) with
    | Err e => (cache, file, Err e)
    | Ok h =>
        match dget String.eqb cache h with
        | Some v => (cache, file, Ok v)
        | None => match f args with
                  | Err e => (cache, file, Err e)
                  | Ok v => let c := dset String.eqb cache h v in (c, Some (dump c), Ok v)
                  end
        end
    end.
End PersistFile.
