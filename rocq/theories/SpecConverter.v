(** Specification for claims C94 and C95: tables of ratings. *)
From Coq Require Import Ascii String.
From Coq Require Import List ZArith QArith Bool Arith.
From Verif Require Import PyBase Names SpecNames Converter.
Import ListNotations.
Local Open Scope string_scope.
Local Open Scope list_scope.

Notation chars := list_ascii_of_string.
(** ** Text *)
Definition whitespace (a : ascii) : Prop := In (nat_of_ascii a) [9; 10; 11; 12; 13; 28; 29; 30; 31; 32]%nat.
Definition blank (s : string) : Prop := forall a, In a (chars s) -> whitespace a.
(** t is s without the blanks around it. *)
Definition strips (s t : string) : Prop :=
  exists l r, s = (l ++ t ++ r)%string /\ blank l /\ blank r /\
    (forall a x, t = String a x -> ~ whitespace a) /\ (forall x a, t = (x ++ String a "")%string -> ~ whitespace a).
(** <db>_<src>_<hrc> *)
Definition three (t db src hrc : string) : Prop :=
  t = (db ++ "_" ++ src ++ "_" ++ hrc)%string /\ free "_" db /\ free "_" src /\ free "_" hrc.
(** Decimal numbers. *)
Definition decimal_digit (a : ascii) (z : Z) : Prop := (0 <= z < 10)%Z /\ Z.of_nat (nat_of_ascii a) = (48 + z)%Z.
Inductive number : string -> Z -> Prop :=
| number_one : forall a z, decimal_digit a z -> number (String a "") z
| number_more : forall s y a z, number s y -> decimal_digit a z -> number (s ++ String a "") (10 * y + z).
(** z is the first number in s. *)
Definition first_number (s : string) (z : Z) : Prop :=
  exists p d q, s = (p ++ d ++ q)%string /\ (forall a n, In a (chars p) -> ~ decimal_digit a n) /\ number d z /\
    forall a x n, q = String a x -> ~ decimal_digit a n.
(** Upper and lower case. *)
Definition same_letter (a b : ascii) : Prop :=
  a = b \/ exists k, (65 <= k <= 90)%nat /\ nat_of_ascii a = k /\ nat_of_ascii b = (k + 32)%nat.
Definition spelled (key word : string) : Prop := Forall2 same_letter (chars key) (chars word).
(** The file in a directory; absolute names stay. *)
Definition joined (d f p : string) : Prop := (exists x, f = String "/" x) /\ p = f \/ (~ exists x, f = String "/" x) /\ joins d f p.

(** ** Tables *)
Definition other_column (key : string) : Prop := spelled key "pvs_id" \/ spelled key "mos" \/ spelled key "ci" \/ spelled key "n".
Definition subject_name (key : string) : Prop := exists w x, key = (w ++ x)%string /\ (spelled w "s" \/ spelled w "user").
Definition rating_column (key : string) : Prop := ~ other_column key /\ subject_name key.
Definition unknown_column (key : string) : Prop := ~ other_column key /\ ~ subject_name key.

Section Tables.
  Variable text_int : string -> res Z.
  (** The whole number of a cell, fractions dropped. *)
  Inductive rating : cell -> Z -> Prop :=
  | rating_int : forall z, rating (CInt z) z
  | rating_up : forall q z, (0 <= q -> inject_Z z <= q -> q < inject_Z (z + 1) -> rating (CFloat q) z)%Q
  | rating_down : forall q z, (q < 0 -> q <= inject_Z z -> inject_Z (z - 1) < q -> rating (CFloat q) z)%Q
  | rating_text : forall s z, text_int s = Ok z -> rating (CText s) z.
  (** The ratings of a row, in the order of the columns. *)
  Inductive votes : list string -> list cell -> list (string * Z) -> Prop :=
  | votes_nil : votes [] [] []
  | votes_rating : forall k c z ks row os, rating_column k -> rating c z -> votes ks row os -> votes (k :: ks) (c :: row) ((k, z) :: os)
  | votes_other : forall k c ks row os, ~ rating_column k -> votes ks row os -> votes (k :: ks) (c :: row) os.

  Definition frame_ok (fr : frame) : Prop := NoDup (fr_columns fr) /\ forall row, In row (fr_rows fr) -> List.length row = List.length (fr_columns fr).
  (** The PVS of a row. *)
  Definition pvs_cell (fr : frame) (row : list cell) (c : cell) : Prop := exists i, nth_error (fr_columns fr) i = Some "PVS_ID" /\ nth_error row i = Some c.
  Definition pvs_row (fr : frame) (row : list cell) (t : string) : Prop := exists s, pvs_cell fr row (CText s) /\ strips s t.
  (** d describes the PVS t, with the ratings of its first row. *)
  Definition dis_entry (fr : frame) (dis_dir ext t : string) (d : conv_dis) : Prop :=
    exists db src hrc before row after,
      three t db src hrc /\ first_number src (cd_content_id d) /\ first_number hrc (cd_asset_id d) /\
      fr_rows fr = before ++ row :: after /\ pvs_row fr row t /\ (forall r, In r before -> ~ pvs_row fr r t) /\
      votes (fr_columns fr) row (cd_os d) /\ joined dis_dir (t ++ ext)%string (cd_path d).
  (** r describes the source. *)
  Definition ref_entry (ref_dir ext src : string) (r : conv_ref) : Prop :=
    cr_content_name r = src /\ first_number src (cr_content_id r) /\ joined ref_dir (src ++ ext)%string (cr_path r).
  (** A row that can be converted. *)
  Definition row_ok (fr : frame) (row : list cell) : Prop :=
    exists t db src hrc c a os, pvs_row fr row t /\ three t db src hrc /\ first_number src c /\ first_number hrc a /\
      votes (fr_columns fr) row os.
  Definition table_ok (fr : frame) : Prop :=
    frame_ok fr /\ In "PVS_ID" (fr_columns fr) /\ (exists k, In k (fr_columns fr) /\ rating_column k) /\ forall row, In row (fr_rows fr) -> row_ok fr row.
End Tables.
(** A set is iterated once per element, in some order. *)
Definition set_order (order : list string -> list string) : Prop := forall l, NoDup (order l) /\ forall x, In x (order l) <-> In x l.
