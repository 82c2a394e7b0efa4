(** Lemmas for claims C89 and C90. *)
From Coq Require Import Ascii String.
From Coq Require Import List ZArith Bool Arith Lia.
From Verif Require Import PyBase Names SpecNames.
Import ListNotations.
Local Open Scope string_scope.

Lemma chars_app : forall s t, list_ascii_of_string (s ++ t) = (list_ascii_of_string s ++ list_ascii_of_string t)%list.
Proof. induction s as [|a s IH]; intro t; [reflexivity|]. cbn [append list_ascii_of_string app]. rewrite IH. reflexivity. Qed.
Lemma free_nil : forall c, free c "".
Proof. intros c []. Qed.
Lemma free_cons : forall c a s, free c (String a s) <-> a <> c /\ free c s.
Proof. intros. unfold free. cbn [list_ascii_of_string In]. intuition congruence. Qed.
Lemma free_app : forall c s t, free c (s ++ t) <-> free c s /\ free c t.
Proof. intros. unfold free. rewrite chars_app, in_app_iff. tauto. Qed.
Lemma app_nil_r_s : forall s, s ++ "" = s.
Proof. induction s as [|a s IH]; [reflexivity|]. cbn [append]. rewrite IH. reflexivity. Qed.
Lemma app_assoc_s : forall s t u, (s ++ t) ++ u = s ++ (t ++ u).
Proof. induction s as [|a s IH]; intros; [reflexivity|]. cbn [append]. rewrite IH. reflexivity. Qed.
Lemma length_app_s : forall s t, String.length (s ++ t) = (String.length s + String.length t)%nat.
Proof. induction s as [|a s IH]; intro t; [reflexivity|]. cbn [append String.length]. rewrite IH. reflexivity. Qed.
Lemma app_inj_l : forall x s t, x ++ s = x ++ t -> s = t.
Proof. induction x as [|a x IH]; intros s t H; [exact H|]. cbn [append] in H. injection H as H. apply IH. exact H. Qed.
Lemma app_inj_r : forall s t x, s ++ x = t ++ x -> s = t.
Proof.
  induction s as [|a s IH]; intros [|b t] x H; [reflexivity| | |].
  - exfalso. apply (f_equal String.length) in H. cbn [append String.length] in H. rewrite length_app_s in H. lia.
  - exfalso. apply (f_equal String.length) in H. cbn [append String.length] in H. rewrite length_app_s in H. lia.
  - cbn [append] in H. injection H as -> H. f_equal. apply (IH t x H).
Qed.

(** ** split *)
Lemma split_ne : forall c s, split_on c s <> [].
Proof. intros c [|a s]; cbn [split_on]; [discriminate|]. destruct (Ascii.eqb a c); [discriminate|]. destruct (split_on c s); discriminate. Qed.
Lemma split_free : forall c s, free c s -> split_on c s = [s].
Proof.
  induction s as [|a s IH]; intro H; [reflexivity|]. apply free_cons in H as [D H]. cbn [split_on]. apply Ascii.eqb_neq in D. rewrite D, (IH H). reflexivity.
Qed.
Lemma split_app : forall c d n, split_on c (d ++ String c n) = (split_on c d ++ split_on c n)%list.
Proof.
  induction d as [|a d IH]; intro n; cbn [append split_on].
  - rewrite Ascii.eqb_refl. reflexivity.
  - rewrite IH. destruct (Ascii.eqb a c); [reflexivity|]. assert (N := split_ne c d). destruct (split_on c d); [congruence|reflexivity].
Qed.
Lemma last_app_ne : forall A (l l' : list A) d, l' <> [] -> last (l ++ l') d = last l' d.
Proof.
  intros A l l' d H. induction l as [|a l IH]; [reflexivity|]. cbn [app last]. destruct (l ++ l')%list eqn:E; [|exact IH].
  apply app_eq_nil in E as [_ E]. contradiction.
Qed.
Lemma part_app : forall c d n, free c n -> last_part c (d ++ String c n) = n.
Proof. intros c d n H. unfold last_part. rewrite split_app, last_app_ne by apply split_ne. rewrite (split_free c n H). reflexivity. Qed.
Lemma part_free : forall c s, free c s -> last_part c s = s.
Proof. intros c s H. unfold last_part. rewrite (split_free c s H). reflexivity. Qed.

(** ** splitext *)
Lemma rfind_free : forall c s, free c s -> rfind c s = None.
Proof. induction s as [|a s IH]; intro H; [reflexivity|]. apply free_cons in H as [D H]. cbn [rfind]. apply Ascii.eqb_neq in D. rewrite (IH H), D. reflexivity. Qed.
Lemma rfind_app : forall c s e, free c e -> rfind c (s ++ String c e) = Some (String.length s).
Proof.
  induction s as [|a s IH]; intros e H; cbn [append rfind String.length].
  - rewrite (rfind_free c e H), Ascii.eqb_refl. reflexivity.
  - rewrite (IH e H). reflexivity.
Qed.
Lemma substring_head : forall s t, substring 0 (String.length s) (s ++ t) = s.
Proof. induction s as [|a s IH]; intro t; cbn [String.length append substring]; [destruct t; reflexivity|]. rewrite IH. reflexivity. Qed.
Lemma splitext_dot : forall s e, free "/" (s ++ String "." e) -> free "." e -> not_only "." s -> splitext (s ++ String "." e) = (s, String "." e).
Proof.
  intros s e HS HE [a [Ia Na]]. unfold splitext. rewrite (rfind_free _ _ HS), (rfind_app _ s e HE). cbn [Nat.leb andb]. rewrite Nat.sub_0_r, substring_head.
  replace (existsb (fun a => negb (Ascii.eqb a ".")) (list_ascii_of_string s)) with true.
  2:{ symmetry. apply existsb_exists. exists a. split; [exact Ia|]. apply negb_true_iff, Ascii.eqb_neq. exact Na. }
  f_equal. rewrite length_app_s. replace (String.length s + String.length (String "." e) - String.length s)%nat with (String.length (String "." e)) by lia.
  clear. induction s as [|b s IH]; [|exact IH]. cbn [String.length append].
  assert (Q := substring_head (String "." e) ""). rewrite app_nil_r_s in Q. exact Q.
Qed.
Lemma splitext_none : forall s, free "/" s -> (free "." s \/ exists d e, s = d ++ String "." e /\ free "." e /\ only "." d) -> splitext s = (s, "").
Proof.
  intros s HS [H|[d [e [-> [HE HO]]]]]; unfold splitext.
  - rewrite (rfind_free _ _ H). reflexivity.
  - rewrite (rfind_free _ _ HS), (rfind_app _ d e HE). cbn [Nat.leb andb]. rewrite Nat.sub_0_r, substring_head.
    replace (existsb (fun a => negb (Ascii.eqb a ".")) (list_ascii_of_string d)) with false; [reflexivity|].
    symmetry. destruct (existsb _ _) eqn:E; [|reflexivity]. apply existsb_exists in E as [a [Ia Na]]. rewrite (HO a Ia) in Na. discriminate.
Qed.

Lemma c89_name : forall n, free "/" n -> get_file_name_with_extension n = n /\ forall d, get_file_name_with_extension (d ++ "/" ++ n) = n.
Proof. intros n H. split; [apply part_free; exact H|]. intro d. apply part_app. exact H. Qed.
Lemma c89_stem : forall s e, free "/" (s ++ "." ++ e) -> free "." e -> not_only "." s ->
  get_file_name_without_extension (s ++ "." ++ e) = s /\ get_file_name_extension (s ++ "." ++ e) = e /\
  forall d, get_file_name_without_extension (d ++ "/" ++ s ++ "." ++ e) = s /\ get_file_name_extension (d ++ "/" ++ s ++ "." ++ e) = e.
Proof.
  intros s e HS HE HN. cbn [append] in *. unfold get_file_name_without_extension, get_file_name_extension.
  assert (X := splitext_dot s e HS HE HN). split; [|split; [|intro d; split]].
  - rewrite (part_free _ _ HS), X. reflexivity.
  - apply part_app. exact HE.
  - rewrite (part_app "/" d _ HS), X. reflexivity.
  - change (d ++ String "/" (s ++ String "." e)) with (d ++ (String "/" s ++ String "." e)). rewrite <- app_assoc_s. apply part_app. exact HE.
Qed.
Lemma c89_plain : forall n, free "/" n -> (free "." n \/ exists d e, n = d ++ "." ++ e /\ free "." e /\ only "." d) ->
  get_file_name_without_extension n = n /\ forall d, get_file_name_without_extension (d ++ "/" ++ n) = n.
Proof.
  intros n HS H. unfold get_file_name_without_extension. assert (X := splitext_none n HS H). split.
  - rewrite (part_free _ _ HS), X. reflexivity.
  - intro d. cbn [append]. rewrite (part_app "/" d n HS), X. reflexivity.
Qed.
(** Every path is one of these. *)
Lemma split_last : forall c s, free c s \/ exists d n, s = d ++ String c n /\ free c n.
Proof.
  induction s as [|a s [IH|[d [n [-> IH]]]]].
  - left. apply free_nil.
  - destruct (Ascii.eqb_spec a c) as [->|D]; [right; exists "", s; split; [reflexivity|exact IH]|left; apply free_cons; split; assumption].
  - right. exists (String a d), n. split; [reflexivity|exact IH].
Qed.
Lemma only_or_not : forall c s, only c s \/ not_only c s.
Proof.
  induction s as [|a s [IH|[b [Ib Nb]]]].
  - left. intros b [].
  - destruct (Ascii.eqb_spec a c) as [->|D]; [left; intros b [<-|I]; [reflexivity|apply IH; exact I]|right; exists a; split; [left; reflexivity|exact D]].
  - right. exists b. split; [right; exact Ib|exact Nb].
Qed.
Lemma c89_every : forall p, exists n, free "/" n /\ (p = n \/ exists d, p = d ++ "/" ++ n) /\
  (free "." n \/ (exists d e, n = d ++ "." ++ e /\ free "." e /\ only "." d) \/ exists s e, n = s ++ "." ++ e /\ free "." e /\ not_only "." s).
Proof.
  intro p. assert (D : exists n, free "/" n /\ (p = n \/ exists d, p = d ++ "/" ++ n)).
  { destruct (split_last "/" p) as [H|[d [n [-> H]]]]; [exists p; auto|]. exists n. split; [exact H|]. right. exists d. reflexivity. }
  destruct D as [n [Hn Hp]]. exists n. split; [exact Hn|]. split; [exact Hp|].
  destruct (split_last "." n) as [H|[d [e [E H]]]]; [left; exact H|]. right.
  destruct (only_or_not "." d) as [O|O]; [left|right]; exists d, e; auto.
Qed.
Lemma c89_slash_refuted : exists p, get_file_name_extension p = "b/c" /\ ~ free "/" (get_file_name_extension p).
Proof. exists "a.b/c". split; [reflexivity|]. intro H. apply H. right. left. reflexivity. Qed.
Lemma c89_hidden_refuted : exists p, get_file_name_with_extension p = ".bashrc" /\ get_file_name_extension p = "bashrc" /\ get_file_name_without_extension p = ".bashrc".
Proof. exists "home/.bashrc". repeat split. Qed.

(** ** versions *)
Lemma version_char_spec : forall a, version_char a = true <-> In a (list_ascii_of_string version_alphabet).
Proof.
  intro a. assert (E : version_char a = existsb (Ascii.eqb a) (list_ascii_of_string version_alphabet)).
  { destruct a as [b0 b1 b2 b3 b4 b5 b6 b7]. destruct b0, b1, b2, b3, b4, b5, b6, b7; vm_compute; reflexivity. }
  rewrite E, existsb_exists. split.
  - intros [x [I H]]. apply Ascii.eqb_eq in H. subst. exact I.
  - intro I. exists a. split; [exact I|apply Ascii.eqb_refl].
Qed.
Lemma at_end_spec : forall s, at_end s = true <-> s = "" \/ s = line_feed.
Proof.
  intros [|a [|b s]]; cbn [at_end].
  - split; auto.
  - rewrite Ascii.eqb_eq. unfold line_feed, newline. split; [intros ->; right; reflexivity|intros [H|H]; [discriminate|injection H as ->; reflexivity]].
  - split; [discriminate|intros [H|H]; discriminate].
Qed.
Lemma version_match_spec : forall s, version_match s = true <-> exists b, proper_version b /\ (s = b \/ s = b ++ line_feed).
Proof.
  induction s as [|a s IH]; cbn [version_match].
  - split; [discriminate|]. intros [b [[N _] [E|E]]]; [congruence|]. destruct b; discriminate.
  - rewrite andb_true_iff, orb_true_iff, version_char_spec, at_end_spec, IH. split.
    + intros [A [[E|E]|[b [[N Hb] E]]]].
      * subst. exists (String a ""). split; [split; [discriminate|intros c [<-|[]]; exact A]|left; reflexivity].
      * subst. exists (String a ""). split; [split; [discriminate|intros c [<-|[]]; exact A]|right; reflexivity].
      * exists (String a b). split; [split; [discriminate|intros c [<-|I]; [exact A|apply Hb; exact I]]|]. destruct E as [-> | ->]; [left|right]; reflexivity.
    + intros [b [[N Hb] E]]. destruct b as [|c b]; [congruence|]. assert (a = c) by (destruct E as [E|E]; cbn [append] in E; injection E; auto). subst c.
      split; [apply Hb; left; reflexivity|]. destruct b as [|c b].
      * left. destruct E as [E|E]; cbn [append] in E; injection E as ->; auto.
      * right. exists (String c b). split; [split; [discriminate|intros d I; apply Hb; right; exact I]|].
        destruct E as [E|E]; cbn [append] in E; injection E as ->; [left|right]; reflexivity.
Qed.
Lemma c89_version : forall s, (assert_type_version s = Ok tt <-> exists b, proper_version b /\ (s = b \/ s = b ++ line_feed)) /\
  ((forall b, proper_version b -> s <> b /\ s <> b ++ line_feed) -> assert_type_version s = Err AssertionError).
Proof.
  intro s. rewrite <- version_match_spec. unfold assert_type_version, assert_. split.
  - destruct (version_match s); split; intro; congruence.
  - intro H. destruct (version_match s) eqn:E; [|reflexivity]. apply version_match_spec in E as [b [P [Q|Q]]]; destruct (H b P); contradiction.
Qed.
Lemma c89_version_refuted : exists s, assert_type_version s = Ok tt /\ ~ proper_version s.
Proof.
  exists ("0.1" ++ line_feed). split; [reflexivity|]. intros [_ H]. specialize (H (Ascii.ascii_of_nat 10)).
  assert (I : In (Ascii.ascii_of_nat 10) (list_ascii_of_string ("0.1" ++ line_feed))) by (right; right; right; left; reflexivity).
  apply H in I. apply version_char_spec in I. discriminate.
Qed.

(** Cutting at the last separator. *)
Lemma cut_inj : forall c s1 s2 v1 v2, free c v1 -> free c v2 -> s1 ++ String c v1 = s2 ++ String c v2 -> s1 = s2 /\ v1 = v2.
Proof.
  intros c s1 s2 v1 v2 H1 H2 E. assert (V : v1 = v2). { rewrite <- (part_app c s1 v1 H1), E. apply part_app. exact H2. }
  subst. split; [|reflexivity]. apply app_inj_r in E. exact E.
Qed.
Lemma c89_unique : forall t1 t2 v1 v2, free "V" v1 -> free "V" v2 -> type_version_string t1 v1 = type_version_string t2 v2 -> t1 = t2 /\ v1 = v2.
Proof.
  intros t1 t2 v1 v2 H1 H2 E. unfold type_version_string in E.
  assert (E' : (t1 ++ "_") ++ String "V" v1 = (t2 ++ "_") ++ String "V" v2) by (rewrite !app_assoc_s; exact E).
  destruct (cut_inj _ _ _ _ _ H1 H2 E') as [A B]. split; [apply app_inj_r in A; exact A|exact B].
Qed.
Lemma proper_free : forall v, version_match v = true -> free " " v.
Proof.
  intros v H. apply version_match_spec in H as [b [[_ Hb] E]]. assert (F : free " " b). { intro I. apply Hb in I. apply version_char_spec in I. discriminate. }
  destruct E as [-> | ->]; [exact F|]. apply free_app. split; [exact F|]. intros [I|[]]. discriminate.
Qed.
Lemma c89_cozy : forall t1 t2 v1 v2, assert_type_version v1 = Ok tt -> assert_type_version v2 = Ok tt ->
  cozy_type_version_string t1 v1 = cozy_type_version_string t2 v2 -> t1 = t2 /\ v1 = v2.
Proof.
  intros t1 t2 v1 v2 H1 H2 E. unfold cozy_type_version_string in E. unfold assert_type_version, assert_ in H1, H2.
  destruct (version_match v1) eqn:M1; [|discriminate]. destruct (version_match v2) eqn:M2; [|discriminate].
  assert (E' : (t1 ++ " VERSION") ++ String " " v1 = (t2 ++ " VERSION") ++ String " " v2) by (rewrite !app_assoc_s; exact E).
  destruct (cut_inj _ _ _ _ _ (proper_free v1 M1) (proper_free v2 M2) E') as [A B]. split; [apply app_inj_r in A; exact A|exact B].
Qed.
Lemma c89_unique_refuted : exists t1 t2 v1 v2, assert_type_version v1 = Ok tt /\ assert_type_version v2 = Ok tt /\
  type_version_string t1 v1 = type_version_string t2 v2 /\ (t1, v1) <> (t2, v2).
Proof. exists "MOS_V1", "MOS", "2", "1_V2". repeat split. discriminate. Qed.

(** ** persist_to_file *)
Lemma c90_never : forall A V digest (name : A -> string) (f : A -> res V) dump cache file args,
  persist_file_call digest name f dump cache file args = (cache, file, Err TypeError).
Proof. reflexivity. Qed.
Lemma c90_decorate : forall V (load : string -> res (list (string * V))),
  persist_to_file load None = Cached [] /\
  (forall text c, load text = Ok c -> persist_to_file load (Some text) = Cached c) /\
  (forall text, load text = Err ValueError -> persist_to_file load (Some text) = Exits 1).
Proof. intros V load. split; [reflexivity|]. split; intros text; [intros c H|intro H]; unfold persist_to_file; rewrite H; reflexivity. Qed.
Lemma c90_calls : forall A V digest (name : A -> string) (f : A -> res V) dump calls cache file,
  fold_left (fun st x => let '(c, t, out) := st in let '(c', t', v) := persist_file_call digest name f dump c t x in (c', t', (out ++ [v])%list)) calls (cache, file, [])
  = (cache, file, repeat (Err TypeError) (List.length calls)).
Proof.
  intros A V digest name f dump calls cache file.
  assert (G : forall out, fold_left (fun st x => let '(c, t, out) := st in let '(c', t', v) := persist_file_call digest name f dump c t x in (c', t', (out ++ [v])%list)) calls (cache, file, out)
    = (cache, file, (out ++ repeat (Err TypeError) (List.length calls))%list)).
  { induction calls as [|x l IH]; intro out; [rewrite app_nil_r; reflexivity|].
    change (fold_left _ (x :: l) (cache, file, out)) with (fold_left (fun st x => let '(c, t, out) := st in let '(c', t', v) := persist_file_call digest name f dump c t x in (c', t', (out ++ [v])%list)) l (cache, file, (out ++ [Err TypeError])%list)).
    rewrite IH. cbn [List.length repeat]. rewrite <- app_assoc. reflexivity. }
  exact (G []).
Qed.
Lemma c90_value_refuted : exists (f : Z -> res Z) x, f x = Ok (x + 1)%Z /\
  forall digest name dump cache file, snd (persist_file_call digest name f dump cache file x) = Err TypeError.
Proof. exists (fun x => Ok (x + 1)%Z), 3%Z. split; reflexivity. Qed.
