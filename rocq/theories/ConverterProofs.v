(** Lemmas for claims C94 and C95: text. *)
From Coq Require Import Ascii String.
From Coq Require Import List ZArith QArith Bool Arith Lia.
From Verif Require Import PyBase Num Dataset Names Commands Converter SpecNames SpecConverter BaseProofs NamesProofs CommandsProofs.
Import ListNotations.
Local Open Scope string_scope.
Local Open Scope list_scope.

(** ** strip *)
Lemma space_spec : forall a, space a = true <-> whitespace a.
Proof.
  intro a. unfold space, whitespace. generalize (nat_of_ascii a). intro n. cbn [In].
  rewrite orb_true_iff, !andb_true_iff, !Nat.leb_le. lia.
Qed.
Lemma space_false : forall a, space a = false <-> ~ whitespace a.
Proof. intro a. rewrite <- space_spec. destruct (space a); split; intro H; congruence. Qed.
Lemma blank_nil : blank "". Proof. intros a []. Qed.
Lemma blank_cons : forall a s, blank (String a s) <-> whitespace a /\ blank s.
Proof. intros a s. unfold blank. cbn [chars In]. split; [intro H; split; [apply H; auto|intros b Hb; apply H; auto]|intros [H1 H2] b [<-|Hb]; auto]. Qed.
Lemma blank_app : forall s t, blank (s ++ t)%string <-> blank s /\ blank t.
Proof. induction s as [|a s IH]; intro t; cbn [append]; [split; [intro H; split; [exact blank_nil|exact H]|tauto]|]. rewrite !blank_cons, IH. tauto. Qed.
Lemma lstrip_spec : forall s, exists l, s = (l ++ lstrip s)%string /\ blank l /\ forall a x, lstrip s = String a x -> ~ whitespace a.
Proof.
  induction s as [|a s (l & E & B & H)]; cbn [lstrip].
  - exists "". split; [reflexivity|]. split; [exact blank_nil|discriminate].
  - destruct (space a) eqn:S.
    + exists (String a l). cbn [append]. rewrite <- E. split; [reflexivity|]. split; [apply blank_cons; split; [apply space_spec; exact S|exact B]|exact H].
    + exists "". split; [reflexivity|]. split; [exact blank_nil|]. intros b x Q. injection Q as <- <-. apply space_false. exact S.
Qed.
Lemma rstrip_spec : forall s, exists r, s = (rstrip s ++ r)%string /\ blank r /\ (forall x a, rstrip s = (x ++ String a "")%string -> ~ whitespace a).
Proof.
  induction s as [|a s (r & E & B & H)]; cbn [rstrip].
  - exists "". split; [reflexivity|]. split; [exact blank_nil|]. intros x a Q. destruct x; discriminate.
  - destruct (rstrip s) as [|b t] eqn:R.
    + destruct (space a) eqn:S.
      * exists (String a r). cbn [append] in *. rewrite E. split; [reflexivity|]. split; [apply blank_cons; split; [apply space_spec; exact S|exact B]|].
        intros x b Q. destruct x; discriminate.
      * exists r. cbn [append] in *. rewrite E. split; [reflexivity|]. split; [exact B|]. intros x b Q. destruct x as [|c x]; cbn [append] in Q.
        -- injection Q as <-. apply space_false. exact S.
        -- injection Q as _ Q. destruct x; discriminate.
    + exists r. cbn [append] in *. rewrite <- E. split; [reflexivity|]. split; [exact B|]. intros x c Q. destruct x as [|d x]; cbn [append] in Q.
      * injection Q as _ Q. discriminate.
      * injection Q as _ Q. exact (H x c Q).
Qed.
Lemma rstrip_head : forall s a x, rstrip s = String a x -> exists y, s = String a y.
Proof. intros [|b s] a x; cbn [rstrip]; [discriminate|]. intro H. exists s. destruct (rstrip s); [destruct (space b); [discriminate|]|]; injection H as -> _; reflexivity. Qed.
Lemma strip_spec : forall s, strips s (strip s).
Proof.
  intro s. destruct (lstrip_spec s) as (l & E & B & H). destruct (rstrip_spec (lstrip s)) as (r & E' & B' & H'). exists l, r. unfold strip.
  split; [rewrite <- E'; exact E|]. split; [exact B|]. split; [exact B'|]. split; [|exact H'].
  intros a x Q. destruct (rstrip_head _ _ _ Q) as [y Y]. exact (H a y Y).
Qed.
Lemma lstrip_blank : forall l s, blank l -> lstrip (l ++ s)%string = lstrip s.
Proof. induction l as [|a l IH]; intros s B; [reflexivity|]. apply blank_cons in B as [W B]. cbn [append lstrip]. rewrite (proj2 (space_spec a) W). apply IH. exact B. Qed.
Lemma rstrip_blank : forall r, blank r -> rstrip r = "".
Proof. induction r as [|a r IH]; intro B; [reflexivity|]. apply blank_cons in B as [W B]. cbn [rstrip]. rewrite (IH B), (proj2 (space_spec a) W). reflexivity. Qed.
Lemma rstrip_keep : forall t r, blank r -> (forall x a, t = (x ++ String a "")%string -> ~ whitespace a) -> rstrip (t ++ r)%string = t.
Proof.
  induction t as [|a t IH]; intros r B H; [apply rstrip_blank; exact B|]. cbn [append rstrip]. rewrite IH; [|exact B|].
  - destruct t as [|b t]; [|reflexivity]. rewrite (proj2 (space_false a)); [reflexivity|]. apply (H "" a). reflexivity.
  - intros x c E. apply (H (String a x) c). cbn [append]. rewrite E. reflexivity.
Qed.
Lemma strip_fun : forall s t, strips s t -> strip s = t.
Proof.
  intros s t (l & r & -> & B & B' & H & H'). unfold strip. rewrite (lstrip_blank l _ B). destruct t as [|a t].
  - cbn [append]. rewrite <- (app_nil_r_s r) at 1. rewrite (lstrip_blank r "" B'). reflexivity.
  - cbn [append lstrip]. rewrite (proj2 (space_false a) (H a t eq_refl)). exact (rstrip_keep (String a t) r B' H').
Qed.
Lemma strips_iff : forall s t, strips s t <-> strip s = t.
Proof. intros s t. split; [apply strip_fun|intros <-; apply strip_spec]. Qed.
Lemma strip_strip : forall s, strip (strip s) = strip s.
Proof.
  intro s. apply strip_fun. destruct (strip_spec s) as (l & r & _ & _ & _ & H & H'). exists "", "". rewrite app_nil_r_s. cbn [append].
  split; [reflexivity|]. split; [exact blank_nil|]. split; [exact blank_nil|]. split; [exact H|exact H'].
Qed.

(** ** split *)
Lemma split_inv : forall c s, Forall (free c) (split_on c s) /\ String.concat (String c "") (split_on c s) = s.
Proof.
  intros c. induction s as [|a s [F E]]; [split; [constructor; [apply free_nil|constructor]|reflexivity]|]. cbn [split_on]. assert (NE := split_ne c s).
  destruct (Ascii.eqb_spec a c) as [->|D].
  - split; [constructor; [apply free_nil|exact F]|]. destruct (split_on c s) as [|h t]; [contradiction|]. change (String.concat (String c "") ("" :: h :: t)) with ("" ++ String c "" ++ String.concat (String c "") (h :: t))%string.
    rewrite E. reflexivity.
  - destruct (split_on c s) as [|h t]; [contradiction|]. inversion F as [|? ? F1 F2]; subst. split; [constructor; [apply free_cons; split; assumption|exact F2]|].
    destruct t as [|h' t]; reflexivity.
Qed.
Lemma three_spec : forall t db src hrc, split_on "_" t = [db; src; hrc] <-> three t db src hrc.
Proof.
  intros t db src hrc. split.
  - intro H. destruct (split_inv "_" t) as [F E]. rewrite H in F, E. inversion F as [|? ? F1 F']; subst. inversion F' as [|? ? F2 F'']; subst. inversion F'' as [|? ? F3 _]; subst.
    split; [reflexivity|]. auto.
  - intros (-> & F1 & F2 & F3). change ("_" ++ src ++ "_" ++ hrc)%string with (String "_" (src ++ String "_" hrc)). rewrite split_app, split_app, !split_free by assumption. reflexivity.
Qed.
Lemma three_fun : forall t db src hrc db' src' hrc', three t db src hrc -> three t db' src' hrc' -> db = db' /\ src = src' /\ hrc = hrc'.
Proof. intros t db src hrc db' src' hrc' H H'. apply three_spec in H. apply three_spec in H'. rewrite H in H'. injection H' as -> -> ->. auto. Qed.

(** ** Numbers *)
Lemma digit_spec : forall a z, digit a = Some z <-> decimal_digit a z.
Proof.
  intros a z. unfold digit, decimal_digit. generalize (nat_of_ascii a). intro n. destruct (Nat.leb 48 n && Nat.leb n 57) eqn:E.
  - apply andb_true_iff in E as [A B]. apply Nat.leb_le in A. apply Nat.leb_le in B. split; [intro H; injection H as <-; lia|]. intros [H1 H2]. f_equal. lia.
  - split; [discriminate|]. intros [H1 H2]. apply andb_false_iff in E as [E|E]; apply Nat.leb_gt in E; lia.
Qed.
Lemma digit_none : forall a, digit a = None <-> forall n, ~ decimal_digit a n.
Proof. intro a. split; [intros H n D; apply digit_spec in D; congruence|]. intro H. destruct (digit a) eqn:E; [|reflexivity]. apply digit_spec in E. destruct (H _ E). Qed.
Lemma number_acc : forall s z, number s z -> forall acc q, digits_from acc (s ++ q)%string = digits_from (acc * 10 ^ Z.of_nat (String.length s) + z) q.
Proof.
  induction 1 as [a z D|s y a z H IH D]; intros acc q.
  - cbn [append digits_from String.length]. apply digit_spec in D. rewrite D. f_equal. lia.
  - rewrite app_assoc_s, IH, length_app_s. cbn [append digits_from String.length]. apply digit_spec in D. rewrite D. f_equal.
    rewrite Nat2Z.inj_add, Z.pow_add_r by lia. change (10 ^ Z.of_nat 1)%Z with 10%Z. ring.
Qed.
Lemma number_head : forall s z, number s z -> exists a x d, s = String a x /\ decimal_digit a d.
Proof. induction 1 as [a z D|s y a z H (b & x & d & -> & D') D]; [exists a, "", z; auto|]. exists b, (x ++ String a "")%string, d. auto. Qed.
Lemma stop_zero : forall q acc, (forall a x n, q = String a x -> ~ decimal_digit a n) -> digits_from acc q = acc.
Proof. intros [|a q] acc H; [reflexivity|]. cbn [digits_from]. rewrite (proj2 (digit_none a)); [reflexivity|]. intro n. exact (H a q n eq_refl). Qed.
Lemma first_int_complete : forall s z, first_number s z -> first_int s = Done z.
Proof.
  intros s z (p & d & q & -> & P & D & Q). induction p as [|a p IH]; cbn [append first_int].
  - destruct (number_head d z D) as (a & x & n & -> & Da). cbn [append first_int]. assert (A := number_acc _ _ D 0 q). rewrite (stop_zero q _ Q) in A.
    cbn [append digits_from] in A. apply digit_spec in Da. rewrite Da in *. f_equal. rewrite Z.mul_0_r, !Z.add_0_l in A. rewrite A. lia.
  - rewrite (proj2 (digit_none a)); [|intro n; apply P; left; reflexivity]. apply IH. intros b n Hb. apply P. right. exact Hb.
Qed.
Lemma digits_number : forall s p acc, number p acc -> exists m q, s = (m ++ q)%string /\ number (p ++ m) (digits_from acc s) /\ forall a x n, q = String a x -> ~ decimal_digit a n.
Proof.
  induction s as [|a s IH]; intros p acc H.
  - exists "", "". rewrite (app_nil_r_s p). split; [reflexivity|]. split; [exact H|discriminate].
  - cbn [digits_from]. destruct (digit a) as [d|] eqn:E.
    + apply digit_spec in E. destruct (IH (p ++ String a "")%string (10 * acc + d)%Z (number_more _ _ _ _ H E)) as (m & q & -> & N & Q).
      exists (String a m), q. split; [reflexivity|]. rewrite app_assoc_s in N. split; [exact N|exact Q].
    + exists "", (String a s). rewrite (app_nil_r_s p). split; [reflexivity|]. split; [exact H|]. intros b x n Q. injection Q as <- <-. apply digit_none. exact E.
Qed.
Lemma first_int_sound : forall s z, first_int s = Done z -> first_number s z.
Proof.
  induction s as [|a s IH]; intros z H; [discriminate|]. cbn [first_int] in H. destruct (digit a) as [d|] eqn:E.
  - injection H as <-. apply digit_spec in E. destruct (digits_number s (String a "") d (number_one _ _ E)) as (m & q & -> & N & Q).
    exists "", (String a m), q. split; [reflexivity|]. split; [intros b n []|]. split; [exact N|exact Q].
  - destruct (IH z H) as (p & d & q & -> & P & D & Q). exists (String a p), d, q. split; [reflexivity|]. split; [|split; assumption].
    intros b n [<-|Hb]; [apply digit_none; exact E|apply P; exact Hb].
Qed.
Lemma first_int_iff : forall s z, first_int s = Done z <-> first_number s z.
Proof. intros s z. split; [apply first_int_sound|apply first_int_complete]. Qed.
Lemma first_int_err : forall s, (forall z, ~ first_number s z) -> first_int s = Raises AttributeError.
Proof.
  intros s H. assert (G : forall r, (exists z, first_int r = Done z) \/ first_int r = Raises AttributeError).
  { induction r as [|a r IH]; [right; reflexivity|]. cbn [first_int]. destruct (digit a); [left; eauto|exact IH]. }
  destruct (G s) as [[z E]|E]; [|exact E]. destruct (H z). apply first_int_iff. exact E.
Qed.

(** ** Letters *)
Definition lowercase (s : string) : Prop := forall a, In a (chars s) -> ~ (65 <= nat_of_ascii a <= 90)%nat.
Lemma lower_char_spec : forall a b, ~ (65 <= nat_of_ascii b <= 90)%nat -> (lower_char a = b <-> same_letter a b).
Proof.
  intros a b Hb. unfold lower_char, same_letter. destruct (Nat.leb 65 (nat_of_ascii a) && Nat.leb (nat_of_ascii a) 90) eqn:E.
  - apply andb_true_iff in E as [A B]. apply Nat.leb_le in A. apply Nat.leb_le in B. split.
    + intros <-. right. exists (nat_of_ascii a). split; [lia|]. split; [reflexivity|]. apply nat_ascii_embedding. lia.
    + intros [->|(k & Hk & <- & Q)]; [lia|]. rewrite <- Q. apply ascii_nat_embedding.
  - split; [auto|]. intros [->|(k & Hk & <- & Q)]; [reflexivity|]. apply andb_false_iff in E as [E|E]; apply Nat.leb_gt in E; lia.
Qed.
Lemma lower_spec : forall w key, lowercase w -> (lower key = w <-> spelled key w).
Proof.
  induction w as [|b w IH]; intros key H; unfold spelled.
  - destruct key; cbn [lower chars]; [split; [constructor|reflexivity]|]. split; [discriminate|intro F; inversion F].
  - destruct key as [|a key]; cbn [lower chars]; [split; [discriminate|intro F; inversion F]|]. assert (Hb := H b (or_introl eq_refl)). assert (Hw : lowercase w) by (intros x Hx; apply H; right; exact Hx).
    specialize (IH key Hw). split.
    + intro Q. injection Q as Q1 Q2. constructor; [apply lower_char_spec; assumption|]. apply IH. exact Q2.
    + intro F. inversion F as [|? ? ? ? S F']; subst. f_equal; [apply lower_char_spec; assumption|apply IH; exact F'].
Qed.
Lemma prefix_iff : forall p s, String.prefix p s = true <-> exists x, s = (p ++ x)%string.
Proof.
  induction p as [|a p IH]; intro s; [split; [intros _; exists s; reflexivity|destruct s; reflexivity]|]. destruct s as [|b s]; cbn [String.prefix].
  - split; [discriminate|]. intros [x E]. discriminate.
  - destruct (Ascii.ascii_dec a b) as [<-|D].
    + rewrite IH. split; intros [x E]; exists x; cbn [append] in *; congruence.
    + split; [discriminate|]. intros [x E]. injection E. congruence.
Qed.
Lemma lower_app : forall s t, lower (s ++ t)%string = (lower s ++ lower t)%string.
Proof. induction s as [|a s IH]; intro t; [reflexivity|]. cbn [append lower]. rewrite IH. reflexivity. Qed.
Lemma lower_split : forall w key x, lower key = (w ++ x)%string -> exists k y, key = (k ++ y)%string /\ lower k = w /\ lower y = x.
Proof.
  induction w as [|b w IH]; intros key x H; [exists "", key; auto|]. destruct key as [|a key]; [discriminate|]. cbn [append lower] in H. injection H as H1 H2.
  destruct (IH key x H2) as (k & y & -> & E1 & E2). exists (String a k), y. split; [reflexivity|]. split; [cbn [lower]; congruence|exact E2].
Qed.
Ltac lows := let H := fresh in intros ? H; cbn in H; repeat (destruct H as [<-|H]; [cbn; lia|]); contradiction.
Lemma skipped_spec : forall key, skipped key = true <-> other_column key.
Proof.
  intro key. unfold skipped, other_column. rewrite (memb_In _ String.eqb String.eqb_eq). cbn [In].
  rewrite <- !lower_spec by lows. intuition congruence.
Qed.
Lemma known_spec : forall key, known key = true <-> subject_name key.
Proof.
  intro key. unfold known, subject_name. cbn [existsb]. rewrite !orb_true_iff, !prefix_iff. split.
  - intros [[x E]|[[x E]|[[x E]|]]]; [| | |discriminate]; destruct (lower_split _ _ _ E) as (k & y & -> & E1 & E2).
    + exists k, y. split; [reflexivity|]. right. apply lower_spec; [lows|exact E1].
    + exists k, y. split; [reflexivity|]. left. apply lower_spec; [lows|exact E1].
    + destruct (lower_split "s" k "ubject" E1) as (k' & y' & -> & E3 & E4). exists k', (y' ++ y)%string. split; [apply app_assoc_s|]. left. apply lower_spec; [lows|exact E3].
  - intros (w & x & -> & [H|H]); apply lower_spec in H; try lows; rewrite lower_app, H; [right; left|left]; eexists; reflexivity.
Qed.
Lemma rating_column_dec : forall key, rating_column key <-> skipped key = false /\ known key = true.
Proof. intro key. unfold rating_column. rewrite <- skipped_spec, <- known_spec. destruct (skipped key), (known key); intuition congruence. Qed.
Lemma unknown_column_dec : forall key, unknown_column key <-> skipped key = false /\ known key = false.
Proof. intro key. unfold unknown_column. rewrite <- skipped_spec, <- known_spec. destruct (skipped key), (known key); intuition congruence. Qed.

(** ** Paths *)
Lemma os_join_spec : forall d f, joined d f (os_join d f).
Proof.
  intros d f. unfold joined, os_join. destruct (String.prefix "/" f) eqn:E.
  - left. split; [|reflexivity]. apply prefix_iff in E as [x ->]. exists x. reflexivity.
  - right. split; [|apply join_spec]. intros [x ->]. cbn [String.prefix] in E. destruct (Ascii.ascii_dec "/" "/"); [destruct x; discriminate|congruence].
Qed.
