(** Lemmas about PyBase: loops, dictionaries, sorting. *)
From Coq Require Import String Ascii.
From Coq Require Import List ZArith Bool Arith Lia Permutation Sorted.
From Verif Require Import PyBase.
Import ListNotations.
Local Open Scope list_scope.

(** * Loops *)

Lemma mapM_Ok : forall A B (f : A -> res B) l bs,
  mapM f l = Ok bs <-> Forall2 (fun a b => f a = Ok b) l bs.
Proof.
  intros A B f l; induction l as [|a l IH]; intros bs; simpl.
  - split; intro H; [injection H as <-; constructor | inversion H; reflexivity].
  - destruct (f a) as [b|e] eqn:E; simpl.
    + destruct (mapM f l) as [bs'|e'] eqn:E'; simpl.
      * split; intro H.
        -- injection H as <-. constructor; [assumption | apply IH; reflexivity].
        -- inversion H; subst. rewrite E in H2; injection H2 as <-.
           apply IH in H4. injection H4 as <-. reflexivity.
      * split; intro H; [discriminate|]. inversion H; subst.
        apply IH in H4; discriminate.
    + split; intro H; [discriminate|]. inversion H; subst. congruence.
Qed.

Lemma Forall2_len : forall A B (P : A -> B -> Prop) l l', Forall2 P l l' -> length l = length l'.
Proof. intros A B P l l' H; induction H; simpl; congruence. Qed.

Lemma mapM_length : forall A B (f : A -> res B) l bs, mapM f l = Ok bs -> length bs = length l.
Proof. intros. apply mapM_Ok in H. symmetry. eapply Forall2_len; eauto. Qed.

Lemma mapM_total : forall A B (f : A -> res B) l,
  (forall a, In a l -> exists b, f a = Ok b) -> exists bs, mapM f l = Ok bs.
Proof.
  induction l as [|a l IH]; intros H; simpl; [eexists; reflexivity|].
  destruct (H a (or_introl eq_refl)) as [b Hb]. rewrite Hb. simpl.
  destruct IH as [bs Hbs]; [intros; apply H; right; assumption|].
  rewrite Hbs. simpl. eexists; reflexivity.
Qed.

Lemma mapM_ext_in : forall A B (f g : A -> res B) l,
  (forall a, In a l -> f a = g a) -> mapM f l = mapM g l.
Proof.
  induction l as [|a l IH]; intros H; simpl; [reflexivity|].
  rewrite H by (left; reflexivity). rewrite IH; [reflexivity|].
  intros; apply H; right; assumption.
Qed.

Lemma mapM_pure : forall A B (f : A -> B) l, mapM (fun a => Ok (f a)) l = Ok (map f l).
Proof. induction l; simpl; [reflexivity|]. rewrite IHl. reflexivity. Qed.

Lemma mapM_nth : forall A B (f : A -> res B) l bs i a,
  mapM f l = Ok bs -> nth_error l i = Some a ->
  exists b, nth_error bs i = Some b /\ f a = Ok b.
Proof.
  intros A B f l bs i a H. apply mapM_Ok in H. revert i.
  induction H; intros i Hi; [destruct i; discriminate|].
  destruct i as [|i]; simpl in *.
  - injection Hi as <-. eauto.
  - apply IHForall2; assumption.
Qed.

Lemma mapM_nth_inv : forall A B (f : A -> res B) l bs i b,
  mapM f l = Ok bs -> nth_error bs i = Some b ->
  exists a, nth_error l i = Some a /\ f a = Ok b.
Proof.
  intros A B f l bs i b H. apply mapM_Ok in H. revert i.
  induction H; intros i Hi; [destruct i; discriminate|].
  destruct i as [|i]; simpl in *.
  - injection Hi as <-. eauto.
  - apply IHForall2; assumption.
Qed.

Lemma forM_Ok : forall A (f : A -> res unit) l,
  forM_ f l = Ok tt <-> (forall a, In a l -> f a = Ok tt).
Proof.
  unfold forM_. induction l as [|a l IH]; simpl.
  - split; [intros _ a []|reflexivity].
  - destruct (f a) as [[]|e] eqn:E; simpl.
    + rewrite IH. split; intros H; [intros b [<-|Hb]; [exact E|apply H; exact Hb]|].
      intros b Hb; apply H; right; exact Hb.
    + split; intro H; [discriminate|]. rewrite H in E by (left; reflexivity). discriminate.
Qed.

Lemma forM_unit : forall A (f : A -> res unit) l r, forM_ f l = Ok r -> forM_ f l = Ok tt.
Proof. intros A f l [] H; exact H. Qed.

Lemma assert_Ok : forall b r, assert_ b = Ok r <-> b = true.
Proof. intros [] []; simpl; split; intro H; try reflexivity; discriminate. Qed.

Lemma bind_Ok : forall A B (x : res A) (f : A -> res B) b,
  bind x f = Ok b <-> exists a, x = Ok a /\ f a = Ok b.
Proof.
  intros A B [a|e] f b; simpl; split.
  - intro H; exists a; split; [reflexivity|exact H].
  - intros (a' & [= <-] & H); exact H.
  - discriminate.
  - intros (a' & H & _); discriminate.
Qed.

(** * Dictionaries *)
Section DictLemmas.
  Context {K V : Type} (keqb : K -> K -> bool).
  Hypothesis keqb_spec : forall a b, keqb a b = true <-> a = b.

  Lemma keqb_refl : forall a, keqb a a = true.
  Proof. intro a. apply keqb_spec. reflexivity. Qed.

  Lemma keqb_neq : forall a b, a <> b -> keqb a b = false.
  Proof. intros a b H. destruct (keqb a b) eqn:E; [apply keqb_spec in E; contradiction|reflexivity]. Qed.

  Lemma dget_In : forall (d : list (K * V)) k v, dget keqb d k = Some v -> In (k, v) d.
  Proof.
    induction d as [|[k' v'] d IH]; simpl; intros k v H; [discriminate|].
    destruct (keqb k k') eqn:E.
    - apply keqb_spec in E. injection H as <-. subst. left; reflexivity.
    - right. apply IH; exact H.
  Qed.

  Lemma In_dget : forall (d : list (K * V)) k v,
    NoDup (map fst d) -> In (k, v) d -> dget keqb d k = Some v.
  Proof.
    induction d as [|[k' v'] d IH]; simpl; intros k v ND H; [contradiction|].
    inversion ND; subst. destruct H as [H|H].
    - injection H as -> ->. rewrite keqb_refl. reflexivity.
    - rewrite keqb_neq; [apply IH; assumption|].
      intros ->. apply H2. apply in_map_iff. exists (k', v). split; [reflexivity|exact H].
  Qed.

  Lemma dget_None : forall (d : list (K * V)) k, dget keqb d k = None <-> ~ In k (map fst d).
  Proof.
    induction d as [|[k' v'] d IH]; simpl; intros k; [tauto|].
    destruct (keqb k k') eqn:E.
    - apply keqb_spec in E; subst. split; [discriminate|]. intro H; exfalso; apply H; left; reflexivity.
    - rewrite IH. split; [intros H [H1|H1]; [subst; rewrite keqb_refl in E; discriminate|contradiction]|].
      intros H H1; apply H; right; exact H1.
  Qed.

  Lemma dget_In_key : forall (d : list (K * V)) k, In k (map fst d) -> exists v, dget keqb d k = Some v.
  Proof.
    intros d k H. destruct (dget keqb d k) eqn:E; [eauto|].
    apply dget_None in E. contradiction.
  Qed.

  Lemma dget_dset_same : forall (d : list (K * V)) k v, dget keqb (dset keqb d k v) k = Some v.
  Proof.
    induction d as [|[k' v'] d IH]; simpl; intros k v; [rewrite keqb_refl; reflexivity|].
    destruct (keqb k k') eqn:E; simpl; rewrite E; [reflexivity|apply IH].
  Qed.

  Lemma dget_dset_other : forall (d : list (K * V)) k k' v,
    k <> k' -> dget keqb (dset keqb d k v) k' = dget keqb d k'.
  Proof.
    induction d as [|[k0 v0] d IH]; simpl; intros k k' v H.
    - rewrite keqb_neq; [reflexivity|congruence].
    - destruct (keqb k k0) eqn:E; simpl.
      + apply keqb_spec in E; subst. rewrite keqb_neq by congruence. reflexivity.
      + destruct (keqb k' k0); [reflexivity|apply IH; exact H].
  Qed.

  Lemma dset_keys_mem : forall (d : list (K * V)) k v,
    In k (map fst d) -> map fst (dset keqb d k v) = map fst d.
  Proof.
    induction d as [|[k0 v0] d IH]; simpl; intros k v H; [contradiction|].
    destruct (keqb k k0) eqn:E; simpl; [reflexivity|].
    f_equal. apply IH. destruct H as [H|H]; [subst; rewrite keqb_refl in E; discriminate|exact H].
  Qed.

  Lemma dset_keys_notmem : forall (d : list (K * V)) k v,
    ~ In k (map fst d) -> dset keqb d k v = d ++ [(k, v)].
  Proof.
    induction d as [|[k0 v0] d IH]; simpl; intros k v H; [reflexivity|].
    rewrite keqb_neq by (intro; subst; apply H; left; reflexivity).
    rewrite IH; [reflexivity|]. intro; apply H; right; assumption.
  Qed.

  Lemma dset_NoDup : forall (d : list (K * V)) k v,
    NoDup (map fst d) -> NoDup (map fst (dset keqb d k v)).
  Proof.
    intros d k v H.
    assert (D : In k (map fst d) \/ ~ In k (map fst d)).
    { destruct (dget keqb d k) eqn:E.
      - left. apply dget_In in E. apply in_map_iff. exists (k, v0); auto.
      - right. apply dget_None; exact E. }
    destruct D as [D|D].
    - rewrite dset_keys_mem by assumption. exact H.
    - rewrite dset_keys_notmem by assumption. rewrite map_app. simpl.
      apply (Permutation_NoDup (l := k :: map fst d)).
      + apply Permutation_cons_append.
      + constructor; assumption.
  Qed.

  Lemma dset_keys_In : forall (d : list (K * V)) k v k',
    In k' (map fst (dset keqb d k v)) <-> k' = k \/ In k' (map fst d).
  Proof.
    induction d as [|[k0 v0] d IH]; simpl; intros k v k'.
    - intuition.
    - destruct (keqb k k0) eqn:E; simpl.
      + apply keqb_spec in E; subst. intuition.
      + rewrite IH. intuition.
  Qed.

  Lemma dget_dset : forall (d : list (K * V)) k k' v,
    dget keqb (dset keqb d k v) k' = if keqb k' k then Some v else dget keqb d k'.
  Proof.
    intros. destruct (keqb k' k) eqn:E.
    - apply keqb_spec in E; subst. apply dget_dset_same.
    - apply dget_dset_other. intro; subst. rewrite keqb_refl in E; discriminate.
  Qed.
End DictLemmas.

(** * Strings: order and decimal representation *)

Lemma nat_of_ascii_inj : forall a b, nat_of_ascii a = nat_of_ascii b -> a = b.
Proof. intros a b H. rewrite <- (ascii_nat_embedding a), <- (ascii_nat_embedding b), H. reflexivity. Qed.

Lemma str_leb_refl : forall a, str_leb a a = true.
Proof.
  induction a as [|x a IH]; simpl; [reflexivity|].
  rewrite Nat.ltb_irrefl. exact IH.
Qed.

Lemma str_leb_antisym : forall a b, str_leb a b = true -> str_leb b a = true -> a = b.
Proof.
  induction a as [|x a IH]; intros [|y b]; simpl; intros H1 H2; try reflexivity; try discriminate.
  destruct (Nat.ltb_spec (nat_of_ascii x) (nat_of_ascii y)).
  - destruct (Nat.ltb_spec (nat_of_ascii y) (nat_of_ascii x)); [lia|discriminate].
  - destruct (Nat.ltb_spec (nat_of_ascii y) (nat_of_ascii x)); [discriminate|].
    assert (x = y) by (apply nat_of_ascii_inj; lia). subst. f_equal. apply IH; assumption.
Qed.

Lemma str_leb_total : forall a b, str_leb a b = true \/ str_leb b a = true.
Proof.
  induction a as [|x a IH]; intros [|y b]; simpl; auto.
  destruct (Nat.ltb_spec (nat_of_ascii x) (nat_of_ascii y)); [auto|].
  destruct (Nat.ltb_spec (nat_of_ascii y) (nat_of_ascii x)); [auto|]. apply IH.
Qed.

Lemma str_leb_trans : forall a b c, str_leb a b = true -> str_leb b c = true -> str_leb a c = true.
Proof.
  induction a as [|x a IH]; intros [|y b] [|z c]; simpl; intros H1 H2; try reflexivity; try discriminate.
  destruct (Nat.ltb_spec (nat_of_ascii x) (nat_of_ascii y));
  destruct (Nat.ltb_spec (nat_of_ascii y) (nat_of_ascii z));
  destruct (Nat.ltb_spec (nat_of_ascii x) (nat_of_ascii z)); try reflexivity; try lia.
  - destruct (Nat.ltb_spec (nat_of_ascii z) (nat_of_ascii y)); [discriminate|].
    destruct (Nat.ltb_spec (nat_of_ascii z) (nat_of_ascii x)); lia.
  - destruct (Nat.ltb_spec (nat_of_ascii y) (nat_of_ascii x)); [discriminate|].
    destruct (Nat.ltb_spec (nat_of_ascii z) (nat_of_ascii x)); lia.
  - destruct (Nat.ltb_spec (nat_of_ascii y) (nat_of_ascii x)); [discriminate|].
    destruct (Nat.ltb_spec (nat_of_ascii z) (nat_of_ascii y)); [discriminate|].
    destruct (Nat.ltb_spec (nat_of_ascii z) (nat_of_ascii x)); [lia|].
    eapply IH; eassumption.
Qed.

(** * Sorting *)
Section SortLemmas.
  Context {A : Type} (eqb leb : A -> A -> bool).
  Hypothesis eqb_spec : forall a b, eqb a b = true <-> a = b.
  Hypothesis leb_total : forall a b, leb a b = true \/ leb b a = true.
  Hypothesis leb_trans : forall a b c, leb a b = true -> leb b c = true -> leb a c = true.
  Hypothesis leb_antisym : forall a b, leb a b = true -> leb b a = true -> a = b.
  Let le a b := leb a b = true.

  Lemma ins_Permutation : forall x l, Permutation (x :: l) (ins leb x l).
  Proof.
    induction l as [|y l IH]; simpl; [reflexivity|].
    destruct (leb x y); [reflexivity|].
    rewrite perm_swap. constructor. exact IH.
  Qed.

  Lemma isort_Permutation : forall l, Permutation l (isort leb l).
  Proof.
    induction l as [|x l IH]; simpl; [constructor|].
    rewrite <- ins_Permutation. constructor. exact IH.
  Qed.

  Lemma ins_Sorted : forall x l, StronglySorted le l -> StronglySorted le (ins leb x l).
  Proof.
    induction l as [|y l IH]; simpl; intro H.
    - constructor; constructor.
    - inversion H as [|? ? H2 H3]; subst. destruct (leb x y) eqn:E.
      + constructor; [exact H|]. constructor; [exact E|].
        eapply Forall_impl; [|exact H3]. intros z Hz. eapply leb_trans; eassumption.
      + constructor; [apply IH; exact H2|].
        assert (P := ins_Permutation x l). rewrite Forall_forall. intros z Hz.
        apply (Permutation_in z (Permutation_sym P)) in Hz. destruct Hz as [Hz|Hz].
        * subst. destruct (leb_total z y) as [E'|E']; [congruence|exact E'].
        * rewrite Forall_forall in H3. apply H3; exact Hz.
  Qed.

  Lemma isort_Sorted : forall l, StronglySorted le (isort leb l).
  Proof. induction l; simpl; [constructor|]. apply ins_Sorted; assumption. Qed.

  Lemma undup_In : forall l x, In x (undup eqb l) <-> In x l.
  Proof.
    induction l as [|y l IH]; simpl; intros x; [tauto|].
    destruct (existsb (eqb y) l) eqn:E.
    - rewrite IH. split; [auto|]. intros [->|H]; [|exact H].
      apply existsb_exists in E. destruct E as (z & Hz & Ez). apply eqb_spec in Ez. subst. exact Hz.
    - simpl. rewrite IH. tauto.
  Qed.

  Lemma undup_NoDup : forall l, NoDup (undup eqb l).
  Proof.
    induction l as [|y l IH]; simpl; [constructor|].
    destruct (existsb (eqb y) l) eqn:E; [exact IH|].
    constructor; [|exact IH]. rewrite undup_In. intro H.
    assert (existsb (eqb y) l = true); [|congruence].
    apply existsb_exists. exists y; split; [exact H|apply eqb_spec; reflexivity].
  Qed.

  Lemma usl_In : forall l x, In x (get_unique_sorted_list eqb leb l) <-> In x l.
  Proof.
    intros l x. unfold get_unique_sorted_list. rewrite <- (undup_In l). split; apply Permutation_in.
    - apply Permutation_sym, isort_Permutation.
    - apply isort_Permutation.
  Qed.

  Lemma usl_NoDup : forall l, NoDup (get_unique_sorted_list eqb leb l).
  Proof. intro l. eapply Permutation_NoDup; [apply isort_Permutation|apply undup_NoDup]. Qed.

  Lemma usl_Sorted : forall l, StronglySorted le (get_unique_sorted_list eqb leb l).
  Proof. intro l. apply isort_Sorted. Qed.

  (** A sorted duplicate-free list is determined by its elements. *)
  Lemma sorted_unique : forall l1 l2,
    StronglySorted le l1 -> StronglySorted le l2 -> NoDup l1 -> NoDup l2 ->
    (forall x, In x l1 <-> In x l2) -> l1 = l2.
  Proof.
    induction l1 as [|a l1 IH]; intros l2 S1 S2 N1 N2 H.
    - destruct l2 as [|b l2]; [reflexivity|]. exfalso. apply (H b). left; reflexivity.
    - destruct l2 as [|b l2]; [exfalso; apply (H a); left; reflexivity|].
      inversion S1 as [|? ? S1' F1]; inversion S2 as [|? ? S2' F2];
      inversion N1 as [|? ? M1 N1']; inversion N2 as [|? ? M2 N2']; subst.
      rewrite Forall_forall in F1, F2.
      assert (a = b).
      { assert (Ha : In a (b :: l2)) by (apply H; left; reflexivity).
        assert (Hb : In b (a :: l1)) by (apply H; left; reflexivity).
        destruct Ha as [Ha|Ha]; [congruence|]. destruct Hb as [Hb|Hb]; [congruence|].
        apply leb_antisym; [apply F1; exact Hb|apply F2; exact Ha]. }
      subst b. f_equal. apply IH; try assumption.
      intros x. split; intro Hx.
      + assert (Hx' : In x (a :: l2)) by (apply H; right; exact Hx).
        destruct Hx' as [<-|Hx']; [contradiction|exact Hx'].
      + assert (Hx' : In x (a :: l1)) by (apply H; right; exact Hx).
        destruct Hx' as [<-|Hx']; [contradiction|exact Hx'].
  Qed.
End SortLemmas.

(** * Lists *)

Lemma nth_error_nth_d : forall A (l : list A) i a d, nth_error l i = Some a -> nth i l d = a.
Proof. intros. apply nth_error_nth. assumption. Qed.

Lemma nth_error_seq : forall n i, i < n -> nth_error (seq 0 n) i = Some i.
Proof.
  intros n i H. rewrite nth_error_nth' with (d := 0) by (rewrite seq_length; exact H).
  rewrite seq_nth by exact H. reflexivity.
Qed.

Lemma nth_map_seq : forall A (f : nat -> A) n i d, i < n -> nth i (map f (seq 0 n)) d = f i.
Proof.
  intros. rewrite nth_indep with (d' := f 0) by (rewrite map_length, seq_length; assumption).
  rewrite map_nth. rewrite seq_nth by assumption. reflexivity.
Qed.

Lemma list_set_length : forall A (l : list A) i v, length (list_set l i v) = length l.
Proof. induction l; intros [|i] v; simpl; auto. Qed.

Lemma list_set_nth : forall A (l : list A) i v j d,
  i < length l -> nth j (list_set l i v) d = if Nat.eqb j i then v else nth j l d.
Proof.
  induction l as [|a l IH]; intros i v j d H; simpl in *; [lia|].
  destruct i as [|i], j as [|j]; simpl; try reflexivity.
  apply IH. lia.
Qed.

Lemma memb_In : forall A (eqb : A -> A -> bool) (Hs : forall a b, eqb a b = true <-> a = b) x l,
  memb eqb x l = true <-> In x l.
Proof.
  intros A eqb Hs x l. unfold memb. rewrite existsb_exists. split.
  - intros (y & Hy & E). apply Hs in E. subst; exact Hy.
  - intros H. exists x. split; [exact H|apply Hs; reflexivity].
Qed.
