(** Writing into the sections of the output. *)
From Coq Require Import String.
From Coq Require Import List ZArith Bool Arith Lia Sorted Permutation.
From Verif Require Import PyBase BaseProofs Dataset Routine SpecRoutine.
Import ListNotations.
Local Open Scope list_scope.

Section Writes.
  Context {V : Type}.
  Implicit Types (s : sectn V).

  Definition dense s (n : nat) : Prop := map fst s = seq 0 n.
  Definition cells {A} (d : list (string * list (string * A))) (t k : string) : option A :=
    match dget String.eqb d t with Some m => dget String.eqb m k | None => None end.
  Definition cell_at s (i : nat) (t k : string) : option (cell V) :=
    match dget Nat.eqb s i with Some e => cells (en_models e) t k | None => None end.
  Definition name_at s (i : nat) : option string := match dget Nat.eqb s i with Some e => en_name e | None => None end.

  Lemma dense_dget : forall s n i, dense s n -> dget Nat.eqb s i = nth_error (map snd s) i.
  Proof.
    intros s n i D. unfold dense in D.
    assert (G : forall s m k, map fst s = seq m k -> dget Nat.eqb s (m + i) = nth_error (map snd s) i).
    { clear. intros s m k E. revert m k i E. induction s as [|[a e] s IH]; intros m k i E; [destruct i; reflexivity|].
      destruct k as [|k]; [discriminate|]. cbn in E. injection E as -> E. cbn [dget map snd]. destruct i as [|i].
      - rewrite Nat.add_0_r, Nat.eqb_refl. reflexivity.
      - destruct (Nat.eqb_spec (m + S i) m); [lia|]. cbn [nth_error]. rewrite <- (IH (S m) k i E). f_equal. lia. }
    exact (G s 0 n D).
  Qed.
  Lemma dense_length : forall s n, dense s n -> length s = n.
  Proof. intros s n D. apply (f_equal (@length nat)) in D. rewrite map_length, seq_length in D. exact D. Qed.
  Lemma dense_set : forall s n i e, dense s n -> i <= n -> dense (dset Nat.eqb s i e) (Nat.max n (S i)).
  Proof.
    intros s n i e D L. unfold dense in *. destruct (Nat.eq_dec i n) as [->|H].
    - rewrite (dset_keys_notmem Nat.eqb Nat.eqb_eq) by (rewrite D, in_seq; lia). rewrite map_app, D. cbn [map fst]. replace (Nat.max n (S n)) with (n + 1) by lia. rewrite seq_app. reflexivity.
    - rewrite (dset_keys_mem Nat.eqb Nat.eqb_eq) by (rewrite D, in_seq; lia). rewrite D. f_equal. lia.
  Qed.
  Lemma sget : forall A (d : list (string * A)) k k' v, dget String.eqb (dset String.eqb d k v) k' = if String.eqb k' k then Some v else dget String.eqb d k'.
  Proof. intros. apply dget_dset. apply String.eqb_eq. Qed.
  Lemma nget : forall A (d : list (nat * A)) k k' v, dget Nat.eqb (dset Nat.eqb d k v) k' = if Nat.eqb k' k then Some v else dget Nat.eqb d k'.
  Proof. intros. apply dget_dset. apply Nat.eqb_eq. Qed.
  Lemma cells_write : forall A t k (c : A) d t' k', cells (write_in t k c d) t' k' = if String.eqb t' t && String.eqb k' k then Some c else cells d t' k'.
  Proof.
    intros A t k c d t' k'. unfold cells, write_in. rewrite sget. destruct (String.eqb_spec t' t) as [->|H]; cbn [andb]; [|reflexivity].
    rewrite sget. destruct (String.eqb k' k); [reflexivity|]. unfold subdict. destruct (dget String.eqb d t); reflexivity.
  Qed.
  Lemma cell_write : forall t k s i c i' t' k',
    cell_at (write_cell t k s (i, c)) i' t' k' = if Nat.eqb i' i && (String.eqb t' t && String.eqb k' k) then Some c else cell_at s i' t' k'.
  Proof.
    intros t k s i c i' t' k'. unfold cell_at, write_cell. cbn [fst snd]. rewrite nget. destruct (Nat.eqb_spec i' i) as [->|H]; cbn [andb]; [|reflexivity].
    cbn [en_models]. rewrite cells_write. unfold entry_at. destruct (String.eqb t' t && String.eqb k' k); [reflexivity|]. destruct (dget Nat.eqb s i); reflexivity.
  Qed.
  Lemma name_write : forall t k s i c i', name_at (write_cell t k s (i, c)) i' = name_at s i'.
  Proof.
    intros. unfold name_at, write_cell. cbn [fst snd]. rewrite nget. destruct (Nat.eqb_spec i' i) as [->|H]; [|reflexivity]. cbn [en_name]. unfold entry_at.
    destruct (dget Nat.eqb s i); reflexivity.
  Qed.
  Lemma write_cells_spec : forall t k cs s n, dense s n ->
    let s' := write_cells t k cs s in
    dense s' (Nat.max n (length cs)) /\ (forall i, name_at s' i = name_at s i) /\
    (forall i t' k', cell_at s' i t' k' = if String.eqb t' t && String.eqb k' k then match nth_error cs i with Some c => Some c | None => cell_at s i t' k' end else cell_at s i t' k').
  Proof.
    intros t k cs s n D. unfold write_cells.
    assert (G : forall cs a s n, dense s n -> a <= n ->
      let s' := fold_left (write_cell t k) (combine (seq a (length cs)) cs) s in
      dense s' (Nat.max n (a + length cs)) /\ (forall i, name_at s' i = name_at s i) /\
      (forall i t' k', cell_at s' i t' k' = if String.eqb t' t && String.eqb k' k then match (if Nat.ltb i a then None else nth_error cs (i - a)) with Some c => Some c | None => cell_at s i t' k' end else cell_at s i t' k')).
    { clear. induction cs as [|c cs IH]; intros a s n D L; cbn [length seq combine fold_left].
      - rewrite Nat.add_0_r, Nat.max_l by lia. split; [exact D|]. split; [reflexivity|]. intros i t' k'.
        destruct (String.eqb t' t && String.eqb k' k); [|reflexivity]. destruct (Nat.ltb i a); [reflexivity|]. destruct (i - a); reflexivity.
      - destruct (IH (S a) (write_cell t k s (a, c)) (Nat.max n (S a)) (dense_set _ _ _ _ D L) ltac:(lia)) as (D1 & N1 & C1). split; [|split].
        + replace (Nat.max n (a + S (length cs))) with (Nat.max (Nat.max n (S a)) (S a + length cs)) by lia. exact D1.
        + intro i. rewrite N1. apply name_write.
        + intros i t' k'. rewrite C1. rewrite cell_write. destruct (String.eqb t' t && String.eqb k' k) eqn:E; rewrite ?andb_true_r, ?andb_false_r; [|reflexivity].
          destruct (Nat.ltb_spec i (S a)), (Nat.ltb_spec i a), (Nat.eqb_spec i a); try lia; try reflexivity.
          * subst. rewrite Nat.sub_diag. reflexivity.
          * replace (i - a) with (S (i - S a)) by lia. reflexivity. }
    destruct (G cs 0 s n D ltac:(lia)) as (D1 & N1 & C1). split; [exact D1|]. split; [exact N1|]. intros i t' k'. rewrite C1. cbn [Nat.ltb Nat.leb]. rewrite Nat.sub_0_r. reflexivity.
  Qed.
  Lemma write_names_spec : forall ns s n, dense s n ->
    ((exists s', write_names ns s = Ok s') <-> (forall i x, i < length ns -> name_at s i = Some x -> nth_error ns i = Some x)) /\
    (forall e, write_names ns s = Err e -> e = AssertionError) /\
    forall s', write_names ns s = Ok s' ->
      dense s' (Nat.max n (length ns)) /\ (forall i t k, cell_at s' i t k = cell_at s i t k) /\
      (forall i, name_at s' i = match name_at s i with Some x => Some x | None => nth_error ns i end).
  Proof.
    intros ns s n D. unfold write_names.
    assert (G : forall ns a s n, dense s n -> a <= n ->
      ((exists s', foldM write_name (combine (seq a (length ns)) ns) s = Ok s') <-> (forall i x, a <= i < a + length ns -> name_at s i = Some x -> nth_error ns (i - a) = Some x)) /\
      (forall e, foldM write_name (combine (seq a (length ns)) ns) s = Err e -> e = AssertionError) /\
      forall s', foldM write_name (combine (seq a (length ns)) ns) s = Ok s' ->
        dense s' (Nat.max n (a + length ns)) /\ (forall i t k, cell_at s' i t k = cell_at s i t k) /\
        (forall i, name_at s' i = match name_at s i with Some x => Some x | None => if Nat.ltb i a then None else nth_error ns (i - a) end)).
    { clear. induction ns as [|x ns IH]; intros a s n D L; cbn [length seq combine foldM].
      - split; [|split]; [split; [intros _ i y H; lia|intros _; eauto]|discriminate|]. intros s' H. injection H as <-. rewrite Nat.add_0_r, Nat.max_l by lia.
        split; [exact D|]. split; [reflexivity|]. intro i. destruct (name_at s i); [reflexivity|]. destruct (Nat.ltb i a); [reflexivity|]. destruct (i - a); reflexivity.
      - assert (NA : en_name (entry_at s a) = name_at s a) by (unfold entry_at, name_at; destruct (dget Nat.eqb s a); reflexivity).
        unfold write_name at 1 3 5. cbn [fst snd]. rewrite NA. destruct (name_at s a) as [y|] eqn:EN.
        + destruct (String.eqb_spec y x) as [->|NE]; cbn [assert_ bind].
          * assert (La : S a <= n).
            { unfold name_at in EN. destruct (dget Nat.eqb s a) eqn:EG; [|discriminate]. rewrite (dense_dget s n a D) in EG.
              assert (B : a < length (map snd s)) by (apply nth_error_Some; congruence). rewrite map_length, (dense_length s n D) in B. exact B. }
            destruct (IH (S a) s n D La) as (A1 & A2 & A3). split; [|split; [exact A2|]].
            -- rewrite A1. split; intros H i z B E.
               ++ destruct (Nat.eq_dec i a) as [->|Hi]; [rewrite Nat.sub_diag; cbn; congruence|]. replace (i - a) with (S (i - S a)) by lia. apply H; [lia|exact E].
               ++ specialize (H i z ltac:(lia) E). replace (i - a) with (S (i - S a)) in H by lia. exact H.
            -- intros s' H. destruct (A3 s' H) as (D1 & C1 & N1). split; [replace (Nat.max n (a + S (length ns))) with (Nat.max n (S a + length ns)) by lia; exact D1|]. split; [exact C1|].
               intro i. rewrite N1. destruct (name_at s i) eqn:EI; [reflexivity|].
               destruct (Nat.ltb_spec i (S a)), (Nat.ltb_spec i a); try lia; try reflexivity; [exfalso; assert (i = a) by lia; congruence|].
               replace (i - a) with (S (i - S a)) by lia. reflexivity.
          * split; [|split; [intros e H; injection H as <-; reflexivity|discriminate]]. split; [intros [s' H]; discriminate|].
            intro H. specialize (H a y ltac:(lia) EN). rewrite Nat.sub_diag in H. cbn in H. congruence.
        + cbn [bind]. set (s1 := dset Nat.eqb s a (Entry (Some x) (en_models (entry_at s a)))).
          assert (D1 : dense s1 (Nat.max n (S a))) by (apply dense_set; assumption).
          assert (C1 : forall i t k, cell_at s1 i t k = cell_at s i t k).
          { intros i t k. unfold cell_at, s1. rewrite nget. destruct (Nat.eqb_spec i a) as [->|Hi]; [|reflexivity]. cbn [en_models]. unfold entry_at. destruct (dget Nat.eqb s a); reflexivity. }
          assert (N1 : forall i, name_at s1 i = if Nat.eqb i a then Some x else name_at s i).
          { intro i. unfold name_at, s1. rewrite nget. destruct (Nat.eqb i a); reflexivity. }
          destruct (IH (S a) s1 _ D1 ltac:(lia)) as (A1 & A2 & A3). split; [|split; [exact A2|]].
          * rewrite A1. split; intros H i z B E.
            -- destruct (Nat.eq_dec i a) as [->|Hi]; [congruence|]. replace (i - a) with (S (i - S a)) by lia. apply H; [lia|]. rewrite N1. destruct (Nat.eqb_spec i a); [lia|exact E].
            -- rewrite N1 in E. destruct (Nat.eqb_spec i a); [lia|]. specialize (H i z ltac:(lia) E). replace (i - a) with (S (i - S a)) in H by lia. exact H.
          * intros s' H. destruct (A3 s' H) as (D2 & C2 & N2). split; [|split].
            -- replace (Nat.max n (a + S (length ns))) with (Nat.max (Nat.max n (S a)) (S a + length ns)) by lia. exact D2.
            -- intros. rewrite C2. apply C1.
            -- intro i. rewrite N2, N1. destruct (Nat.eqb_spec i a) as [->|Hi].
               ++ rewrite EN, Nat.ltb_irrefl, Nat.sub_diag. reflexivity.
               ++ destruct (name_at s i); [reflexivity|]. destruct (Nat.ltb_spec i (S a)), (Nat.ltb_spec i a); try lia; try reflexivity.
                  replace (i - a) with (S (i - S a)) by lia. reflexivity. }
    destruct (G ns 0 s n D ltac:(lia)) as (A1 & A2 & A3). split; [|split; [exact A2|]].
    - rewrite A1. cbn [Nat.add]. split; intros H i x B E; [specialize (H i x ltac:(lia) E)|]; rewrite ?Nat.sub_0_r in *; [exact H|]. apply H; [lia|exact E].
    - intros s' H. destruct (A3 s' H) as (D1 & C1 & N1). split; [exact D1|]. split; [exact C1|]. intro i. rewrite N1. cbn [Nat.ltb Nat.leb]. rewrite Nat.sub_0_r. reflexivity.
  Qed.
End Writes.
