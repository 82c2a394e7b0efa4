(** Checking a result and writing it out. *)
From Coq Require Import String.
From Coq Require Import List ZArith Bool Arith Lia Sorted Permutation.
From Verif Require Import PyBase BaseProofs Dataset Routine SpecRoutine RoutineProofs.
Import ListNotations.
Local Open Scope list_scope.

Section Check.
  Context {V : Type}.
  Implicit Types (r : mresult V).

  Lemma assert_eqb : forall a b, assert_ (Nat.eqb a b) = Ok tt <-> a = b.
  Proof. intros a b. destruct (Nat.eqb_spec a b); cbn; split; intro H; try reflexivity; try assumption; try discriminate; contradiction. Qed.
  Lemma assert_err : forall b e, assert_ b = Err e -> e = AssertionError.
  Proof. intros [|] e H; cbn in H; congruence. Qed.

  Lemma zip2 : forall (lo hi : list V), zip_star [lo; hi] = map (fun p => [fst p; snd p]) (combine lo hi).
  Proof. intros lo. cbn [zip_star]. induction lo as [|a lo IH]; intros [|b hi]; cbn; try reflexivity. f_equal. apply IH. Qed.
  Lemma zip2_length : forall (lo hi : list V), length (zip_star [lo; hi]) = Nat.min (length lo) (length hi).
  Proof. intros. rewrite zip2, map_length, combine_length. reflexivity. Qed.
  Lemma nth_combine : forall A B (l : list A) (m : list B) i p, nth_error (combine l m) i = Some p <-> nth_error l i = Some (fst p) /\ nth_error m i = Some (snd p).
  Proof.
    intros A B l. induction l as [|a l IH]; intros [|b m] [|i] [x y]; cbn; try (split; [discriminate|intros [? ?]; discriminate]).
    - split; [intro H; injection H as -> ->; auto|intros [H1 H2]; congruence].
    - apply IH.
  Qed.

  Lemma check_col_ok : forall b c, check_col (V := V) (Some b) c = Ok tt <-> col_fits (length b) c.
  Proof. intros b [[l|]|]; cbn; [|split; [discriminate|tauto]|tauto]. rewrite assert_eqb. split; congruence. Qed.
  Lemma check_col_err : forall b c e, col_list c -> check_col (V := V) (Some b) c = Err e -> e = AssertionError.
  Proof. intros b [[l|]|] e N H; cbn in H; [apply assert_err in H; exact H|exfalso; apply N; reflexivity|discriminate]. Qed.
  Lemma check_ci_ok : forall b c, check_ci (V := V) (Some b) c = Ok tt <-> ci_fits (length b) c.
  Proof.
    intros b [[[|lo [|hi [|x rows]]]|]|]; cbn -[zip_star]; try (split; [discriminate|tauto]); [|tauto].
    rewrite assert_eqb, zip2_length. split; congruence.
  Qed.
  Lemma check_ci_err : forall b c e, ci_list c -> check_ci (V := V) (Some b) c = Err e -> e = AssertionError.
  Proof.
    intros b [[rows|]|] e N H; cbn -[zip_star] in H; [|exfalso; apply N; reflexivity|discriminate].
    destruct (Nat.eqb (length rows) 2); cbn -[zip_star] in H; [apply assert_err in H; exact H|congruence].
  Qed.

  (** ** The contents *)
  Definition cname (rv : rvideo) := dget String.eqb (rv_extra rv) "content_name"%string.
  Definition cfold (d : list (Z * string)) (rv : rvideo) : res (list (Z * string)) :=
    do n <- dget_res String.eqb (rv_extra rv) "content_name"%string; Ok (dset Z.eqb d (rv_cid rv) n).

  Lemma dget_res_spec : forall A (d : list (string * A)) k, dget_res String.eqb d k = match dget String.eqb d k with Some x => Ok x | None => Err KeyError end.
  Proof. reflexivity. Qed.
  Lemma zget : forall A (d : list (Z * A)) k k' v, dget Z.eqb (dset Z.eqb d k v) k' = if Z.eqb k' k then Some v else dget Z.eqb d k'.
  Proof. intros. apply dget_dset. apply Z.eqb_eq. Qed.

  Lemma cfold_ok : forall refs d, NoDup (dkeys d) -> 
    (all_named refs -> exists d', foldM cfold refs d = Ok d') /\
    (forall e, foldM cfold refs d = Err e -> e = KeyError) /\
    (forall d', foldM cfold refs d = Ok d' -> all_named refs /\ NoDup (dkeys d') /\
       (forall c n, dget Z.eqb d' c = Some n <-> name_of_content refs c n \/ (dget Z.eqb d c = Some n /\ ~ In c (map rv_cid refs)))).
  Proof.
    induction refs as [|rv refs IH]; intros d ND; cbn [foldM].
    - split; [eauto|]. split; [discriminate|]. intros d' H. injection H as <-. split; [intros ? []|]. split; [exact ND|].
      intros c n. split; [intro H; right; split; [exact H|intros []]|]. intros [(a & rv & b & E & _)|[H _]]; [destruct a; discriminate|exact H].
    - unfold cfold at 1 3 5. rewrite !dget_res_spec. fold (cname rv). destruct (cname rv) as [m|] eqn:EN; cbn [bind].
      + assert (ND' : NoDup (dkeys (dset Z.eqb d (rv_cid rv) m))) by (apply (dset_NoDup Z.eqb Z.eqb_eq); exact ND).
        destruct (IH _ ND') as (A1 & A2 & A3). split; [|split; [exact A2|]].
        * intro AN. apply A1. intros x Hx. apply AN. right. exact Hx.
        * intros d' H. destruct (A3 d' H) as (AN & ND2 & G). split; [|split; [exact ND2|]].
          -- intros x [<-|Hx]; [eauto|apply AN; exact Hx].
          -- intros c n. rewrite G, zget. split.
             ++ intros [(a & x & b & E & R)|[R NI]].
                ** left. exists (rv :: a), x, b. split; [rewrite E; reflexivity|exact R].
                ** destruct (Z.eqb_spec c (rv_cid rv)) as [->|NE].
                   --- injection R as <-. left. exists [], rv, refs. split; [reflexivity|]. split; [reflexivity|]. split; [exact EN|].
                       intros rv' Hi He. apply NI. rewrite <- He. apply in_map. exact Hi.
                   --- right. split; [exact R|]. cbn [map In]. intros [He|Hi]; [congruence|contradiction].
             ++ intros [(a & x & b & E & C & N & L)|[R NI]].
                ** destruct a as [|y a]; cbn [app] in E; injection E as E1 E2.
                   --- subst. right. rewrite Z.eqb_refl. unfold cname in EN. rewrite EN in N. split; [exact N|]. intro Hi. apply in_map_iff in Hi. destruct Hi as (z & Hz & Hi). exact (L z Hi Hz).
                   --- left. exists a, x, b. auto.
                ** right. cbn [map In] in NI. destruct (Z.eqb_spec c (rv_cid rv)) as [->|NE]; [exfalso; apply NI; left; reflexivity|]. split; [exact R|tauto].
      + split; [|split; [intros e H; injection H as <-; reflexivity|discriminate]].
        intro AN. destruct (AN rv (or_introl eq_refl)) as [n Hn]. unfold cname in EN. congruence.
  Qed.

  Lemma sorted_unique : forall l l' : list Z, StronglySorted Z.lt l -> StronglySorted Z.lt l' -> (forall c, In c l <-> In c l') -> l = l'.
  Proof.
    induction l as [|a l IH]; intros [|b l'] S1 S2 H; [reflexivity|exfalso; apply (H b); left; reflexivity|exfalso; apply (H a); left; reflexivity|].
    inversion S1 as [|? ? S1' F1]; subst. inversion S2 as [|? ? S2' F2]; subst. rewrite Forall_forall in F1, F2.
    assert (a = b).
    { destruct (proj1 (H a) (or_introl eq_refl)) as [E|Hi]; [auto|]. destruct (proj2 (H b) (or_introl eq_refl)) as [E|Hj]; [auto|].
      apply F2 in Hi. apply F1 in Hj. lia. }
    subst b. f_equal. apply IH; [assumption|assumption|]. intro c. specialize (H c). cbn [In] in H. split; intro Hc.
    - destruct (proj1 H (or_intror Hc)) as [<-|K]; [apply F1 in Hc; lia|exact K].
    - destruct (proj2 H (or_intror Hc)) as [<-|K]; [apply F2 in Hc; lia|exact K].
  Qed.
  Lemma name_of_content_fun : forall refs c n n', name_of_content refs c n -> name_of_content refs c n' -> n = n'.
  Proof.
    intros refs c n n' (a & x & b & E & C & N & L) (a' & x' & b' & E' & C' & N' & L').
    assert (G : forall a a' : list rvideo, a ++ x :: b = a' ++ x' :: b' -> x = x').
    { clear - C C' L L'. induction a as [|y a IH]; intros [|z a'] H; cbn [app] in H; injection H as H1 H2.
      - exact H1.
      - exfalso. apply (L x'); [rewrite H2; apply in_or_app; right; left; reflexivity|exact C'].
      - exfalso. apply (L' x); [rewrite <- H2; apply in_or_app; right; left; reflexivity|exact C].
      - apply (IH a'). exact H2. }
    assert (X : x = x') by (apply (G a a'); congruence). subst x'. congruence.
  Qed.
  Lemma contents_unique : forall refs l l', contents_in_order refs l -> contents_in_order refs l' -> l = l'.
  Proof.
    intros refs l l' (cs & S & I & F) (cs' & S' & I' & F').
    assert (cs' = cs) by (apply sorted_unique; [assumption|assumption|]; intro c; rewrite I, I'; tauto). subst cs'.
    clear S I S' I'. revert l' F'. induction F as [|c n cs l H F IH]; intros l' F'; inversion F'; subst; [reflexivity|].
    f_equal; [eapply name_of_content_fun; eassumption|]. apply IH. assumption.
  Qed.
  Lemma contents_of_ok : forall refs cs, contents_of refs = Ok cs <-> all_named refs /\ contents_in_order refs cs.
  Proof.
    intros refs cs. unfold contents_of. change (foldM _ refs []) with (foldM cfold refs []).
    destruct (cfold_ok refs [] (NoDup_nil _)) as (A1 & A2 & A3).
    assert (K : forall d, foldM cfold refs [] = Ok d -> exists cs, mapM (fun k => dget_res Z.eqb d k) (isort Z.leb (dkeys d)) = Ok cs /\ contents_in_order refs cs).
    { intros d H. destruct (A3 d H) as (AN & ND & G).
      assert (G' : forall c n, dget Z.eqb d c = Some n <-> name_of_content refs c n).
      { intros c n. rewrite G. split; [intros [X|[X _]]; [exact X|discriminate]|auto]. }
      assert (P : Permutation (dkeys d) (isort Z.leb (dkeys d))) by apply isort_Permutation.
      assert (KI : forall c, In c (isort Z.leb (dkeys d)) -> exists n, dget Z.eqb d c = Some n).
      { intros c Hc. apply (Permutation_in _ (Permutation_sym P)) in Hc. destruct (dget Z.eqb d c) eqn:E; [eauto|].
        exfalso. apply (dget_None Z.eqb Z.eqb_eq) in E. contradiction. }
      destruct (mapM_total _ _ (fun k => dget_res Z.eqb d k) (isort Z.leb (dkeys d))) as [l Hl].
      { intros c Hc. destruct (KI c Hc) as [n Hn]. exists n. unfold dget_res. rewrite Hn. reflexivity. }
      exists l. split; [exact Hl|]. exists (isort Z.leb (dkeys d)). split; [|split].
      - assert (S : StronglySorted (fun a b => Z.leb a b = true) (isort Z.leb (dkeys d))).
        { apply isort_Sorted; intros *; rewrite !Z.leb_le; lia. }
        assert (N2 : NoDup (isort Z.leb (dkeys d))) by (eapply Permutation_NoDup; eassumption).
        clear - S N2. induction S as [|a l S IH F]; constructor; inversion N2; subst; [apply IH; assumption|].
        rewrite Forall_forall in *. intros x Hx. specialize (F x Hx). apply Z.leb_le in F. assert (a <> x) by (intros ->; contradiction). lia.
      - intro c. split; intro Hc.
        + destruct (KI c Hc) as [n Hn]. apply G' in Hn. destruct Hn as (a & x & b & E & C & _). rewrite E, map_app. apply in_or_app. right. left. exact C.
        + apply (Permutation_in _ P). destruct (dget Z.eqb d c) as [n|] eqn:E.
          * apply (dget_In Z.eqb Z.eqb_eq) in E. apply (in_map fst) in E. exact E.
          * exfalso. assert (X : exists n, name_of_content refs c n); [|destruct X as [n X]; apply G' in X; congruence].
            clear - AN Hc. induction refs as [|rv refs IH]; [destruct Hc|].
            destruct (in_dec Z.eq_dec c (map rv_cid refs)) as [Hi|Hi].
            -- destruct IH as [n (a & x & b & E & R)]; [intros x Hx; apply AN; right; exact Hx|exact Hi|]. exists n, (rv :: a), x, b. split; [rewrite E; reflexivity|exact R].
            -- destruct Hc as [Hc|Hc]; [|contradiction]. destruct (AN rv (or_introl eq_refl)) as [n Hn]. exists n, [], rv, refs.
               split; [reflexivity|]. split; [exact Hc|]. split; [exact Hn|]. intros rv' Hr He. apply Hi. rewrite <- He. apply in_map. exact Hr.
      - apply mapM_Ok in Hl. clear - Hl G'. induction Hl as [|c n l l' H Hl IH]; constructor; [|exact IH].
        apply G'. unfold dget_res in H. destruct (dget Z.eqb d c); congruence. }
    split.
    - destruct (foldM cfold refs []) as [d|e] eqn:E; cbn [bind]; [|discriminate]. intro H. destruct (K d eq_refl) as (l & Hl & C). rewrite Hl in H. injection H as <-.
      split; [exact (proj1 (A3 d eq_refl))|exact C].
    - intros [AN C]. destruct (A1 AN) as [d Hd]. rewrite Hd. cbn [bind]. destruct (K d Hd) as (l & Hl & C'). rewrite Hl. f_equal. eapply contents_unique; eassumption.
  Qed.
  Lemma contents_of_total : forall refs, all_named refs -> exists cs, contents_of refs = Ok cs.
  Proof.
    intros refs AN. destruct (contents_of refs) as [cs|e] eqn:E; [eauto|]. exfalso.
    unfold contents_of in E. change (foldM _ refs []) with (foldM cfold refs []) in E.
    destruct (cfold_ok refs [] (NoDup_nil _)) as (A1 & _ & A3). destruct (A1 AN) as [d Hd]. rewrite Hd in E. cbn [bind] in E.
    destruct (mapM_total _ _ (fun k => dget_res Z.eqb d k) (isort Z.leb (dkeys d))) as [l Hl]; [|congruence].
    intros c Hc. apply (Permutation_in _ (Permutation_sym (isort_Permutation Z.leb _))) in Hc. unfold dget_res. destruct (dget Z.eqb d c) eqn:G; [eauto|].
    exfalso. apply (dget_None Z.eqb Z.eqb_eq) in G. contradiction.
  Qed.
End Check.
