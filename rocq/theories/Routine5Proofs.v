(** The formatted output, for all lists of results. *)
From Coq Require Import String.
From Coq Require Import List ZArith Bool Arith Lia Sorted Permutation.
From Verif Require Import PyBase BaseProofs Dataset Routine SpecRoutine RoutineProofs Routine2Proofs Routine3Proofs Routine4Proofs.
Import ListNotations.
Local Open Scope list_scope.

Section Fold.
  Context {V : Type}.
  Variable refs : list rvideo.
  Implicit Types (r : mresult V) (s : sectn V) (done : list (string * mresult V)).
  Notation completed := (completed refs).

  Record inv (p : part) done s (n : nat) : Prop := Inv {
    in_dense : dense s n;
    in_named : forall i, i < n <-> exists x, name_at s i = Some x;
    in_names : forall i x, name_at s i = Some x <-> exists t r, In (t, r) done /\ names refs r p i x;
    in_cells : NoDup (map fst done) -> forall i t k c, cell_at s i t k = Some c <-> exists r, In (t, r) done /\ says r p i k c }.

  Definition compat (p : part) done r : Prop := forall i x y t0 r0, In (t0, r0) done -> names refs r0 p i x -> names refs r p i y -> x = y.

  Lemma step : forall p done s n t r r', inv p done s n -> completed r r' ->
    ((exists s', write_part p t r' s = Ok s') <-> compat p done r) /\
    (forall e, write_part p t r' s = Err e -> e = AssertionError) /\
    (forall s', write_part p t r' s = Ok s' -> exists n', inv p (done ++ [(t, r)]) s' n').
  Proof.
    intros p done s n t r r' [D NM NS CS] C. destruct C as [cn cc _ _ _ _ _ cl cs _]. unfold write_part.
    destruct (write_names_spec (onames r' p) s n D) as (A1 & A2 & A3). split; [|split].
    - destruct (write_names (onames r' p) s) as [s1|e] eqn:E; cbn [bind].
      + split; [intros _|eauto]. intros i x y t0 r0 I X Y. assert (NI : name_at s i = Some x) by (apply NS; eauto). apply cn in Y.
        assert (Li : i < length (onames r' p)) by (apply nth_error_Some; congruence).
        assert (Z := proj1 A1 ltac:(eauto) i x Li NI). congruence.
      + split; [intros [s' H]; discriminate|]. intro K. exfalso. destruct (proj2 A1) as [s' H]; [|discriminate].
        intros i x Li NI. destruct (nth_error (onames r' p) i) as [y|] eqn:EY; [|apply nth_error_None in EY; lia].
        apply NS in NI. destruct NI as (t0 & r0 & I & X). f_equal. symmetry. eapply K; [exact I|exact X|apply cn; exact EY].
    - intros e H. destruct (write_names (onames r' p) s) as [s1|e'] eqn:E; cbn [bind] in H; [discriminate|]. injection H as <-. apply A2. reflexivity.
    - intros s' H. destruct (write_names (onames r' p) s) as [s1|e'] eqn:E; cbn [bind] in H; [|discriminate]. injection H as <-.
      destruct (A3 s1 eq_refl) as (D1 & C1 & N1). fold (len_of r' p) in D1.
      destruct (write_cols_spec t (cols r' p) s1 _ D1 (cols_keys r' p) (fun k0 cs0 H => Nat.le_trans _ _ _ (cl p k0 cs0 H) (Nat.le_max_r n _))) as (D2 & N2 & C2).
      exists (Nat.max n (len_of r' p)). constructor.
      + exact D2.
      + intro i. rewrite N2, N1. specialize (NM i). split.
        * intro L. destruct (name_at s i) as [x|] eqn:EN; [eauto|]. assert (~ i < n) by (rewrite NM; intros [x X]; discriminate).
          destruct (nth_error (onames r' p) i) eqn:EO; [eauto|]. apply nth_error_None in EO. unfold len_of in L. lia.
        * intros [x H]. destruct (name_at s i) as [y|] eqn:EN; [assert (i < n) by (apply NM; eauto); lia|].
          assert (i < length (onames r' p)) by (apply nth_error_Some; congruence). unfold len_of. lia.
      + intros i x. rewrite N2, N1. split.
        * intro H. destruct (name_at s i) as [y|] eqn:EN.
          -- injection H as <-. apply NS in EN. destruct EN as (t0 & r0 & I & X). exists t0, r0. split; [apply in_or_app; left; exact I|exact X].
          -- exists t, r. split; [apply in_or_app; right; left; reflexivity|apply cn; exact H].
        * intros (t0 & r0 & I & X). apply in_app_or in I. destruct I as [I|[I|[]]].
          -- assert (name_at s i = Some x) as -> by (apply NS; eauto). reflexivity.
          -- injection I as <- <-. apply cn in X. destruct (name_at s i) as [y|] eqn:EN; [|exact X].
             assert (Li : i < length (onames r' p)) by (apply nth_error_Some; congruence).
             assert (Z := proj1 A1 ltac:(eauto) i y Li EN). congruence.
      + intros ND i t' k c. rewrite map_app in ND. cbn [map fst] in ND.
        assert (ND1 : NoDup (map fst done)) by (apply NoDup_remove_1 in ND; rewrite app_nil_r in ND; exact ND).
        assert (NI : ~ In t (map fst done)) by (apply NoDup_remove_2 in ND; rewrite app_nil_r in ND; exact ND).
        specialize (CS ND1). rewrite C2, cs, C1, CS. split.
        * intros [(-> & S)|[(r0 & I & S) _]]; [exists r; split; [apply in_or_app; right; left; reflexivity|exact S]|].
          exists r0. split; [apply in_or_app; left; exact I|exact S].
        * intros (r0 & I & S). apply in_app_or in I. destruct I as [I|[I|[]]]; [|injection I as <- <-; left; auto].
          right. split; [eauto|]. intros (-> & _). apply NI. apply (in_map fst) in I. exact I.
  Qed.

  Definition stat_of r (k : string) (x : V) : Prop := (k = "aic"%string /\ r_aic r = Some x) \/ (k = "bic"%string /\ r_bic r = Some x).
  Definition inv_stats done (d : list (string * list (string * V))) : Prop :=
    NoDup (map fst done) -> forall t k x, cells d t k = Some x <-> exists r, In (t, r) done /\ stat_of r k x.
  Lemma stats_step : forall done d t r r', inv_stats done d -> completed r r' -> inv_stats (done ++ [(t, r)]) (write_stats t r' d).
  Proof.
    intros done d t r r' I C ND. rewrite map_app in ND. cbn [map fst] in ND.
    assert (ND1 : NoDup (map fst done)) by (apply NoDup_remove_1 in ND; rewrite app_nil_r in ND; exact ND).
    assert (NI : ~ In t (map fst done)) by (apply NoDup_remove_2 in ND; rewrite app_nil_r in ND; exact ND).
    specialize (I ND1). intros t' k x.
    assert (E : cells (write_stats t r' d) t' k = if String.eqb t' t then (if String.eqb k "bic" then match r_bic r with Some y => Some y | None => cells d t' k end
                  else if String.eqb k "aic" then match r_aic r with Some y => Some y | None => cells d t' k end else cells d t' k) else cells d t' k).
    { unfold write_stats. rewrite (cm_aic _ _ _ C), (cm_bic _ _ _ C). destruct (r_bic r), (r_aic r); rewrite ?cells_write;
        destruct (String.eqb t' t); cbn [andb]; destruct (String.eqb_spec k "bic") as [->|]; try reflexivity; destruct (String.eqb_spec k "aic") as [->|]; reflexivity. }
    rewrite E. clear E. assert (O : t' = t -> cells d t' k = None).
    { intros ->. destruct (cells d t k) eqn:E; [|reflexivity]. apply I in E. destruct E as (r0 & H & _). exfalso. apply NI. apply (in_map fst) in H. exact H. }
    destruct (String.eqb_spec t' t) as [->|NT].
    - rewrite (O eq_refl). split.
      + intro H. exists r. split; [apply in_or_app; right; left; reflexivity|]. destruct (String.eqb_spec k "bic") as [->|]; [right; split; [reflexivity|]; destruct (r_bic r); congruence|].
        destruct (String.eqb_spec k "aic") as [->|]; [left; split; [reflexivity|]; destruct (r_aic r); congruence|discriminate].
      + intros (r0 & H & S). apply in_app_or in H. destruct H as [H|[H|[]]]; [exfalso; apply NI; apply (in_map fst) in H; exact H|]. injection H as <-.
        destruct S as [[-> ->]|[-> ->]]; reflexivity.
    - rewrite I. split; intros (r0 & H & S); exists r0; (split; [|exact S]); [apply in_or_app; left; exact H|]. apply in_app_or in H. destruct H as [H|[H|[]]]; [exact H|]. congruence.
  Qed.

  Definition invs done (o : output V) : Prop :=
    (exists n, inv Videos done (o_videos o) n) /\ (exists n, inv Observers done (o_observers o) n) /\ (exists n, inv Contents done (o_contents o) n) /\ inv_stats done (o_stats o).
  Definition compats done r : Prop := forall p, compat p done r.
  Fixpoint chain done (l : list (string * mresult V)) : Prop :=
    match l with [] => True | x :: l' => compats done (snd x) /\ chain (done ++ [x]) l' end.

  Lemma result_step : forall done o t r r', invs done o -> completed r r' ->
    ((exists o', write_result o (t, r') = Ok o') <-> compats done r) /\
    (forall e, write_result o (t, r') = Err e -> e = AssertionError) /\
    (forall o', write_result o (t, r') = Ok o' -> invs (done ++ [(t, r)]) o').
  Proof.
    intros done o t r r' ((nv & IV) & (no & IO) & (nc & IC) & IS) C. unfold write_result, compats.
    destruct (cm_write _ _ _ C t (o_videos o) (o_observers o) (o_contents o)) as (-> & -> & ->).
    destruct (step Videos done _ _ t r r' IV C) as (V1 & V2 & V3). destruct (step Observers done _ _ t r r' IO C) as (O1 & O2 & O3). destruct (step Contents done _ _ t r r' IC C) as (C1 & C2 & C3).
    assert (SP : (forall p, compat p done r) <-> compat Videos done r /\ compat Observers done r /\ compat Contents done r).
    { split; [intro H; auto|]. intros (H1 & H2 & H3) []; assumption. }
    rewrite SP, <- V1, <- O1, <- C1. clear SP V1 O1 C1.
    destruct (write_part Videos t r' (o_videos o)) as [v|ev]; cbn [bind]; [|split; [split; [intros [? H]; discriminate|intros ((? & H) & _); discriminate]|]; split; [intros e H; apply V2; congruence|discriminate]].
    destruct (write_part Observers t r' (o_observers o)) as [b|eb]; cbn [bind]; [|split; [split; [intros [? H]; discriminate|intros (_ & (? & H) & _); discriminate]|]; split; [intros e H; apply O2; congruence|discriminate]].
    destruct (write_part Contents t r' (o_contents o)) as [c|ec]; cbn [bind]; [|split; [split; [intros [? H]; discriminate|intros (_ & _ & (? & H)); discriminate]|]; split; [intros e H; apply C2; congruence|discriminate]].
    split; [split; eauto 10|]. split; [discriminate|]. intros o' H. injection H as <-. split; [apply V3; reflexivity|]. split; [apply O3; reflexivity|]. split; [apply C3; reflexivity|]. apply stats_step; assumption.
  Qed.

  Lemma fold_steps : forall types rs rs', Forall2 completed rs rs' -> length types = length rs -> forall done o, invs done o ->
    ((exists o', foldM write_result (combine types rs') o = Ok o') <-> chain done (combine types rs)) /\
    (forall e, foldM write_result (combine types rs') o = Err e -> e = AssertionError) /\
    (forall o', foldM write_result (combine types rs') o = Ok o' -> invs (done ++ combine types rs) o').
  Proof.
    intros types rs rs' F. revert types. induction F as [|r r' rs rs' C F IH]; intros [|t types] L done o I; try discriminate; cbn [combine foldM chain].
    - split; [split; eauto|]. split; [discriminate|]. intros o' H. injection H as <-. rewrite app_nil_r. exact I.
    - cbn [snd]. destruct (result_step done o t r r' I C) as (S1 & S2 & S3). destruct (write_result o (t, r')) as [o1|e1] eqn:E; cbn [bind].
      + destruct (IH types ltac:(cbn in L; lia) (done ++ [(t, r)]) o1 (S3 o1 eq_refl)) as (T1 & T2 & T3). split; [|split; [exact T2|]].
        * rewrite T1. split; [intro H; split; [apply S1; eauto|exact H]|tauto].
        * intros o' H. specialize (T3 o' H). rewrite <- app_assoc in T3. exact T3.
      + split; [|split; [intros e H; apply S2; congruence|discriminate]]. split; [intros [? H]; discriminate|]. intros [H _]. apply S1 in H. destruct H as [? H]. discriminate.
  Qed.

  Lemma chain_agree : forall l done, (forall x, In x (done ++ l) -> forall p i n n', names refs (snd x) p i n -> names refs (snd x) p i n' -> n = n') ->
    agree refs (map snd done) -> (chain done l <-> agree refs (map snd (done ++ l))).
  Proof.
    induction l as [|[t r] l IH]; intros done FN A; cbn [chain snd].
    - rewrite app_nil_r. split; auto.
    - replace (done ++ (t, r) :: l) with ((done ++ [(t, r)]) ++ l) in * by (rewrite <- app_assoc; reflexivity).
      assert (K : compats done r <-> agree refs (map snd (done ++ [(t, r)]))).
      { split.
        - intros K r1 r2 p i n n' I1 I2 N1 N2. rewrite map_app in I1, I2. apply in_app_or in I1, I2. cbn [map snd In] in I1, I2.
          destruct I1 as [I1|[<-|[]]], I2 as [I2|[<-|[]]].
          + exact (A r1 r2 p i n n' I1 I2 N1 N2).
          + apply in_map_iff in I1. destruct I1 as ([t1 r1'] & E & I1). cbn in E. subst. exact (K p i n n' _ _ I1 N1 N2).
          + apply in_map_iff in I2. destruct I2 as ([t1 r1'] & E & I2). cbn in E. subst. symmetry. exact (K p i n' n _ _ I2 N2 N1).
          + eapply (FN (t, r)); [apply in_or_app; left; apply in_or_app; right; left; reflexivity|exact N1|exact N2].
        - intros K p i x y t0 r0 I X Y. eapply (K r0 r); [rewrite map_app; apply in_or_app; left; apply (in_map snd) in I; exact I|rewrite map_app; apply in_or_app; right; left; reflexivity|exact X|exact Y]. }
      split.
      + intros [H1 H2]. apply K in H1. apply (IH (done ++ [(t, r)])) in H2; [exact H2|exact FN|exact H1].
      + intro H. assert (H1 : agree refs (map snd (done ++ [(t, r)]))).
        { intros r1 r2 p i n n' I1 I2. apply H; rewrite map_app; apply in_or_app; left; assumption. }
        split; [apply K; exact H1|]. apply IH; assumption.
  Qed.

  Lemma init_invs : invs [] (Out [] [] [] []).
  Proof.
    assert (I : forall p, exists n, inv p [] ([] : sectn V) n).
    { intro p. exists 0. constructor; [reflexivity|intro i; split; [lia|intros [x H]; discriminate]|intros i x; split; [discriminate|intros (t & r & [] & _)]|].
      intros _ i t k c. split; [discriminate|intros (r & [] & _)]. }
    split; [apply I|]. split; [apply I|]. split; [apply I|]. intros _ t k x. cbn. split; [discriminate|intros (r & [] & _)].
  Qed.
  Lemma map_snd_combine : forall A B (l : list A) (m : list B), length l = length m -> map snd (combine l m) = m.
  Proof. induction l as [|a l IH]; intros [|b m] H; try discriminate; cbn; [reflexivity|]. f_equal. apply IH. cbn in H. lia. Qed.
  Lemma map_fst_combine : forall A B (l : list A) (m : list B), length l = length m -> map fst (combine l m) = l.
  Proof. induction l as [|a l IH]; intros [|b m] H; try discriminate; cbn; [reflexivity|]. f_equal. apply IH. cbn in H. lia. Qed.

  (** ** The whole function *)
  Lemma format_shape : forall types rs,
    ((exists out, format_output refs types rs = Ok out) <-> length types = length rs /\ Forall (fits refs) rs /\ agree refs rs) /\
    (forall e, all_named refs -> Forall no_none rs -> format_output refs types rs = Err e -> e = AssertionError) /\
    (forall out, format_output refs types rs = Ok out -> exists o, invs (combine types rs) o /\
       out = Formatted (dvals (o_videos o)) (dvals (o_observers o)) (dvals (o_contents o)) (o_stats o)).
  Proof.
    intros types rs. unfold format_output. destruct (Nat.eqb_spec (length types) (length rs)) as [L|L]; cbn [assert_ bind].
    2: { split; [split; [intros [? H]; discriminate|intros [H _]; contradiction]|]. split; [intros e _ _ H; congruence|discriminate]. }
    destruct (mapM (check_result refs) rs) as [rs'|e0] eqn:E; cbn [bind].
    - apply mapM_Ok in E.
      assert (F : Forall (fits refs) rs) by (clear - E; induction E as [|r r' rs rs' H E IH]; constructor; [exact (proj1 (completed_ok refs _ _ H))|exact IH]).
      assert (FC : Forall2 completed rs rs') by (clear - E; induction E as [|r r' rs rs' H E IH]; constructor; [exact (proj2 (completed_ok refs _ _ H))|exact IH]).
      assert (FN : forall r, In r rs -> forall p i n n', names refs r p i n -> names refs r p i n' -> n = n').
      { intros r I p i n n' H1 H2. clear - FC I H1 H2. induction FC as [|a a' rs rs' C FC IH]; [destruct I|]. destruct I as [->|I]; [|apply IH; exact I].
        apply (cm_names _ _ _ C) in H1. apply (cm_names _ _ _ C) in H2. congruence. }
      destruct (fold_steps types rs rs' FC L [] (Out [] [] [] []) init_invs) as (S1 & S2 & S3). cbn [app] in S3.
      assert (CA : chain [] (combine types rs) <-> agree refs rs).
      { rewrite chain_agree.
        - cbn [app]. rewrite map_snd_combine by exact L. tauto.
        - intros x I. cbn [app] in I. apply FN. rewrite <- (map_snd_combine _ _ types rs L). apply in_map. exact I.
        - intros r r' p i n n' []. }
      rewrite CA in S1. destruct (foldM write_result (combine types rs') (Out [] [] [] [])) as [o|e1]; cbn [bind].
      + split; [split; [intros _; split; [exact L|]; split; [exact F|apply S1; eauto]|eauto]|]. split; [discriminate|]. intros out H. injection H as <-. exists o. split; [apply S3; reflexivity|reflexivity].
      + split; [|split; [intros e _ _ H; apply S2; congruence|discriminate]]. split; [intros [? H]; discriminate|]. intros (_ & _ & A). apply S1 in A. destruct A as [? H]. discriminate.
    - split; [|split; [|discriminate]].
      + split; [intros [? H]; discriminate|]. intros (_ & F & _). destruct (mapM_total _ _ (check_result refs) rs) as [rs' H]; [|congruence].
        intros r I. apply check_result_total. rewrite Forall_forall in F. apply F. exact I.
      + intros e AN NN H. injection H as <-. clear L. revert e0 E. induction NN as [|r rs N NN IH]; intros e0 E; cbn [mapM] in E; [discriminate|].
        destruct (check_result refs r) as [r'|e] eqn:ER; cbn [bind] in E; [|injection E as <-; eapply check_result_err; eassumption].
        destruct (mapM (check_result refs) rs) as [bs|e1]; cbn [bind] in E; [discriminate|]. injection E as <-. apply IH. reflexivity.
  Qed.

  Lemma section_nth : forall p done s n i, inv p done s n -> nth_error (dvals s) i = dget Nat.eqb s i.
  Proof. intros p done s n i I. symmetry. exact (dense_dget s n i (in_dense _ _ _ _ I)). Qed.
  Lemma reported_cells : forall (e : entry V) t k c, reported e t k c <-> cells (en_models e) t k = Some c.
  Proof. intros e t k c. unfold reported, cells. split; [intros (m & -> & H); exact H|]. destruct (dget String.eqb (en_models e) t); [eauto|discriminate]. Qed.
  Lemma part_inv : forall types rs out p, format_output refs types rs = Ok out -> exists s n, inv p (combine types rs) s n /\ part_of out p = dvals s.
  Proof.
    intros types rs out p H. apply (proj2 (proj2 (format_shape types rs))) in H. destruct H as (o & ((nv & IV) & (no & IO) & (nc & IC) & _) & ->). destruct p; cbn; eauto.
  Qed.
  Lemma In_combine_nth : forall A B (l : list A) (m : list B) a b, In (a, b) (combine l m) <-> exists j, nth_error l j = Some a /\ nth_error m j = Some b.
  Proof.
    intros A B l m a b. split.
    - intro H. apply In_nth_error in H. destruct H as [j H]. apply nth_combine in H. exists j. exact H.
    - intros (j & H1 & H2). apply nth_error_In with j. apply nth_combine. auto.
  Qed.

  Theorem format_values : forall types rs out, NoDup types -> format_output refs types rs = Ok out -> forall p i t key c,
    (exists e, nth_error (part_of out p) i = Some e /\ reported e t key c) <-> exists j r, nth_error types j = Some t /\ nth_error rs j = Some r /\ says r p i key c.
  Proof.
    intros types rs out ND H p i t key c. assert (L : length types = length rs) by (apply (proj1 (format_shape types rs)); eauto).
    destruct (part_inv types rs out p H) as (s & n & I & E). rewrite E, (section_nth _ _ _ _ i I).
    assert (CS := in_cells _ _ _ _ I ltac:(rewrite map_fst_combine by exact L; exact ND) i t key c). unfold cell_at in CS. split.
    - intros (e & G & R). rewrite G in CS. apply reported_cells in R. apply CS in R. destruct R as (r & IN & S). apply In_combine_nth in IN. destruct IN as (j & J1 & J2). eauto.
    - intros (j & r & J1 & J2 & S). destruct (dget Nat.eqb s i) as [e|].
      + exists e. split; [reflexivity|]. apply reported_cells. apply CS. exists r. split; [apply In_combine_nth; eauto|exact S].
      + assert (X := proj2 CS ltac:(exists r; split; [apply In_combine_nth; eauto|exact S])). discriminate.
  Qed.
  Theorem format_names : forall types rs out, format_output refs types rs = Ok out -> forall p,
    (forall i n, (exists e, nth_error (part_of out p) i = Some e /\ en_name e = Some n) <-> exists r, In r rs /\ names refs r p i n) /\
    (forall e, In e (part_of out p) -> en_name e <> None).
  Proof.
    intros types rs out H p. assert (L : length types = length rs) by (apply (proj1 (format_shape types rs)); eauto).
    destruct (part_inv types rs out p H) as (s & n & I & E). rewrite E. split.
    - intros i x. rewrite (section_nth _ _ _ _ i I).
      assert (NS := in_names _ _ _ _ I i x). unfold name_at in NS. split.
      + intros (e & G & R). rewrite G in NS. apply NS in R. destruct R as (t & r & IN & S). exists r. split; [|exact S]. rewrite <- (map_snd_combine _ _ types rs L). apply (in_map snd) in IN. exact IN.
      + intros (r & IN & S). rewrite <- (map_snd_combine _ _ types rs L) in IN. apply in_map_iff in IN. destruct IN as ([t r0] & E0 & IN). cbn in E0. subst r0.
        assert (X := proj2 NS ltac:(eauto)). destruct (dget Nat.eqb s i) as [e|]; [eauto|discriminate].
    - intros e IN. apply In_nth_error in IN. destruct IN as [i G]. assert (G' := G). rewrite (section_nth _ _ _ _ i I) in G'.
      assert (Li : i < n). { rewrite <- (dense_length s n (in_dense _ _ _ _ I)). assert (X : i < length (dvals s)) by (apply nth_error_Some; congruence). unfold dvals in X. rewrite map_length in X. exact X. }
      apply (in_named _ _ _ _ I) in Li. destruct Li as [x Hx]. unfold name_at in Hx. rewrite G' in Hx. congruence.
  Qed.
  Theorem format_stats : forall types rs out, NoDup types -> format_output refs types rs = Ok out -> forall t key x,
    (exists m, dget String.eqb (f_stats out) t = Some m /\ dget String.eqb m key = Some x) <->
    exists j r, nth_error types j = Some t /\ nth_error rs j = Some r /\ ((key = "aic"%string /\ r_aic r = Some x) \/ (key = "bic"%string /\ r_bic r = Some x)).
  Proof.
    intros types rs out ND H t key x. assert (L : length types = length rs) by (apply (proj1 (format_shape types rs)); eauto).
    apply (proj2 (proj2 (format_shape types rs))) in H. destruct H as (o & (_ & _ & _ & IS) & ->). cbn [f_stats].
    specialize (IS ltac:(rewrite map_fst_combine by exact L; exact ND) t key x). unfold cells in IS. split.
    - intros (m & G & R). rewrite G in IS. apply IS in R. destruct R as (r & IN & S). apply In_combine_nth in IN. destruct IN as (j & J1 & J2). exists j, r. auto.
    - intros (j & r & J1 & J2 & S). assert (X := proj2 IS ltac:(exists r; split; [apply In_combine_nth; eauto|exact S])). destruct (dget String.eqb (o_stats o) t); [eauto|discriminate].
  Qed.
End Fold.
