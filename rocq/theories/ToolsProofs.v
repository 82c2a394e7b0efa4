(** parallel_map under every schedule. *)
From Coq Require Import String.
From Coq Require Import List ZArith Bool Arith Lia Permutation.
From Verif Require Import PyBase BaseProofs Tools Classes SpecTools.
Import ListNotations.
Local Open Scope list_scope.

Lemma memb_In : forall x l, memb Nat.eqb x l = true <-> In x l.
Proof.
  intros x l. unfold memb. rewrite existsb_exists. split.
  - intros [y [H E]]. apply Nat.eqb_eq in E. subst. exact H.
  - intro H. exists x. split; [exact H|apply Nat.eqb_refl].
Qed.
Lemma memb_false : forall x l, memb Nat.eqb x l = false <-> ~ In x l.
Proof. intros x l. rewrite <- memb_In. destruct (memb Nat.eqb x l); split; congruence. Qed.
Lemma remove_In : forall x y l, In y (remove_nat x l) <-> In y l /\ y <> x.
Proof.
  intros x y l. unfold remove_nat. rewrite filter_In. rewrite negb_true_iff, Nat.eqb_neq. reflexivity.
Qed.
Lemma remove_NoDup : forall x l, NoDup l -> NoDup (remove_nat x l).
Proof. intros. apply NoDup_filter. assumption. Qed.
Lemma remove_notin : forall x l, ~ In x l -> remove_nat x l = l.
Proof.
  intros x l. induction l as [|y l IH]; intro H; [reflexivity|]. cbn [remove_nat filter].
  destruct (Nat.eqb_spec y x) as [->|N]; [exfalso; apply H; left; reflexivity|]. cbn [negb].
  f_equal. apply IH. intro C. apply H. right. exact C.
Qed.
Lemma remove_perm : forall x l, NoDup l -> In x l -> Permutation l (x :: remove_nat x l).
Proof.
  intros x l. induction l as [|y l IH]; intros N H; [contradiction|]. inversion N as [|? ? N1 N2]; subst.
  cbn [remove_nat filter]. destruct (Nat.eqb_spec y x) as [->|D]; cbn [negb].
  - fold (remove_nat x l). rewrite remove_notin by exact N1. reflexivity.
  - destruct H as [H|H]; [contradiction|]. fold (remove_nat x l). rewrite perm_swap. apply perm_skip, IH; assumption.
Qed.
Lemma remove_length : forall x l, length (remove_nat x l) <= length l.
Proof.
  intros x l. induction l as [|y l IH]; [apply le_n|]. cbn [remove_nat filter].
  destruct (negb (Nat.eqb y x)); cbn [length]; fold (remove_nat x l); lia.
Qed.

Lemma nodup_right : forall a b : list nat, NoDup (a ++ b) -> NoDup b.
Proof. induction a as [|x a IH]; intros b H; [exact H|]. inversion H; subst. apply IH; assumption. Qed.
Lemma nodup_left : forall a b : list nat, NoDup (a ++ b) -> NoDup a.
Proof.
  induction a as [|x a IH]; intros b H; [constructor|]. inversion H; subst. constructor; [|apply (IH b); assumption].
  intro C. apply H2. apply in_or_app. left. exact C.
Qed.

Section Map.
  Context {V : Type}.
  Variables (limit : Z) (value : nat -> V) (n : nat).

  Record inv (s : pm_state V) : Prop := Inv {
    i_perm : Permutation (pm_log s ++ pm_waiting s) (seq 0 n);
    i_active : NoDup (pm_active s);
    i_running : NoDup (pm_running s);
    i_sub : incl (pm_running s) (pm_active s);
    i_log : incl (pm_active s) (pm_log s);
    i_len : (Z.of_nat (length (pm_active s)) <= Z.max 0 limit)%Z;
    i_dict : forall i v, dget Nat.eqb (pm_dict s) i = Some v -> v = value i;
    i_end : pm_at s = Finished -> pm_waiting s = [] /\ pm_active s = [] }.

  Lemma dget_dset : forall d i j (v : V), dget Nat.eqb (dset Nat.eqb d i v) j = if Nat.eqb j i then Some v else dget Nat.eqb d j.
  Proof.
    intros d i j v. induction d as [|[k x] d IH]; cbn [dset dget].
    - destruct (Nat.eqb_spec j i); reflexivity.
    - destruct (Nat.eqb_spec i k) as [->|N]; cbn [dget].
      + destruct (Nat.eqb_spec j k); reflexivity.
      + rewrite IH. destruct (Nat.eqb_spec j k) as [->|M]; [|reflexivity]. destruct (Nat.eqb_spec k i); [congruence|reflexivity].
  Qed.
  Lemma nodup_seq : forall l, Permutation l (seq 0 n) -> NoDup l.
  Proof. intros l H. apply (Permutation_NoDup (Permutation_sym H)). apply seq_NoDup. Qed.

  Lemma inv_init : inv (pm_init n).
  Proof.
    constructor; cbn; try constructor; try (intros x H; contradiction); try discriminate; try apply Permutation_refl; try lia.
  Qed.
  Lemma inv_step : forall s e s', inv s -> pm_step limit value s e = Some s' -> inv s'.
  Proof.
    intros s e s' I H. destruct I as [P A R S L Le D E]. destruct s as [wt ac ru lg di pc]. cbn [pm_waiting pm_active pm_running pm_log pm_dict pm_at] in *.
    destruct e as [pick|w|w]; cbn [pm_step pm_waiting pm_active pm_running pm_log pm_dict pm_at] in H.
    - destruct pc as [[|x l]| | |].
      + injection H as <-. constructor; cbn; try assumption. discriminate.
      + destruct (memb Nat.eqb pick (x :: l)); [|discriminate]. injection H as <-.
        destruct (memb Nat.eqb pick ru) eqn:B; constructor; cbn [pm_waiting pm_active pm_running pm_log pm_dict pm_at]; try assumption; try discriminate.
        * apply remove_NoDup, A.
        * apply memb_false in B. intros y Hy. apply remove_In. split; [apply S, Hy|]. intros ->. contradiction.
        * intros y Hy. apply remove_In in Hy. apply L, Hy.
        * generalize (remove_length pick ac). lia.
      + destruct (_ && _)%bool eqn:C.
        * destruct (memb Nat.eqb pick wt) eqn:B; [|discriminate]. injection H as <-. apply andb_true_iff in C. destruct C as [C1 C2].
          apply Z.ltb_lt in C1. apply memb_In in B.
          assert (N := nodup_seq _ P). assert (Nw : NoDup wt) by (exact (nodup_right _ _ N)).
          assert (Nl : ~ In pick lg).
          { intro C. clear - N B C. induction lg as [|y lg IH]; [contradiction|]. cbn in N. inversion N; subst. destruct C as [->|C].
            - apply H1. apply in_or_app. right. exact B. - apply IH; assumption. }
          constructor; cbn [pm_waiting pm_active pm_running pm_log pm_dict pm_at]; try assumption; try discriminate.
          -- rewrite <- app_assoc. cbn [app]. rewrite <- P. apply Permutation_app_head. symmetry. apply remove_perm; assumption.
          -- constructor; [|exact A]. intro C. apply Nl, L, C.
          -- constructor; [|exact R]. intro C. apply Nl, L, S, C.
          -- intros y [->|Hy]; [left; reflexivity|right; apply S, Hy].
          -- intros y [->|Hy]; apply in_or_app; [right; left; reflexivity|left; apply L, Hy].
          -- cbn [length]. lia.
        * injection H as <-. constructor; cbn; try assumption. discriminate.
      + destruct (_ && _)%bool eqn:C; injection H as <-; constructor; cbn [pm_waiting pm_active pm_running pm_log pm_dict pm_at]; try assumption; try discriminate.
        intros _. apply andb_true_iff in C. destruct C as [C1 C2]. apply Nat.eqb_eq in C1, C2. split; [destruct wt|destruct ac]; try reflexivity; discriminate.
      + discriminate.
    - destruct (memb Nat.eqb w ru) eqn:B; [|discriminate]. injection H as <-. constructor; cbn [pm_waiting pm_active pm_running pm_log pm_dict pm_at]; try assumption.
      intros i v. rewrite dget_dset. destruct (Nat.eqb_spec i w) as [->|N]; [congruence|apply D].
    - destruct (memb Nat.eqb w ru) eqn:B; [|discriminate]. injection H as <-. constructor; cbn [pm_waiting pm_active pm_running pm_log pm_dict pm_at]; try assumption.
      + apply remove_NoDup, R. + intros y Hy. apply remove_In in Hy. apply S, Hy.
  Qed.
  Lemma inv_run : forall es s s', inv s -> pm_run limit value s es = Some s' -> inv s'.
  Proof.
    induction es as [|e es IH]; intros s s' I H; cbn [pm_run] in H; [injection H as <-; exact I|].
    destruct (pm_step limit value s e) as [s1|] eqn:E; [|discriminate]. exact (IH _ _ (inv_step _ _ _ I E) H).
  Qed.
  Lemma inv_reached : forall es s, reached limit value n es s -> inv s.
  Proof. intros es s H. exact (inv_run _ _ _ inv_init H). Qed.

  Lemma running_len : forall s, inv s -> (Z.of_nat (length (pm_running s)) <= Z.max 0 limit)%Z.
  Proof. intros s I. assert (H := NoDup_incl_length (i_running s I) (i_sub s I)). generalize (i_len s I). lia. Qed.

  (** ** Stored results *)
  Lemma step_stored : forall s e s' i, pm_step limit value s e = Some s' ->
    (dget Nat.eqb (pm_dict s') i <> None <-> dget Nat.eqb (pm_dict s) i <> None \/ e = Store i).
  Proof.
    intros s e s' i H. destruct s as [wt ac ru lg di pc]. destruct e as [pick|w|w]; cbn [pm_step pm_waiting pm_active pm_running pm_log pm_dict pm_at] in H.
    - assert (Q : pm_dict s' = di).
      { destruct pc as [[|x l]| | |]; repeat match type of H with (if ?b then _ else _) = _ => destruct b end; try discriminate; injection H as <-; reflexivity. }
      rewrite Q. cbn [pm_dict]. split; [auto|]. intros [A|A]; [exact A|discriminate].
    - destruct (memb Nat.eqb w ru); [|discriminate]. injection H as <-. cbn [pm_dict]. rewrite dget_dset.
      destruct (Nat.eqb_spec i w) as [->|N]; split; intro A; try (left; exact A); try discriminate; auto.
      destruct A as [A|A]; [exact A|congruence].
    - destruct (memb Nat.eqb w ru); [|discriminate]. injection H as <-. cbn [pm_dict]. split; [auto|]. intros [A|A]; [exact A|discriminate].
  Qed.
  Lemma run_stored : forall es s s' i, pm_run limit value s es = Some s' ->
    (dget Nat.eqb (pm_dict s') i <> None <-> dget Nat.eqb (pm_dict s) i <> None \/ In (Store i) es).
  Proof.
    induction es as [|e es IH]; intros s s' i H; cbn [pm_run] in H.
    - injection H as <-. cbn [In]. split; [auto|]. intros [A|[]]. exact A.
    - destruct (pm_step limit value s e) as [s1|] eqn:E; [|discriminate]. rewrite (IH _ _ i H). rewrite (step_stored _ _ _ i E). cbn [In].
      split; intros A; intuition.
  Qed.
  Lemma reached_stored : forall es s i, reached limit value n es s ->
    dget Nat.eqb (pm_dict s) i = Some (value i) /\ In (Store i) es \/ dget Nat.eqb (pm_dict s) i = None /\ ~ In (Store i) es.
  Proof.
    intros es s i H. assert (Q := run_stored _ _ _ i H). cbn [pm_init pm_dict dget] in Q.
    destruct (dget Nat.eqb (pm_dict s) i) as [v|] eqn:D.
    - left. split; [f_equal; apply (i_dict s (inv_reached _ _ H)), D|]. destruct Q as [Q _]. destruct Q as [Q|Q]; [discriminate|congruence|exact Q].
    - right. split; [reflexivity|]. intro C. apply Q; [right; exact C|reflexivity].
  Qed.

  (** ** The claims *)
  Lemma c53_bounded : forall es s, reached limit value n es s -> (1 <= limit)%Z ->
    NoDup (pm_running s) /\ (Z.of_nat (length (pm_running s)) <= limit)%Z.
  Proof. intros es s H L. assert (I := inv_reached _ _ H). split; [apply I|]. generalize (running_len s I). lia. Qed.
  Lemma c53_once : forall es s, reached limit value n es s ->
    NoDup (pm_log s) /\ (forall i, In i (pm_log s) -> i < n) /\ incl (pm_running s) (pm_log s).
  Proof.
    intros es s H. assert (I := inv_reached _ _ H). assert (N := nodup_seq _ (i_perm s I)).
    split; [exact (nodup_left _ _ N)|]. split.
    - intros i Hi. assert (Q : In i (seq 0 n)) by (apply (Permutation_in _ (i_perm s I)), in_or_app; left; exact Hi). apply in_seq in Q. lia.
    - intros i Hi. apply (i_log s I), (i_sub s I), Hi.
  Qed.
  Lemma mapM_values : forall d l, (forall i, In i l -> dget Nat.eqb d i = Some (value i)) -> mapM (fun i => dget_res Nat.eqb d i) l = Ok (map value l).
  Proof.
    intros d l. induction l as [|i l IH]; intro H; [reflexivity|]. cbn [mapM map]. unfold dget_res at 1. rewrite H by (left; reflexivity). cbn [bind].
    rewrite IH by (intros; apply H; right; assumption). reflexivity.
  Qed.
  Lemma mapM_missing : forall d l i, In i l -> dget Nat.eqb d i = None -> mapM (fun i => dget_res (V := V) Nat.eqb d i) l = Err KeyError.
  Proof.
    intros d l i. induction l as [|j l IH]; intros H N; [contradiction|]. cbn [mapM]. unfold dget_res at 1. destruct (dget Nat.eqb d j) eqn:E; cbn [bind]; [|reflexivity].
    destruct H as [->|H]; [congruence|]. rewrite (IH H N). reflexivity.
  Qed.
  Lemma c53_result : forall es s, reached limit value n es s -> pm_at s = Finished ->
    pm_running s = [] /\ Permutation (pm_log s) (seq 0 n) /\
    (all_stored n es -> pm_collect true n (pm_dict s) = Ok (map value (seq 0 n))) /\
    (~ all_stored n es -> pm_collect true n (pm_dict s) = Err KeyError).
  Proof.
    intros es s H F. assert (I := inv_reached _ _ H). destruct (i_end s I F) as [W A]. split.
    { assert (S := i_sub s I). rewrite A in S. apply incl_l_nil in S. exact S. }
    split. { assert (P := i_perm s I). rewrite W, app_nil_r in P. exact P. }
    split.
    - intro St. unfold pm_collect. apply mapM_values. intros i Hi. apply in_seq in Hi. destruct (reached_stored _ _ i H) as [[Q _]|[_ Q]]; [exact Q|].
      exfalso. apply Q, St. lia.
    - intro N. unfold pm_collect.
      assert (X : exists i, i < n /\ ~ In (Store i) es).
      { assert (K : forall m, m <= n -> (forall i, i < m -> In (Store i) es) \/ exists i, i < n /\ ~ In (Store i) es).
        { induction m as [|m IH]; intro Hm; [left; lia|]. destruct IH as [K|K]; [lia| |right; exact K].
          destruct (reached_stored _ _ m H) as [[_ Q]|[_ Q]].
          - left. intros i Hi. destruct (Nat.eq_dec i m) as [->|]; [exact Q|apply K; lia].
          - right. exists m. split; [lia|exact Q]. }
        destruct (K n (le_n _)) as [C|C]; [exfalso; apply N; exact C|exact C]. }
      destruct X as (i & Hi & Q). destruct (reached_stored _ _ i H) as [[_ C]|[C _]]; [contradiction|].
      apply (mapM_missing _ _ i); [apply in_seq; lia|exact C].
  Qed.

  (** ** Progress: with a positive limit the parent can always get to its end *)
  Lemma run_app : forall a b s s1 s2, pm_run limit value s a = Some s1 -> pm_run limit value s1 b = Some s2 -> pm_run limit value s (a ++ b) = Some s2.
  Proof.
    induction a as [|e a IH]; intros b s s1 s2 H1 H2; cbn [pm_run app] in *; [injection H1 as <-; exact H2|].
    destruct (pm_step limit value s e) as [s'|]; [|discriminate]. exact (IH _ _ _ _ H1 H2).
  Qed.
  Definition leads (s s' : pm_state V) : Prop := exists es, pm_run limit value s es = Some s'.
  Lemma leads_refl : forall s, leads s s. Proof. intro s. exists []. reflexivity. Qed.
  Lemma leads_trans : forall a b c, leads a b -> leads b c -> leads a c.
  Proof. intros a b c [x Hx] [y Hy]. exists (x ++ y). exact (run_app _ _ _ _ _ Hx Hy). Qed.
  Lemma leads_step : forall s e s' t, pm_step limit value s e = Some s' -> leads s' t -> leads s t.
  Proof. intros s e s' t H [x Hx]. exists (e :: x). cbn [pm_run]. rewrite H. exact Hx. Qed.

  (** All live workers end. *)
  Lemma drain : forall k wt ac ru lg di pc, length ru <= k -> exists di', leads (PM wt ac ru lg di pc) (PM wt ac [] lg di' pc).
  Proof.
    induction k as [|k IH]; intros wt ac ru lg di pc H.
    - destruct ru; [|cbn in H; lia]. exists di. apply leads_refl.
    - destruct ru as [|w ru]; [exists di; apply leads_refl|].
      destruct (IH wt ac (remove_nat w (w :: ru)) lg di pc) as [di' Q].
      { cbn [remove_nat filter]. rewrite Nat.eqb_refl. cbn [negb]. generalize (remove_length w ru). unfold remove_nat. cbn in H. lia. }
      exists di'. apply (leads_step _ (Exit w) (PM wt ac (remove_nat w (w :: ru)) lg di pc)); [|exact Q].
      cbn [pm_step pm_running]. assert (M : memb Nat.eqb w (w :: ru) = true) by (apply memb_In; left; reflexivity). rewrite M. reflexivity.
  Qed.
  (** A scan with no live worker clears what it looks at. *)
  Lemma sweep : forall k l wt ac lg di, length l <= k -> exists ac', leads (PM wt ac [] lg di (Scan l)) (PM wt ac' [] lg di Launch) /\
    forall x, In x ac' <-> In x ac /\ ~ In x l.
  Proof.
    induction k as [|k IH]; intros l wt ac lg di H.
    - destruct l; [|cbn in H; lia]. exists ac. split; [|intro x; cbn; tauto]. eapply (leads_step _ (Parent 0)); [reflexivity|apply leads_refl].
    - destruct l as [|p l]; [exists ac; split; [|intro x; cbn; tauto]; eapply (leads_step _ (Parent 0)); [reflexivity|apply leads_refl]|].
      destruct (IH (remove_nat p (p :: l)) wt (remove_nat p ac) lg di) as (ac' & Q & E).
      { cbn [remove_nat filter]. rewrite Nat.eqb_refl. cbn [negb]. generalize (remove_length p l). unfold remove_nat. cbn in H. lia. }
      exists ac'. split.
      + apply (leads_step _ (Parent p) (PM wt (remove_nat p ac) [] lg di (Scan (remove_nat p (p :: l))))); [|exact Q].
        cbn [pm_step pm_at pm_running]. assert (M : memb Nat.eqb p (p :: l) = true) by (apply memb_In; left; reflexivity). rewrite M. reflexivity.
      + intro x. rewrite E. rewrite !remove_In. cbn [In]. split.
        * intros [[A B] C]. split; [exact A|]. intros [D|D]; [congruence|]. apply C. split; [right; exact D|congruence].
        * intros [A B]. split; [split; [exact A|intros ->; apply B; left; reflexivity]|]. intros [[D|D] F]; [congruence|]. apply B. right. exact D.
  Qed.
  Lemma launch_check : forall wt ac ru lg di, exists wt' ac' ru' lg', leads (PM wt ac ru lg di Launch) (PM wt' ac' ru' lg' di Check) /\
    (length wt' <= length wt) /\ ((1 <= limit)%Z -> ac = [] -> wt <> [] -> length wt' < length wt) /\ (wt = [] -> wt' = [] /\ ac' = ac).
  Proof.
    intros wt ac ru lg di. destruct ((Z.of_nat (length ac) <? limit)%Z && negb (Nat.eqb (length wt) 0))%bool eqn:C.
    - destruct wt as [|p wt]; [cbn in C; rewrite andb_false_r in C; discriminate|].
      exists (remove_nat p (p :: wt)), (p :: ac), (p :: ru), (lg ++ [p]). split.
      + eapply (leads_step _ (Parent p)); [|apply leads_refl]. cbn [pm_step pm_at pm_active pm_waiting]. rewrite C.
        assert (M : memb Nat.eqb p (p :: wt) = true) by (apply memb_In; left; reflexivity). rewrite M. reflexivity.
      + cbn [remove_nat filter]. rewrite Nat.eqb_refl. cbn [negb length]. generalize (remove_length p wt). unfold remove_nat.
        split; [lia|]. split; [lia|discriminate].
    - exists wt, ac, ru, lg. split; [eapply (leads_step _ (Parent 0)); [|apply leads_refl]; cbn [pm_step pm_at pm_active pm_waiting]; rewrite C; reflexivity|].
      split; [apply le_n|]. split; [|auto]. intros L -> N. exfalso. destruct wt; [congruence|]. cbn [length] in C.
      destruct (Z.ltb_spec (Z.of_nat 0) limit); [discriminate|lia].
  Qed.
  Lemma check_end : (1 <= limit)%Z -> forall k wt ac ru lg di, length wt <= k -> exists s, leads (PM wt ac ru lg di Check) s /\ pm_at s = Finished.
  Proof.
    intros L k. induction k as [k IH] using lt_wf_ind. intros wt ac ru lg di H.
    destruct (Nat.eqb (length wt) 0 && Nat.eqb (length ac) 0)%bool eqn:C.
    - exists (PM wt ac ru lg di Finished). split; [|reflexivity]. eapply (leads_step _ (Parent 0)); [|apply leads_refl].
      cbn [pm_step pm_at pm_active pm_waiting]. rewrite C. reflexivity.
    - assert (S1 : leads (PM wt ac ru lg di Check) (PM wt ac ru lg di (Scan ac))).
      { eapply (leads_step _ (Parent 0)); [|apply leads_refl]. cbn [pm_step pm_at pm_active pm_waiting]. rewrite C. reflexivity. }
      destruct (drain _ wt ac ru lg di (Scan ac) (le_n _)) as [di' S2]. destruct (sweep _ ac wt ac lg di' (le_n _)) as (ac' & S3 & E).
      assert (Z : ac' = []). { destruct ac' as [|x l]; [reflexivity|]. exfalso. destruct (proj1 (E x) (or_introl eq_refl)) as [A B]. exact (B A). }
      subst ac'. destruct (launch_check wt [] [] lg di') as (wt' & ac' & ru' & lg' & S4 & L1 & L2 & L3).
      destruct wt as [|p wt].
      + destruct (L3 eq_refl) as [-> ->]. exists (PM [] [] ru' lg' di' Finished). split; [|reflexivity].
        eapply leads_trans; [exact S1|]. eapply leads_trans; [exact S2|]. eapply leads_trans; [exact S3|]. eapply leads_trans; [exact S4|].
        eapply (leads_step _ (Parent 0)); [reflexivity|apply leads_refl].
      + assert (Q : length wt' < length (p :: wt)) by (apply L2; [exact L|reflexivity|discriminate]).
        destruct (IH (length wt') ltac:(lia) wt' ac' ru' lg' di' (le_n _)) as (s & S5 & F). exists s. split; [|exact F].
        eapply leads_trans; [exact S1|]. eapply leads_trans; [exact S2|]. eapply leads_trans; [exact S3|]. eapply leads_trans; [exact S4|exact S5].
  Qed.
  Lemma c53_progress : forall es s, reached limit value n es s -> (1 <= limit)%Z -> exists es' s', reached limit value n (es ++ es') s' /\ pm_at s' = Finished.
  Proof.
    intros es s H L. assert (Q : exists s', leads s s' /\ pm_at s' = Finished).
    { clear H. destruct s as [wt ac ru lg di pc].
      assert (LA : forall wt ac ru lg di, exists s', leads (PM wt ac ru lg di Launch) s' /\ pm_at s' = Finished).
      { clear wt ac ru lg di pc. intros wt ac ru lg di. destruct (launch_check wt ac ru lg di) as (wt' & ac' & ru' & lg' & S4 & _).
        destruct (check_end L _ wt' ac' ru' lg' di (le_n _)) as (s & S5 & F). exists s. split; [exact (leads_trans _ _ _ S4 S5)|exact F]. }
      destruct pc as [l| | |].
      - destruct (drain _ wt ac ru lg di (Scan l) (le_n _)) as [di' S2]. destruct (sweep _ l wt ac lg di' (le_n _)) as (ac' & S3 & _).
        destruct (LA wt ac' [] lg di') as (s & S4 & F). exists s. split; [|exact F]. exact (leads_trans _ _ _ S2 (leads_trans _ _ _ S3 S4)).
      - apply LA.
      - apply (check_end L _ wt ac ru lg di (le_n _)).
      - eexists. split; [apply leads_refl|reflexivity]. }
    destruct Q as (s' & [es' R] & F). exists es', s'. split; [exact (run_app _ _ _ _ _ H R)|exact F].
  Qed.

  (** With a limit below 1 nothing is ever started. *)
  Lemma c53_zero : forall es s, reached limit value n es s -> (limit <= 0)%Z -> 0 < n -> pm_log s = [] /\ pm_at s <> Finished.
  Proof.
    intros es s H L Hn. assert (Q : pm_log s = []).
    { assert (K : forall es s s', pm_log s = [] -> pm_run limit value s es = Some s' -> pm_log s' = []).
      { clear - L. induction es as [|e es IH]; intros s s' E R; cbn [pm_run] in R; [injection R as <-; exact E|].
        destruct (pm_step limit value s e) as [s1|] eqn:S; [|discriminate]. apply (IH s1 s'); [|exact R]. clear IH R.
        destruct s as [wt ac ru lg di pc]. cbn [pm_log] in E. subst lg.
        destruct e as [pick|w|w]; cbn [pm_step pm_waiting pm_active pm_running pm_log pm_dict pm_at] in S.
        - destruct pc as [[|x l]| | |].
          + injection S as <-. reflexivity.
          + destruct (memb Nat.eqb pick (x :: l)); [|discriminate]. injection S as <-. reflexivity.
          + destruct (Z.ltb_spec (Z.of_nat (length ac)) limit); [lia|]. cbn [andb] in S. injection S as <-. reflexivity.
          + destruct (_ && _)%bool; injection S as <-; reflexivity.
          + discriminate.
        - destruct (memb Nat.eqb w ru); [|discriminate]. injection S as <-. reflexivity.
        - destruct (memb Nat.eqb w ru); [|discriminate]. injection S as <-. reflexivity. }
      exact (K es (pm_init n) s eq_refl H). }
    split; [exact Q|]. intro F. assert (I := inv_reached _ _ H). destruct (i_end s I F) as [W _]. assert (P := i_perm s I). rewrite Q, W in P.
    apply Permutation_length in P. rewrite seq_length in P. cbn in P. lia.
  Qed.
End Map.
