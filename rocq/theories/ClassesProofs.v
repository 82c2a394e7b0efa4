(** Class lookup. *)
From Coq Require Import String.
From Coq Require Import List ZArith Bool Arith Lia.
From Verif Require Import PyBase BaseProofs Tools Classes SpecTools.
Import ListNotations.
Local Open Scope list_scope.

Lemma memb_nat : forall c l, memb Nat.eqb c l = true <-> In c l.
Proof.
  intros c l. induction l as [|x l IH]; cbn [memb existsb In]; [split; [discriminate|contradiction]|].
  unfold memb in *. cbn [existsb]. rewrite orb_true_iff, IH, Nat.eqb_eq. split; intros [->|H]; auto.
Qed.
Lemma subclasses_derives : forall h c d, In d (subclasses h c) <-> derives h c d.
Proof.
  intros h c d. unfold subclasses, derives. rewrite filter_In, in_seq. split.
  - intros [_ H]. destruct (nth_error h d) as [k|]; [|discriminate]. exists k. split; [reflexivity|]. apply memb_nat, H.
  - intros (k & E & H). rewrite E. split; [|apply memb_nat, H]. assert (d < length h) by (apply nth_error_Some; congruence). lia.
Qed.
Lemma subclasses_nodup : forall h c, NoDup (subclasses h c).
Proof. intros. unfold subclasses. apply NoDup_filter, seq_NoDup. Qed.
Lemma below_head : forall h c d, below h c d <-> derives h c d \/ exists m, derives h c m /\ below h m d.
Proof.
  intros h c d. split.
  - induction 1 as [d H|m d H IH D]; [left; exact H|]. right. destruct IH as [IH|(q & Q & B)].
    + exists m. split; [exact IH|apply below_direct, D].
    + exists q. split; [exact Q|exact (below_step h q m d B D)].
  - intros [H|(m & D & B)]; [apply below_direct, H|]. revert D. induction B as [d H|q d B IH E]; intro D.
    + apply below_step with m; [apply below_direct, D|exact H].
    + apply below_step with q; [exact (IH D)|exact E].
Qed.
Lemma below_trans : forall h a b c, below h a b -> below h b c -> below h a c.
Proof. intros h a b c A B. induction B as [d D|m d B IH D]; eapply below_step; eauto. Qed.

Section Ordered.
  Variable h : hierarchy.
  Hypothesis O : defined_in_order h.
  Lemma derives_lt : forall c d, derives h c d -> c < d < length h.
  Proof. intros c d (k & E & I). split; [exact (O d k c E I)|]. apply nth_error_Some. congruence. Qed.
  Lemma below_lt : forall c d, below h c d -> c < d < length h.
  Proof. induction 1 as [d D|m d B IH D]; apply derives_lt in D; lia. Qed.
  Lemma below_list_spec : forall f c d, length h <= c + f -> (In d (below_list f h c) <-> below h c d).
  Proof.
    induction f as [|f IH]; intros c d F; cbn [below_list].
    - split; [contradiction|]. intro B. apply below_lt in B. lia.
    - rewrite in_app_iff, in_flat_map, subclasses_derives, below_head. split; (intros [H|(m & D & B)]; [left; exact H|right; exists m]).
      + apply subclasses_derives in D. split; [exact D|]. apply IH in B; [exact B|]. apply derives_lt in D. lia.
      + split; [apply subclasses_derives, D|]. apply IH; [|exact B]. apply derives_lt in D. lia.
  Qed.
  Lemma all_below : forall c d, In d (get_subclasses_recursively h c) <-> below h c d.
  Proof. intros c d. apply below_list_spec. lia. Qed.

  (** In a tree the branches are disjoint. *)
  Lemma branch_unique : forall c, tree_below h c -> forall n d m1 m2, d <= n -> derives h c m1 -> derives h c m2 ->
    at_or_below h m1 d -> at_or_below h m2 d -> m1 = m2.
  Proof.
    intros c T. induction n as [|n IH]; intros d m1 m2 L D1 D2 B1 B2.
    - destruct B1 as [->|B1]; [|apply below_lt in B1; lia]. apply derives_lt in D1. lia.
    - assert (X : forall a b, derives h c a -> derives h c b -> below h b a -> False).
      { intros a b Da Db Bba. assert (Q : exists q, at_or_below h b q /\ derives h q a).
        { inversion Bba as [x Dx|q x Bq Dx]; subst; [exists b|exists q]; split; auto; [left; reflexivity|right; exact Bq]. }
        destruct Q as (q & Bq & Dq). assert (E : c = q).
        { apply (T a); auto; [apply below_direct, Da|]. right. destruct Bq as [->|Bq]; [apply below_direct, Db|]. apply below_head. right. exists b. auto. }
        subst q. apply derives_lt in Db. destruct Bq as [->|Bq]; [lia|apply below_lt in Bq; lia]. }
      destruct B1 as [->|B1], B2 as [->|B2]; [reflexivity| | |].
      + exfalso. exact (X m1 m2 D1 D2 B2).
      + exfalso. exact (X m2 m1 D2 D1 B1).
      + assert (P : forall m, below h m d -> exists q, at_or_below h m q /\ derives h q d).
        { intros m B. inversion B as [x Dx|q x Bq Dx]; subst; [exists m|exists q]; split; auto; [left; reflexivity|right; exact Bq]. }
        destruct (P m1 B1) as (q1 & A1 & E1). destruct (P m2 B2) as (q2 & A2 & E2).
        assert (W : forall m q, derives h c m -> at_or_below h m q -> below h c q).
        { intros m q Dm [->|Bq]; [apply below_direct, Dm|]. apply below_head. right. exists m. auto. }
        assert (q1 = q2).
        { apply (T d); auto; [|right; exact (W m1 q1 D1 A1)|right; exact (W m2 q2 D2 A2)]. apply below_step with q1; [exact (W m1 q1 D1 A1)|exact E1]. }
        subst q2. apply (IH q1 m1 m2); auto. apply derives_lt in E1. lia.
  Qed.
  Lemma tree_sub : forall c m, tree_below h c -> derives h c m -> tree_below h m.
  Proof.
    intros c m T D d a b Bd Ba Bb Da Db.
    assert (W : forall q, (q = m \/ below h m q) -> below h c q).
    { intros q [->|B]; [apply below_direct, D|]. apply below_head. right. exists m. auto. }
    apply (T d); auto.
  Qed.
  Lemma nodup_app : forall (A : Type) (l k : list A), NoDup l -> NoDup k -> (forall x, In x l -> In x k -> False) -> NoDup (l ++ k).
  Proof.
    intros A l k N1 N2 D. induction N1 as [|x l X N IH]; [exact N2|]. cbn. constructor.
    - rewrite in_app_iff. intros [H|H]; [exact (X H)|]. exact (D x (or_introl eq_refl) H).
    - apply IH. intros y H. apply D. right. exact H.
  Qed.
  Lemma nodup_flat : forall (A B : Type) (g : A -> list B) l, NoDup l -> (forall x, In x l -> NoDup (g x)) ->
    (forall x y z, In x l -> In y l -> In z (g x) -> In z (g y) -> x = y) -> NoDup (flat_map g l).
  Proof.
    intros A B g l N. induction N as [|x l X N IH]; intros G D; cbn; [constructor|]. apply nodup_app.
    - apply G. left. reflexivity.
    - apply IH; [intros y H; apply G; right; exact H|]. intros y z w Hy Hz. apply D; right; assumption.
    - intros z H1 H2. apply in_flat_map in H2. destruct H2 as (y & Hy & H2). apply X.
      rewrite (D x y z (or_introl eq_refl) (or_intror Hy) H1 H2). exact Hy.
  Qed.
  Lemma below_list_nodup : forall f c, length h <= c + f -> tree_below h c -> NoDup (below_list f h c).
  Proof.
    induction f as [|f IH]; intros c F T; cbn [below_list]; [constructor|].
    assert (S : forall m d, derives h c m -> (In d (below_list f h m) <-> below h m d)).
    { intros m d D. apply below_list_spec. apply derives_lt in D. lia. }
    apply nodup_app; [apply subclasses_nodup| |].
    - apply nodup_flat; [apply subclasses_nodup| |].
      + intros m D. apply subclasses_derives in D. apply IH; [apply derives_lt in D; lia|exact (tree_sub c m T D)].
      + intros a b d Da Db Ia Ib. apply subclasses_derives in Da, Db. apply (S a d Da) in Ia. apply (S b d Db) in Ib.
        apply (branch_unique c T d d a b); auto; right; assumption.
    - intros d H1 H2. apply subclasses_derives in H1. apply in_flat_map in H2. destruct H2 as (m & Dm & Im). apply subclasses_derives in Dm.
      apply (S m d Dm) in Im. assert (m = d) by (apply (branch_unique c T d d m d); auto; [right; exact Im|left; reflexivity]). subst. apply below_lt in Im. lia.
  Qed.

  Lemma has_type_typed : forall t d, has_type h t d = true <-> typed h d t.
  Proof.
    intros t d. unfold has_type, typed. destruct (nth_error h d) as [k|]; [|split; [discriminate|intros (k & E & _); discriminate]].
    destruct (k_type k) as [u|] eqn:U.
    - rewrite String.eqb_eq. split; [intros ->; exists k; auto|]. intros (k' & E & T). injection E as <-. congruence.
    - split; [discriminate|]. intros (k' & E & T). injection E as <-. congruence.
  Qed.
  Lemma c56_found : forall c t d, tree_below h c -> (find_subclass h c t = Ok d <-> only_typed h c t d).
  Proof.
    intros c t d T. unfold find_subclass.
    assert (N : NoDup (filter (has_type h t) (get_subclasses_recursively h c))) by (apply NoDup_filter, below_list_nodup; [lia|exact T]).
    assert (M : forall x, In x (filter (has_type h t) (get_subclasses_recursively h c)) <-> below h c x /\ typed h x t).
    { intro x. rewrite filter_In, all_below, has_type_typed. tauto. }
    destruct (filter _ _) as [|x [|y l]].
    - split; [discriminate|]. intros (B & Y & _). destruct (proj2 (M d) (conj B Y)).
    - split.
      + intro E. injection E as <-. destruct (proj1 (M x) (or_introl eq_refl)) as [B Y]. split; [exact B|]. split; [exact Y|].
        intros z Bz Yz. destruct (proj2 (M z) (conj Bz Yz)) as [->|[]]. reflexivity.
      + intros (B & Y & _). destruct (proj2 (M d) (conj B Y)) as [->|[]]. reflexivity.
    - split; [discriminate|]. intros (B & Y & U). exfalso. inversion N as [|? ? X _]; subst. apply X.
      destruct (proj1 (M x) (or_introl eq_refl)) as [Bx Yx]. destruct (proj1 (M y) (or_intror (or_introl eq_refl))) as [By Yy].
      rewrite (U x Bx Yx), (U y By Yy). left. reflexivity.
  Qed.
  Lemma c56_rejected : forall c t, tree_below h c -> (forall d, ~ only_typed h c t d) -> find_subclass h c t = Err AssertionError.
  Proof.
    intros c t T N. destruct (find_subclass h c t) as [d|e] eqn:F; [exfalso; apply (N d), c56_found; assumption|].
    unfold find_subclass in F. destruct (filter _ _) as [|x [|y l]]; congruence.
  Qed.
  (** Outside trees a class found is still the only one. *)
  Lemma c56_sound : forall c t d, find_subclass h c t = Ok d -> only_typed h c t d.
  Proof.
    intros c t d F. unfold find_subclass in F.
    assert (M : forall x, In x (filter (has_type h t) (get_subclasses_recursively h c)) <-> below h c x /\ typed h x t).
    { intro x. rewrite filter_In, all_below, has_type_typed. tauto. }
    destruct (filter _ _) as [|x [|y l]]; try discriminate. injection F as <-.
    destruct (proj1 (M x) (or_introl eq_refl)) as [B Y]. split; [exact B|]. split; [exact Y|].
    intros z Bz Yz. destruct (proj2 (M z) (conj Bz Yz)) as [->|[]]. reflexivity.
  Qed.

  (** ** Ancestors *)
  Lemma in_mro_spec : forall f c d, d <= f -> (in_mro f h c d = true <-> at_or_below h c d).
  Proof.
    induction f as [|f IH]; intros c d L; cbn [in_mro]; rewrite orb_true_iff, Nat.eqb_eq.
    - split; [intros [->|H]; [left; reflexivity|discriminate]|]. intros [->|B]; [left; reflexivity|apply below_lt in B; lia].
    - split.
      + intros [->|H]; [left; reflexivity|]. destruct (nth_error h d) as [k|] eqn:E; [|discriminate]. apply existsb_exists in H.
        destruct H as (m & I & H). assert (D : derives h m d) by (exists k; auto). apply IH in H; [|apply derives_lt in D; lia]. right.
        destruct H as [->|B]; [apply below_direct, D|exact (below_step h c m d B D)].
      + intros [->|B]; [left; reflexivity|]. right.
        assert (Q : exists m, at_or_below h c m /\ derives h m d).
        { inversion B as [x Dx|q x Bq Dx]; subst; [exists c|exists q]; split; auto; [left; reflexivity|right; exact Bq]. }
        destruct Q as (m & A & D). assert (D' := D). destruct D' as (k & E & I). rewrite E. apply existsb_exists. exists m. split; [exact I|].
        apply IH; [apply derives_lt in D; lia|exact A].
  Qed.
  Lemma mro_spec : forall c d, d < length h -> (mro h c d = true <-> at_or_below h c d).
  Proof. intros c d L. apply in_mro_spec. lia. Qed.
End Ordered.

(** ** The reader chosen by the command line *)
Lemma mapM_forall2 : forall (A B : Type) (f : A -> res B) l ys, mapM f l = Ok ys <-> Forall2 (fun x y => f x = Ok y) l ys.
Proof.
  intros A B f. induction l as [|x l IH]; intro ys; cbn [mapM].
  - split; [intro E; injection E as <-; constructor|]. intro H. inversion H. reflexivity.
  - destruct (f x) as [y|e] eqn:E; cbn [bind].
    + destruct (mapM f l) as [zs|e] eqn:M; cbn [bind].
      * split; [intro Q; injection Q as <-; constructor; [exact E|apply IH; reflexivity]|]. intro H. inversion H as [|? y' ? zs' P Q]; subst.
        apply IH in Q. congruence.
      * split; [discriminate|]. intro H. inversion H as [|? y' ? zs' P Q]; subst. apply IH in Q. congruence.
    + split; [discriminate|]. intro H. inversion H. congruence.
Qed.
Section Main.
  Variables (h : hierarchy) (base pc : nat).
  Hypothesis O : defined_in_order h.
  Hypothesis T : tree_below h base.

  Lemma main_err : forall models e, main_classes h base pc models = Err e -> e = AssertionError.
  Proof.
    intros models e. unfold main_classes. destruct (mapM (find_subclass h base) models) as [cs|x] eqn:M; cbn [bind].
    - unfold assert_. destruct (_ || _)%bool; cbn [bind]; congruence.
    - intro E. injection E as <-. revert x M. induction models as [|t l IH]; intros x M; cbn [mapM] in M; [discriminate|].
      destruct (find_subclass h base t) as [d|y] eqn:F; cbn [bind] in M.
      + destruct (mapM (find_subclass h base) l) as [zs|z]; cbn [bind] in M; [discriminate|]. injection M as <-. apply IH. reflexivity.
      + injection M as <-. unfold find_subclass in F. destruct (filter _ _) as [|a [|b q]]; congruence.
  Qed.

  Lemma main_flags : forall models cs, Forall2 (only_typed h base) models cs ->
    (forallb (is_subj h base pc) cs = true <-> Forall (fun c => ~ at_or_below h pc c) cs) /\
    (forallb (is_pc_subj h pc) cs = true <-> Forall (fun c => at_or_below h pc c) cs).
  Proof.
    intros models cs F. induction F as [|t c ts cs' (B & Y & U) F (IH1 & IH2)]; cbn [forallb].
    - repeat split; constructor.
    - assert (L : c < length h) by (apply below_lt in B; [lia|exact O]). assert (P := mro_spec h O pc c L).
      assert (Q : mro h base c = true) by (apply mro_spec; [exact O|exact L|right; exact B]).
      rewrite !andb_true_iff, IH1, IH2. unfold is_subj, is_pc_subj. rewrite Q. cbn [andb]. rewrite negb_true_iff.
      split; (split; [intros [H1 H2]; constructor; [|exact H2]|intro H; inversion H; subst; split; [|assumption]]).
      + intro A. apply P in A. congruence.
      + destruct (mro h pc c); [exfalso; apply H2, P; reflexivity|reflexivity].
      + apply P, H1. + apply P. assumption.
  Qed.
  Lemma found_all : forall models cs, mapM (find_subclass h base) models = Ok cs <-> Forall2 (only_typed h base) models cs.
  Proof.
    intros models cs. rewrite mapM_forall2. split; induction 1 as [|t c ts ds P F IH]; constructor; auto; apply c56_found; assumption.
  Qed.
  Lemma f2_split : forall (P : nat -> Prop) models cs, Forall2 (only_typed h base) models cs /\ Forall P cs <-> Forall2 (fun t c => only_typed h base t c /\ P c) models cs.
  Proof.
    intros P models cs. split.
    - intros [F A]. induction F; inversion A; subst; constructor; auto.
    - induction 1 as [|t c ts cs' [H1 H2] F [IH1 IH2]]; split; constructor; auto.
  Qed.
  Lemma c57_rating : forall models cs, main_classes h base pc models = Ok (cs, RatingReader) <-> models <> [] /\ Forall2 (rating_named h base pc) models cs.
  Proof.
    intros models cs. unfold rating_named. rewrite <- (f2_split (fun c => ~ at_or_below h pc c)), <- found_all. unfold main_classes.
    destruct (mapM (find_subclass h base) models) as [ds|e] eqn:M; cbn [bind]; [|split; [discriminate|intros (_ & E & _); discriminate]].
    assert (F := proj1 (found_all models ds) M). destruct (main_flags models ds F) as [G1 G2].
    destruct (forallb (is_subj h base pc) ds) eqn:A; destruct (forallb (is_pc_subj h pc) ds) eqn:B; cbn [negb andb orb assert_ bind].
    - split; [discriminate|]. intros (N & E & _). exfalso. assert (G := proj1 G1 eq_refl). assert (G' := proj1 G2 eq_refl).
      destruct F; [apply N; reflexivity|]. inversion G; inversion G'; subst. contradiction.
    - split.
      + intro E. injection E as <-. split; [intros ->; destruct ds; [discriminate B|inversion F]|]. split; [reflexivity|apply G1; reflexivity].
      + intros (_ & E & _). injection E as <-. reflexivity.
    - split; [intro E; discriminate|]. intros (_ & E & H). injection E as <-. apply G1 in H. discriminate.
    - split; [discriminate|]. intros (_ & E & H). injection E as <-. apply G1 in H. discriminate.
  Qed.
  Lemma c57_paired : forall models cs, main_classes h base pc models = Ok (cs, PairedReader) <-> models <> [] /\ Forall2 (paired_named h base pc) models cs.
  Proof.
    intros models cs. unfold paired_named. rewrite <- (f2_split (fun c => at_or_below h pc c)), <- found_all. unfold main_classes.
    destruct (mapM (find_subclass h base) models) as [ds|e] eqn:M; cbn [bind]; [|split; [discriminate|intros (_ & E & _); discriminate]].
    assert (F := proj1 (found_all models ds) M). destruct (main_flags models ds F) as [G1 G2].
    destruct (forallb (is_subj h base pc) ds) eqn:A; destruct (forallb (is_pc_subj h pc) ds) eqn:B; cbn [negb andb orb assert_ bind].
    - split; [discriminate|]. intros (N & E & _). exfalso. assert (G := proj1 G1 eq_refl). assert (G' := proj1 G2 eq_refl).
      destruct F; [apply N; reflexivity|]. inversion G; inversion G'; subst. contradiction.
    - split; [intro E; discriminate|]. intros (_ & E & H). injection E as <-. apply G2 in H. discriminate.
    - split.
      + intro E. injection E as <-. split; [intros ->; destruct ds; [discriminate A|inversion F]|]. split; [reflexivity|apply G2; reflexivity].
      + intros (_ & E & _). injection E as <-. reflexivity.
    - split; [discriminate|]. intros (_ & E & H). injection E as <-. apply G2 in H. discriminate.
  Qed.
  Lemma c57_rejected : forall models, (~ exists cs, models <> [] /\ Forall2 (rating_named h base pc) models cs) -> (~ exists cs, models <> [] /\ Forall2 (paired_named h base pc) models cs) ->
    main_classes h base pc models = Err AssertionError.
  Proof.
    intros models N1 N2. destruct (main_classes h base pc models) as [[cs []]|e] eqn:E.
    - exfalso. apply N1. exists cs. apply c57_rating, E.
    - exfalso. apply N2. exists cs. apply c57_paired, E.
    - rewrite (main_err _ _ E). reflexivity.
  Qed.
End Main.

(** ** The package *)
Definition ordered_b (h : hierarchy) : bool :=
  forallb (fun d => match nth_error h d with Some k => forallb (fun c => Nat.ltb c d) (k_bases k) | None => true end) (seq 0 (length h)).
Lemma ordered_b_ok : forall h, ordered_b h = true -> defined_in_order h.
Proof.
  intros h H d k c E I. unfold ordered_b in H. rewrite forallb_forall in H. specialize (H d). rewrite E in H. rewrite forallb_forall in H.
  apply Nat.ltb_lt, H; [|exact I]. apply in_seq. assert (d < length h) by (apply nth_error_Some; congruence). lia.
Qed.
Definition tree_b (h : hierarchy) (c : nat) : bool :=
  forallb (fun d => match nth_error h d with
                    | Some k => Nat.leb (length (nodup Nat.eq_dec (filter (fun m => memb Nat.eqb m (c :: get_subclasses_recursively h c)) (k_bases k)))) 1
                    | None => true end) (seq 0 (length h)).
Lemma tree_b_ok : forall h c, ordered_b h = true -> tree_b h c = true -> tree_below h c.
Proof.
  intros h c O H d m m' B A A' (k & E & I) (k' & E' & I'). apply ordered_b_ok in O. rewrite E in E'. injection E' as <-.
  unfold tree_b in H. rewrite forallb_forall in H. specialize (H d). rewrite E in H.
  assert (L : d < length h) by (apply nth_error_Some; congruence). specialize (H ltac:(apply in_seq; lia)). apply Nat.leb_le in H.
  assert (M : forall q, In q (k_bases k) -> q = c \/ below h c q -> In q (nodup Nat.eq_dec (filter (fun m => memb Nat.eqb m (c :: get_subclasses_recursively h c)) (k_bases k)))).
  { intros q Iq Q. apply nodup_In, filter_In. split; [exact Iq|]. apply memb_nat. destruct Q as [->|Q]; [left; reflexivity|right; apply all_below; assumption]. }
  assert (M1 := M m I A). assert (M2 := M m' I' A'). destruct (nodup _ _) as [|x [|y l]]; cbn in H; [contradiction| |lia].
  destruct M1 as [<-|[]]. destruct M2 as [<-|[]]. reflexivity.
Qed.
Lemma package_ordered : defined_in_order package. Proof. apply ordered_b_ok. vm_compute. reflexivity. Qed.
Lemma package_tree : tree_below package subjective_model. Proof. apply tree_b_ok; vm_compute; reflexivity. Qed.
Lemma experimental_ordered : defined_in_order package_experimental. Proof. apply ordered_b_ok. vm_compute. reflexivity. Qed.
Lemma experimental_tree : tree_below package_experimental subjective_model. Proof. apply tree_b_ok; vm_compute; reflexivity. Qed.
Lemma package_pc : below package subjective_model paired_comp_model.
Proof. apply all_below; [exact package_ordered|]. apply memb_nat. vm_compute. reflexivity. Qed.

Definition all_found (h : hierarchy) (c : nat) : bool :=
  forallb (fun d => match nth_error h d with
                    | Some (Klass _ _ (Some t)) => match find_subclass h c t with Ok e => Nat.eqb e d | Err _ => false end
                    | _ => true end) (seq 0 (length h)).
Lemma all_found_ok : forall h c, all_found h c = true -> forall d t, typed h d t -> find_subclass h c t = Ok d.
Proof.
  intros h c H d t ([n b u] & E & U). cbn [k_type] in U. subst u. unfold all_found in H. rewrite forallb_forall in H. specialize (H d). rewrite E in H.
  assert (L : d < length h) by (apply nth_error_Some; congruence). specialize (H ltac:(apply in_seq; lia)).
  destruct (find_subclass h c t) as [e|]; [|discriminate]. apply Nat.eqb_eq in H. congruence.
Qed.
Lemma c56_package : forall d t, typed package d t -> find_subclass package subjective_model t = Ok d.
Proof. apply all_found_ok. vm_compute. reflexivity. Qed.
Lemma c56_experimental : forall d t, typed package_experimental d t -> find_subclass package_experimental subjective_model t = Ok d.
Proof. apply all_found_ok. vm_compute. reflexivity. Qed.

(** ** The package's names *)
Definition names_ok (p : nat -> bool) (names : list string) : bool :=
  forallb (fun d => match nth_error package d with
                    | Some (Klass _ _ (Some t)) => Bool.eqb (p d) (memb String.eqb t names)
                    | _ => true end) (seq 0 (length package)) &&
  forallb (fun t => match find_subclass package subjective_model t with Ok d => p d | Err _ => false end) names.
Lemma memb_str : forall c l, memb String.eqb c l = true <-> In c l.
Proof.
  intros c l. induction l as [|x l IH]; cbn [memb existsb In]; [split; [discriminate|contradiction]|].
  unfold memb in *. cbn [existsb]. rewrite orb_true_iff, IH, String.eqb_eq. split; intros [->|H]; auto.
Qed.
Lemma names_spec : forall p names, names_ok p names = true -> forall t, In t names <-> exists d, only_typed package subjective_model t d /\ p d = true.
Proof.
  intros p names H t. unfold names_ok in H. apply andb_true_iff in H. destruct H as [H1 H2]. rewrite forallb_forall in H1, H2. split.
  - intro I. specialize (H2 t I). destruct (find_subclass package subjective_model t) as [d|] eqn:F; [|discriminate]. exists d. split; [|exact H2].
    apply c56_sound with (2 := F). exact package_ordered.
  - intros (d & (B & (k & E & U) & _) & P). assert (L : d < length package) by (apply nth_error_Some; congruence).
    specialize (H1 d ltac:(apply in_seq; lia)). rewrite E in H1. destruct k as [nm bs u]. cbn [k_type] in U. subst u.
    rewrite P in H1. apply Bool.eqb_prop in H1. apply memb_str. congruence.
Qed.
Lemma f2_ex : forall (A B : Type) (R : A -> B -> Prop) l, (exists cs, Forall2 R l cs) <-> Forall (fun x => exists y, R x y) l.
Proof.
  intros A B R l. split.
  - intros [cs F]. induction F; constructor; eauto.
  - induction 1 as [|x l [y Y] F [cs C]]; [exists []; constructor|exists (y :: cs); constructor; assumption].
Qed.
Lemma pc_dec : forall d t, only_typed package subjective_model t d -> (mro package paired_comp_model d = true <-> at_or_below package paired_comp_model d).
Proof. intros d t (B & _). apply mro_spec; [exact package_ordered|]. apply below_lt in B; [lia|exact package_ordered]. Qed.
Lemma c57_package_rating : forall models, (exists cs, main_classes package subjective_model paired_comp_model models = Ok (cs, RatingReader)) <->
  models <> [] /\ Forall (fun t => In t rating_names) models.
Proof.
  intro models.
  assert (R : forall t, In t rating_names <-> exists c, rating_named package subjective_model paired_comp_model t c).
  { intro t. rewrite (names_spec (fun d => negb (mro package paired_comp_model d)) rating_names) by (vm_compute; reflexivity).
    unfold rating_named. split; intros (d & T & P); exists d; (split; [exact T|]).
    - intro A. apply (pc_dec d t T) in A. rewrite A in P. discriminate.
    - destruct (mro package paired_comp_model d) eqn:M; [exfalso; apply P, (pc_dec d t T), M|reflexivity]. }
  assert (Q : Forall (fun t => In t rating_names) models <-> exists cs, Forall2 (rating_named package subjective_model paired_comp_model) models cs).
  { rewrite f2_ex, !Forall_forall. split; intros H t I; apply R, H, I. }
  rewrite Q. split.
  - intros [cs E]. apply (c57_rating package _ _ package_ordered package_tree) in E. split; [apply E|exists cs; apply E].
  - intros (N & cs & F). exists cs. apply (c57_rating package _ _ package_ordered package_tree). auto.
Qed.
Lemma c57_package_paired : forall models, (exists cs, main_classes package subjective_model paired_comp_model models = Ok (cs, PairedReader)) <->
  models <> [] /\ Forall (fun t => In t paired_names) models.
Proof.
  intro models.
  assert (R : forall t, In t paired_names <-> exists c, paired_named package subjective_model paired_comp_model t c).
  { intro t. rewrite (names_spec (fun d => mro package paired_comp_model d) paired_names) by (vm_compute; reflexivity).
    unfold paired_named. split; intros (d & T & P); exists d; (split; [exact T|]); apply (pc_dec d t T), P. }
  assert (Q : Forall (fun t => In t paired_names) models <-> exists cs, Forall2 (paired_named package subjective_model paired_comp_model) models cs).
  { rewrite f2_ex, !Forall_forall. split; intros H t I; apply R, H, I. }
  rewrite Q. split.
  - intros [cs E]. apply (c57_paired package _ _ package_ordered package_tree) in E. split; [apply E|exists cs; apply E].
  - intros (N & cs & F). exists cs. apply (c57_paired package _ _ package_ordered package_tree). auto.
Qed.
