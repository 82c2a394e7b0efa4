(** Proofs about subject rejection. *)
From Coq Require Import String.
From Coq Require Import List ZArith Bool Arith Lia Reals Lra Permutation.
From Verif Require Import PyBase Num ExtReal NumPy Dataset Preproc Mos BaseProofs ExtRealProofs SpecDataset SpecMos
  DatasetProofs ArrayProofs RecordedProofs MosProofs PreprocProofs.
Import ListNotations.
Local Open Scope list_scope.

Lemma NoDup_app_disj : forall A (l l' : list A), NoDup l -> NoDup l' -> (forall x, In x l -> ~ In x l') -> NoDup (l ++ l').
Proof.
  induction l as [|x l IH]; intros l' H H' D; simpl; [exact H'|]. inversion H; subst. constructor.
  - rewrite in_app_iff. intros [K|K]; [contradiction|]. apply (D x); [left; reflexivity|exact K].
  - apply IH; try assumption. intros y Hy. apply D. right; exact Hy.
Qed.

(** ** Counting *)
Lemma count_sum : forall A (f : A -> bool) l, count_if f l = list_sum (map (fun x => if f x then 1 else 0) l).
Proof. unfold count_if. induction l as [|x l IH]; simpl; [reflexivity|]. destruct (f x); simpl; rewrite IH; reflexivity. Qed.
Lemma list_sum_flat_map : forall A (f : A -> list nat) l, list_sum (flat_map f l) = list_sum (map (fun x => list_sum (f x)) l).
Proof. induction l; simpl; [reflexivity|]. rewrite list_sum_app, IHl. reflexivity. Qed.
Lemma enumerate_map_seq : forall A (g : nat -> A) n, enumerate (map g (seq 0 n)) = map (fun k => (k, g k)) (seq 0 n).
Proof.
  intros A g n. unfold enumerate. rewrite map_length, seq_length.
  rewrite <- (map_id (seq 0 n)) at 1. apply combine_map_seq.
Qed.
Lemma sum_pick : forall (t : bool) s n k, list_sum (map (fun i => if (Nat.eqb i s && t)%bool then 1 else 0) (seq k n)) =
  if (Nat.leb k s && Nat.ltb s (k + n) && t)%bool then 1 else 0.
Proof.
  intros t s n; induction n as [|n IH]; intro k.
  - simpl. destruct (Nat.leb_spec k s), (Nat.ltb_spec s (k + 0)); simpl; try reflexivity. lia.
  - cbn [seq map list_sum fold_right]. change (fold_right Nat.add 0) with list_sum. rewrite IH.
    destruct (Nat.eqb_spec k s); cbn [andb].
    + subst. destruct (Nat.leb_spec (S s) s); [lia|]. rewrite Nat.leb_refl.
      destruct (Nat.ltb_spec s (s + S n)); [|lia]. cbn [andb]. destruct t; reflexivity.
    + destruct (Nat.leb_spec (S k) s), (Nat.leb_spec k s), (Nat.ltb_spec s (S k + n)), (Nat.ltb_spec s (k + S n)); cbn [andb]; try reflexivity; try lia.
Qed.

Lemma count_column : forall (a : arr3 ef) e s (T : ef -> bool), s < dS a ->
  count_if (fun iv => (Nat.eqb (fst iv mod dS a) s && T (snd iv))%bool) (enumerate (row (stack1 a) e)) =
  count_if (fun r => T (at3 a e s r)) (seq 0 (dR a)).
Proof.
  intros a e s T Hs. unfold row. cbn [n1 at2 stack1].
  rewrite enumerate_map_seq, !count_sum, map_map. cbn [fst snd].
  rewrite (map_ext _ (fun k => (fun i r => if (Nat.eqb i s && T (at3 a e s r))%bool then 1 else 0) (k mod dS a) (k / dS a))).
  - rewrite (seq_app_mul nat (fun i r => if (Nat.eqb i s && T (at3 a e s r))%bool then 1 else 0)), list_sum_flat_map. f_equal. apply map_ext. intro r. rewrite sum_pick. rewrite Nat.add_0_l. cbn [Nat.leb andb].
    destruct (Nat.ltb_spec s (dS a)); [reflexivity|lia].
  - intro k. destruct (Nat.eqb_spec (k mod dS a) s) as [->|]; reflexivity.
Qed.

Lemma count_if_ext : forall A (f g : A -> bool) l, (forall x, In x l -> f x = g x) -> count_if f l = count_if g l.
Proof. intros. rewrite !count_sum. f_equal. apply map_ext_in. intros x Hx. rewrite H by exact Hx. reflexivity. Qed.

Lemma counted_sum : forall a (T : nat -> nat -> bool) P,
  (forall e r, e < dE a -> r < dR a -> (T e r = true <-> P e r)) ->
  counted a P (list_sum (map (fun e => count_if (T e) (seq 0 (dR a))) (seq 0 (dE a)))).
Proof.
  intros a T P HT. exists (flat_map (fun e => map (fun r => (e, r)) (filter (T e) (seq 0 (dR a)))) (seq 0 (dE a))).
  split; [|split].
  - assert (G : forall l, NoDup l -> NoDup (flat_map (fun e => map (fun r => (e, r)) (filter (T e) (seq 0 (dR a)))) l)).
    { induction l as [|e l IH]; intro Hn; simpl; [constructor|]. inversion Hn; subst.
      apply NoDup_app_disj.
      - apply FinFun.Injective_map_NoDup; [intros x y E; congruence|]. apply NoDup_filter, seq_NoDup.
      - apply IH; assumption.
      - intros [e' r'] H1' H2'. apply in_map_iff in H1' as (r & E & _). injection E as <- <-.
        apply in_flat_map in H2' as (e2 & He2 & Hx). apply in_map_iff in Hx as (r2 & E & _). injection E as -> ->. contradiction. }
    apply G, seq_NoDup.
  - intros e r. rewrite in_flat_map. split.
    + intros (e' & He & H). apply in_map_iff in H as (r' & E & Hr). injection E as -> ->.
      apply filter_In in Hr as [Hr Ht]. apply in_seq in He. apply in_seq in Hr.
      repeat split; try lia. apply HT; [lia|lia|exact Ht].
    + intros (He & Hr & HP). exists e. split; [apply in_seq; lia|]. apply in_map_iff. exists r. split; [reflexivity|].
      apply filter_In. split; [apply in_seq; lia|]. apply HT; auto.
  - generalize (seq 0 (dE a)). induction l as [|e l IH]; simpl; [reflexivity|].
    rewrite app_length, map_length, IH. reflexivity.
Qed.

Lemma counted_fun : forall a P Q n m, (forall e r, e < dE a -> r < dR a -> (P e r <-> Q e r)) ->
  counted a P n -> counted a Q m -> n = m.
Proof.
  intros a P Q n m HPQ (L & HN & HL & <-) (M & HN' & HM & <-).
  apply Permutation_length. apply NoDup_Permutation; try assumption.
  intros [e r]. rewrite HL, HM. split; intros (H1 & H2 & H3); repeat split; auto; apply HPQ; auto.
Qed.

(** ** Outlier bounds *)
Lemma Rss_sumsq : forall l, Rss l = sumsq (Rmean l) l.
Proof. reflexivity. Qed.
Lemma pvar_nonneg : forall l, (0 <= pvar l)%R.
Proof.
  intro l. unfold pvar. destruct l as [|x l]; [unfold sumsq, Rsum; simpl; unfold Rdiv; lra|].
  apply Rmult_le_pos; [apply Rss_nonneg|]. apply Rlt_le, Rinv_0_lt_compat, INR_len_pos. discriminate.
Qed.
Lemma sumsq_perm : forall m l l', Permutation l l' -> sumsq m l = sumsq m l'.
Proof. intros. apply Rsum_perm, Permutation_map. assumption. Qed.
Lemma pvar_perm : forall l l', Permutation l l' -> pvar l = pvar l'.
Proof. intros l l' H. unfold pvar. rewrite (Rmean_perm _ _ H), (sumsq_perm _ _ _ H), (Permutation_length H). reflexivity. Qed.
Lemma moment4_perm : forall l l', Permutation l l' -> moment4 l = moment4 l'.
Proof.
  intros l l' H. unfold moment4. rewrite (Rmean_perm _ _ H), (Permutation_length H).
  f_equal. apply Rsum_perm, Permutation_map; exact H.
Qed.

Lemma np_mean_map_Fin : forall (f : R -> R) l, l <> [] -> np_mean (map (fun x => Fin (f x)) l) = Fin (Rsum (map f l) / INR (length l)).
Proof.
  intros f l H. rewrite <- (map_map f Fin). rewrite np_mean_Fin, nanmeanR_ne.
  - unfold Rmean. rewrite map_length. reflexivity.
  - destruct l; [contradiction|discriminate].
Qed.

Lemma kurtosis_Fin : forall l, l <> [] ->
  sp_kurtosis (map Fin l) = ef_div (Fin (moment4 l)) (Fin (pvar l * pvar l)).
Proof.
  intros l H. unfold sp_kurtosis. rewrite np_mean_Fin, nanmeanR_ne by exact H. rewrite !map_map.
  rewrite (map_ext (fun x => nsq (nsub (Fin x) (Fin (Rmean l)))) (fun x => Fin ((x - Rmean l) * (x - Rmean l)))%R) by (intro; reflexivity).
  rewrite (map_ext (fun x => nsq (nsq (nsub (Fin x) (Fin (Rmean l))))) (fun x => Fin ((x - Rmean l) * (x - Rmean l) * ((x - Rmean l) * (x - Rmean l))))%R) by (intro; reflexivity).
  rewrite !np_mean_map_Fin by exact H. reflexivity.
Qed.

Definition cfac (l : list R) : R :=
  if Req_EM_T (pvar l) 0 then sqrt 20
  else if Rle_dec 2 (moment4 l / (pvar l * pvar l)) then if Rle_dec (moment4 l / (pvar l * pvar l)) 4 then 2%R else sqrt 20
  else sqrt 20.
Lemma cfac_factor : forall l c, factor l c <-> c = cfac l.
Proof.
  intros l c. unfold factor, regular, cfac.
  destruct (Req_EM_T (pvar l) 0) as [E|E]; [|destruct (Rle_dec 2 (moment4 l / (pvar l * pvar l))) as [H|H];
    [destruct (Rle_dec (moment4 l / (pvar l * pvar l)) 4) as [H'|H']|]]; split.
  all: try (intros [[[K1 [K2 K3]] ->]|[K ->]]; try reflexivity; try contradiction; exfalso; tauto).
  all: intros ->; try (left; tauto); right; tauto.
Qed.

Lemma moment4_zero : forall l, pvar l = 0%R -> moment4 l = 0%R.
Proof.
  intros l H. destruct l as [|x0 l0]; [unfold moment4, Rsum; simpl; unfold Rdiv; ring|].
  set (l := x0 :: l0) in *. assert (Hn := INR_len_pos _ l ltac:(discriminate)).
  assert (S0 : Rss l = 0%R).
  { unfold pvar in H. fold (Rss l) in H. rewrite <- Rss_sumsq in H. unfold Rdiv in H. apply Rmult_integral in H as [H|H]; [exact H|].
    assert (0 < / INR (length l))%R by (apply Rinv_0_lt_compat; exact Hn). lra. }
  unfold moment4. rewrite (Rsum_map_ext _ _ (fun _ => 0%R)).
  - rewrite Rsum_map_const. unfold Rdiv. ring.
  - intros x Hx. assert (E : ((x - Rmean l) * (x - Rmean l) = 0)%R).
    { apply (Rsum_eq0 (map (fun x => (x - Rmean l) * (x - Rmean l))%R l)); [|exact S0|].
      - intros w Hw. apply in_map_iff in Hw as (u & <- & _). apply Rle_0_sqr.
      - apply in_map_iff. exists x; auto. }
    rewrite E. ring.
Qed.

Lemma bounds_spec : forall rw l, allfinnan rw -> Permutation (presents rw) l -> l <> [] ->
  outlier_bounds rw = (Fin (Rmean l + cfac l * sqrt (pvar l)), Fin (Rmean l - cfac l * sqrt (pvar l)))%R.
Proof.
  intros rw l Hf HP Hne. unfold outlier_bounds. rewrite notnan_finnan by exact Hf. cbn zeta.
  set (p := presents rw) in *.
  assert (Hp : p <> []). { intro E. rewrite E in HP. apply Permutation_nil in HP. contradiction. }
  rewrite kurtosis_Fin by exact Hp. rewrite np_mean_Fin, nanmeanR_ne by exact Hp. rewrite np_std_Fin.
  assert (SD : nanstdR 0 p = Fin (sqrt (pvar p))).
  { unfold nanstdR. destruct (Nat.leb_spec (length p) 0); [destruct p; [contradiction|simpl in *; lia]|].
    rewrite Nat.sub_0_r. reflexivity. }
  rewrite SD. rewrite <- (Rmean_perm _ _ HP), <- (pvar_perm _ _ HP).
  assert (C : cfac l = cfac p).
  { unfold cfac. rewrite <- (pvar_perm _ _ HP), <- (moment4_perm _ _ HP). reflexivity. }
  rewrite C. efc.
  assert (K : (if (ef_leb (Fin 2) (ef_div (Fin (moment4 p)) (Fin (pvar p * pvar p))) && ef_leb (ef_div (Fin (moment4 p)) (Fin (pvar p * pvar p))) (Fin 4))%bool
       then Fin 2 else ef_sqrt (Fin 20)) = Fin (cfac p)).
  { unfold cfac. destruct (Req_EM_T (pvar p) 0) as [E|E].
    - rewrite E, (moment4_zero _ E), Rmult_0_l, ef_0div0. simpl. destruct (Rltb 20 0) eqn:B; [apply Rltb_true in B; lra|reflexivity].
    - rewrite ef_div_Fin by (apply Rmult_integral_contrapositive_currified; exact E). cbn [ef_leb]. unfold Rleb.
      destruct (Rle_dec 2 _); cbn [andb]; [|rewrite ef_sqrt_Fin by lra; reflexivity].
      destruct (Rle_dec _ 4); [reflexivity|rewrite ef_sqrt_Fin by lra; reflexivity]. }
  rewrite K. cbn [ef_mul ef_add]. rewrite ef_sub_Fin. reflexivity.
Qed.

(** ** Outlier counts *)
Section Counts.
  Variable a : arr3 ef.
  Hypothesis Hf : finite_votes a.

  Definition side (hi : bool) s e r : bool :=
    (negb (ef_isnan (at3 a e s r)) &&
     (if hi then ef_leb (fst (outlier_bounds (row (stack1 a) e))) (at3 a e s r)
      else ef_leb (at3 a e s r) (snd (outlier_bounds (row (stack1 a) e)))))%bool.

  Lemma side_spec : forall hi s e r, inside a e s r ->
    (side hi s e r = true <-> if hi then high_vote a s e r else low_vote a s e r).
  Proof.
    intros hi s e r I. unfold side. assert (F := Hf e s r I).
    destruct (at3 a e s r) as [x| | |] eqn:Ex; simpl in F; try contradiction.
    - cbn [ef_isnan negb andb].
      assert (Hin : In x (video_votes a e)) by (apply video_votes_In; exists s, r; unfold inside in I; repeat split; try lia; exact Ex).
      rewrite (bounds_spec (row (stack1 a) e) (video_votes a e));
        [|apply row_finnan; [exact Hf|apply I]|apply presents_row|intro E; rewrite E in Hin; contradiction].
      cbn [fst snd ef_leb]. destruct hi; rewrite Rleb_true.
      + split.
        * intro H. exists x, (cfac (video_votes a e)). split; [exact Ex|]. split; [apply cfac_factor; reflexivity|exact H].
        * intros (x' & c & E & Hc & H). rewrite Ex in E. injection E as <-. apply cfac_factor in Hc. subst. exact H.
      + split.
        * intro H. exists x, (cfac (video_votes a e)). split; [exact Ex|]. split; [apply cfac_factor; reflexivity|exact H].
        * intros (x' & c & E & Hc & H). rewrite Ex in E. injection E as <-. apply cfac_factor in Hc. subst. exact H.
    - cbn [ef_isnan negb andb]. split; [discriminate|]. destruct hi; intros (x & c & E & _); congruence.
  Qed.

  Lemma counts_spec : forall s, s < dS a ->
    counted a (high_vote a s) (fst (outlier_counts a s)) /\ counted a (low_vote a s) (snd (outlier_counts a s)).
  Proof.
    intros s Hs. unfold outlier_counts. cbn zeta. cbn [fst snd]. change (n0 (stack1 a)) with (dE a). rewrite !map_map. cbn [fst snd].
    split.
    - rewrite (map_ext _ (fun e => count_if (side true s e) (seq 0 (dR a)))).
      + apply counted_sum. intros e r He Hr. apply (side_spec true). unfold inside; auto.
      + intro e. etransitivity; [|exact (count_column a e s (fun x => (negb (ef_isnan x) && ef_leb (fst (outlier_bounds (row (stack1 a) e))) x)%bool) Hs)].
        apply count_if_ext. intros [i x] _. cbn [fst snd]. rewrite andb_assoc. reflexivity.
    - rewrite (map_ext _ (fun e => count_if (side false s e) (seq 0 (dR a)))).
      + apply counted_sum. intros e r He Hr. apply (side_spec false). unfold inside; auto.
      + intro e. etransitivity; [|exact (count_column a e s (fun x => (negb (ef_isnan x) && ef_leb x (snd (outlier_bounds (row (stack1 a) e))))%bool) Hs)].
        apply count_if_ext. intros [i x] _. cbn [fst snd]. rewrite andb_assoc. reflexivity.
  Qed.

  Lemma test_spec : forall s, s < dS a -> (reject_test (reject_stats a s) = true <-> outlier_subject a s).
  Proof.
    intros s Hs. destruct (counts_spec s Hs) as [HP HQ]. unfold reject_stats.
    destruct (outlier_counts a s) as [p q] eqn:E. cbn [fst snd] in HP, HQ.
    assert (U : outlier_subject a s <-> (5 / 100 * INR (dE a * dR a) < INR p + INR q)%R /\ (Rabs (INR p - INR q) < 3 / 10 * (INR p + INR q))%R).
    { split.
      - intros (p' & q' & H1 & H2 & H3 & H4).
        assert (p' = p) by (eapply counted_fun; [|exact H1|exact HP]; tauto).
        assert (q' = q) by (eapply counted_fun; [|exact H2|exact HQ]; tauto). subst. auto.
      - intros [H3 H4]. exists p, q. auto. }
    rewrite U. clear U. unfold reject_test. cbn [fst snd]. rewrite !nofnat_ef, !ndec_ef by lia. efc. cbn [ef_add]. rewrite ef_sub_Fin.
    assert (P0 := pos_INR p). assert (Q0 := pos_INR q). assert (N0 := pos_INR (dE a * dR a)).
    destruct (Req_EM_T (INR (dE a * dR a)) 0) as [EN|EN].
    - (* no presentation: nothing counted *)
      assert (p = 0 /\ q = 0).
      { assert (NN : dE a * dR a = 0) by (apply INR_eq; rewrite EN; reflexivity).
        assert (K : forall P n, counted a P n -> n = 0).
        { intros P n (L & _ & HL & <-). destruct L as [|[e r] L]; [reflexivity|].
          destruct (proj1 (HL e r) (or_introl eq_refl)) as (I1 & I2 & _). nia. }
        split; eapply K; eassumption. }
      destruct H as [-> ->]. simpl INR in *. rewrite EN. replace (0 + 0)%R with 0%R by ring. rewrite ef_0div0. simpl.
      split; [discriminate|]. lra.
    - rewrite ef_div_Fin by exact EN. rewrite andb_true_iff. cbn [ef_ltb]. rewrite Rltb_true.
      assert (A : (5 / 100 < (INR p + INR q) / INR (dE a * dR a))%R <-> (5 / 100 * INR (dE a * dR a) < INR p + INR q)%R).
      { assert (0 < INR (dE a * dR a))%R by lra. split; intro H1.
        - apply Rmult_lt_compat_r with (r := INR (dE a * dR a)) in H1; [|assumption]. unfold Rdiv in H1 at 2.
          rewrite Rmult_assoc, Rinv_l in H1 by exact EN. lra.
        - apply Rmult_lt_reg_r with (INR (dE a * dR a)); [assumption|]. unfold Rdiv at 2. rewrite Rmult_assoc, Rinv_l by exact EN. lra. }
      rewrite A. clear A.
      split; intros [H1 H2]; (split; [exact H1|]).
      + assert (0 < INR p + INR q)%R by lra. rewrite ef_div_Fin in H2 by lra. cbn [ef_abs ef_ltb] in H2. apply Rltb_true in H2.
        unfold Rdiv in H2 at 1. rewrite Rabs_mult, (Rabs_pos_eq (/ _)) in H2 by (apply Rlt_le, Rinv_0_lt_compat; assumption).
        apply Rmult_lt_compat_r with (r := (INR p + INR q)%R) in H2; [|assumption].
        rewrite Rmult_assoc, Rinv_l in H2 by lra. lra.
      + assert (0 < INR p + INR q)%R by lra. rewrite ef_div_Fin by lra. cbn [ef_abs ef_ltb]. apply Rltb_true.
        unfold Rdiv at 1. rewrite Rabs_mult, (Rabs_pos_eq (/ _)) by (apply Rlt_le, Rinv_0_lt_compat; assumption).
        apply Rmult_lt_reg_r with (INR p + INR q)%R; [assumption|]. rewrite Rmult_assoc, Rinv_l by lra. lra.
  Qed.
End Counts.

(** ** Kept columns *)
Lemma filter_seq_sorted : forall f n i j x y,
  nth_error (filter f (seq 0 n)) i = Some x -> nth_error (filter f (seq 0 n)) j = Some y -> i < j -> x < y.
Proof.
  intros f n. assert (G : forall m k i j x y, nth_error (filter f (seq k m)) i = Some x -> nth_error (filter f (seq k m)) j = Some y -> i < j -> x < y).
  { induction m as [|m IH]; intros k i j x y H1 H2 Hij; simpl in *; [destruct i; discriminate|].
    destruct (f k).
    - destruct i as [|i], j as [|j]; simpl in *; try lia.
      + injection H1 as <-. apply nth_error_In in H2. apply filter_In in H2 as [H2 _]. apply in_seq in H2. lia.
      + eapply IH; [exact H1|exact H2|lia].
    - eapply IH; [exact H1|exact H2|lia]. }
  apply (G n 0).
Qed.
Lemma unflagged_filter : forall (flag : nat -> bool) n,
  unflagged (map flag (seq 0 n)) (filter (fun s => negb (flag s)) (seq 0 n)).
Proof.
  intros flag n. split; [apply filter_seq_sorted|]. intro s. rewrite filter_In, in_seq. split.
  - intros [H1 H2]. rewrite nth_error_map_seq by lia. destruct (flag s); [discriminate|reflexivity].
  - intro H. assert (s < n). { assert (s < length (map flag (seq 0 n))) by (apply nth_error_Some; congruence). rewrite map_length, seq_length in H0. exact H0. }
    rewrite nth_error_map_seq in H by assumption. injection H as H. rewrite H. split; [lia|reflexivity].
Qed.
Lemma select_columns : forall (a : arr3 ef) cols, columns a (select_cols a cols) cols.
Proof.
  intros a cols. repeat split. intros j s Hj e r. cbn [select_cols at3]. erewrite nth_error_nth by exact Hj. reflexivity.
Qed.

Lemma reject_kurtosis_spec : forall a, finite_votes a ->
  let '(b, flags, st1, st2) := reject_kurtosis a in
  length flags = dS a /\ length st1 = dS a /\ length st2 = dS a /\
  (forall s, s < dS a -> (nth_error flags s = Some true <->
      outlier_subject a s /\ exists s', s' < dS a /\ ~ outlier_subject a s')) /\
  exists kept, unflagged flags kept /\ columns a b kept /\ (0 < dS a -> kept <> []).
Proof.
  intros a Hf. unfold reject_kurtosis. cbn zeta.
  set (t := fun s => reject_test (reject_stats a s)).
  assert (EN : forall s, s < dS a -> reject_test (nth s (map (reject_stats a) (seq 0 (dS a))) (NaN, NaN)) = t s).
  { intros s Hs. rewrite nth_map_seq by exact Hs. reflexivity. }
  efc.
  assert (E1 : filter (fun s => reject_test (nth s (map (reject_stats a) (seq 0 (dS a))) (NaN, NaN))) (seq 0 (dS a)) = filter t (seq 0 (dS a))).
  { apply filter_ext_in. intros s Hs. apply in_seq in Hs. apply EN. lia. }
  assert (E2 : filter (fun s => negb (reject_test (nth s (map (reject_stats a) (seq 0 (dS a))) (NaN, NaN)))) (seq 0 (dS a)) = filter (fun s => negb (t s)) (seq 0 (dS a))).
  { apply filter_ext_in. intros s Hs. apply in_seq in Hs. rewrite EN by lia. reflexivity. }
  rewrite E1, E2. clear E1 E2 EN.
  assert (HT : forall s, s < dS a -> (t s = true <-> outlier_subject a s)) by (intros; apply test_spec; assumption).
  assert (FA : forall (f : nat -> bool) l, length (filter f l) = length l -> forall x, In x l -> f x = true).
  { induction l as [|x l IH]; intros H y Hy; [contradiction|]. simpl in H. destruct (f x) eqn:Ef.
    - simpl in H. injection H as H. destruct Hy as [<-|Hy]; [exact Ef|apply IH; assumption].
    - exfalso. assert (length (filter f l) <= length l) by (clear; induction l; simpl; [lia|]; destruct (f a); simpl; lia). simpl in H. lia. }
  destruct (Nat.eqb_spec (length (filter t (seq 0 (dS a)))) (dS a)) as [EL|EL].
  - (* everybody is an outlier: nobody is rejected *)
    assert (AllT : forall s, s < dS a -> t s = true).
    { intros s Hs. apply (FA t (seq 0 (dS a))); [rewrite EL, seq_length; reflexivity|apply in_seq; lia]. }
    rewrite !map_length, !seq_length. repeat (split; [reflexivity|]). split.
    + intros s Hs. rewrite nth_error_map_seq by exact Hs. cbn. split; [discriminate|].
      intros [_ (s' & Hs' & Hn)]. exfalso. apply Hn, HT, AllT; assumption.
    + exists (seq 0 (dS a)).
      assert (EF : filter (fun s => negb (t s)) (seq 0 (dS a)) ++ filter t (seq 0 (dS a)) = seq 0 (dS a)).
      { assert (F1 : filter (fun s => negb (t s)) (seq 0 (dS a)) = []).
        { assert (G : forall l, (forall x, In x l -> t x = true) -> filter (fun s => negb (t s)) l = []).
          { induction l as [|x l IH]; intro H; simpl; [reflexivity|]. rewrite (H x (or_introl eq_refl)). simpl. apply IH. intros; apply H; right; assumption. }
          apply G. intros x Hx. apply in_seq in Hx. apply AllT. lia. }
        assert (F2 : filter t (seq 0 (dS a)) = seq 0 (dS a)).
        { assert (G : forall l, (forall x, In x l -> t x = true) -> filter t l = l).
          { induction l as [|x l IH]; intro H; simpl; [reflexivity|]. rewrite (H x (or_introl eq_refl)). f_equal. apply IH. intros; apply H; right; assumption. }
          apply G. intros x Hx. apply in_seq in Hx. apply AllT. lia. }
        rewrite F1, F2. reflexivity. }
      rewrite EF. split; [|split].
      * assert (U := unflagged_filter (fun s => memb Nat.eqb s []) (dS a)).
        assert (G : forall l, filter (fun s : nat => negb (memb Nat.eqb s [])) l = l) by (induction l; simpl; [reflexivity|]; f_equal; assumption).
        rewrite G in U. exact U.
      * apply select_columns.
      * intros H E. destruct (dS a); [lia|discriminate].
  - rewrite !map_length, !seq_length. repeat (split; [reflexivity|]).
    assert (FLAG : map (fun s => memb Nat.eqb s (filter t (seq 0 (dS a)))) (seq 0 (dS a)) = map t (seq 0 (dS a))).
    { apply map_ext_in. intros s Hs. destruct (t s) eqn:Et.
      - apply (memb_In _ Nat.eqb Nat.eqb_eq). apply filter_In. auto.
      - destruct (memb Nat.eqb s (filter t (seq 0 (dS a)))) eqn:Em; [|reflexivity].
        apply (memb_In _ Nat.eqb Nat.eqb_eq) in Em. apply filter_In in Em as [_ Em]. congruence. }
    assert (EX : exists s', s' < dS a /\ t s' = false).
    { destruct (existsb (fun s => negb (t s)) (seq 0 (dS a))) eqn:Ee.
      - apply existsb_exists in Ee as (s' & Hs' & Hn). apply in_seq in Hs'. exists s'. split; [lia|]. destruct (t s'); [discriminate|reflexivity].
      - exfalso. apply EL. rewrite <- (seq_length (dS a) 0) at 2. f_equal.
        assert (G : forall l, existsb (fun s => negb (t s)) l = false -> filter t l = l).
        { induction l as [|x l IH]; simpl; intro H; [reflexivity|]. apply orb_false_iff in H as [H1 H2].
          destruct (t x); [|discriminate]. f_equal. apply IH; exact H2. }
        apply G; exact Ee. }
    rewrite FLAG. split.
    + intros s Hs. rewrite nth_error_map_seq by exact Hs. split.
      * intros [= H]. split; [apply HT; assumption|]. destruct EX as (s' & Hs' & Hn). exists s'. split; [exact Hs'|].
        intro K. apply HT in K; [congruence|exact Hs'].
      * intros [H _]. f_equal. apply HT; assumption.
    + exists (filter (fun s => negb (t s)) (seq 0 (dS a))). split; [apply unflagged_filter|]. split; [apply select_columns|].
      intros _ E. destruct EX as (s' & Hs' & Hn).
      assert (In s' (filter (fun s => negb (t s)) (seq 0 (dS a)))) by (apply filter_In; split; [apply in_seq; lia|rewrite Hn; reflexivity]).
      rewrite E in H. contradiction.
Qed.
