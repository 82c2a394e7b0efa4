(** Proofs about listing videos and subjects in another order (C133). *)
From Coq Require Import String.
From Coq Require Import List ZArith Bool Arith Lia Permutation.
From Verif Require Import PyBase Num ExtReal NumPy Dataset Preproc Mos BaseProofs ExtRealProofs SpecDataset SpecMos
  DatasetProofs ArrayProofs RecordedProofs MosProofs PreprocProofs RejectProofs Reject2Proofs SpecReorder.
Import ListNotations.
Local Open Scope list_scope.

(** ** Reductions do not depend on the order *)
Lemma perm_filter : forall A (f : A -> bool) l l', Permutation l l' -> Permutation (filter f l) (filter f l').
Proof.
  intros A f l l' H. induction H; simpl.
  - constructor. - destruct (f x); [constructor|]; assumption.
  - destruct (f y), (f x); try reflexivity. apply perm_swap. - etransitivity; eassumption.
Qed.
Lemma notnan_perm : forall l l' : list ef, Permutation l l' -> Permutation (notnan l) (notnan l').
Proof. intros. unfold notnan. apply perm_filter. assumption. Qed.
Lemma nanmean_perm : forall l l' : list ef, Permutation l l' -> np_nanmean l = np_nanmean l'.
Proof.
  intros l l' H. apply notnan_perm in H. unfold np_nanmean, np_nansum, np_cnt. rewrite (np_sum_perm _ _ H), (Permutation_length H). reflexivity.
Qed.
Lemma nanstd_perm : forall d (l l' : list ef), Permutation l l' -> np_nanstd d l = np_nanstd d l'.
Proof.
  intros d l l' H. apply notnan_perm in H. unfold np_nanstd. cbv zeta. rewrite (np_sum_perm _ _ H), (Permutation_length H).
  destruct (Nat.leb _ _); [reflexivity|]. do 2 f_equal. apply np_sum_perm, Permutation_map, H.
Qed.
Lemma mean_perm : forall l l' : list ef, Permutation l l' -> np_mean l = np_mean l'.
Proof. intros l l' H. unfold np_mean. rewrite (np_sum_perm _ _ H), (Permutation_length H). reflexivity. Qed.
Lemma std_perm : forall l l' : list ef, Permutation l l' -> np_std l = np_std l'.
Proof. intros l l' H. unfold np_std. cbv zeta. rewrite (mean_perm _ _ H). f_equal. apply mean_perm, Permutation_map, H. Qed.
Lemma kurt_perm : forall l l' : list ef, Permutation l l' -> sp_kurtosis l = sp_kurtosis l'.
Proof.
  intros l l' H. unfold sp_kurtosis. cbv zeta. rewrite (mean_perm _ _ H).
  rewrite (mean_perm _ _ (Permutation_map (fun x => nsq (nsub x (np_mean l'))) H)).
  rewrite (mean_perm _ _ (Permutation_map (fun x => nsq (nsq (nsub x (np_mean l')))) H)). reflexivity.
Qed.
Lemma bounds_perm : forall l l' : list ef, Permutation l l' -> outlier_bounds l = outlier_bounds l'.
Proof.
  intros l l' H. apply notnan_perm in H. unfold outlier_bounds. cbv zeta. rewrite (mean_perm _ _ H), (std_perm _ _ H), (kurt_perm _ _ H). reflexivity.
Qed.

Lemma flat_map_perm_ext : forall A B (f g : A -> list B) l, (forall x, In x l -> Permutation (f x) (g x)) -> Permutation (flat_map f l) (flat_map g l).
Proof.
  induction l as [|x l IH]; intro H; simpl; [constructor|]. apply Permutation_app; [apply H; left; reflexivity|]. apply IH. intros y Hy. apply H. right. exact Hy.
Qed.
Lemma flat_map_relist : forall B (f : nat -> list B) n p, permutes n p -> Permutation (flat_map (fun i => f (p i)) (seq 0 n)) (flat_map f (seq 0 n)).
Proof.
  intros B f n p H. rewrite <- (Permutation_flat_map f (permutes_surj_perm n p H)).
  rewrite !flat_map_concat_map, map_map. reflexivity.
Qed.
Lemma map_relist : forall B (f : nat -> B) n p, permutes n p -> Permutation (map (fun i => f (p i)) (seq 0 n)) (map f (seq 0 n)).
Proof. intros B f n p H. rewrite <- (map_map p f). apply Permutation_map, permutes_surj_perm, H. Qed.
Lemma filter_relist : forall (f g : nat -> bool) n p, permutes n p -> (forall i, i < n -> g i = f (p i)) ->
  Permutation (map p (filter g (seq 0 n))) (filter f (seq 0 n)).
Proof.
  intros f g n p H E. transitivity (filter f (map p (seq 0 n))); [|apply perm_filter, permutes_surj_perm, H].
  assert (G : forall l, (forall x, In x l -> x < n) -> map p (filter g l) = filter f (map p l)).
  { induction l as [|x l IH]; intro Hl; [reflexivity|]. cbn [filter map]. rewrite (E x) by (apply Hl; left; reflexivity).
    destruct (f (p x)); cbn [map]; rewrite IH by (intros; apply Hl; right; assumption); reflexivity. }
  rewrite G; [reflexivity|]. intros x Hx. apply in_seq in Hx. lia.
Qed.

Lemma relisted_map : forall A (f g : nat -> A) n p, (forall i, i < n -> p i < n) -> (forall i, i < n -> g i = f (p i)) ->
  relisted n p (map f (seq 0 n)) (map g (seq 0 n)).
Proof.
  intros A f g n p H E. split; [rewrite map_length, seq_length; reflexivity|]. split; [rewrite map_length, seq_length; reflexivity|].
  intros i Hi. rewrite !nth_error_map_seq by auto. rewrite E by exact Hi. reflexivity.
Qed.
Lemma relisted_perm : forall A n p (l l' : list A), permutes n p -> relisted n p l l' -> Permutation l' l.
Proof.
  intros A n p l l' P (L & L' & E). destruct l as [|d l0] eqn:D; [destruct l'; [constructor|]; simpl in *; lia|]. rewrite <- D in *. clear D.
  assert (M : forall k : list A, length k = n -> k = map (fun i => nth i k d) (seq 0 n)).
  { intros k <-. apply nth_ext with (d := d) (d' := d); [rewrite map_length, seq_length; reflexivity|].
    intros i Hi. rewrite nth_map_seq by exact Hi. reflexivity. }
  rewrite (M l L), (M l' L'). rewrite (map_ext_in _ (fun i => nth (p i) l d)); [apply (map_relist _ (fun i => nth i l d)), P|].
  intros i Hi. apply in_seq in Hi. assert (Q := E i). apply nth_error_nth with (d := d).
  rewrite Q by lia. apply nth_error_nth'. rewrite L. apply P. lia.
Qed.
Lemma relisted_vat : forall n p (l l' : list ef) i, relisted n p l l' -> i < n -> p i < n -> vat l' i = vat l (p i).
Proof.
  intros n p l l' i (L & L' & E) Hi Hp. unfold vat. apply nth_error_nth. rewrite E by exact Hi. apply nth_error_nth'. lia.
Qed.
Lemma relisted_mapl : forall A B (f : A -> B) n p l l', relisted n p l l' -> relisted n p (map f l) (map f l').
Proof.
  intros A B f n p l l' (L & L' & E). split; [rewrite map_length; exact L|]. split; [rewrite map_length; exact L'|].
  intros i Hi. rewrite !nth_error_map, E by exact Hi. reflexivity.
Qed.

(** ** The array *)
Lemma re_dE : forall p q a a', rearranged p q a a' -> dE a' = dE a. Proof. intros p q a a' H. apply (proj1 H). Qed.
Lemma re_dS : forall p q a a', rearranged p q a a' -> dS a' = dS a. Proof. intros p q a a' H. apply (proj1 (proj2 H)). Qed.
Lemma re_dR : forall p q a a', rearranged p q a a' -> dR a' = dR a. Proof. intros p q a a' H. apply (proj1 (proj2 (proj2 H))). Qed.
Lemma re_pp : forall p q a a', rearranged p q a a' -> permutes (dE a) p. Proof. intros p q a a' (_ & _ & _ & H & _). exact H. Qed.
Lemma re_pq : forall p q a a', rearranged p q a a' -> permutes (dS a) q. Proof. intros p q a a' (_ & _ & _ & _ & H & _). exact H. Qed.
Section Array.
  Variables (p q : nat -> nat) (a a' : arr3 ef).
  Hypothesis HR : rearranged p q a a'.

  Lemma re_row : forall e, e < dE a -> Permutation (row (stack1 a') e) (row (stack1 a) (p e)).
  Proof.
    intros e He. destruct HR as (DE & DS & DR & P & Q & E).
    rewrite (row_stack1_perm _ a' e), (row_stack1_perm _ a (p e)), DS, DR.
    rewrite <- (flat_map_relist _ (fun s => map (fun r => at3 a (p e) s r) (seq 0 (dR a))) _ q Q).
    apply flat_map_perm_ext. intros s Hs. apply in_seq in Hs.
    rewrite (map_ext_in _ (fun r => at3 a (p e) (q s) r)); [reflexivity|]. intros r Hr. apply in_seq in Hr. apply E. unfold inside. lia.
  Qed.
  Lemma re_col : forall s, s < dS a -> Permutation (col (stack0 a') s) (col (stack0 a) (q s)).
  Proof.
    intros s Hs. destruct HR as (DE & DS & DR & P & Q & E).
    rewrite (col_stack0_perm _ a' s), (col_stack0_perm _ a (q s)), DE, DR.
    rewrite <- (flat_map_relist _ (fun e => map (fun r => at3 a e (q s) r) (seq 0 (dR a))) _ p P).
    apply flat_map_perm_ext. intros e He. apply in_seq in He.
    rewrite (map_ext_in _ (fun r => at3 a (p e) (q s) r)); [reflexivity|]. intros r Hr. apply in_seq in Hr. apply E. unfold inside. lia.
  Qed.
  Lemma re_along1 : forall f : list ef -> ef, (forall l l', Permutation l l' -> f l = f l') ->
    relisted (dE a) p (along1 f (stack1 a)) (along1 f (stack1 a')).
  Proof.
    intros f Hf. unfold along1. cbn [n0 stack1]. rewrite (re_dE _ _ _ _ HR).
    apply relisted_map; [apply (re_pp _ _ _ _ HR)|]. intros i Hi. apply Hf, re_row, Hi.
  Qed.
  Lemma re_along0 : forall f : list ef -> ef, (forall l l', Permutation l l' -> f l = f l') ->
    relisted (dS a) q (along0 f (stack0 a)) (along0 f (stack0 a')).
  Proof.
    intros f Hf. unfold along0. cbn [n1 stack0]. rewrite (re_dS _ _ _ _ HR).
    apply relisted_map; [apply (re_pq _ _ _ _ HR)|]. intros i Hi. apply Hf, re_col, Hi.
  Qed.
  Lemma re_p : forall e, e < dE a -> p e < dE a. Proof. apply (re_pp _ _ _ _ HR). Qed.
  Lemma re_q : forall s, s < dS a -> q s < dS a. Proof. apply (re_pq _ _ _ _ HR). Qed.
  Lemma re_flat : Permutation (flat3 a') (flat3 a).
  Proof.
    destruct HR as (DE & DS & DR & P & Q & E). unfold flat3. rewrite DE, DS, DR.
    rewrite <- (flat_map_relist _ (fun e => flat_map (fun s => map (fun r => at3 a e s r) (seq 0 (dR a))) (seq 0 (dS a))) _ p P).
    apply flat_map_perm_ext. intros e He. apply in_seq in He.
    rewrite <- (flat_map_relist _ (fun s => map (fun r => at3 a (p e) s r) (seq 0 (dR a))) _ q Q).
    apply flat_map_perm_ext. intros s Hs. apply in_seq in Hs.
    rewrite (map_ext_in _ (fun r => at3 a (p e) (q s) r)); [reflexivity|]. intros r Hr. apply in_seq in Hr. apply E. unfold inside. lia.
  Qed.
  Lemma re_map3 : forall f g : nat -> nat -> nat -> ef -> ef, (forall e s r x, inside a e s r -> g e s r x = f (p e) (q s) r x) ->
    rearranged p q (map3 f a) (map3 g a').
  Proof.
    intros f g H. destruct HR as (DE & DS & DR & P & Q & E). unfold rearranged, map3. cbn [dE dS dR at3]. repeat (split; [assumption|]).
    intros e s r I. change (inside a e s r) in I. rewrite (E e s r I). apply H, I.
  Qed.

  (** *** Steps *)
  Lemma re_zscore : rearranged p q (zscore a) (zscore a').
  Proof.
    unfold zscore. apply re_map3. intros e s r x (He & Hs & Hr).
    rewrite (relisted_vat _ _ _ _ s (re_along0 np_nanmean nanmean_perm) Hs (re_q s Hs)).
    rewrite (relisted_vat _ _ _ _ s (re_along0 (np_nanstd 1) (nanstd_perm 1)) Hs (re_q s Hs)). reflexivity.
  Qed.
End Array.

Lemma re_bias : forall p q a a', rearranged p q a a' -> relisted (dS a) q (bias_estimate a) (bias_estimate a').
Proof.
  intros p q a a' H. unfold bias_estimate. cbv zeta.
  assert (M : rearranged p q (map3 (fun e s r x => nsub x (vat (along1 np_nanmean (stack1 a)) e)) a) (map3 (fun e s r x => nsub x (vat (along1 np_nanmean (stack1 a')) e)) a')).
  { apply re_map3; [exact H|]. intros e s r x (He & Hs & Hr).
    rewrite (relisted_vat _ _ _ _ e (re_along1 _ _ _ _ H np_nanmean nanmean_perm) He (re_p _ _ _ _ H e He)). reflexivity. }
  exact (re_along0 _ _ _ _ M np_nanmean nanmean_perm).
Qed.
Lemma re_remove : forall p q a a' d d', rearranged p q a a' -> relisted (dS a) q d d' -> rearranged p q (remove_bias a d) (remove_bias a' d').
Proof.
  intros p q a a' d d' H D. unfold remove_bias. apply re_map3; [exact H|]. intros e s r x (He & Hs & Hr).
  rewrite (relisted_vat _ _ _ _ s D Hs (re_q _ _ _ _ H s Hs)). reflexivity.
Qed.

(** ** Rejection *)
(** The kept subjects in any order. *)
Definition kept_as (p : nat -> nat) (b b' : arr3 ef) : Prop := exists q, rearranged p q b b'.
Lemma kept_rows : forall p b b', kept_as p b b' -> dE b' = dE b /\ (forall e, e < dE b -> p e < dE b) /\ permutes (dE b) p /\
  (forall e, e < dE b -> Permutation (row (stack1 b') e) (row (stack1 b) (p e))).
Proof.
  intros p b b' (q & H). split; [apply (re_dE _ _ _ _ H)|]. split; [apply (re_pp _ _ _ _ H)|]. split; [apply (re_pp _ _ _ _ H)|]. intros. eapply re_row; eassumption.
Qed.
Lemma re_kept : forall p q a a', rearranged p q a a' -> kept_as p a a'.
Proof. intros p q a a' H. exists q. exact H. Qed.

Lemma re_select : forall p q a a' l l', rearranged p q a a' -> Permutation (map q l') l -> (forall s, In s l' -> s < dS a) ->
  kept_as p (select_cols a l) (select_cols a' l').
Proof.
  intros p q a a' l l' H HP Hl. destruct H as (DE & DS & DR & P & Q & E).
  assert (LE := Permutation_length HP). rewrite map_length in LE.
  apply Permutation_sym in HP. apply (proj1 (Permutation_nth l (map q l') 0)) in HP as (_ & f & BF & IF & EF). cbv zeta in *.
  exists f. unfold rearranged. cbn [dE dS dR at3 select_cols]. split; [exact DE|]. split; [exact LE|]. split; [exact DR|]. split; [exact P|].
  split; [split; [exact BF|intros i j Hi Hj; exact (IF i j Hi Hj)]|]. intros e s r (He & Hs & Hr). cbn [dE dS dR select_cols] in *.
  rewrite <- EF by exact Hs. assert (Hs' : s < length l') by lia. rewrite (nth_indep (map q l') 0 (q 0)) by (rewrite map_length; exact Hs'). rewrite map_nth.
  apply E. unfold inside. assert (nth s l' 0 < dS a) by (apply Hl, nth_In; exact Hs'). lia.
Qed.

Section Kurtosis.
  Variables (p q : nat -> nat) (a a' : arr3 ef).
  Hypothesis HR : rearranged p q a a'.
  Lemma re_counts : forall s, s < dS a -> outlier_counts a' s = outlier_counts a (q s).
  Proof.
    intros s Hs. assert (Hq := re_q _ _ _ _ HR s Hs). destruct HR as (DE & DS & DR & P & Q & E).
    unfold outlier_counts. cbv zeta. cbn [n0 stack1]. rewrite !map_map. cbn [fst snd].
    assert (C : forall t : ef * ef -> ef -> bool,
      list_sum (map (fun e => count_if (fun iv => (Nat.eqb (fst iv mod dS a') s && negb (nisnan (snd iv)) && t (outlier_bounds (row (stack1 a') e)) (snd iv))%bool) (enumerate (row (stack1 a') e))) (seq 0 (dE a'))) =
      list_sum (map (fun e => count_if (fun iv => (Nat.eqb (fst iv mod dS a) (q s) && negb (nisnan (snd iv)) && t (outlier_bounds (row (stack1 a) e)) (snd iv))%bool) (enumerate (row (stack1 a) e))) (seq 0 (dE a)))).
    { intro t. assert (HC : forall (b : arr3 ef) e j, j < dS b ->
        count_if (fun iv => (Nat.eqb (fst iv mod dS b) j && negb (nisnan (snd iv)) && t (outlier_bounds (row (stack1 b) e)) (snd iv))%bool) (enumerate (row (stack1 b) e)) =
        count_if (fun r => (negb (nisnan (at3 b e j r)) && t (outlier_bounds (row (stack1 b) e)) (at3 b e j r))%bool) (seq 0 (dR b))).
      { intros b e j Hj. etransitivity; [|exact (count_column b e j (fun x => (negb (nisnan x) && t (outlier_bounds (row (stack1 b) e)) x)%bool) Hj)].
        apply count_if_ext. intros [i x] _. cbn [fst snd]. rewrite andb_assoc. reflexivity. }
      rewrite (map_ext _ _ (fun e => HC a e (q s) Hq)). rewrite (map_ext _ _ (fun e => HC a' e s ltac:(rewrite DS; exact Hs))).
      rewrite DE, DR.
      rewrite (map_ext_in _ (fun e => (fun e => count_if (fun r => (negb (nisnan (at3 a e (q s) r)) && t (outlier_bounds (row (stack1 a) e)) (at3 a e (q s) r))%bool) (seq 0 (dR a))) (p e))).
      - assert (L : forall l l', Permutation l l' -> list_sum l = list_sum l').
        { intros l l' HP. induction HP; simpl; try lia. }
        apply L, (map_relist _ (fun e => count_if (fun r => (negb (nisnan (at3 a e (q s) r)) && t (outlier_bounds (row (stack1 a) e)) (at3 a e (q s) r))%bool) (seq 0 (dR a)))), P.
      - intros e He. apply in_seq in He. apply count_if_ext. intros r Hr. apply in_seq in Hr.
        rewrite (bounds_perm _ _ (re_row _ _ _ _ HR e ltac:(lia))). rewrite (E e s r) by (unfold inside; lia). reflexivity. }
    f_equal; [exact (C (fun b x => nleb (fst b) x))|exact (C (fun b x => nleb x (snd b)))].
  Qed.
  Lemma re_stats : forall s, s < dS a -> reject_stats a' s = reject_stats a (q s).
  Proof.
    intros s Hs. unfold reject_stats. rewrite re_counts by exact Hs. rewrite (re_dE _ _ _ _ HR).
    rewrite (re_dR _ _ _ _ HR). reflexivity.
  Qed.
  Lemma re_kurtosis : let '(b, f, s1, s2) := reject_kurtosis a in let '(b', f', s1', s2') := reject_kurtosis a' in
    kept_as p b b' /\ relisted (dS a) q f f' /\ relisted (dS a) q s1 s1' /\ relisted (dS a) q s2 s2'.
  Proof.
    assert (DS := re_dS _ _ _ _ HR). assert (Q := re_pq _ _ _ _ HR).
    unfold reject_kurtosis. cbv zeta. rewrite DS.
    set (t := fun s => reject_test (nth s (map (reject_stats a) (seq 0 (dS a))) (nnan, nnan))).
    set (t' := fun s => reject_test (nth s (map (reject_stats a') (seq 0 (dS a))) (nnan, nnan))).
    assert (T : forall s, s < dS a -> t' s = t (q s)).
    { intros s Hs. unfold t, t'. rewrite !nth_map_seq by (exact Hs || exact (re_q _ _ _ _ HR s Hs)). rewrite re_stats by exact Hs. reflexivity. }
    assert (F := filter_relist t t' (dS a) q Q T).
    assert (F' := filter_relist (fun s => negb (t s)) (fun s => negb (t' s)) (dS a) q Q (fun s Hs => f_equal negb (T s Hs))).
    assert (EL : length (filter t' (seq 0 (dS a))) = length (filter t (seq 0 (dS a)))) by (rewrite <- (Permutation_length F), map_length; reflexivity).
    assert (R1 : relisted (dS a) q (map fst (map (reject_stats a) (seq 0 (dS a)))) (map fst (map (reject_stats a') (seq 0 (dS a))))).
    { apply relisted_mapl, relisted_map; [apply Q|]. intros i Hi. apply re_stats. exact Hi. }
    assert (R2 : relisted (dS a) q (map snd (map (reject_stats a) (seq 0 (dS a)))) (map snd (map (reject_stats a') (seq 0 (dS a))))).
    { apply relisted_mapl, relisted_map; [apply Q|]. intros i Hi. apply re_stats. exact Hi. }
    change (filter (fun s => reject_test (nth s (map (reject_stats a) (seq 0 (dS a))) (nnan, nnan))) (seq 0 (dS a))) with (filter t (seq 0 (dS a))).
    change (filter (fun s => reject_test (nth s (map (reject_stats a') (seq 0 (dS a))) (nnan, nnan))) (seq 0 (dS a))) with (filter t' (seq 0 (dS a))).
    change (filter (fun s => negb (reject_test (nth s (map (reject_stats a) (seq 0 (dS a))) (nnan, nnan)))) (seq 0 (dS a))) with (filter (fun s => negb (t s)) (seq 0 (dS a))).
    change (filter (fun s => negb (reject_test (nth s (map (reject_stats a') (seq 0 (dS a))) (nnan, nnan)))) (seq 0 (dS a))) with (filter (fun s => negb (t' s)) (seq 0 (dS a))).
    rewrite EL. assert (IN : forall g s, In s (filter g (seq 0 (dS a))) -> s < dS a) by (intros g s Hs; apply filter_In in Hs as (Hs & _); apply in_seq in Hs; lia).
    destruct (Nat.eqb _ _).
    - split; [|split; [|split; assumption]].
      + apply (re_select p q); [exact HR| |].
        * rewrite map_app. apply Permutation_app; assumption.
        * intros s Hs. apply in_app_iff in Hs as [Hs|Hs]; eapply IN; exact Hs.
      + apply relisted_map; [apply Q|]. reflexivity.
    - split; [|split; [|split; assumption]].
      + apply (re_select p q); [exact HR|exact F'|]. intros s Hs. eapply IN; exact Hs.
      + apply relisted_map; [apply Q|]. intros s Hs. assert (Hq : q s < dS a) by (apply Q; exact Hs).
        assert (MB : forall g j, j < dS a -> memb Nat.eqb j (filter g (seq 0 (dS a))) = g j).
        { intros g j Hj. destruct (g j) eqn:G.
          - apply (memb_In _ Nat.eqb Nat.eqb_eq). apply filter_In. split; [apply in_seq; lia|exact G].
          - destruct (memb Nat.eqb j (filter g (seq 0 (dS a)))) eqn:M; [|reflexivity]. apply (memb_In _ Nat.eqb Nat.eqb_eq) in M. apply filter_In in M as (_ & M). congruence. }
        rewrite !MB by assumption. apply T. exact Hs.
  Qed.
End Kurtosis.

(** *** Correlations *)
Definition order_free (corr : list ef -> list ef -> res ef) : Prop :=
  forall (f g : nat -> ef) l l', Permutation l l' -> corr (map f l) (map g l) = corr (map f l') (map g l').
Lemma ok_same : forall A (x y : A), Ok x = Ok y -> x = y.
Proof. congruence. Qed.
Lemma pearson_free : order_free sp_pearsonr.
Proof.
  intros f g l l' H. unfold sp_pearsonr. rewrite !map_length, (Permutation_length H). destruct (Nat.ltb _ _); [reflexivity|]. cbv zeta.
  rewrite (mean_perm _ _ (Permutation_map f H)), (mean_perm _ _ (Permutation_map g H)).
  rewrite !map_map, !(combine_map_seq _ _ (fun x => nsub (f x) _) (fun x => nsub (g x) _)), !map_map. cbn [fst snd].
  f_equal. f_equal; [|f_equal; f_equal]; apply np_sum_perm, Permutation_map, H.
Qed.
Definition rank_in (l : list ef) (x : ef) : ef :=
  nadd (nofnat (count_if (fun y => nltb y x) l)) (ndiv (nadd (nofnat (count_if (fun y => neqb y x) l)) none_) (nofZ 2)).
Lemma rank_perm : forall l l' x, Permutation l l' -> rank_in l x = rank_in l' x.
Proof.
  intros l l' x H. unfold rank_in, count_if. rewrite (Permutation_length (perm_filter _ (fun y => nltb y x) _ _ H)).
  rewrite (Permutation_length (perm_filter _ (fun y => neqb y x) _ _ H)). reflexivity.
Qed.
Lemma rankdata_map : forall (f : nat -> ef) l, rankdata (map f l) = map (fun i => rank_in (map f l) (f i)) l.
Proof. intros. unfold rankdata. rewrite map_map. reflexivity. Qed.
Lemma spearman_free : order_free sp_spearmanr.
Proof.
  intros f g l l' H. unfold sp_spearmanr. rewrite !map_length, (Permutation_length H). destruct (Nat.ltb _ _); [reflexivity|].
  rewrite !rankdata_map. rewrite (map_ext _ _ (fun i => rank_perm _ _ (f i) (Permutation_map f H)) l), (map_ext _ _ (fun i => rank_perm _ _ (g i) (Permutation_map g H)) l).
  apply (pearson_free (fun i => rank_in (map f l') (f i)) (fun i => rank_in (map g l') (g i))), H.
Qed.

Lemma mapM_nth_error : forall A B (f : A -> res B) l r, mapM f l = Ok r -> forall i, nth_error r i = None /\ nth_error l i = None \/
  exists x y, nth_error l i = Some x /\ nth_error r i = Some y /\ f x = Ok y.
Proof.
  induction l as [|x l IH]; intros r H i; cbn [mapM] in H.
  - apply ok_same in H. subst r. left. destruct i; auto.
  - destruct (f x) as [y|] eqn:E; [|discriminate]. cbn [bind] in H. destruct (mapM f l) as [r0|] eqn:M; [|discriminate]. cbn [bind] in H.
    apply ok_same in H. subst r. destruct i as [|i]; cbn [nth_error]; [right; exists x, y; auto|apply IH; reflexivity].
Qed.
Lemma mapM_relist : forall B (f g : nat -> res B) n p r, permutes n p -> (forall i, i < n -> g i = f (p i)) -> mapM f (seq 0 n) = Ok r ->
  exists r', mapM g (seq 0 n) = Ok r' /\ relisted n p r r'.
Proof.
  intros B f g n p r P E H.
  assert (L : length r = n) by (apply mapM_length in H; rewrite seq_length in H; congruence).
  assert (V : forall i, i < n -> exists y, nth_error r i = Some y /\ f i = Ok y).
  { intros i Hi. destruct (mapM_nth_error _ _ _ _ _ H i) as [(N & _)|(x & y & X & Y & F)]; [apply nth_error_None in N; lia|].
    rewrite nth_error_seq in X by exact Hi. injection X as <-. exists y. auto. }
  assert (T : forall l, (forall i, In i l -> i < n) -> exists r', mapM g l = Ok r').
  { induction l as [|x l IH]; intro Hl; [exists []; reflexivity|]. cbn [mapM].
    rewrite (E x) by (apply Hl; left; reflexivity). destruct (V (p x)) as (y & _ & ->); [apply P, Hl; left; reflexivity|].
    destruct IH as (r' & ->); [intros; apply Hl; right; assumption|]. exists (y :: r'). reflexivity. }
  destruct (T (seq 0 n)) as (r' & Hr); [intros i Hi; apply in_seq in Hi; lia|]. exists r'. split; [exact Hr|].
  assert (L' : length r' = n) by (apply mapM_length in Hr; rewrite seq_length in Hr; congruence).
  split; [exact L|]. split; [exact L'|]. intros i Hi.
  destruct (mapM_nth_error _ _ _ _ _ Hr i) as [(N & _)|(x & y & X & Y & F)]; [apply nth_error_None in N; lia|].
  rewrite nth_error_seq in X by exact Hi. injection X as <-. rewrite E in F by exact Hi.
  destruct (V (p i)) as (z & Z1 & Z2); [apply P; exact Hi|]. congruence.
Qed.

Section Corr.
  Variables (p q : nat -> nat) (a a' : arr3 ef) (corr : list ef -> list ef -> res ef).
  Hypothesis HR : rearranged p q a a'.
  Hypothesis HC : order_free corr.
  Let ses (b : arr3 ef) e s := np_nanmean (map (fun r => at3 b e s r) (seq 0 (dR b))).
  Lemma re_ses : forall e s, e < dE a -> s < dS a -> ses a' e s = ses a (p e) (q s).
  Proof.
    intros e s He Hs. unfold ses. rewrite (re_dR _ _ _ _ HR). f_equal. apply map_ext_in. intros r Hr. apply in_seq in Hr.
    destruct HR as (_ & _ & _ & _ & _ & E). apply E. unfold inside. lia.
  Qed.
  Lemma re_corr : forall r, observer_corr corr a = Ok r -> exists r', observer_corr corr a' = Ok r' /\ relisted (dS a) q r r'.
  Proof.
    intros r H. unfold observer_corr in *. cbv zeta in *. rewrite (re_dS _ _ _ _ HR), (re_dE _ _ _ _ HR).
    revert H. apply mapM_relist; [apply (re_pq _ _ _ _ HR)|]. intros s Hs. assert (Hq := re_q _ _ _ _ HR s Hs).
    change (corr (map (fun e => ses a' e s) (filter (fun e => negb (nisnan (ses a' e s))) (seq 0 (dE a))))
       (map (vat (map (fun e => np_nanmean (map (ses a' e) (seq 0 (dS a)))) (seq 0 (dE a)))) (filter (fun e => negb (nisnan (ses a' e s))) (seq 0 (dE a)))) =
      corr (map (fun e => ses a e (q s)) (filter (fun e => negb (nisnan (ses a e (q s)))) (seq 0 (dE a))))
       (map (vat (map (fun e => np_nanmean (map (ses a e) (seq 0 (dS a)))) (seq 0 (dE a)))) (filter (fun e => negb (nisnan (ses a e (q s)))) (seq 0 (dE a))))).
    assert (F := filter_relist (fun e => negb (nisnan (ses a e (q s)))) (fun e => negb (nisnan (ses a' e s))) (dE a) p (re_pp _ _ _ _ HR)
                  (fun e He => f_equal (fun x => negb (nisnan x)) (re_ses e s He Hs))).
    rewrite <- (HC _ _ _ _ F), !map_map. 
    assert (IN : forall e, In e (filter (fun e => negb (nisnan (ses a' e s))) (seq 0 (dE a))) -> e < dE a) by (intros e He; apply filter_In in He as (He & _); apply in_seq in He; lia).
    f_equal; apply map_ext_in; intros e He; apply IN in He; [apply re_ses; assumption|]. assert (Hp := re_p _ _ _ _ HR e He).
    rewrite !vat_map_seq by assumption. apply nanmean_perm.
    rewrite (map_ext_in _ (fun j => ses a (p e) (q j))) by (intros j Hj; apply in_seq in Hj; apply re_ses; lia).
    apply (map_relist _ (ses a (p e))), (re_pq _ _ _ _ HR).
  Qed.
  Lemma re_reject_corr : forall b f s1 s2, reject_corr corr a = Ok (b, f, s1, s2) -> exists b' f' s1' s2', reject_corr corr a' = Ok (b', f', s1', s2') /\
    kept_as p b b' /\ relisted (dS a) q f f' /\ relisted (dS a) q s1 s1' /\ relisted (dS a) q s2 s2'.
  Proof.
    intros b f s1 s2 H. unfold reject_corr in H. destruct (observer_corr corr a) as [r|] eqn:E; [|discriminate]. cbn [bind] in H.
    apply ok_same in H. injection H as <- <- <- <-. destruct (re_corr r E) as (r' & E' & RL).
    assert (PM := relisted_perm _ _ _ _ _ (re_pq _ _ _ _ HR) RL).
    assert (TH : corr_threshold r' = corr_threshold r) by (unfold corr_threshold; rewrite (mean_perm _ _ PM), (std_perm _ _ PM); reflexivity).
    unfold reject_corr. rewrite E'. cbn [bind]. do 4 eexists. split; [reflexivity|]. rewrite TH, (re_dS _ _ _ _ HR).
    split; [|split; [apply relisted_mapl, RL|split; [exact RL|apply relisted_mapl, RL]]].
    apply (re_select p q); [exact HR| |].
    - apply filter_relist; [apply (re_pq _ _ _ _ HR)|]. intros i Hi.
      rewrite (relisted_vat _ _ _ _ i RL Hi (re_q _ _ _ _ HR i Hi)). reflexivity.
    - intros i Hi. apply filter_In in Hi as (Hi & _). apply in_seq in Hi. lia.
  Qed.
End Corr.

(** ** Differential scores *)
Lemma mapM_list_relist : forall A B C (key : A -> C) (f g : A -> res B) n p l l' r, permutes n p -> relisted n p (map key l) (map key l') ->
  (forall x x' y, In x l -> key x' = key x -> f x = Ok y -> g x' = Ok y) -> mapM f l = Ok r -> exists r', mapM g l' = Ok r' /\ relisted n p r r'.
Proof.
  intros A B C key f g n p l l' r P (L & L' & E) FG H. rewrite map_length in L, L'.
  assert (Lr : length r = n) by (apply mapM_length in H; congruence).
  assert (V : forall i x, i < n -> nth_error l' i = Some x -> exists y, nth_error r (p i) = Some y /\ g x = Ok y).
  { intros i x Hi X. assert (EK := E i Hi). rewrite !nth_error_map, X in EK. cbn [option_map] in EK. assert (Hp : p i < n) by (apply P; exact Hi).
    destruct (mapM_nth_error _ _ _ _ _ H (p i)) as [(N & _)|(z & y & Z & Y & F)]; [apply nth_error_None in N; lia|].
    rewrite Z in EK. cbn [option_map] in EK. injection EK as EK. exists y. split; [exact Y|]. apply (FG z); [eapply nth_error_In; exact Z|exact EK|exact F]. }
  assert (T : forall k, (forall x, In x k -> In x l') -> exists r', mapM g k = Ok r').
  { induction k as [|x k IH]; intro Hk; [exists []; reflexivity|]. cbn [mapM].
    destruct (In_nth_error l' x (Hk x (or_introl eq_refl))) as (i & Hi).
    assert (i < n) by (rewrite <- L'; apply nth_error_Some; congruence).
    destruct (V i x) as (y & _ & ->); [assumption|exact Hi|]. cbn [bind]. destruct IH as (r' & ->); [intros; apply Hk; right; assumption|]. exists (y :: r'). reflexivity. }
  destruct (T l') as (r' & Hr); [auto|]. exists r'. split; [exact Hr|].
  assert (Lr' : length r' = n) by (apply mapM_length in Hr; congruence).
  split; [exact Lr|]. split; [exact Lr'|]. intros i Hi.
  destruct (mapM_nth_error _ _ _ _ _ Hr i) as [(N & _)|(x & y & X & Y & F)]; [apply nth_error_None in N; lia|].
  destruct (V i x Hi X) as (z & Z1 & Z2). congruence.
Qed.
Lemma indices_relist : forall A (l l' : list A) n p h, permutes n p -> relisted n p l l' -> Permutation (map p (indices l' h)) (indices l h).
Proof.
  intros A l l' n p h P (L & L' & E).
  assert (B : forall i, In i (indices l' h) -> i < n) by (intros i Hi; apply indices_In in Hi as (x & X & _); rewrite <- L'; apply nth_error_Some; congruence).
  apply NoDup_Permutation; [|apply indices_NoDup|].
  - assert (G : forall k, NoDup k -> (forall i, In i k -> i < n) -> NoDup (map p k)).
    { induction k as [|x k IH]; intros Hn Hk; cbn [map]; [constructor|]. inversion Hn; subst. constructor.
      - intro Hin. apply in_map_iff in Hin as (y & Ey & Hy). apply P in Ey; [subst; contradiction|apply Hk; right; exact Hy|apply Hk; left; reflexivity].
      - apply IH; [assumption|]. intros; apply Hk; right; assumption. }
    apply G; [apply indices_NoDup|exact B].
  - intro j. split.
    + intro Hj. apply in_map_iff in Hj as (i & <- & Hi). assert (Hn := B i Hi). apply indices_In in Hi as (x & X & Hx). apply indices_In. exists x. rewrite <- E by exact Hn. auto.
    + intro Hj. apply indices_In in Hj as (x & X & Hx). assert (Hn : j < n) by (rewrite <- L; apply nth_error_Some; congruence).
      assert (Hs : In j (map p (seq 0 n))) by (rewrite (permutes_surj_perm n p P); apply in_seq; lia).
      apply in_map_iff in Hs as (i & Ei & Hi). apply in_seq in Hi. apply in_map_iff. exists i. split; [exact Ei|]. apply indices_In. exists x.
      rewrite E by lia. rewrite Ei. auto.
Qed.
Lemma relisted_combine : forall A B n p (l l' : list A) (m m' : list B), permutes n p -> relisted n p l l' -> relisted n p m m' -> relisted n p (combine l m) (combine l' m').
Proof.
  intros A B n p l l' m m' P (L & L' & E) (M & M' & F).
  split; [rewrite combine_length; lia|]. split; [rewrite combine_length; lia|]. intros i Hi.
  assert (C : forall (x : list A) (y : list B) j, nth_error (combine x y) j = match nth_error x j, nth_error y j with Some u, Some v => Some (u, v) | _, _ => None end).
  { induction x as [|u x IH]; intros y j; [destruct j; reflexivity|]. destruct y as [|v y]; [destruct j; cbn; [reflexivity|destruct (nth_error x j); reflexivity]|].
    destruct j as [|j]; cbn [combine nth_error]; [reflexivity|apply IH]. }
  rewrite !C, E, F by exact Hi. reflexivity.
Qed.
Lemma re_dscore : forall p q refs dvs dvs' rs a a' a1, rearranged p q a a' -> relisted (length dvs) p (map video_key dvs) (map video_key dvs') ->
  dscore refs dvs dvs rs a = Ok a1 -> exists a1', dscore refs dvs' dvs' rs a' = Ok a1' /\ rearranged p q a1 a1'.
Proof.
  intros p q refs dvs dvs' rs a a' a1 HR HV H. unfold dscore in *. cbv zeta in *.
  destruct (get_ref_mos refs dvs dvs _) as [rm|] eqn:G; [|discriminate]. cbn [bind] in H.
  assert (Lm : length rm = length dvs) by (unfold get_ref_mos in G; apply mapM_length in G; exact G).
  destruct (Nat.eqb_spec (length rm) (dE a)) as [EE|]; [|discriminate]. apply ok_same in H. subst a1.
  assert (N : length dvs = dE a) by congruence. rewrite N in HV.
  assert (P := re_pp _ _ _ _ HR). assert (MQ := re_along1 _ _ _ _ HR np_nanmean nanmean_perm).
  unfold get_ref_mos in *.
  match type of G with mapM ?f _ = _ => set (F := f) in G end.
  match goal with |- context [mapM ?f dvs'] => set (F' := f) end.
  assert (CI : relisted (dE a) p (content_id_of_dis_videos dvs) (content_id_of_dis_videos dvs')).
  { assert (X := relisted_mapl _ _ fst _ _ _ _ HV). rewrite !map_map in X. exact X. }
  assert (FG : forall x x' y, In x dvs -> video_key x' = video_key x -> F x = Ok y -> F' x' = Ok y).
  { intros x x' y _ KX Hy. unfold F, F' in *. injection KX as KX _. rewrite KX.
    destruct (disvideo_is_refvideo refs dvs) as [ir|] eqn:D; [|discriminate]. cbn [bind] in Hy.
    assert (KF : forall u u' y0, In u dvs -> video_key u' = video_key u ->
      bind (dget_res Z.eqb (contentid_to_refvideo_map refs) (dv_cid u)) (fun r => Ok (String.eqb (rv_path r) (dv_path u))) = Ok y0 ->
      bind (dget_res Z.eqb (contentid_to_refvideo_map refs) (dv_cid u')) (fun r => Ok (String.eqb (rv_path r) (dv_path u'))) = Ok y0).
    { intros u u' y0 _ KU KY. injection KU as K1 K2. rewrite K1, K2. exact KY. }
    destruct (mapM_list_relist _ _ _ video_key _ _ _ p _ dvs' ir P HV KF D) as (ir' & D' & RI).
    change (disvideo_is_refvideo refs dvs' = Ok ir') in D'. rewrite D'. cbn [bind].
    set (h := fun pp : Z * bool => (snd pp && Z.eqb (fst pp) (dv_cid x))%bool) in *.
    assert (IX := indices_relist _ _ _ _ p h P (relisted_combine _ _ _ _ _ _ _ _ P CI RI)).
    assert (LE := Permutation_length IX). rewrite map_length in LE.
    destruct (Nat.eqb_spec (length (indices (combine (content_id_of_dis_videos dvs) ir) h)) 1) as [L1|L1]; [|discriminate].
    rewrite LE, L1. cbn [Nat.eqb assert_ bind] in *.
    destruct (indices (combine (content_id_of_dis_videos dvs) ir) h) as [|j [|? ?]] eqn:I1; try discriminate.
    destruct (indices (combine (content_id_of_dis_videos dvs') ir') h) as [|j' [|? ?]] eqn:I2; try discriminate.
    cbn [map] in IX. apply Permutation_length_1 in IX. cbn [hd] in *. unfold py_index in *.
    assert (Hj : j' < dE a).
    { assert (K : In j' (indices (combine (content_id_of_dis_videos dvs') ir') h)) by (rewrite I2; left; reflexivity).
      apply indices_In in K as (z & Z & _). assert (j' < length (combine (content_id_of_dis_videos dvs') ir')) by (apply nth_error_Some; congruence).
      destruct (relisted_combine _ _ _ _ _ _ _ _ P CI RI) as (_ & K & _).
      lia. }
    destruct MQ as (_ & _ & ME). rewrite (ME j' Hj), IX. exact Hy. }
  destruct (mapM_list_relist _ _ _ video_key F F' _ p dvs dvs' rm P HV FG G) as (rm' & G' & RM). rewrite G'. cbn [bind].
  rewrite (re_dE _ _ _ _ HR). destruct RM as (R1 & R2 & R3). rewrite R2, Nat.eqb_refl. eexists. split; [reflexivity|].
  apply re_map3; [exact HR|]. intros e s r x (He & Hs & Hr).
  rewrite (relisted_vat _ _ _ _ e (conj R1 (conj R2 R3)) He (re_p _ _ _ _ HR e He)). reflexivity.
Qed.

(** ** The statistics *)
Lemma flat_rows : forall c : arr3 ef, Permutation (flat3 c) (flat_map (fun e => row (stack1 c) e) (seq 0 (dE c))).
Proof. intro c. unfold flat3. apply flat_map_perm_ext. intros e _. symmetry. apply row_stack1_perm. Qed.
Lemma row_map3 : forall (h : nat -> ef -> ef) (b : arr3 ef) e, row (stack1 (map3 (fun e s r x => h e x) b)) e = map (h e) (row (stack1 b) e).
Proof. intros h b e. unfold row. rewrite map_map. reflexivity. Qed.
Lemma kept_flat : forall p b b' (h h' : nat -> ef -> ef), kept_as p b b' -> (forall e x, e < dE b -> h' e x = h (p e) x) ->
  Permutation (flat3 (map3 (fun e s r x => h' e x) b')) (flat3 (map3 (fun e s r x => h e x) b)).
Proof.
  intros p b b' h h' K Hh. destruct (kept_rows _ _ _ K) as (DE & Hp & P & RW). rewrite !flat_rows. cbn [dE map3]. rewrite DE.
  rewrite <- (flat_map_relist _ (fun e => row (stack1 (map3 (fun e s r x => h e x) b)) e) _ p P). apply flat_map_perm_ext. intros e He. apply in_seq in He.
  rewrite !row_map3. rewrite (Permutation_map (h' e) (RW e ltac:(lia))). rewrite (map_ext _ (h (p e))); [reflexivity|]. intro x. apply Hh. lia.
Qed.
Lemma map3_id : forall b : arr3 ef, flat3 (map3 (fun e s r x => x) b) = flat3 b.
Proof. reflexivity. Qed.
Lemma re_mos : forall p b b' a0 a0' dof, kept_as p b b' -> dE a0' = dE a0 -> dS a0' = dS a0 -> dR a0' = dR a0 -> Permutation (flat3 a0') (flat3 a0) ->
  let m := mos_and_stats dof b a0 in let m' := mos_and_stats dof b' a0' in
  (forall f, In f [mr_quality; mr_std; mr_ci_lo; mr_ci_hi; mr_ambiguity] -> relisted (dE b) p (f m) (f m')) /\
  mr_dof m' = mr_dof m /\ mr_ll m' = mr_ll m /\ mr_aic m' = mr_aic m /\ mr_bic m' = mr_bic m.
Proof.
  intros p b b' a0 a0' dof K D1 D2 D3 PF. assert (K0 := K). destruct (kept_rows _ _ _ K) as (DE & Hp & P & RW). cbv zeta.
  assert (AL : forall f : list ef -> ef, (forall l l', Permutation l l' -> f l = f l') -> relisted (dE b) p (along1 f (stack1 b)) (along1 f (stack1 b'))).
  { intros f Hf. unfold along1. cbn [n0 stack1]. rewrite DE. apply relisted_map; [exact Hp|]. intros e He. apply Hf, RW, He. }
  assert (ST : relisted (dE b) p (mr_std (mos_and_stats dof b a0)) (mr_std (mos_and_stats dof b' a0'))).
  { unfold mos_and_stats. cbn [mr_std n0 stack1]. unfold along1. cbn [n0 stack1]. rewrite DE, !combine_map_seq, !map_map. cbn [fst snd].
    apply relisted_map; [exact Hp|]. intros e He. rewrite (nanstd_perm 1 _ _ (RW e He)).
    unfold np_cnt. rewrite (Permutation_length (notnan_perm _ _ (RW e He))). reflexivity. }
  assert (CN : forall x y : arr3 ef, Permutation (flat3 x) (flat3 y) -> np_cnt (flat3 x) = np_cnt (flat3 y)).
  { intros x y H. unfold np_cnt. rewrite (Permutation_length (notnan_perm _ _ H)). reflexivity. }
  assert (D : mr_dof (mos_and_stats dof b' a0') = mr_dof (mos_and_stats dof b a0)).
  { unfold mos_and_stats. cbn [mr_dof]. rewrite (CN _ _ PF), D1, D2, D3. reflexivity. }
  assert (LL : mr_ll (mos_and_stats dof b' a0') = mr_ll (mos_and_stats dof b a0)).
  { unfold mos_and_stats. cbn [mr_ll].
    assert (F0 := kept_flat p b b' (fun _ x => x) (fun _ x => x) K0 (fun _ _ _ => eq_refl)). rewrite !map3_id in F0. rewrite (CN _ _ F0). f_equal.
    unfold np_nansum. apply np_sum_perm, notnan_perm.
    apply (kept_flat p b b' (fun e x => nln (gaussian x (vat (along1 np_nanmean (stack1 b)) e) (vat (along1 (np_nanstd 1) (stack1 b)) e)))
                            (fun e x => nln (gaussian x (vat (along1 np_nanmean (stack1 b')) e) (vat (along1 (np_nanstd 1) (stack1 b')) e))) K0).
    intros e x He. rewrite (relisted_vat _ _ _ _ e (AL np_nanmean nanmean_perm) He (Hp e He)), (relisted_vat _ _ _ _ e (AL (np_nanstd 1) (nanstd_perm 1)) He (Hp e He)). reflexivity. }
  split; [|split; [exact D|split; [exact LL|]]].
  - intros f [<-|[<-|[<-|[<-|[<-|[]]]]]].
    + exact (AL np_nanmean nanmean_perm). + exact ST.
    + exact (relisted_mapl _ _ (fun x => nmul z95 x) _ _ _ _ ST). + exact (relisted_mapl _ _ (fun x => nmul z95 x) _ _ _ _ ST).
    + exact (AL (np_nanstd 1) (nanstd_perm 1)).
  - unfold mos_and_stats in *. cbn [mr_dof mr_ll mr_aic mr_bic] in *. rewrite D, LL, (CN _ _ PF). split; reflexivity.
Qed.
Lemma re_post : forall n p k q q', permutes n p -> relisted n p q q' -> relisted n p (postprocess k q) (postprocess k q').
Proof.
  intros n p k q q' P H. assert (PM := relisted_perm _ _ _ _ _ P H). unfold postprocess. cbv zeta.
  rewrite (mean_perm _ _ PM), (std_perm _ _ PM).
  assert (R : relisted n p (if kw_normalize_final k then map (fun x => ndiv (nsub x (np_mean q)) (np_std q)) q else q)
                           (if kw_normalize_final k then map (fun x => ndiv (nsub x (np_mean q)) (np_std q)) q' else q')).
  { destruct (kw_normalize_final k); [apply relisted_mapl|]; exact H. }
  destruct (kw_transform_final k) as [[[p2 p1] p0]|]; [apply relisted_mapl|]; exact R.
Qed.

(** ** The preprocessing and the run *)
Lemma re_pre : forall p q (rd rd' : reader ef) a a' k pp, rd_arr rd = Ok a -> rd_arr rd' = Ok a' -> rearranged p q a a' -> same_videos p rd rd' ->
  preprocess rd k = Ok pp -> exists pp', preprocess rd' k = Ok pp' /\ dE (pp_arr pp) = dE a /\ kept_as p (pp_arr pp) (pp_arr pp') /\ pp_orig pp = a /\ pp_orig pp' = a' /\
    same_bias q (dS a) (pp_bias pp) (pp_bias pp') /\ same_lists q (dS a) (pp_rej pp) (pp_rej pp').
Proof.
  intros p q rd rd' a a' k pp HA HA' HR (S1 & S2 & S3 & S4 & S5) H. unfold preprocess in *. rewrite HA in H. rewrite HA'. cbn [bind] in *.
  match type of H with bind ?m _ = _ => destruct m as [[]|]; [|discriminate] end. cbn [bind] in *.
  match type of H with bind ?m _ = _ => destruct m as [[]|]; [|discriminate] end. cbn [bind] in *.
  match type of H with bind ?m _ = _ => destruct m as [a1|] eqn:E1; [|discriminate] end. cbn [bind] in H.
  assert (D : exists a1', (if kw_dscore k then match ds_ref_score (rd_ds rd') with | None => Err AttributeError | Some None => Err AssertionError
       | Some (Some rs) => dscore (ds_refs (rd_ds rd')) (ds_dis (rd_ds rd')) (rd_dvs rd') rs a' end else Ok a') = Ok a1' /\ rearranged p q a1 a1' /\ dE a1 = dE a /\ dS a1 = dS a).
  { destruct (kw_dscore k); [|apply ok_same in E1; subst a1; exists a'; auto]. rewrite S1, S2.
    destruct (ds_ref_score (rd_ds rd)) as [[rs|]|]; try discriminate. rewrite <- S3 in E1. rewrite <- S4.
    destruct (re_dscore p q _ _ _ rs a a' a1 HR S5 E1) as (a1' & E1' & R1). exists a1'. split; [exact E1'|]. split; [exact R1|].
    unfold dscore in E1. destruct (get_ref_mos _ _ _ _) as [rm|]; [|discriminate]. cbn [bind] in E1. destruct (Nat.eqb _ _); [|discriminate]. apply ok_same in E1. subst a1. split; reflexivity. }
  destruct D as (a1' & -> & R1 & N1 & N2). cbn [bind]. cbv zeta in *.
  set (a2 := if kw_zscore k then zscore a1 else a1) in *. set (a2' := if kw_zscore k then zscore a1' else a1').
  assert (R2 : rearranged p q a2 a2' /\ dE a2 = dE a /\ dS a2 = dS a).
  { unfold a2, a2'. destruct (kw_zscore k); [|auto]. split; [apply re_zscore; exact R1|]. auto. }
  destruct R2 as (R2 & N3 & N4). assert (B2 := re_bias _ _ _ _ R2). rewrite N4 in B2.
  assert (R3 : rearranged p q (if kw_bias k then remove_bias a2 (bias_estimate a2) else a2) (if kw_bias k then remove_bias a2' (bias_estimate a2') else a2') /\
     dE (if kw_bias k then remove_bias a2 (bias_estimate a2) else a2) = dE a /\ dS (if kw_bias k then remove_bias a2 (bias_estimate a2) else a2) = dS a).
  { destruct (kw_bias k); [|auto]. split; [apply re_remove; [exact R2|rewrite N4; exact B2]|]. auto. }
  set (a3 := if kw_bias k then remove_bias a2 (bias_estimate a2) else a2) in *. set (a3' := if kw_bias k then remove_bias a2' (bias_estimate a2') else a2') in *.
  destruct R3 as (R3 & N5 & N6).
  assert (SB : same_bias q (dS a) (if kw_bias k then Some (bias_estimate a2) else None) (if kw_bias k then Some (bias_estimate a2') else None)) by (destruct (kw_bias k); [exact B2|exact I]).
  destruct (kw_rej k); [|apply ok_same in H; subst pp; eexists; split; [reflexivity|]; cbn [pp_arr pp_orig pp_bias pp_rej]; split; [exact N5|];
    split; [exact (re_kept _ _ _ _ R3)|]; split; [reflexivity|]; split; [reflexivity|]; split; [exact SB|exact I]].
  match type of H with bind ?m _ = _ => destruct m as [[[[b f] s1] s2]|] eqn:E4; [|discriminate] end. cbn [bind] in H. apply ok_same in H. subst pp.
  assert (RJ : exists b' f' s1' s2', match kw_rejtype k with
               | None | Some Kurtosis => Ok (reject_kurtosis a3')
               | Some Pearson => reject_corr sp_pearsonr a3'
               | Some Spearman => reject_corr sp_spearmanr a3'
               | Some OtherRej => Err AssertionError end = Ok (b', f', s1', s2') /\ dE b = dE a /\ kept_as p b b' /\ relisted (dS a) q f f' /\ relisted (dS a) q s1 s1' /\ relisted (dS a) q s2 s2').
  { assert (KK : reject_kurtosis a3 = (b, f, s1, s2) -> exists b' f' s1' s2', Ok (reject_kurtosis a3') = Ok (b', f', s1', s2') /\ dE b = dE a /\ kept_as p b b' /\ relisted (dS a) q f f' /\ relisted (dS a) q s1 s1' /\ relisted (dS a) q s2 s2').
    { intro E. assert (X := re_kurtosis _ _ _ _ R3). rewrite E, N6 in X. destruct (reject_kurtosis a3') as [[[b' f'] s1'] s2']. exists b', f', s1', s2'.
      split; [reflexivity|]. split; [|exact X]. rewrite <- N5. unfold reject_kurtosis in E. cbv zeta in E. destruct (if Nat.eqb _ _ then _ else _) as [rj ac]. injection E as <- _ _ _. reflexivity. }
    assert (CC : forall corr, order_free corr -> reject_corr corr a3 = Ok (b, f, s1, s2) -> exists b' f' s1' s2', reject_corr corr a3' = Ok (b', f', s1', s2') /\ dE b = dE a /\ kept_as p b b' /\ relisted (dS a) q f f' /\ relisted (dS a) q s1 s1' /\ relisted (dS a) q s2 s2').
    { intros corr HC E. destruct (re_reject_corr _ _ _ _ corr R3 HC _ _ _ _ E) as (b' & f' & s1' & s2' & E' & X). rewrite N6 in X. exists b', f', s1', s2'.
      split; [exact E'|]. split; [|exact X]. rewrite <- N5. unfold reject_corr in E. destruct (observer_corr corr a3); [|discriminate]. cbn [bind] in E. apply ok_same in E. injection E as <- _ _ _. reflexivity. }
    destruct (kw_rejtype k) as [[]|]; try discriminate.
    - apply KK. apply ok_same in E4. exact E4. - apply CC; [exact pearson_free|exact E4]. - apply CC; [exact spearman_free|exact E4].
    - apply KK. apply ok_same in E4. exact E4. }
  destruct RJ as (b' & f' & s1' & s2' & -> & NB & KA & F1 & F2 & F3). cbn [bind]. eexists. split; [reflexivity|]. cbn [pp_arr pp_orig pp_bias pp_rej same_lists]. auto 10.
Qed.

Lemma re_run : forall c p q (rd rd' : reader ef) a a' k m o', rd_arr rd = Ok a -> rd_arr rd' = Ok a' -> rearranged p q a a' -> same_videos p rd rd' ->
  run_modeling c rd k = Ok m -> attach_observers rd' = Ok o' -> exists m', run_modeling c rd' k = Ok m' /\
  (forall f, In f [mr_quality; mr_std; mr_ci_lo; mr_ci_hi; mr_ambiguity] -> relisted (dE a) p (f m) (f m')) /\
  mr_dof m' = mr_dof m /\ mr_ll m' = mr_ll m /\ mr_aic m' = mr_aic m /\ mr_bic m' = mr_bic m /\
  same_bias q (dS a) (mr_bias m) (mr_bias m') /\ same_lists q (dS a) (mr_rej m) (mr_rej m').
Proof.
  intros c p q rd rd' a a' k m o' HA HA' HR HV H HO. unfold run_modeling in *. destruct (run_kwargs c k) as [k'|]; [|discriminate]. cbn [bind] in *.
  unfold mos_run in *. destruct (preprocess rd k') as [pp|] eqn:EP; [|discriminate]. cbn [bind] in H.
  destruct (re_pre p q rd rd' a a' k' pp HA HA' HR HV EP) as (pp' & -> & N & KA & O1 & O2 & SB & SL). cbn [bind].
  assert (M := re_mos p (pp_arr pp) (pp_arr pp') (pp_orig pp) (pp_orig pp') (if is_biasremv c then dof_biasremv else dof_mos) KA).
  rewrite O1, O2 in *. specialize (M (re_dE _ _ _ _ HR) (re_dS _ _ _ _ HR) (re_dR _ _ _ _ HR) (re_flat _ _ _ _ HR)). cbv zeta in M.
  rewrite N in M. destruct M as (M1 & M2 & M3 & M4 & M5). assert (P := re_pp _ _ _ _ HR).
  set (ms := mos_and_stats _ (pp_arr pp) a) in *. set (ms' := mos_and_stats _ (pp_arr pp') a') in *.
  assert (F : forall b b' o, same_bias q (dS a) b b' -> 
    Ok (MosRes (postprocess k' (mr_quality ms)) (mr_std ms) (mr_ci_lo ms) (mr_ci_hi ms) (mr_ambiguity ms) (mr_raw ms) (mr_recon ms) (mr_dof ms) (mr_ll ms) (mr_aic ms) (mr_bic ms) b (pp_rej pp) o) = Ok m ->
    exists m', Ok (MosRes (postprocess k' (mr_quality ms')) (mr_std ms') (mr_ci_lo ms') (mr_ci_hi ms') (mr_ambiguity ms') (mr_raw ms') (mr_recon ms') (mr_dof ms') (mr_ll ms') (mr_aic ms') (mr_bic ms') b' (pp_rej pp') o') = Ok m' /\
      (forall f, In f [mr_quality; mr_std; mr_ci_lo; mr_ci_hi; mr_ambiguity] -> relisted (dE a) p (f m) (f m')) /\
      mr_dof m' = mr_dof m /\ mr_ll m' = mr_ll m /\ mr_aic m' = mr_aic m /\ mr_bic m' = mr_bic m /\
      same_bias q (dS a) (mr_bias m) (mr_bias m') /\ same_lists q (dS a) (mr_rej m) (mr_rej m')).
  { intros b b' o SB' Hm. apply ok_same in Hm. subst m. eexists. split; [reflexivity|]. cbn [mr_quality mr_std mr_ci_lo mr_ci_hi mr_ambiguity mr_dof mr_ll mr_aic mr_bic mr_bias mr_rej].
    split; [|auto 10]. intros f [<-|[<-|[<-|[<-|[<-|[]]]]]]; cbn [mr_quality mr_std mr_ci_lo mr_ci_hi mr_ambiguity].
    - apply re_post; [exact P|]. apply (M1 mr_quality). left; reflexivity.
    - apply (M1 mr_std). right; left; reflexivity. - apply (M1 mr_ci_lo). do 2 right; left; reflexivity.
    - apply (M1 mr_ci_hi). do 3 right; left; reflexivity. - apply (M1 mr_ambiguity). do 4 right; left; reflexivity. }
  destruct (is_biasremv c).
  - unfold same_bias in SB. destruct (pp_bias pp) as [d|] eqn:B; [|discriminate]. destruct (pp_bias pp') as [d'|] eqn:B'; [|contradiction]. cbn [bind] in *. rewrite HO.
    destruct (attach_observers rd) as [o|]; [|discriminate]. cbn [bind mr_quality mr_std mr_ci_lo mr_ci_hi mr_ambiguity mr_raw mr_recon mr_dof mr_ll mr_aic mr_bic mr_bias mr_rej] in *.
    eapply F; [|exact H]. exact SB.
  - cbn [bind] in *. rewrite HO. destruct (attach_observers rd) as [o|]; [|discriminate]. cbn [bind mr_quality mr_std mr_ci_lo mr_ci_hi mr_ambiguity mr_raw mr_recon mr_dof mr_ll mr_aic mr_bic mr_bias mr_rej] in *.
    eapply F; [|exact H]. exact I.
Qed.

(** ** Datasets *)
Lemma sd_len : forall p V (ds ds' : dataset ef string), same_dataset p V ds ds' -> length (ds_dis ds') = length (ds_dis ds).
Proof. intros p V ds ds' (_ & _ & H & _). exact H. Qed.
Lemma sd_perm : forall p V (ds ds' : dataset ef string), same_dataset p V ds ds' -> permutes (length (ds_dis ds)) p.
Proof. intros p V ds ds' (_ & _ & _ & H & _). exact H. Qed.
Lemma pick_video : forall (ds ds' : dataset ef string) p V, same_dataset p V ds ds' -> forall e, e < length (ds_dis ds) ->
  exists dv dv', nth_error (ds_dis ds) (p e) = Some dv /\ nth_error (ds_dis ds') e = Some dv' /\ video_key dv' = video_key dv /\ V dv dv'.
Proof.
  intros ds ds' p V (_ & _ & L & P & E) e He. assert (Hp : p e < length (ds_dis ds)) by (apply P; exact He).
  destruct (nth_error (ds_dis ds) (p e)) as [dv|] eqn:D; [|apply nth_error_None in D; lia].
  destruct (nth_error (ds_dis ds') e) as [dv'|] eqn:D'; [|apply nth_error_None in D'; lia]. exists dv, dv'. destruct (E e dv dv' D D' He). auto.
Qed.
Lemma video_of : forall (ds ds' : dataset ef string) p V, same_dataset p V ds ds' -> forall dv, In dv (ds_dis ds) -> exists dv', In dv' (ds_dis ds') /\ V dv dv'.
Proof.
  intros ds ds' p V H dv Hin. assert (P := sd_perm _ _ _ _ H). apply In_nth_error in Hin as (j & Hj).
  assert (Hl : j < length (ds_dis ds)) by (apply nth_error_Some; congruence).
  assert (Hs : In j (map p (seq 0 (length (ds_dis ds))))) by (rewrite (permutes_surj_perm _ p P); apply in_seq; lia).
  apply in_map_iff in Hs as (i & Ei & Hi). apply in_seq in Hi.
  destruct (pick_video _ _ _ _ H i) as (u & u' & U & U' & _ & HV); [lia|]. exists u'. split; [eapply nth_error_In; exact U'|]. rewrite Ei, Hj in U. injection U as <-. exact HV.
Qed.
Lemma video_from : forall (ds ds' : dataset ef string) p V, same_dataset p V ds ds' -> forall dv', In dv' (ds_dis ds') -> exists dv, In dv (ds_dis ds) /\ V dv dv'.
Proof.
  intros ds ds' p V H dv' Hin. apply In_nth_error in Hin as (j & Hj). assert (L := sd_len _ _ _ _ H).
  assert (Hl : j < length (ds_dis ds)) by (rewrite <- L; apply nth_error_Some; congruence).
  destruct (pick_video _ _ _ _ H j Hl) as (u & u' & U & U' & _ & HV). exists u. split; [eapply nth_error_In; exact U|]. congruence.
Qed.
Lemma ds_same_videos : forall ds ds' rd rd' p V, raw_reader ds = Ok rd -> raw_reader ds' = Ok rd' -> same_dataset p V ds ds' -> same_videos p rd rd'.
Proof.
  intros ds ds' rd rd' p V H H' HS. destruct (raw_reader_inv _ _ H) as (_ & D & DV & _). destruct (raw_reader_inv _ _ H') as (_ & D' & DV' & _).
  unfold same_videos. rewrite DV, DV', D, D'. split; [apply (proj1 HS)|]. split; [apply (proj1 (proj2 HS))|]. split; [reflexivity|]. split; [reflexivity|].
  split; [apply map_length|]. split; [rewrite map_length; apply (sd_len _ _ _ _ HS)|]. intros i Hi. destruct (pick_video _ _ _ _ HS i Hi) as (dv & dv' & E & E' & K & _).
  rewrite !nth_error_map, E, E'. cbn [option_map]. congruence.
Qed.
Lemma relisted_In : forall A n q (l l' : list A) x, permutes n q -> relisted n q l l' -> (In x l <-> In x l').
Proof. intros A n q l l' x P H. assert (PM := relisted_perm _ _ _ _ _ P H). split; apply Permutation_in; [symmetry|]; exact PM. Qed.

Lemma list_rearranged : forall ds ds' rd rd' a a' n p q, raw_reader ds = Ok rd -> raw_reader ds' = Ok rd' -> rd_arr rd = Ok a -> rd_arr rd' = Ok a' ->
  permutes n q -> same_dataset p (same_list_votes n q) ds ds' -> dS a = n /\ rearranged p q a a'.
Proof.
  intros ds ds' rd rd' a a' n p q H H' HA HA' Q HS.
  destruct (raw_reader_inv _ _ H) as ((_ & NE & _) & D & DV & AR). destruct (raw_reader_inv _ _ H') as ((_ & NE' & _) & D' & DV' & AR').
  rewrite HA in AR. rewrite HA' in AR'. symmetry in AR, AR'.
  assert (LS : list_style (ds_dis ds) n).
  { apply Forall_forall. intros dv Hin. destruct (video_of _ _ _ _ HS dv Hin) as (dv' & _ & b & b' & l & l' & E & E' & R1 & _). exists b, l. auto. }
  assert (LS' : list_style (ds_dis ds') n).
  { apply Forall_forall. intros dv' Hin. destruct (video_from _ _ _ _ HS dv' Hin) as (dv & _ & b & b' & l & l' & E & E' & _ & R2 & _). exists b', l'. auto. }
  destruct (array_list_sound _ _ _ NE LS AR) as (E1 & S1 & R1 & C1). destruct (array_list_sound _ _ _ NE' LS' AR') as (E2 & S2 & R2 & C2).
  assert (ER : dR a = dR a').
  { eapply max_reps_unique; [|exact R1|exact R2]. intro v. split.
    - intros (dv & Hin & HV). destruct (video_of _ _ _ _ HS dv Hin) as (dv' & Hin' & b & b' & l & l' & E & E' & RL). exists dv'. split; [exact Hin'|]. left. exists b', l'. split; [exact E'|].
      destruct HV as [(b0 & l0 & F & Hv)|(d & m & F & _)]; [|congruence]. rewrite E in F. injection F as _ <-. apply (relisted_In _ _ _ _ _ v Q RL), Hv.
    - intros (dv' & Hin & HV). destruct (video_from _ _ _ _ HS dv' Hin) as (dv & Hin' & b & b' & l & l' & E & E' & RL). exists dv. split; [exact Hin'|]. left. exists b, l. split; [exact E|].
      destruct HV as [(b0 & l0 & F & Hv)|(d & m & F & _)]; [|congruence]. rewrite E' in F. injection F as _ <-. apply (relisted_In _ _ _ _ _ v Q RL), Hv. }
  assert (LN := sd_len _ _ _ _ HS).
  split; [exact S1|]. unfold rearranged. split; [congruence|]. split; [congruence|]. split; [congruence|]. split; [rewrite E1; apply (sd_perm _ _ _ _ HS)|]. split; [rewrite S1; exact Q|].
  intros e s r (He & Hs & Hr). rewrite E1 in He. rewrite S1 in Hs.
  destruct (pick_video _ _ _ _ HS e He) as (dv & dv' & U & U' & _ & b & b' & l & l' & O & O' & RL).
  assert (Hq : q s < n) by (apply Q; exact Hs).
  destruct (C1 (p e) dv (q s) U Hq) as (xs & (b1 & l1 & v1 & O1 & N1 & V1) & X). destruct (C2 e dv' s U' Hs) as (ys & (b2 & l2 & v2 & O2 & N2 & V2) & Y).
  rewrite X by exact Hr. rewrite Y by lia. f_equal. rewrite O in O1. injection O1 as <- <-. rewrite O' in O2. injection O2 as <- <-.
  destruct RL as (_ & _ & RL). rewrite RL in N2 by exact Hs. assert (v2 = v1) by congruence. subst v2. eapply vote_value_fun; eassumption.
Qed.

Lemma dict_rearranged : forall ds ds' rd rd' a a' p, raw_reader ds = Ok rd -> raw_reader ds' = Ok rd' -> rd_arr rd = Ok a -> rd_arr rd' = Ok a' ->
  same_dataset p same_dict_votes ds ds' -> rearranged p (fun s => s) a a'.
Proof.
  intros ds ds' rd rd' a a' p H H' HA HA' HS.
  destruct (raw_reader_inv _ _ H) as ((_ & NE & _) & D & DV & AR). destruct (raw_reader_inv _ _ H') as ((_ & NE' & _) & D' & DV' & AR').
  rewrite HA in AR. rewrite HA' in AR'. symmetry in AR, AR'.
  assert (DST : dict_style (ds_dis ds)).
  { apply Forall_forall. intros dv Hin. destruct (video_of _ _ _ _ HS dv Hin) as (dv' & _ & (d & d' & E & E' & PM) & ND). exists d. auto. }
  assert (LN := sd_len _ _ _ _ HS).
  assert (P := sd_perm _ _ _ _ HS).
  assert (RO : SpecDataset.reordered (ds_dis ds) (ds_dis ds')).
  { destruct (ds_dis ds) as [|d0 l0] eqn:DD; [contradiction|]. rewrite <- DD in *. 
    exists (map (fun i => nth (p i) (ds_dis ds) d0) (seq 0 (length (ds_dis ds)))). split.
    - symmetry. rewrite (map_relist _ (fun i => nth i (ds_dis ds) d0) _ p P).
      rewrite <- (nth_ext (ds_dis ds) (map (fun i => nth i (ds_dis ds) d0) (seq 0 (length (ds_dis ds)))) d0 d0); [reflexivity|rewrite map_length, seq_length; reflexivity|].
      intros i Hi. rewrite nth_map_seq by exact Hi. reflexivity.
    - assert (G : forall k j, j + k = length (ds_dis ds) -> Forall2 same_votes (map (fun i => nth (p i) (ds_dis ds) d0) (seq j k)) (skipn j (ds_dis ds'))).
      { induction k as [|k IH]; intros j Hj; cbn [seq map].
        - rewrite skipn_all2 by lia. constructor.
        - destruct (pick_video _ _ _ _ HS j) as (dv & dv' & U & U' & _ & SV & _); [lia|].
          assert (SK : skipn j (ds_dis ds') = dv' :: skipn (S j) (ds_dis ds')).
          { clear -U'. revert j U'. induction (ds_dis ds') as [|x l IHl]; intros j U'; [destruct j; discriminate|]. destruct j as [|j]; [cbn in U'; injection U' as ->; reflexivity|]. cbn [nth_error] in U'. change (skipn (S j) (x :: l)) with (skipn j l). rewrite (IHl j U'). reflexivity. }
          rewrite SK. constructor; [|apply IH; lia]. rewrite (nth_error_nth _ _ d0 U). exact SV. }
      exact (G (length (ds_dis ds)) 0 eq_refl). }
  destruct (array_reordered _ _ _ _ _ _ NE DST RO AR AR') as (S1 & R1 & C1).
  destruct (get_list_observers_dict _ DST) as (names & _ & ON). destruct (array_dict_sound _ _ _ _ NE DST ON AR) as (E1 & _).
  assert (DST' : dict_style (ds_dis ds')) by (eapply reordered_dict_style; eassumption).
  destruct (get_list_observers_dict _ DST') as (names' & _ & ON'). destruct (array_dict_sound _ _ _ _ NE' DST' ON' AR') as (E2 & _).
  unfold rearranged. split; [congruence|]. split; [congruence|]. split; [congruence|]. split; [rewrite E1; exact P|]. split; [split; auto|].
  intros e s r (He & Hs & Hr). rewrite E1 in He. destruct (pick_video _ _ _ _ HS e He) as (dv & dv' & U & U' & _ & SV & _).
  symmetry. eapply C1; eassumption.
Qed.

(** ** C133 *)
Lemma re_both : forall c p q (rd rd' : reader ef) a a' k m m', rd_arr rd = Ok a -> rd_arr rd' = Ok a' ->
  rearranged p q a a' -> same_videos p rd rd' -> run_modeling c rd k = Ok m -> run_modeling c rd' k = Ok m' ->
  (forall f, In f [mr_quality; mr_std; mr_ci_lo; mr_ci_hi; mr_ambiguity] -> relisted (dE a) p (f m) (f m')) /\
  mr_dof m' = mr_dof m /\ mr_ll m' = mr_ll m /\ mr_aic m' = mr_aic m /\ mr_bic m' = mr_bic m /\
  same_bias q (dS a) (mr_bias m) (mr_bias m') /\ same_lists q (dS a) (mr_rej m) (mr_rej m').
Proof.
  intros c p q rd rd' a a' k m m' HA HA' HR HV H H'.
  assert (O : exists o', attach_observers rd' = Ok o').
  { unfold run_modeling in H'. destruct (run_kwargs c k); [|discriminate]. cbn [bind] in H'. destruct (mos_run c rd' _); [|discriminate]. cbn [bind] in H'.
    destruct (attach_observers rd') as [o'|]; [|discriminate]. exists o'. reflexivity. }
  destruct O as (o' & O). destruct (re_run c p q rd rd' a a' k m o' HA HA' HR HV H O) as (m2 & H2 & X). rewrite H' in H2. apply ok_same in H2. subst m2. exact X.
Qed.
Lemma re_lists : forall c p q n ds ds' (rd rd' : reader ef) a a' k m, raw_reader ds = Ok rd -> raw_reader ds' = Ok rd' ->
  rd_arr rd = Ok a -> rd_arr rd' = Ok a' -> permutes n q -> same_dataset p (same_list_votes n q) ds ds' ->
  run_modeling c rd k = Ok m -> exists m', run_modeling c rd' k = Ok m' /\
  (forall f, In f [mr_quality; mr_std; mr_ci_lo; mr_ci_hi; mr_ambiguity] -> relisted (length (ds_dis ds)) p (f m) (f m')) /\
  mr_dof m' = mr_dof m /\ mr_ll m' = mr_ll m /\ mr_aic m' = mr_aic m /\ mr_bic m' = mr_bic m /\
  same_bias q n (mr_bias m) (mr_bias m') /\ same_lists q n (mr_rej m) (mr_rej m').
Proof.
  intros c p q n ds ds' rd rd' a a' k m R R' HA HA' Q HS H.
  destruct (list_rearranged ds ds' rd rd' a a' n p q R R' HA HA' Q HS) as (N & HR). destruct (attach_total _ _ R') as (o' & O).
  destruct (re_run c p q rd rd' a a' k m o' HA HA' HR (ds_same_videos _ _ _ _ _ _ R R' HS) H O) as (m' & X). rewrite N in X.
  replace (dE a) with (length (ds_dis ds)) in X; [exists m'; exact X|].
  destruct (raw_reader_inv _ _ R) as (_ & _ & _ & AR). rewrite HA in AR. unfold opinion_score_3darray_with in AR.
  destruct (opinion_rows _ _) as [[[W RR] rows]|]; [|discriminate]. cbn [bind] in AR. apply ok_same in AR. subst a. reflexivity.
Qed.
Lemma re_dicts : forall c p ds ds' (rd rd' : reader ef) a a' k m, raw_reader ds = Ok rd -> raw_reader ds' = Ok rd' ->
  rd_arr rd = Ok a -> rd_arr rd' = Ok a' -> same_dataset p same_dict_votes ds ds' ->
  run_modeling c rd k = Ok m -> exists m', run_modeling c rd' k = Ok m' /\
  (forall f, In f [mr_quality; mr_std; mr_ci_lo; mr_ci_hi; mr_ambiguity] -> relisted (length (ds_dis ds)) p (f m) (f m')) /\
  mr_dof m' = mr_dof m /\ mr_ll m' = mr_ll m /\ mr_aic m' = mr_aic m /\ mr_bic m' = mr_bic m /\
  same_bias (fun s => s) (dS a) (mr_bias m) (mr_bias m') /\ same_lists (fun s => s) (dS a) (mr_rej m) (mr_rej m').
Proof.
  intros c p ds ds' rd rd' a a' k m R R' HA HA' HS H.
  assert (HR := dict_rearranged ds ds' rd rd' a a' p R R' HA HA' HS). destruct (attach_total _ _ R') as (o' & O).
  destruct (re_run c p _ rd rd' a a' k m o' HA HA' HR (ds_same_videos _ _ _ _ _ _ R R' HS) H O) as (m' & X).
  replace (dE a) with (length (ds_dis ds)) in X; [exists m'; exact X|].
  destruct (raw_reader_inv _ _ R) as (_ & _ & _ & AR). rewrite HA in AR. unfold opinion_score_3darray_with in AR.
  destruct (opinion_rows _ _) as [[[W RR] rows]|]; [|discriminate]. cbn [bind] in AR. apply ok_same in AR. subst a. reflexivity.
Qed.
