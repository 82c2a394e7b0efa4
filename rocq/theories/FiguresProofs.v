(** Lemmas for claim C96: images and counts of votes. *)
From Coq Require Import String.
From Coq Require Import List ZArith Bool Arith Lia Reals Lra Sorted Permutation.
From Verif Require Import PyBase Num ExtReal NumPy Dataset Stats Figures SpecDataset SpecMos SpecStats SpecFigures
  BaseProofs ExtRealProofs ArrayProofs MosProofs StatsProofs Stats2Proofs.
Import ListNotations.
Local Open Scope list_scope.

(** ** Sorting by distinct keys that are numbers *)
Definition klt (p q : ef * nat) : Prop := exists x x', fst p = Fin x /\ fst q = Fin x' /\ (x < x')%R.
Definition kleb (p q : ef * nat) : bool := nleb (fst p) (fst q).
Lemma ins_perm : forall p l, Permutation (p :: l) (ins kleb p l).
Proof. intros. apply ins_Permutation. Qed.
Lemma kleb_lt : forall p q, isfin (fst p) -> isfin (fst q) -> fst p <> fst q -> (kleb p q = true -> klt p q) /\ (kleb p q = false -> klt q p).
Proof.
  intros [[x| | |] c] [[y| | |] d]; cbn [fst]; intros H1 H2 H; try contradiction. unfold kleb, klt. cbn [fst]. change (nleb (Fin x) (Fin y)) with (Rleb x y). split; intro E.
  - apply Rleb_true in E. exists x, y. repeat split; auto. assert (x <> y) by congruence. lra.
  - apply Rleb_false in E. exists y, x. repeat split; auto.
Qed.
Lemma ins_klt : forall p l, isfin (fst p) -> Forall (fun q => isfin (fst q)) l -> ~ In (fst p) (map fst l) -> StronglySorted klt l -> StronglySorted klt (ins kleb p l).
Proof.
  intros p l Hp. induction l as [|q l IH]; intros Hl Hn Hs; cbn [ins].
  - repeat constructor.
  - inversion Hl as [|? ? Hq Hl']; subst. inversion Hs as [|? ? Hs' Hf]; subst. cbn [map In] in Hn.
    destruct (kleb_lt p q Hp Hq) as [L1 L2]; [intro E; apply Hn; left; congruence|].
    destruct (kleb p q) eqn:E.
    + constructor; [exact Hs|]. constructor; [exact (L1 eq_refl)|].
      eapply Forall_impl; [|exact Hf]. intros z (b & b' & E1 & E2 & L). destruct (L1 eq_refl) as (a & a' & F1 & F2 & L'). exists a, b'. repeat split; auto. rewrite F2 in E1. injection E1 as ->. lra.
    + constructor; [apply IH; tauto|]. rewrite Forall_forall. intros z Hz. apply (Permutation_in z (Permutation_sym (ins_perm p l))) in Hz. destruct Hz as [<-|Hz].
      * exact (L2 eq_refl).
      * rewrite Forall_forall in Hf. exact (Hf z Hz).
Qed.
Lemma isort_klt : forall l, Forall (fun q => isfin (fst q)) l -> NoDup (map fst l) -> StronglySorted klt (isort kleb l).
Proof.
  induction l as [|p l IH]; intros Hf Hn; cbn [isort fold_right]; [constructor|].
  inversion Hf; subst. inversion Hn; subst. apply ins_klt; [assumption| | |apply IH; assumption].
  - rewrite Forall_forall in *. intros q Hq. match goal with H : forall x, In x l -> _ |- _ => apply H end. apply (Permutation_in q (Permutation_sym (isort_Permutation kleb l))). exact Hq.
  - intro I. match goal with H : ~ In (fst p) (map fst l) |- _ => apply H end.
    apply in_map_iff in I as (q & E & I). apply in_map_iff. exists q. split; [exact E|]. apply (Permutation_in q (Permutation_sym (isort_Permutation kleb l))). exact I.
Qed.

(** ** Counting *)
Lemma number_map : forall A B (f : A -> B) P l c, number P (map f l) c <-> number (fun a => P (f a)) l c.
Proof.
  intros A B f P. induction l as [|a l IH]; intro c; cbn [map].
  - split; intro H; inversion H; constructor.
  - split; intro H; inversion H; subst; (apply number_yes + apply number_no); auto; apply IH; assumption.
Qed.
Lemma number_ext : forall A (P Q : A -> Prop) l c, (forall a, In a l -> P a <-> Q a) -> number P l c -> number Q l c.
Proof.
  intros A P Q l c H N. induction N as [|v l c Hv N IH|v l c Hv N IH].
  - constructor.
  - apply number_yes; [apply H; [left; reflexivity|exact Hv]|apply IH; intros a Ha; apply H; right; exact Ha].
  - apply number_no; [rewrite <- (H v); [exact Hv|left; reflexivity]|apply IH; intros a Ha; apply H; right; exact Ha].
Qed.
Lemma number_pos : forall A (P : A -> Prop) l c, number P l c -> (0 < c)%nat <-> exists a, In a l /\ P a.
Proof.
  intros A P l c N. induction N as [|v l c Hv N IH|v l c Hv N IH].
  - split; [lia|intros (a & [] & _)].
  - split; [intros _; exists v; split; [left; reflexivity|exact Hv]|lia].
  - rewrite IH. split; intros (a & Ha & HP); [exists a; split; [right; exact Ha|exact HP]|]. destruct Ha as [->|Ha]; [contradiction|]. exists a. auto.
Qed.

(** ** One line of counts *)
Lemma histc_nodup : forall s : list ef, NoDup (map fst (histc s)).
Proof. intro s. rewrite (proj1 (c87_histc s)). apply first_seen_NoDup. Qed.
Lemma line_points : forall (s : list ef) k k' v c, In (k', v, c) (count_points k (histc s)) <-> k' = k /\ (0 < c)%nat /\ v <> NaN /\ number (eq v) s c.
Proof.
  intros s k k' v c. unfold count_points. change (fun p q : ef * nat => nleb (fst p) (fst q)) with kleb.
  destruct (c87_histc s) as (_ & HI & _). rewrite in_map_iff. split.
  - intros ([v' c'] & E & I). cbn [fst snd] in E. injection E as <- <- <-. apply (Permutation_in _ (Permutation_sym (isort_Permutation kleb _))) in I.
    apply HI in I as (Hv & Iv & N). split; [reflexivity|]. split; [|auto]. apply (number_pos _ _ _ _ N). exists v'. auto.
  - intros (-> & Hc & Hv & N). exists (v, c). split; [reflexivity|]. apply (Permutation_in _ (isort_Permutation kleb _)). apply HI. split; [exact Hv|]. split; [|exact N].
    apply (number_pos _ _ _ _ N) in Hc as (a & Ia & <-). exact Ia.
Qed.
Lemma line_sorted : forall (s : list ef) k, Forall finnan s -> StronglySorted before (count_points k (histc s)).
Proof.
  intros s k Hs. unfold count_points. change (fun p q : ef * nat => nleb (fst p) (fst q)) with kleb.
  assert (S : StronglySorted klt (isort kleb (histc s))).
  { apply isort_klt; [|apply histc_nodup]. rewrite Forall_forall. intros [v c] I. destruct (c87_histc s) as (_ & HI & _). apply HI in I as (Hv & Iv & _).
    rewrite Forall_forall in Hs. specialize (Hs v Iv). destruct v; cbn in *; auto. }
  induction S as [|[v c] l S IH Hf]; cbn [map]; constructor; [exact IH|]. apply Forall_map. eapply Forall_impl; [|exact Hf].
  intros [v' c'] (x & x' & E1 & E2 & L). cbn [fst snd before] in *. right. split; [reflexivity|]. exists x, x'. auto.
Qed.
Lemma line_total : forall (s : list ef) k, number (fun v => v <> NaN) s (fold_right Nat.add 0%nat (map snd (count_points k (histc s)))).
Proof.
  intros s k. destruct (c87_histc s) as (_ & _ & HN). unfold count_points. rewrite map_map. cbn [snd].
  match goal with |- number _ _ ?x => replace x with (fold_right Nat.add 0%nat (map snd (histc s))); [exact HN|] end.
  assert (G : forall l l' : list nat, Permutation l l' -> fold_right Nat.add 0%nat l = fold_right Nat.add 0%nat l').
  { intros l l' P. induction P; cbn [fold_right]; lia. }
  apply G. apply (Permutation_map snd). apply isort_Permutation.
Qed.

(** ** All lines *)
Section Lines.
  Variables (lines members : nat) (value : nat -> nat -> ef).
  Hypothesis finite : forall k i, (k < lines)%nat -> (i < members)%nat -> finnan (value k i).
  Let line (k : nat) : list ef := map (value k) (seq 0 members).
  Let pts := flat_map (fun il => count_points (fst il) (histc (snd il))) (enumerate (map line (seq 0 lines))).
  Lemma pts_eq : pts = flat_map (fun k => count_points k (histc (line k))) (seq 0 lines).
  Proof.
    unfold pts, enumerate. rewrite map_length, seq_length.
    assert (G : forall l, flat_map (fun il : nat * list ef => count_points (fst il) (histc (snd il))) (combine l (map line l)) = flat_map (fun k => count_points k (histc (line k))) l).
    { induction l as [|k l IH]; cbn [map combine flat_map fst snd]; [reflexivity|]. f_equal. exact IH. }
    apply G.
  Qed.
  Lemma pts_In : forall k v c, In (k, v, c) pts <-> (k < lines)%nat /\ (0 < c)%nat /\ v <> NaN /\ number (fun i => v = value k i) (seq 0 members) c.
  Proof.
    intros k v c. rewrite pts_eq, in_flat_map. split.
    - intros (k' & Hk & I). apply line_points in I as (-> & Hc & Hv & N). apply in_seq in Hk. split; [lia|]. split; [exact Hc|]. split; [exact Hv|].
      unfold line in N. rewrite number_map in N. exact N.
    - intros (Hk & Hc & Hv & N). exists k. split; [apply in_seq; lia|]. apply line_points. split; [reflexivity|]. split; [exact Hc|]. split; [exact Hv|].
      unfold line. rewrite number_map. exact N.
  Qed.
  Lemma sorted_app : forall l1 l2 : list (nat * ef * nat), StronglySorted before l1 -> StronglySorted before l2 -> (forall p q, In p l1 -> In q l2 -> before p q) -> StronglySorted before (l1 ++ l2).
  Proof.
    intros l1 l2 S1 S2 H. induction S1 as [|p l S1 IH Hf]; cbn [app]; [exact S2|]. constructor.
    - apply IH. intros p' q Hp Hq. apply H; [right; exact Hp|exact Hq].
    - apply Forall_app. split; [exact Hf|]. rewrite Forall_forall. intros q Hq. apply H; [left; reflexivity|exact Hq].
  Qed.
  Lemma pts_sorted : StronglySorted before pts.
  Proof.
    rewrite pts_eq.
    assert (G : forall n s, (s + n <= lines)%nat -> StronglySorted before (flat_map (fun k => count_points k (histc (line k))) (seq s n))).
    { induction n as [|n IH]; intros s Hs; cbn [seq flat_map]; [constructor|]. apply sorted_app.
      - apply line_sorted. unfold line. apply Forall_map, Forall_forall. intros i Hi. apply in_seq in Hi. apply finite; lia.
      - apply IH. lia.
      - intros [[k v] c] [[k' v'] c'] Hp Hq. apply line_points in Hp as (-> & _). apply in_flat_map in Hq as (k2 & Hk & Hq). apply in_seq in Hk. apply line_points in Hq as (-> & _).
        cbn. left. lia. }
    apply G. lia.
  Qed.
  Lemma pts_line : forall k, (k < lines)%nat -> number (fun i => value k i <> NaN) (seq 0 members) (on_line k pts).
  Proof.
    intros k Hk. assert (E : filter (fun p : nat * ef * nat => Nat.eqb (fst (fst p)) k) pts = count_points k (histc (line k))).
    { rewrite pts_eq.
      assert (G : forall n s, filter (fun p : nat * ef * nat => Nat.eqb (fst (fst p)) k) (flat_map (fun k => count_points k (histc (line k))) (seq s n)) =
                 if (Nat.leb s k && Nat.ltb k (s + n))%bool then count_points k (histc (line k)) else []).
      { induction n as [|n IH]; intro s; cbn [seq flat_map filter].
        - destruct (Nat.leb_spec s k); cbn [andb]; [|reflexivity]. destruct (Nat.ltb_spec k (s + 0)); [lia|reflexivity].
        - rewrite filter_app, IH.
          assert (F : filter (fun p : nat * ef * nat => Nat.eqb (fst (fst p)) k) (count_points s (histc (line s))) = if Nat.eqb s k then count_points s (histc (line s)) else []).
          { unfold count_points. generalize (isort (fun p q : ef * nat => nleb (fst p) (fst q)) (histc (line s))). intro l.
            induction l as [|p l IHl]; cbn [map filter fst]; [destruct (Nat.eqb s k); reflexivity|]. destruct (Nat.eqb s k); [f_equal; exact IHl|exact IHl]. }
          rewrite F. destruct (Nat.eqb_spec s k) as [D|D]; [rewrite D|].
          + replace (Nat.leb (S k) k) with false by (symmetry; apply Nat.leb_gt; lia). cbn [andb]. rewrite app_nil_r.
            rewrite Nat.leb_refl. replace (Nat.ltb k (k + S n)) with true by (symmetry; apply Nat.ltb_lt; lia). reflexivity.
          + cbn [app]. replace (Nat.leb (S s) k) with (Nat.leb s k).
            * replace (S s + n)%nat with (s + S n)%nat by lia. reflexivity.
            * apply Bool.eq_iff_eq_true. rewrite !Nat.leb_le. lia. }
      rewrite G. destruct (Nat.ltb_spec k (0 + lines)); [reflexivity|lia]. }
    unfold on_line. rewrite E. assert (T := line_total (line k) k). unfold line in T at 1. rewrite number_map in T. exact T.
  Qed.
  Lemma counts_of_lines : (counts_of (map line (seq 0 lines)) = Ok pts /\ pts <> []) \/ (counts_of (map line (seq 0 lines)) = Err ValueError /\ pts = []).
  Proof.
    unfold counts_of. fold pts. destruct pts as [|p l]; [right|left]; split; try reflexivity. discriminate.
  Qed.
  Lemma pts_nil : pts = [] <-> forall k i, (k < lines)%nat -> (i < members)%nat -> value k i = NaN.
  Proof.
    split.
    - intros E k i Hk Hi. destruct (ef_dec (value k i) NaN) as [D|D]; [exact D|]. exfalso.
      assert (N := count_number (line k) (value k i)). assert (I : In (k, value k i, count_occ ef_dec (line k) (value k i)) pts).
      { apply pts_In. split; [exact Hk|]. split; [|split; [exact D|]].
        - apply (number_pos _ _ _ _ N). exists (value k i). split; [|reflexivity]. apply in_map, in_seq. lia.
        - unfold line in N at 1. rewrite number_map in N. exact N. }
      rewrite E in I. destruct I.
    - intro H. destruct pts as [|[[k v] c] l] eqn:E; [reflexivity|]. exfalso. assert (I : In (k, v, c) pts) by (rewrite E; left; reflexivity).
      apply pts_In in I as (Hk & Hc & Hv & N). apply (number_pos _ _ _ _ N) in Hc as (i & Hi & ->). apply in_seq in Hi. apply Hv, H; lia.
  Qed.
End Lines.

(** ** The figures *)
Lemma mean_entry : forall (a : arr3 ef) i j, finite_votes a -> (i < dS a)%nat -> (j < dE a)%nat -> at2 (mean_matrix a) i j = nanmeanR (rep_votes a j i).
Proof.
  intros a i j HF Hi Hj. unfold mean_matrix. cbn [at2]. rewrite np_nanmean_finnan; [reflexivity|].
  apply Forall_forall. intros x Hx. apply in_map_iff in Hx as (r & <- & Hr). apply in_seq in Hr. apply HF. unfold inside. lia.
Qed.
Lemma c96_means : forall a, finite_votes a -> shows_means a (mean_matrix a).
Proof.
  intros a HF. split; [reflexivity|]. split; [reflexivity|]. intros i j Hi Hj. rewrite mean_entry by assumption. apply nanmeanR_is_mean.
Qed.
Lemma nanmeanR_nan : forall l, nanmeanR l = NaN <-> l = [].
Proof. intros [|x l]; split; intro H; try reflexivity; discriminate. Qed.
Lemma counts_generic : forall (a : arr3 ef) (lines members : nat) (value : nat -> nat -> ef) (votes : nat -> nat -> list R),
  (forall k i, (k < lines)%nat -> (i < members)%nat -> value k i = nanmeanR (votes k i)) ->
  (exists pts, counts_of (map (fun k => map (value k) (seq 0 members)) (seq 0 lines)) = Ok pts /\ counts_shown lines members votes pts /\ exists k i, (k < lines)%nat /\ (i < members)%nat /\ votes k i <> []) \/
  (counts_of (map (fun k => map (value k) (seq 0 members)) (seq 0 lines)) = Err ValueError /\ forall k i, (k < lines)%nat -> (i < members)%nat -> votes k i = []).
Proof.
  intros a lines members value votes HV.
  assert (HF : forall k i, (k < lines)%nat -> (i < members)%nat -> finnan (value k i)).
  { intros k i Hk Hi. rewrite HV by assumption. destruct (votes k i); exact I. }
  destruct (counts_of_lines lines members value) as [[E Hne]|[E Hnil]]; [left|right].
  - eexists. split; [exact E|]. split.
    + split; [|split; [exact (pts_sorted lines members value HF)|]].
      * intros k v c. rewrite pts_In. split; intros (Hk & Hc & Hv & N); (split; [exact Hk|]; split; [exact Hc|]; split; [exact Hv|]);
          (eapply number_ext; [|exact N]); intros i Hi; apply in_seq in Hi; cbn beta; rewrite HV by lia; split; intro H.
        -- rewrite H. apply nanmeanR_is_mean.
        -- apply is_mean_fun. exact H.
        -- apply is_mean_fun. exact H.
        -- rewrite H. apply nanmeanR_is_mean.
      * intros k Hk. eapply number_ext; [|exact (pts_line lines members value k Hk)]. intros i Hi. apply in_seq in Hi. cbn beta. rewrite HV by lia. rewrite nanmeanR_nan. tauto.
    + destruct (flat_map _ _) as [|[[k v] c] l] eqn:EP in Hne; [contradiction|]. assert (IP : In (k, v, c) (flat_map (fun il => count_points (fst il) (histc (snd il))) (enumerate (map (fun k => map (value k) (seq 0 members)) (seq 0 lines))))) by (rewrite EP; left; reflexivity).
      apply pts_In in IP as (Hk & Hc & Hv & N). apply (number_pos _ _ _ _ N) in Hc as (i & Hi & ->). apply in_seq in Hi. exists k, i. split; [exact Hk|]. split; [lia|].
      rewrite HV in Hv by lia. rewrite nanmeanR_nan in Hv. exact Hv.
  - split; [exact E|]. intros k i Hk Hi. apply nanmeanR_nan. rewrite <- HV by assumption. apply (proj1 (pts_nil lines members value) Hnil); assumption.
Qed.
