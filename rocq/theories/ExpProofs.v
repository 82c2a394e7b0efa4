(** Proofs for bootstrapping. *)
From Coq Require Import String.
From Coq Require Import List ZArith Bool Arith Reals Lra Lia Sorted Permutation.
From Verif Require Import PyBase Num ExtReal NumPy Dataset Mocked Preproc Mos AP Mle Experimental SpecExperimental BaseProofs ExtRealProofs
  ArrayProofs MockedProofs Ap2Proofs Pc6Proofs StepsProofs.
Import ListNotations.
Local Open Scope R_scope.

(** ** Percentiles *)
Lemma ins_Fin : forall x l, ins ef_leb (Fin x) (map Fin l) = map Fin (ins Rleb x l).
Proof. induction l as [|y l IH]; [reflexivity|]. cbn. destruct (Rleb x y); [reflexivity|]. rewrite IH. reflexivity. Qed.
Lemma isort_Fin : forall l, isort ef_leb (map Fin l) = map Fin (isort Rleb l).
Proof. unfold isort. induction l as [|x l IH]; [reflexivity|]. cbn [map fold_right]. rewrite IH. apply ins_Fin. Qed.
Lemma Rleb_iff : forall a b, Rleb a b = true <-> a <= b.
Proof. intros. unfold Rleb. destruct (Rle_dec a b); split; intro; try discriminate; auto; contradiction. Qed.
Lemma isort_R : forall l, Permutation (isort Rleb l) l /\ StronglySorted Rle (isort Rleb l).
Proof.
  intro l. split; [apply Permutation_sym, isort_Permutation|].
  assert (H : StronglySorted (fun a b => Rleb a b = true) (isort Rleb l)).
  { apply isort_Sorted.
    - intros a b. rewrite !Rleb_iff. lra.
    - intros a b c. rewrite !Rleb_iff. lra. }
  induction H as [|a s Hs IH F]; constructor; [exact IH|]. eapply Forall_impl; [|exact F]. intros b Hb. apply Rleb_iff. exact Hb.
Qed.
Lemma sorted_nth : forall s i j, StronglySorted Rle s -> (i <= j < length s)%nat -> nth i s 0 <= nth j s 0.
Proof.
  intros s i j H. revert i j. induction H as [|a s Hs IH F]; intros i j Hij; cbn [length] in Hij; [lia|].
  destruct i as [|i], j as [|j]; cbn [nth]; [lra| |lia|apply IH; lia].
  rewrite Forall_forall in F. apply F. apply nth_In. lia.
Qed.

(** Value at k fortieths of the way through a sorted list. *)
Definition at_fortieths (k : nat) (s : list R) : R :=
  let h := (k * (length s - 1))%nat in
  nth (h / 40) s 0 + (nth (Nat.min (h / 40 + 1) (length s - 1)) s 0 - nth (h / 40) s 0) * (INR (h mod 40) / 40).

Lemma existsb_Fin : forall l, existsb nisnan (map Fin l) = false.
Proof. induction l; [reflexivity|exact IHl]. Qed.
Lemma nth_Fin : forall l i, (i < length l)%nat -> nth i (map Fin l) NaN = Fin (nth i l 0).
Proof. intros l i H. rewrite (nth_indep _ NaN (Fin 0)) by (rewrite map_length; exact H). apply map_nth. Qed.
Lemma h_bounds : forall k n, (k <= 40)%nat -> (0 < n)%nat -> (k * (n - 1) / 40 <= n - 1)%nat.
Proof. intros k n Hk Hn. apply Nat.div_le_upper_bound; [lia|]. nia. Qed.

Lemma percentile_value : forall k qs, qs <> [] -> (k <= 40)%nat -> np_percentile k (map Fin qs) = Fin (at_fortieths k (isort Rleb qs)).
Proof.
  intros k qs Hq Hk. unfold np_percentile. rewrite existsb_Fin. cbv zeta. change nleb with ef_leb. rewrite isort_Fin.
  destruct (isort_R qs) as [P _]. assert (L := Permutation_length P). rewrite map_length.
  assert (n0 : (0 < length qs)%nat) by (destruct qs; [contradiction|cbn; lia]).
  assert (B := h_bounds k (length qs) Hk n0). unfold vat.
  change (@nnan ef _) with NaN. rewrite !nth_Fin by lia. rewrite !nofnat_ef. efc.
  assert (E : INR 40 = 40) by (cbn; lra). rewrite E. unfold at_fortieths. rewrite L.
  rewrite ef_div_Fin by lra. cbn [ef_sub ef_mul ef_add ef_neg]. unfold Rminus. f_equal.
Qed.

Lemma fortieths_quantile : forall k qs, qs <> [] -> (k <= 40)%nat -> quantile (INR k / 40) qs (at_fortieths k (isort Rleb qs)).
Proof.
  intros k qs Hq Hk. destruct (isort_R qs) as [P St]. assert (L := Permutation_length P).
  exists (isort Rleb qs), (k * (length qs - 1) / 40)%nat. split; [exact P|]. split; [apply StronglySorted_Sorted; exact St|].
  set (n := length qs) in *. set (h := (k * (n - 1))%nat).
  assert (n0 : (0 < n)%nat) by (unfold n; destruct qs; [contradiction|cbn; lia]).
  assert (D := Nat.div_mod h 40 ltac:(lia)). assert (M := Nat.mod_upper_bound h 40 ltac:(lia)).
  assert (E : INR k / 40 * INR (n - 1) = INR (h / 40) + INR (h mod 40) / 40).
  { assert (E1 : INR k * INR (n - 1) = INR h) by (unfold h; rewrite mult_INR; reflexivity).
    rewrite D in E1 at 1. rewrite plus_INR, mult_INR in E1. replace (INR 40) with 40 in E1 by (cbn; lra). lra. }
  rewrite E. assert (M0 := pos_INR (h mod 40)). assert (M1 : INR (h mod 40) < 40) by (replace 40 with (INR 40) by (cbn; lra); apply lt_INR; exact M).
  split; [split; lra|]. unfold at_fortieths. rewrite L. fold n. fold h.
  assert (B : (h / 40 <= n - 1)%nat) by (apply h_bounds; assumption).
  destruct (Nat.eq_dec (h / 40) (n - 1)) as [e|e].
  - assert (Z : (h mod 40 = 0)%nat) by (assert (h <= 40 * (n - 1))%nat by (unfold h; nia); rewrite e in D; lia).
    rewrite Z. cbn [INR]. lra.
  - rewrite Nat.min_l by lia. replace (h / 40 + 1)%nat with (S (h / 40)) by lia. lra.
Qed.

Lemma fortieths_mono : forall k k' s, StronglySorted Rle s -> s <> [] -> (k <= k' <= 40)%nat -> at_fortieths k s <= at_fortieths k' s.
Proof.
  intros k k' s S Hs Hk. unfold at_fortieths. set (n := length s). assert (n0 : (0 < n)%nat) by (unfold n; destruct s; [contradiction|cbn; lia]).
  set (h := (k * (n - 1))%nat). set (h' := (k' * (n - 1))%nat).
  assert (B : (h / 40 <= n - 1)%nat) by (apply h_bounds; lia). assert (B' : (h' / 40 <= n - 1)%nat) by (apply h_bounds; lia).
  assert (I : (h / 40 <= h' / 40)%nat) by (apply Nat.div_le_mono; [lia|]; unfold h, h'; nia).
  assert (D := Nat.div_mod h 40 ltac:(lia)). assert (M := Nat.mod_upper_bound h 40 ltac:(lia)).
  assert (D' := Nat.div_mod h' 40 ltac:(lia)). assert (M' := Nat.mod_upper_bound h' 40 ltac:(lia)).
  assert (F : forall x, (x < 40)%nat -> 0 <= INR x / 40 <= 1).
  { intros x Hx. assert (A := pos_INR x). assert (C : INR x < INR 40) by (apply lt_INR; exact Hx). replace (INR 40) with 40 in C by (cbn; lra). lra. }
  assert (F1 := F _ M). assert (F2 := F _ M').
  assert (C1 := sorted_nth s (h / 40) (Nat.min (h / 40 + 1) (n - 1)) S ltac:(fold n; lia)).
  assert (C2 := sorted_nth s (h' / 40) (Nat.min (h' / 40 + 1) (n - 1)) S ltac:(fold n; lia)).
  destruct (Nat.eq_dec (h / 40) (h' / 40)) as [e|e].
  - rewrite <- e in *. assert (J : (h mod 40 <= h' mod 40)%nat) by (assert (h <= h')%nat by (unfold h, h'; nia); lia).
    apply le_INR in J. apply Rplus_le_compat_l. apply Rmult_le_compat_l; lra.
  - assert (C3 := sorted_nth s (Nat.min (h / 40 + 1) (n - 1)) (h' / 40) S ltac:(fold n; lia)).
    set (a := nth (h / 40) s 0) in *. set (b := nth (Nat.min (h / 40 + 1) (n - 1)) s 0) in *.
    set (c := nth (h' / 40) s 0) in *. set (d := nth (Nat.min (h' / 40 + 1) (n - 1)) s 0) in *.
    assert (U : (b - a) * (INR (h mod 40) / 40) <= (b - a) * 1) by (apply Rmult_le_compat_l; lra).
    assert (V : 0 <= (d - c) * (INR (h' mod 40) / 40)) by (apply Rmult_le_pos; lra). lra.
Qed.

(** ** Vectors *)
Lemma vmap2_nth : forall (f : ef -> ef -> ef) u v i, (i < length u)%nat -> length u = length v -> nth i (vmap2 f u v) NaN = f (nth i u NaN) (nth i v NaN).
Proof.
  intros f. unfold vmap2. induction u as [|a u IH]; intros [|b v] i Hi Hl; cbn [length] in *; try lia.
  destruct i as [|i]; [reflexivity|]. cbn [combine map nth]. apply IH; lia.
Qed.
Lemma vmap2_len : forall (f : ef -> ef -> ef) u v, length u = length v -> length (vmap2 f u v) = length u.
Proof. intros. unfold vmap2. rewrite map_length, combine_length. lia. Qed.
Lemma vsub_Ok : forall u v w : list ef, vsub u v = Ok w -> length u = length v /\ w = vmap2 ef_sub u v.
Proof. intros u v w H. unfold vsub in H. destruct (Nat.eqb_spec (length u) (length v)); [|discriminate]. injection H as <-. auto. Qed.

Lemma percentile_rows_Ok : forall k rows p, percentile_rows k rows = Ok p -> rows <> [] /\
  (forall r, In r rows -> length r = length p) /\ forall e, (e < length p)%nat -> nth e p NaN = np_percentile k (map (fun r => nth e r NaN) rows).
Proof.
  intros k rows p H. unfold percentile_rows in H. destruct rows as [|r0 rows]; [discriminate|]. split; [discriminate|].
  destruct (forallb _ _) eqn:E; [|discriminate]. injection H as <-. rewrite map_length, seq_length. split.
  - intros r Hr. rewrite forallb_forall in E. apply Nat.eqb_eq. apply E. exact Hr.
  - intros e He. set (f := fun e => np_percentile k (map (fun r => vat r e) (r0 :: rows))).
    change (nth e (map f (seq 0 (length r0))) NaN = f e).
    rewrite (nth_indep _ NaN (f 0%nat)) by (rewrite map_length, seq_length; exact He). rewrite map_nth, seq_nth by exact He. reflexivity.
Qed.

Lemma margins_span : forall ref rows ci, bootstrap_margins ref rows = Ok ci -> spans ref rows ci.
Proof.
  intros ref rows ci H. unfold bootstrap_margins in H.
  destruct (percentile_rows 1 rows) as [p|] eqn:E1; [|discriminate]. cbn [bind] in H.
  destruct (vsub ref p) as [lo|] eqn:E2; [|discriminate]. cbn [bind] in H.
  destruct (percentile_rows 39 rows) as [p'|] eqn:E3; [|discriminate]. cbn [bind] in H.
  destruct (vsub p' ref) as [hi|] eqn:E4; [|discriminate]. cbn [bind] in H. injection H as <-.
  apply vsub_Ok in E2 as [L2 ->]. apply vsub_Ok in E4 as [L4 ->]. cbn [fst snd].
  destruct (percentile_rows_Ok _ _ _ E1) as (N0 & _ & P1). destruct (percentile_rows_Ok _ _ _ E3) as (_ & _ & P3).
  unfold spans. cbn [fst snd]. rewrite !vmap2_len by assumption. split; [reflexivity|]. split; [exact L4|].
  intros e q qs He Hq Hqs. assert (Q : qs <> []) by (intro K; subst qs; destruct rows; [contradiction|discriminate]).
  exists (at_fortieths 1 (isort Rleb qs)), (at_fortieths 39 (isort Rleb qs)).
  destruct (isort_R qs) as [P S]. split; [|split; [|split; [|split]]].
  - replace (25 / 1000) with (INR 1 / 40) by (cbn; lra). apply fortieths_quantile; [exact Q|lia].
  - replace (975 / 1000) with (INR 39 / 40) by (cbn; lra). apply fortieths_quantile; [exact Q|lia].
  - apply fortieths_mono; [exact S| |lia]. intro K. rewrite K in P. apply Permutation_nil in P. contradiction.
  - rewrite vmap2_nth by lia. rewrite Hq, (P1 e), Hqs, percentile_value by (assumption || lia). cbn. f_equal.
  - rewrite vmap2_nth by lia. rewrite Hq, (P3 e), Hqs, percentile_value by (assumption || lia). cbn. f_equal.
Qed.

(** ** The shift of a replicate *)
Lemma take_Ok : forall (l : list ef) sel r, take_entries l sel = Ok r -> Forall (fun z => (0 <= z)%Z) sel ->
  length r = length sel /\ (forall j, (j < length sel)%nat -> nth j r NaN = nth (Z.to_nat (nth j sel 0%Z)) l NaN) /\
  (forall z, In z sel -> (Z.to_nat z < length l)%nat).
Proof.
  intros l sel. unfold take_entries. induction sel as [|z sel IH]; intros r H F.
  - injection H as <-. split; [reflexivity|]. split; [cbn; intros; lia|intros z []].
  - inversion F as [|? ? F0 F1]. subst. cbn [mapM bind] in H. destruct (py_norm_index (length l) z) as [i|] eqn:E; [|discriminate]. cbn [bind] in H.
    destruct (mapM _ sel) as [r'|] eqn:E'; [|discriminate]. cbn [bind] in H. injection H as <-. destruct (IH r' eq_refl F1) as (A & B & C).
    destruct (norm_index_nonneg _ _ _ F0 E) as [Ez Ei]. subst z. split; [cbn; lia|]. split.
    + intros [|j] Hj; cbn [nth]; [rewrite Nat2Z.id; reflexivity|]. apply B. cbn in Hj. lia.
    + intros z [<-|Hz]; [rewrite Nat2Z.id; exact Ei|apply C; exact Hz].
Qed.

Lemma Rsum_shift : forall (A : Type) (f : A -> R) d l, Rsum (map (fun x => f x - d) l) = Rsum (map f l) - INR (length l) * d.
Proof. intros A f d. induction l as [|x l IH]; [cbn; unfold Rsum; cbn; lra|]. cbn [map length]. rewrite !Rsum_cons, IH, S_INR. lra. Qed.

Lemma offset_Ok : forall got ref sel off, bootstrap_offset got ref sel = Ok off -> Forall (fun z => (0 <= z)%Z) sel ->
  length got = length sel /\ (forall z, In z sel -> (Z.to_nat z < length ref)%nat) /\
  (Forall isfin got -> (forall z, In z sel -> isfin (nth (Z.to_nat z) ref NaN)) -> got <> [] ->
     exists d, off = Fin d /\ mean_difference (map (fun x => toR x - d) got) (map toR ref) sel = 0) /\
  ((In NaN got \/ exists z, In z sel /\ nth (Z.to_nat z) ref NaN = NaN) -> off = NaN).
Proof.
  intros got ref sel off H F. unfold bootstrap_offset in H. destruct (take_entries ref sel) as [r|] eqn:E; [|discriminate]. cbn [bind] in H.
  destruct (take_Ok _ _ _ E F) as (A & B & C). destruct (vsub got r) as [dl|] eqn:E2; [|discriminate]. cbn [bind] in H. apply Ok_inj in H. subst off.
  apply vsub_Ok in E2 as [L ->]. split; [lia|]. split; [exact C|]. split.
  - intros Hg Hs Hne. set (g := fun j => nth j (map toR got) 0 - nth (Z.to_nat (nth j sel 0%Z)) (map toR ref) 0).
    assert (V : vmap2 ef_sub got r = map Fin (map g (seq 0 (length got)))).
    { apply (nth_ext _ _ NaN NaN); [rewrite vmap2_len by exact L; rewrite !map_length, seq_length; reflexivity|].
      rewrite vmap2_len by exact L. intros j Hj. rewrite vmap2_nth by assumption. rewrite nth_Fin by (rewrite map_length, seq_length; exact Hj).
      rewrite (nth_indep _ 0 (g 0%nat)) by (rewrite map_length, seq_length; exact Hj). rewrite map_nth, seq_nth by exact Hj. cbn [plus]. unfold g.
      rewrite B by lia. rewrite Forall_forall in Hg. assert (G := Hg _ (nth_In _ NaN Hj)).
      assert (K : In (nth j sel 0%Z) sel) by (apply nth_In; lia). assert (S := Hs _ K). assert (U := C _ K).
      rewrite (nth_indep _ 0 (toR NaN)) by (rewrite map_length; exact Hj). rewrite map_nth.
      rewrite (nth_indep (map toR ref) 0 (toR NaN)) by (rewrite map_length; exact U). rewrite map_nth.
      destruct (nth j got NaN); try contradiction. destruct (nth (Z.to_nat (nth j sel 0%Z)) ref NaN); try contradiction. cbn. reflexivity. }
    rewrite V, np_mean_Fin. assert (Ne : map g (seq 0 (length got)) <> []).
    { destruct got; [contradiction|]. discriminate. }
    rewrite nanmeanR_ne by exact Ne. eexists. split; [reflexivity|]. unfold mean_difference.
    rewrite map_length. rewrite (map_ext_in _ (fun j => g j - Rmean (map g (seq 0 (length got))))).
    + unfold Rmean at 1. rewrite Rsum_shift, !map_length, seq_length. unfold Rmean. rewrite map_length, seq_length.
      assert (INR (length got) <> 0) by (apply not_0_INR; destruct got; [contradiction|discriminate]). field. assumption.
    + intros j Hj. apply in_seq in Hj. unfold g.
      rewrite (nth_indep _ 0 ((fun x => toR x - Rmean (map g (seq 0 (length got)))) NaN)) by (rewrite map_length; lia).
      rewrite (map_nth (fun x => toR x - Rmean (map g (seq 0 (length got))))).
      rewrite (nth_indep (map toR got) 0 (toR NaN)) by (rewrite map_length; lia). rewrite map_nth. fold g. unfold Rminus. ring.
  - intros Hn. unfold np_mean. rewrite np_sum_nan; [reflexivity|].
    assert (K : exists j, (j < length got)%nat /\ (nth j got NaN = NaN \/ nth j r NaN = NaN)).
    { destruct Hn as [Hn|(z & Hz & Ez)].
      - destruct (In_nth _ _ NaN Hn) as (j & Hj & Ej). exists j. auto.
      - destruct (In_nth _ _ 0%Z Hz) as (j & Hj & Ej). exists j. split; [lia|]. right. rewrite B by exact Hj. rewrite Ej. exact Ez. }
    destruct K as (j & Hj & Ej). assert (Q := vmap2_nth ef_sub got r j Hj L).
    assert (Q2 : nth j (vmap2 ef_sub got r) NaN = NaN) by (rewrite Q; destruct Ej as [-> | ->]; [reflexivity|destruct (nth j got NaN); reflexivity]).
    rewrite <- Q2. apply nth_In. rewrite vmap2_len by exact L. exact Hj.
Qed.

Lemma vshift_nth : forall d (l : list ef) i, (i < length l)%nat -> nth i (vshift d l) NaN = ef_add (nth i l NaN) d.
Proof. intros d l i H. unfold vshift. rewrite (nth_indep _ NaN (ef_add NaN d)) by (rewrite map_length; exact H). apply (map_nth (fun y => ef_add y d)). Qed.
Lemma vshift_down_nth : forall d (l : list ef) i, (i < length l)%nat -> nth i (vshift_down d l) NaN = ef_sub (nth i l NaN) d.
Proof. intros d l i H. unfold vshift_down. rewrite (nth_indep _ NaN (ef_sub NaN d)) by (rewrite map_length; exact H). apply (map_nth (fun y => ef_sub y d)). Qed.
Lemma vshift_down_real : forall d l, Forall isfin l -> vshift_down (Fin d) l = map Fin (map (fun x => toR x - d) l).
Proof.
  intros d l F. unfold vshift_down. rewrite map_map. apply map_ext_in. intros x Hx. rewrite Forall_forall in F. specialize (F x Hx). destruct x; try contradiction. cbn. f_equal.
Qed.
Lemma same_but_with : forall T (m : mleres T) q b, same_but_scores m (with_scores m q b).
Proof. intros. unfold same_but_scores. cbn. repeat split. Qed.
Lemma sums_same : forall q b d, ef_add (ef_add q (Fin d)) (ef_sub b (Fin d)) = ef_add q b.
Proof. intros [] [] d; cbn; try reflexivity. f_equal. ring. Qed.
Lemma predictions_shift : forall (m : mleres ef) b d, ml_bias m = Some b -> (b <> [] -> exists r, d = Fin r) ->
  same_predictions m (with_scores m (vshift d (ml_quality m)) (vshift_down d b)).
Proof.
  intros m b d E D. unfold same_predictions. cbn [ml_quality ml_bias with_scores]. split; [unfold vshift; apply map_length|].
  intros b0 E0. rewrite E in E0. injection E0 as <-. eexists. split; [reflexivity|]. split; [unfold vshift_down; apply map_length|].
  intros e s He Hs. destruct D as (r & ->); [destruct b; [cbn in Hs; lia|discriminate]|].
  rewrite vshift_nth, vshift_down_nth by assumption. apply sums_same.
Qed.
Lemma sums_same_down : forall q b d, ef_add (ef_sub q (Fin d)) (ef_add b (Fin d)) = ef_add q b.
Proof. intros [] [] d; cbn; try reflexivity. f_equal. ring. Qed.
Lemma predictions_shift_down : forall (m : mleres ef) b d, ml_bias m = Some b -> (ml_quality m <> [] -> exists r, d = Fin r) ->
  same_predictions m (with_scores m (vshift_down d (ml_quality m)) (vshift d b)).
Proof.
  intros m b d E D. unfold same_predictions. cbn [ml_quality ml_bias with_scores]. split; [unfold vshift_down; apply map_length|].
  intros b0 E0. rewrite E in E0. injection E0 as <-. eexists. split; [reflexivity|]. split; [unfold vshift; apply map_length|].
  intros e s He Hs. destruct D as (r & ->); [destruct (ml_quality m); [cbn in He; lia|discriminate]|].
  rewrite vshift_nth, vshift_down_nth by assumption. apply sums_same_down.
Qed.
Lemma vshift_nan : forall l, Forall (eq NaN) (vshift NaN l) /\ Forall (eq NaN) (vshift_down NaN l).
Proof. intro l. unfold vshift, vshift_down. split; apply Forall_forall; intros x Hx; apply in_map_iff in Hx as (y & <- & _); destruct y; reflexivity. Qed.

Section Replicates.
  Variable chi : ef -> ef -> ef.
  Variable choice : nat -> nat -> list Z.
  Hypothesis draws : index_draws choice.
  Lemma draws_nonneg : forall i n, Forall (fun z => (0 <= z)%Z) (choice i n).
  Proof. intros i n. destruct (draws i n) as [_ F]. eapply Forall_impl; [|exact F]. cbn. intros; lia. Qed.

  Lemma subject_replicate_spec : forall c ds ref n k o i r, subject_replicate chi choice c ds ref n k o i = Ok r ->
    exists m b rb, mle_run chi (boot_base c) (subject_reader ds (choice i n)) k o = Ok m /\ ml_bias m = Some b /\ ml_bias ref = Some rb /\ length b = n /\
      (forall z, In z (choice i n) -> (Z.to_nat z < length rb)%nat) /\ same_but_scores m r /\
      (Forall isfin b -> (forall z, In z (choice i n) -> isfin (nth (Z.to_nat z) rb NaN)) ->
         same_predictions m r /\ exists b', ml_bias r = Some (map Fin b') /\ mean_difference b' (map toR rb) (choice i n) = 0) /\
      ((In NaN b \/ exists z, In z (choice i n) /\ nth (Z.to_nat z) rb NaN = NaN) ->
         Forall (eq NaN) (ml_quality r) /\ exists b', ml_bias r = Some b' /\ Forall (eq NaN) b').
  Proof.
    intros c ds ref n k o i r H. unfold subject_replicate in H. cbv zeta in H.
    destruct (mle_run _ _ _ _ _) as [m|] eqn:E; [|discriminate]. cbn [bind] in H.
    destruct (ml_bias m) as [b|] eqn:Eb; [|discriminate]. cbn [bind entry_of] in H.
    destruct (ml_bias ref) as [rb|] eqn:Er; [|discriminate]. cbn [bind entry_of] in H.
    destruct (bootstrap_offset b rb (choice i n)) as [off|] eqn:Eo; [|discriminate]. cbn [bind] in H. apply Ok_inj in H. subst r.
    destruct (offset_Ok _ _ _ _ Eo (draws_nonneg i n)) as (L & I & Fn & Nn).
    exists m, b, rb. split; [reflexivity|]. split; [exact Eb|]. split; [reflexivity|]. split; [rewrite L; apply (draws i n)|]. split; [exact I|].
    split; [apply same_but_with|]. split.
    - intros Hb Hs. destruct b as [|b0 b].
      + split; [apply predictions_shift; [exact Eb|intro K; contradiction]|]. exists []. split; [reflexivity|]. unfold mean_difference. cbn. unfold Rmean, Rsum. cbn. lra.
      + destruct (Fn Hb Hs ltac:(discriminate)) as (d & -> & M). split; [apply predictions_shift; [exact Eb|intros; exists d; reflexivity]|].
        eexists. split; [|exact M]. cbn [ml_bias with_scores]. f_equal. apply vshift_down_real. exact Hb.
    - intro Hn. rewrite (Nn Hn). cbn [ml_quality ml_bias with_scores]. split; [apply vshift_nan|]. eexists. split; [reflexivity|]. apply vshift_nan.
  Qed.

  Lemma video_replicate_spec : forall c ds ref n k o i r, video_replicate chi choice c ds ref n k o i = Ok r ->
    exists dvs arr m b, select_dis_video_reader ds (Some (choice i n)) = Ok (dvs, arr) /\
      mle_run chi (boot_base c) (Reader ds dvs arr) k o = Ok m /\ ml_bias m = Some b /\ length (ml_quality m) = n /\
      (forall z, In z (choice i n) -> (Z.to_nat z < length (ml_quality ref))%nat) /\ same_but_scores m r /\
      (Forall isfin (ml_quality m) -> (forall z, In z (choice i n) -> isfin (nth (Z.to_nat z) (ml_quality ref) NaN)) ->
         same_predictions m r /\ exists q', ml_quality r = map Fin q' /\ mean_difference q' (map toR (ml_quality ref)) (choice i n) = 0) /\
      ((In NaN (ml_quality m) \/ exists z, In z (choice i n) /\ nth (Z.to_nat z) (ml_quality ref) NaN = NaN) ->
         Forall (eq NaN) (ml_quality r) /\ exists b', ml_bias r = Some b' /\ Forall (eq NaN) b').
  Proof.
    intros c ds ref n k o i r H. unfold video_replicate in H. cbv zeta in H.
    destruct (select_dis_video_reader ds (Some (choice i n))) as [[dvs arr]|] eqn:E; [|discriminate]. cbn [bind fst snd] in H.
    destruct (mle_run _ _ _ _ _) as [m|] eqn:Em; [|discriminate]. cbn [bind] in H.
    destruct (bootstrap_offset _ _ _) as [off|] eqn:Eo; [|discriminate]. cbn [bind] in H.
    destruct (ml_bias m) as [b|] eqn:Eb; [|discriminate]. cbn [bind entry_of] in H. apply Ok_inj in H. subst r.
    destruct (offset_Ok _ _ _ _ Eo (draws_nonneg i n)) as (L & I & Fn & Nn).
    exists dvs, arr, m, b. split; [reflexivity|]. split; [exact Em|]. split; [exact Eb|]. split; [rewrite L; apply (draws i n)|]. split; [exact I|].
    split; [apply same_but_with|]. split.
    - intros Hb Hs. destruct (ml_quality m) as [|b0 q] eqn:Eq.
      + rewrite <- Eq. split; [apply predictions_shift_down; [exact Eb|intro K; congruence]|]. exists []. split; [cbn; rewrite Eq; reflexivity|].
        unfold mean_difference. cbn. unfold Rmean, Rsum. cbn. lra.
      + rewrite <- Eq in *. destruct (Fn Hb Hs ltac:(congruence)) as (d & -> & M). split; [apply predictions_shift_down; [exact Eb|intros; exists d; reflexivity]|].
        eexists. split; [|exact M]. cbn [ml_quality with_scores]. apply vshift_down_real. exact Hb.
    - intro Hn. rewrite (Nn Hn). cbn [ml_quality ml_bias with_scores]. split; [apply vshift_nan|]. eexists. split; [reflexivity|]. apply vshift_nan.
  Qed.
End Replicates.
