(** The projection solver computes the alternating projection of SpecAp. *)
From Coq Require Import String.
From Coq Require Import List ZArith Bool Arith Reals Lra Lia Permutation.
From Verif Require Import PyBase Num ExtReal NumPy Dataset Preproc Mos AP SpecMos SpecAp
  BaseProofs ExtRealProofs ArrayProofs.
Import ListNotations.
Local Open Scope list_scope.
Local Open Scope R_scope.

(** ** Sums over votes *)
Lemma Rsum_presents : forall (g : R -> R) l, Rsum (map g (presents l)) = Rsum (map (vote_term g) l).
Proof.
  induction l as [|[] l IH]; cbn [presents map vote_term]; rewrite ?Rsum_cons, ?IH; try ring; reflexivity.
Qed.
Lemma length_presents : forall l, INR (length (presents l)) = Rsum (map (vote_term (fun _ => 1)) l).
Proof.
  intro l. rewrite <- Rsum_presents, Rsum_map_const. ring.
Qed.
Lemma Rsum_map_flat_map : forall A B (g : B -> R) (f : A -> list B) l,
  Rsum (map g (flat_map f l)) = Rsum (map (fun a => Rsum (map g (f a))) l).
Proof. induction l as [|a l IH]; [reflexivity|]. cbn [flat_map map]. rewrite map_app, Rsum_app, IH. reflexivity. Qed.

Lemma video_sum : forall a e g, Rsum (map g (video_votes a e)) = vsum a e (fun _ => g).
Proof.
  intros. unfold video_votes, vsum. rewrite Rsum_presents, Rsum_map_flat_map.
  apply Rsum_map_ext. intros i _. rewrite map_map. reflexivity.
Qed.
Lemma subject_sum : forall a i g, Rsum (map g (subject_votes a i)) = ssum a i (fun _ => g).
Proof.
  intros. unfold subject_votes, ssum. rewrite Rsum_presents, Rsum_map_flat_map.
  apply Rsum_map_ext. intros e _. rewrite map_map. reflexivity.
Qed.
Lemma video_count : forall a e, INR (length (video_votes a e)) = vcount a e.
Proof. intros. unfold vcount. rewrite <- video_sum, Rsum_map_const. ring. Qed.
Lemma subject_count : forall a i, INR (length (subject_votes a i)) = scount a i.
Proof. intros. unfold scount. rewrite <- subject_sum, Rsum_map_const. ring. Qed.
Lemma video_mean : forall a e, Rmean (video_votes a e) = vsum a e (fun _ v => v) / vcount a e.
Proof. intros. unfold Rmean. rewrite video_count, <- video_sum, map_id. reflexivity. Qed.
Lemma subject_mean : forall a i, Rmean (subject_votes a i) = ssum a i (fun _ v => v) / scount a i.
Proof. intros. unfold Rmean. rewrite subject_count, <- subject_sum, map_id. reflexivity. Qed.

Lemma vsum_ext : forall x e f g,
  (forall i r v, (i < dS x)%nat -> (r < dR x)%nat -> at3 x e i r = Fin v -> f i v = g i v) -> vsum x e f = vsum x e g.
Proof.
  intros x e f g H. apply Rsum_map_ext. intros i Hi. apply in_seq in Hi. apply Rsum_map_ext. intros r Hr. apply in_seq in Hr.
  destruct (at3 x e i r) eqn:E; try reflexivity. cbn. apply (H i r); [lia|lia|exact E].
Qed.
Lemma ssum_ext : forall x i f g,
  (forall e r v, (e < dE x)%nat -> (r < dR x)%nat -> at3 x e i r = Fin v -> f e v = g e v) -> ssum x i f = ssum x i g.
Proof.
  intros x e f g H. apply Rsum_map_ext. intros i Hi. apply in_seq in Hi. apply Rsum_map_ext. intros r Hr. apply in_seq in Hr.
  destruct (at3 x i e r) eqn:E; try reflexivity. cbn. apply (H i r); [lia|lia|exact E].
Qed.
Lemma vote_term_add : forall f g x, vote_term (fun v => f v + g v) x = vote_term f x + vote_term g x.
Proof. intros f g []; cbn; ring. Qed.
Lemma vote_term_mul : forall c f x, vote_term (fun v => c * f v) x = c * vote_term f x.
Proof. intros c f []; cbn; ring. Qed.
Lemma vsum_add : forall x e f g, vsum x e (fun i v => f i v + g i v) = vsum x e f + vsum x e g.
Proof.
  intros. unfold vsum. rewrite <- Rsum_map_add. apply Rsum_map_ext. intros i _. rewrite <- Rsum_map_add.
  apply Rsum_map_ext. intros r _. apply vote_term_add.
Qed.
Lemma ssum_add : forall x e f g, ssum x e (fun i v => f i v + g i v) = ssum x e f + ssum x e g.
Proof.
  intros. unfold ssum. rewrite <- Rsum_map_add. apply Rsum_map_ext. intros i _. rewrite <- Rsum_map_add.
  apply Rsum_map_ext. intros r _. apply vote_term_add.
Qed.
Lemma vsum_mul : forall x e c f, vsum x e (fun i v => c * f i v) = c * vsum x e f.
Proof.
  intros. unfold vsum. rewrite <- Rsum_map_mul. apply Rsum_map_ext. intros i _. rewrite <- Rsum_map_mul.
  apply Rsum_map_ext. intros r _. apply vote_term_mul.
Qed.
Lemma ssum_mul : forall x e c f, ssum x e (fun i v => c * f i v) = c * ssum x e f.
Proof.
  intros. unfold ssum. rewrite <- Rsum_map_mul. apply Rsum_map_ext. intros i _. rewrite <- Rsum_map_mul.
  apply Rsum_map_ext. intros r _. apply vote_term_mul.
Qed.
Lemma ssum_sub : forall x e f g, ssum x e (fun i v => f i v - g i v) = ssum x e f - ssum x e g.
Proof.
  intros. rewrite (ssum_ext _ _ _ (fun i v => f i v + (-1) * g i v)) by (intros; ring). rewrite ssum_add, ssum_mul. ring.
Qed.
Lemma vsum_sub : forall x e f g, vsum x e (fun i v => f i v - g i v) = vsum x e f - vsum x e g.
Proof.
  intros. rewrite (vsum_ext _ _ _ (fun i v => f i v + (-1) * g i v)) by (intros; ring). rewrite vsum_add, vsum_mul. ring.
Qed.
Lemma ssum_const : forall x i c, ssum x i (fun _ _ => c) = c * scount x i.
Proof. intros. unfold scount. rewrite <- ssum_mul. apply ssum_ext. intros. ring. Qed.
Lemma vsum_const : forall x i c, vsum x i (fun _ _ => c) = c * vcount x i.
Proof. intros. unfold vcount. rewrite <- vsum_mul. apply vsum_ext. intros. ring. Qed.
Lemma ssum_nonneg : forall x i f, (forall e v, 0 <= f e v) -> 0 <= ssum x i f.
Proof.
  intros x i f H. apply Rsum_nonneg. intros y Hy. apply in_map_iff in Hy as (e & <- & _). apply Rsum_nonneg.
  intros y Hy. apply in_map_iff in Hy as (r & <- & _). destruct (at3 x e i r); cbn; auto; lra.
Qed.
Lemma vsum_nonneg : forall x e f, (forall i v, 0 <= f i v) -> 0 <= vsum x e f.
Proof.
  intros x i f H. apply Rsum_nonneg. intros y Hy. apply in_map_iff in Hy as (e & <- & _). apply Rsum_nonneg.
  intros y Hy. apply in_map_iff in Hy as (r & <- & _). destruct (at3 x i e r); cbn; auto; lra.
Qed.
Lemma Rsum_ge_elt : forall l y, (forall z, In z l -> 0 <= z) -> In y l -> y <= Rsum l.
Proof.
  induction l as [|a l IH]; intros y H Hy; [contradiction|]. rewrite Rsum_cons.
  assert (0 <= a) by (apply H; left; reflexivity). assert (0 <= Rsum l) by (apply Rsum_nonneg; intros; apply H; right; assumption).
  destruct Hy as [->|Hy]; [lra|]. assert (y <= Rsum l) by (apply IH; [intros; apply H; right; assumption|exact Hy]). lra.
Qed.
(** A non-negative sum is at least each of its terms. *)
Lemma vsum_ge : forall x e f i r v, (forall i v, 0 <= f i v) -> inside x e i r -> at3 x e i r = Fin v -> f i v <= vsum x e f.
Proof.
  intros x e f i r v H (_ & Hi & Hr) E.
  apply Rle_trans with (Rsum (map (fun r => vote_term (f i) (at3 x e i r)) (seq 0 (dR x)))).
  - apply Rsum_ge_elt.
    + intros z Hz. apply in_map_iff in Hz as (r' & <- & _). destruct (at3 x e i r'); cbn; auto; lra.
    + apply in_map_iff. exists r. rewrite E. split; [reflexivity|]. apply in_seq. lia.
  - apply Rsum_ge_elt.
    + intros z Hz. apply in_map_iff in Hz as (i' & <- & _). apply Rsum_nonneg. intros z Hz.
      apply in_map_iff in Hz as (r' & <- & _). destruct (at3 x e i' r'); cbn; auto; lra.
    + apply in_map_iff. exists i. split; [reflexivity|]. apply in_seq. lia.
Qed.
Lemma ssum_ge : forall x i f e r v, (forall e v, 0 <= f e v) -> inside x e i r -> at3 x e i r = Fin v -> f e v <= ssum x i f.
Proof.
  intros x i f e r v H (He & _ & Hr) E.
  apply Rle_trans with (Rsum (map (fun r => vote_term (f e) (at3 x e i r)) (seq 0 (dR x)))).
  - apply Rsum_ge_elt.
    + intros z Hz. apply in_map_iff in Hz as (r' & <- & _). destruct (at3 x e i r'); cbn; auto; lra.
    + apply in_map_iff. exists r. rewrite E. split; [reflexivity|]. apply in_seq. lia.
  - apply Rsum_ge_elt.
    + intros z Hz. apply in_map_iff in Hz as (i' & <- & _). apply Rsum_nonneg. intros z Hz.
      apply in_map_iff in Hz as (r' & <- & _). destruct (at3 x i' i r'); cbn; auto; lra.
    + apply in_map_iff. exists e. split; [reflexivity|]. apply in_seq. lia.
Qed.
Lemma rated_pos : forall x e f, rated x e -> (forall i v, 0 < f i v) -> 0 < vsum x e f.
Proof.
  intros x e f (i & r & v & HI & E) H. apply Rlt_le_trans with (f i v); [apply H|].
  eapply vsum_ge; eauto. intros. apply Rlt_le, H.
Qed.
Lemma rated_count : forall x e, rated x e -> 0 < vcount x e.
Proof. intros x e H. apply rated_pos; [exact H|]. intros. lra. Qed.
Lemma voted_count : forall x i, voted x i -> 0 < scount x i.
Proof.
  intros x i (e & r & v & HI & E). apply Rlt_le_trans with 1; [lra|].
  apply (ssum_ge x i (fun _ _ => 1) e r v); auto. intros. lra.
Qed.
Lemma scount_voted : forall x i, (i < dS x)%nat -> scount x i <> 0 -> voted x i.
Proof.
  intros x i Hi H. rewrite <- subject_count in H. destruct (subject_votes x i) as [|v l] eqn:E; [cbn in H; lra|].
  assert (Hin : In v (subject_votes x i)) by (rewrite E; left; reflexivity).
  apply subject_votes_In in Hin as (e & r & He & Hr & Ev). exists e, r, v. repeat split; assumption.
Qed.
Lemma vcount_rated : forall x e, (e < dE x)%nat -> vcount x e <> 0 -> rated x e.
Proof.
  intros x e He H. rewrite <- video_count in H. destruct (video_votes x e) as [|v l] eqn:E; [cbn in H; lra|].
  assert (Hin : In v (video_votes x e)) by (rewrite E; left; reflexivity).
  apply video_votes_In in Hin as (i & r & Hi & Hr & Ev). exists i, r, v. repeat split; assumption.
Qed.
(** The votes of a video determine that their subjects voted. *)
Lemma inside_voted : forall x e i r v, inside x e i r -> at3 x e i r = Fin v -> voted x i.
Proof. intros x e i r v H E. exists e, r, v. split; assumption. Qed.

(** ** Arrays derived vote by vote *)
Definition derived (x y : arr3 ef) (g : nat -> nat -> R -> R) : Prop :=
  dE y = dE x /\ dS y = dS x /\ dR y = dR x /\
  forall e i r, inside x e i r -> at3 y e i r = match at3 x e i r with Fin v => Fin (g e i v) | z => z end.

Lemma derived_finite : forall x y g, derived x y g -> finite_votes x -> finite_votes y.
Proof.
  intros x y g (D1 & D2 & D3 & H) HF e i r (I1 & I2 & I3). rewrite D1 in I1. rewrite D2 in I2. rewrite D3 in I3.
  rewrite H by (repeat split; assumption). specialize (HF e i r (conj I1 (conj I2 I3))).
  destruct (at3 x e i r); cbn in *; auto.
Qed.
Lemma derived_vsum : forall x y g e f, derived x y g -> (e < dE x)%nat -> vsum y e f = vsum x e (fun i v => f i (g e i v)).
Proof.
  intros x y g e f (D1 & D2 & D3 & H) He. unfold vsum. rewrite D2, D3. apply Rsum_map_ext. intros i Hi. apply in_seq in Hi.
  apply Rsum_map_ext. intros r Hr. apply in_seq in Hr. rewrite H by (repeat split; lia). destruct (at3 x e i r); reflexivity.
Qed.
Lemma derived_ssum : forall x y g i f, derived x y g -> (i < dS x)%nat -> ssum y i f = ssum x i (fun e v => f e (g e i v)).
Proof.
  intros x y g i f (D1 & D2 & D3 & H) Hi. unfold ssum. rewrite D1, D3. apply Rsum_map_ext. intros e He. apply in_seq in He.
  apply Rsum_map_ext. intros r Hr. apply in_seq in Hr. rewrite H by (repeat split; lia). destruct (at3 x e i r); reflexivity.
Qed.
Lemma derived_scount : forall x y g i, derived x y g -> (i < dS x)%nat -> scount y i = scount x i.
Proof. intros. unfold scount. rewrite (derived_ssum x y g) by assumption. reflexivity. Qed.
Lemma derived_vcount : forall x y g e, derived x y g -> (e < dE x)%nat -> vcount y e = vcount x e.
Proof. intros. unfold vcount. rewrite (derived_vsum x y g) by assumption. reflexivity. Qed.

(** ** Reductions as sums *)
Definition nan_if0 (c : R) (v : R) : ef := if Reqbb c 0 then NaN else Fin v.

Lemma nan_if0_ne : forall c v, c <> 0 -> nan_if0 c v = Fin v.
Proof. intros c v H. unfold nan_if0. destruct (Reqbb c 0) eqn:E; [apply Reqbb_true in E; contradiction|reflexivity]. Qed.
Lemma nan_if0_0 : forall v, nan_if0 0 v = NaN.
Proof. intro v. unfold nan_if0. destruct (Reqbb 0 0) eqn:E; [reflexivity|]. assert (H := proj2 (Reqbb_true 0 0) eq_refl). congruence. Qed.
Lemma nan_if0_finnan : forall c v, finnan (nan_if0 c v).
Proof. intros. unfold nan_if0. destruct (Reqbb c 0); exact I. Qed.

Lemma nanmeanR_if0 : forall l, nanmeanR l = nan_if0 (INR (length l)) (Rmean l).
Proof.
  intros [|a l]; [cbn [length INR]; rewrite nan_if0_0; reflexivity|].
  rewrite nan_if0_ne; [reflexivity|]. apply INR_len_neq. discriminate.
Qed.
Lemma nanstdR0_if0 : forall l, nanstdR 0 l = nan_if0 (INR (length l)) (sqrt (Rss l / INR (length l))).
Proof.
  intros [|a l]; [cbn [length INR]; rewrite nan_if0_0; reflexivity|].
  rewrite nan_if0_ne; [unfold nanstdR; rewrite Nat.sub_0_r; reflexivity|]. apply INR_len_neq. discriminate.
Qed.

Lemma mean_rows_sum : forall a, finite_votes a ->
  along1 np_nanmean (stack1 a) = map (fun e => nan_if0 (vcount a e) (vsum a e (fun _ v => v) / vcount a e)) (seq 0 (dE a)).
Proof.
  intros a H. rewrite mean_rows by exact H. apply map_ext. intro e. rewrite nanmeanR_if0, video_count, video_mean. reflexivity.
Qed.
Lemma mean_cols_sum : forall a, finite_votes a ->
  along0 np_nanmean (stack0 a) = map (fun i => nan_if0 (scount a i) (ssum a i (fun _ v => v) / scount a i)) (seq 0 (dS a)).
Proof.
  intros a H. rewrite mean_cols by exact H. apply map_ext. intro e. rewrite nanmeanR_if0, subject_count, subject_mean. reflexivity.
Qed.
Lemma std_cols_sum : forall a, finite_votes a ->
  along0 (np_nanstd 0) (stack0 a) = map (fun i => nan_if0 (scount a i)
    (sqrt (ssum a i (fun _ v => (v - ssum a i (fun _ v => v) / scount a i) * (v - ssum a i (fun _ v => v) / scount a i)) / scount a i))) (seq 0 (dS a)).
Proof.
  intros a H. rewrite std_cols by exact H. apply map_ext. intro e.
  rewrite nanstdR0_if0. unfold Rss. rewrite subject_sum, subject_count, subject_mean. reflexivity.
Qed.
Lemma std_rows_sum : forall a, finite_votes a ->
  along1 (np_nanstd 0) (stack1 a) = map (fun e => nan_if0 (vcount a e)
    (sqrt (vsum a e (fun _ v => (v - vsum a e (fun _ v => v) / vcount a e) * (v - vsum a e (fun _ v => v) / vcount a e)) / vcount a e))) (seq 0 (dE a)).
Proof.
  intros a H. rewrite std_rows by exact H. apply map_ext. intro e.
  rewrite nanstdR0_if0. unfold Rss. rewrite video_sum, video_count, video_mean. reflexivity.
Qed.
Lemma nansum_row : forall a e, finite_votes a -> (e < dE a)%nat -> np_nansum (row (stack1 a) e) = Fin (vsum a e (fun _ v => v)).
Proof.
  intros a e H He. rewrite np_nansum_finnan by (apply row_finnan; assumption). f_equal.
  rewrite (Rsum_perm _ _ (presents_row a e)). rewrite <- (map_id (video_votes a e)). apply (video_sum a e (fun v => v)).
Qed.
Lemma nansum_col : forall a i, finite_votes a -> (i < dS a)%nat -> np_nansum (col (stack0 a) i) = Fin (ssum a i (fun _ v => v)).
Proof.
  intros a e H He. rewrite np_nansum_finnan by (apply col_finnan; assumption). f_equal.
  rewrite (Rsum_perm _ _ (presents_col a e)). rewrite <- (map_id (subject_votes a e)). apply (subject_sum a e (fun v => v)).
Qed.

(** ** The weighted mean *)
Lemma combine_app : forall A B (l1 l2 : list A) (m1 m2 : list B), length l1 = length m1 ->
  combine (l1 ++ l2) (m1 ++ m2) = combine l1 m1 ++ combine l2 m2.
Proof.
  induction l1 as [|a l1 IH]; intros l2 [|b m1] m2 H; try discriminate; [reflexivity|]. cbn. f_equal. apply IH. now injection H.
Qed.
Lemma combine_map_map : forall A B C (f : A -> B) (g : A -> C) l, combine (map f l) (map g l) = map (fun a => (f a, g a)) l.
Proof. induction l as [|a l IH]; [reflexivity|]. cbn. now rewrite IH. Qed.
Lemma tile_row : forall (h : nat -> nat -> ef) (w : nat -> ef) I R k,
  combine (flat_map (fun r => map (fun s => h s r) (seq 0 I)) (seq k R)) (np_tile (map w (seq 0 I)) R) =
  flat_map (fun r => map (fun s => (h s r, w s)) (seq 0 I)) (seq k R).
Proof.
  intros h w I R. induction R as [|R IH]; intro k; [reflexivity|].
  unfold np_tile. cbn [seq flat_map repeat concat]. rewrite combine_app by (rewrite !map_length; reflexivity).
  rewrite combine_map_map. f_equal. apply IH.
Qed.
Lemma tile_map : forall (x : arr3 ef) (w : nat -> ef) e (g : ef * ef -> ef),
  map g (combine (row (stack1 x) e) (np_tile (map w (seq 0 (dS x))) (dR x))) =
  row (stack1 (map3 (fun e i r v => g (v, w i)) x)) e.
Proof.
  intros x w e g. rewrite !row_stack1. rewrite tile_row. cbn [dR dS at3 map3].
  rewrite flat_map_concat_map, concat_map, map_map, <- flat_map_concat_map.
  apply flat_map_ext. intro r. rewrite map_map. reflexivity.
Qed.

Lemma weighed_row : forall x (w : nat -> ef) (W : nat -> R) e, finite_votes x -> (e < dE x)%nat ->
  (forall i, (i < dS x)%nat -> finnan (w i)) ->
  (forall i r v, inside x e i r -> at3 x e i r = Fin v -> w i = Fin (W i)) -> vsum x e (fun i _ => W i) <> 0 ->
  weighed_nanmean (row (stack1 x) e) (np_tile (map w (seq 0 (dS x))) (dR x)) =
  Fin (vsum x e (fun i v => v * W i) / vsum x e (fun i _ => W i)).
Proof.
  intros x w W e HF He Hw HW Hne. unfold weighed_nanmean.
  rewrite (tile_map x w e (fun p => nmul (fst p) (snd p))), (tile_map x w e (fun p => nmul (present (fst p)) (snd p))).
  (* only row e matters: restrict the arrays to it *)
  assert (R1 : np_nansum (row (stack1 (map3 (fun _ i _ v => nmul (fst (v, w i)) (snd (v, w i))) x)) e) = Fin (vsum x e (fun i v => v * W i))).
  { set (y := Arr3 (dE x) (dS x) (dR x) (fun e' i r => if Nat.eqb e' e then nmul (at3 x e i r) (w i) else Fin 0)).
    replace (row (stack1 (map3 (fun _ i _ v => nmul (fst (v, w i)) (snd (v, w i))) x)) e) with (row (stack1 y) e).
    2:{ rewrite !row_stack1. cbn [dR dS at3 map3 y]. rewrite Nat.eqb_refl. reflexivity. }
    rewrite nansum_row.
    - f_equal. unfold vsum, y. cbn [dR dS at3]. rewrite Nat.eqb_refl.
      apply Rsum_map_ext. intros i Hi. apply in_seq in Hi. apply Rsum_map_ext. intros r Hr. apply in_seq in Hr.
      assert (HI : inside x e i r) by (repeat split; lia). specialize (HF e i r HI). efc.
      destruct (at3 x e i r) eqn:E; cbn in HF; try contradiction; [|reflexivity].
      rewrite (HW i r r0 HI E). reflexivity.
    - intros e' i r HI. cbn in *. destruct (Nat.eqb_spec e' e) as [->|]; [|exact I].
      assert (HI' : inside x e i r) by exact HI. specialize (HF e i r HI'). specialize (Hw i (proj1 (proj2 HI'))).
      destruct (at3 x e i r), (w i); cbn in *; auto; contradiction.
    - exact He. }
  assert (R2 : np_nansum (row (stack1 (map3 (fun _ i _ v => nmul (present (fst (v, w i))) (snd (v, w i))) x)) e) = Fin (vsum x e (fun i _ => W i))).
  { set (y := Arr3 (dE x) (dS x) (dR x) (fun e' i r => if Nat.eqb e' e then nmul (present (at3 x e i r)) (w i) else Fin 0)).
    replace (row (stack1 (map3 (fun _ i _ v => nmul (present (fst (v, w i))) (snd (v, w i))) x)) e) with (row (stack1 y) e).
    2:{ rewrite !row_stack1. cbn [dR dS at3 map3 y]. rewrite Nat.eqb_refl. reflexivity. }
    rewrite nansum_row.
    - f_equal. unfold vsum, y. cbn [dR dS at3]. rewrite Nat.eqb_refl.
      apply Rsum_map_ext. intros i Hi. apply in_seq in Hi. apply Rsum_map_ext. intros r Hr. apply in_seq in Hr.
      assert (HI : inside x e i r) by (repeat split; lia). specialize (HF e i r HI). unfold present, none_, nzero. efc.
      destruct (at3 x e i r) eqn:E; cbn in HF; try contradiction.
      + rewrite (HW i r r0 HI E). cbn. ring.
      + cbn. specialize (Hw i ltac:(lia)). destruct (w i); cbn in *; try contradiction; ring.
    - intros e' i r HI. cbn in *. destruct (Nat.eqb_spec e' e) as [->|]; [|exact I].
      assert (HI' : inside x e i r) by exact HI. specialize (HF e i r HI'). specialize (Hw i (proj1 (proj2 HI'))).
      unfold present, none_, nzero. destruct (at3 x e i r), (w i); cbn in *; auto; contradiction.
    - exact He. }
  rewrite R1, R2. efc. apply ef_div_Fin. exact Hne.
Qed.

(** ** Estimates as lists *)
Definition qlist (x : arr3 ef) (p : est) : list ef := map (fun e => Fin (eq_ p e)) (seq 0 (dE x)).
Definition blist (x : arr3 ef) (p : est) : list ef := map (fun i => nan_if0 (scount x i) (eb_ p i)) (seq 0 (dS x)).
Definition vlist (x : arr3 ef) (p : est) : list ef := map (fun i => nan_if0 (scount x i) (rms x p i)) (seq 0 (dS x)).

Lemma qlist_at : forall x p e, (e < dE x)%nat -> vat (qlist x p) e = Fin (eq_ p e).
Proof. intros. unfold qlist. rewrite vat_map_seq by assumption. reflexivity. Qed.
Lemma blist_at : forall x p i, voted x i -> (i < dS x)%nat -> vat (blist x p) i = Fin (eb_ p i).
Proof. intros. unfold blist. rewrite vat_map_seq by assumption. apply nan_if0_ne. apply voted_count in H. lra. Qed.
Lemma blist_finnan : forall x p i, (i < dS x)%nat -> finnan (vat (blist x p) i).
Proof. intros. unfold blist. rewrite vat_map_seq by assumption. apply nan_if0_finnan. Qed.

Lemma minus_quality_derived : forall x p, finite_votes x -> derived x (minus_quality x (qlist x p)) (fun e _ v => v - eq_ p e).
Proof.
  intros x p HF. repeat split. intros e i r HI. cbn [minus_quality map3 at3]. rewrite qlist_at by apply HI.
  specialize (HF e i r HI). efc. destruct (at3 x e i r); cbn in HF; try contradiction; [|reflexivity].
  rewrite ef_sub_Fin. reflexivity.
Qed.
Lemma minus_bias_derived : forall x p, finite_votes x -> derived x (minus_bias x (blist x p)) (fun _ i v => v - eb_ p i).
Proof.
  intros x p HF. repeat split. intros e i r HI. cbn [minus_bias map3 at3].
  specialize (HF e i r HI). efc. destruct (at3 x e i r) eqn:E; cbn in HF; try contradiction; [|reflexivity].
  rewrite blist_at by (first [apply (inside_voted x e i r r0 HI E)|apply HI]). rewrite ef_sub_Fin. reflexivity.
Qed.
Lemma residual_derived : forall x p, finite_votes x ->
  derived x (residual x (qlist x p) (blist x p)) (fun e i v => v - eq_ p e - eb_ p i).
Proof.
  intros x p HF. repeat split. intros e i r HI. cbn [residual map3 at3]. rewrite qlist_at by apply HI.
  specialize (HF e i r HI). efc. destruct (at3 x e i r) eqn:E; cbn in HF; try contradiction; [|reflexivity].
  rewrite blist_at by (first [apply (inside_voted x e i r r0 HI E)|apply HI]). rewrite !ef_sub_Fin. reflexivity.
Qed.

(** The bias is the mean difference. *)
Definition consistent (x : arr3 ef) (p : est) : Prop := forall i, eb_ p i = mean_diff x (eq_ p) i.
Lemma iterate_consistent : forall x n, consistent x (iterate x n).
Proof. intros x [|n] i; reflexivity. Qed.

Lemma bias_of_spec : forall x p, finite_votes x -> bias_of x (qlist x p) =
  map (fun i => nan_if0 (scount x i) (mean_diff x (eq_ p) i)) (seq 0 (dS x)).
Proof.
  intros x p HF. unfold bias_of. assert (D := minus_quality_derived x p HF).
  rewrite mean_cols_sum by (eapply derived_finite; eassumption).
  change (dS (minus_quality x (qlist x p))) with (dS x). apply map_ext_in. intros i Hi. apply in_seq in Hi.
  rewrite (derived_scount _ _ _ _ D) by lia. f_equal. unfold mean_diff.
  rewrite (derived_ssum _ _ _ _ _ D) by lia. reflexivity.
Qed.

Lemma rms_spec : forall x p, finite_votes x -> consistent x p ->
  along0 (np_nanstd 0) (stack0 (residual x (qlist x p) (blist x p))) = vlist x p.
Proof.
  intros x p HF HC. assert (D := residual_derived x p HF).
  rewrite std_cols_sum by (eapply derived_finite; eassumption).
  change (dS (residual x (qlist x p) (blist x p))) with (dS x). apply map_ext_in. intros i Hi. apply in_seq in Hi.
  rewrite (derived_scount _ _ _ _ D) by lia. unfold nan_if0. destruct (Reqbb (scount x i) 0) eqn:E0; [reflexivity|].
  assert (Hne : scount x i <> 0) by (intro; apply Reqbb_true in H; congruence). f_equal. unfold rms. do 2 f_equal.
  rewrite !(derived_ssum _ _ _ _ _ D) by lia.
  replace (ssum x i (fun e v => v - eq_ p e - eb_ p i)) with 0.
  2:{ rewrite (ssum_sub _ _ (fun e v => v - eq_ p e)), ssum_const, HC. unfold mean_diff. field. exact Hne. }
  apply ssum_ext. intros. field. exact Hne.
Qed.

Definition vjlist (x : arr3 ef) (p : est) : list ef := map (fun e => nan_if0 (vcount x e) (video_spread x p e)) (seq 0 (dE x)).
Lemma vspread_spec : forall x p, finite_votes x ->
  along1 (np_nanstd 0) (stack1 (residual x (qlist x p) (blist x p))) = vjlist x p.
Proof.
  intros x p HF. assert (D := residual_derived x p HF).
  rewrite std_rows_sum by (eapply derived_finite; eassumption).
  change (dE (residual x (qlist x p) (blist x p))) with (dE x). apply map_ext_in. intros e He. apply in_seq in He.
  rewrite (derived_vcount _ _ _ _ D) by lia. f_equal. unfold video_spread, mean_residual. do 2 f_equal.
  rewrite !(derived_vsum _ _ _ _ _ D) by lia. reflexivity.
Qed.

Lemma eps_pos : 0 < 1 / 100000000. Proof. lra. Qed.
Lemma weight_pos : forall x p i, 0 < weight x p i.
Proof. intros. unfold weight. apply Rdiv_lt_0_compat; [lra|]. assert (H := Rle_0_sqr (rms x p i)). unfold Rsqr in H. lra. Qed.
Lemma epsilon_ef : @epsilon ef _ = Fin (1 / 100000000).
Proof. unfold epsilon. rewrite ndec_ef by discriminate. reflexivity. Qed.

Lemma weights_spec : forall x p,
  map (fun v => ndiv none_ (nadd (nsq v) epsilon)) (vlist x p) =
  map (fun i => nan_if0 (scount x i) (weight x p i)) (seq 0 (dS x)).
Proof.
  intros x p. unfold vlist. rewrite map_map. apply map_ext. intro i. rewrite epsilon_ef. unfold nan_if0, none_, nsq.
  destruct (Reqbb (scount x i) 0); [reflexivity|]. efc. cbn [ef_mul ef_add]. rewrite ef_div_Fin; [reflexivity|].
  assert (H := Rle_0_sqr (rms x p i)). unfold Rsqr in H. lra.
Qed.

Lemma pass_spec : forall x p, finite_votes x -> all_rated x -> consistent x p ->
  ap_pass x (qlist x p) (blist x p) = Ok (ApEst (qlist x (next x p)) (blist x (next x p)) (vlist x p) (vjlist x p)).
Proof.
  intros x p HF HR HC. unfold ap_pass. rewrite rms_spec, vspread_spec by assumption. rewrite weights_spec.
  cbn [weighed_nanmean_2d bind].
  assert (D := minus_bias_derived x p HF).
  assert (E : along1 (fun l => weighed_nanmean l (np_tile (map (fun i => nan_if0 (scount x i) (weight x p i)) (seq 0 (dS x))) (dR x)))
     (stack1 (minus_bias x (blist x p))) = qlist x (next x p)).
  { unfold along1, qlist. change (n0 (stack1 (minus_bias x (blist x p)))) with (dE x). apply map_ext_in. intros e He. apply in_seq in He.
    change (dS x) with (dS (minus_bias x (blist x p))). change (dR x) with (dR (minus_bias x (blist x p))).
    rewrite (weighed_row _ _ (weight x p)).
    - f_equal. cbn [next eq_]. unfold debiased_mean. rewrite !(derived_vsum _ _ _ _ _ D) by lia.
      f_equal. apply vsum_ext. intros. ring.
    - eapply derived_finite; eassumption.
    - cbn. lia.
    - intros. apply nan_if0_finnan.
    - intros i r v HI Ev. apply nan_if0_ne.
      destruct D as (_ & _ & _ & D). assert (HI' : inside x e i r) by exact HI. specialize (D e i r HI'). rewrite Ev in D.
      destruct (at3 x e i r) eqn:Ex; try discriminate.
      assert (Hv := voted_count x i (inside_voted x e i r r0 HI' Ex)). lra.
    - rewrite (derived_vsum _ _ _ _ _ D) by lia.
      assert (0 < vsum x e (fun i _ => weight x p i)) by (apply rated_pos; [apply HR; lia|intros; apply weight_pos]). lra. }
  rewrite E. f_equal. f_equal. rewrite bias_of_spec by exact HF. reflexivity.
Qed.

Lemma start_q : forall x, finite_votes x -> all_rated x -> along1 np_nanmean (stack1 x) = qlist x (start x).
Proof.
  intros x HF HR. rewrite mean_rows_sum by exact HF. apply map_ext_in. intros e He. apply in_seq in He.
  rewrite nan_if0_ne; [reflexivity|]. assert (H := rated_count x e (HR e ltac:(lia))). lra.
Qed.
Lemma start_b : forall x, finite_votes x -> bias_of x (qlist x (start x)) = blist x (start x).
Proof. intros x HF. rewrite bias_of_spec by exact HF. reflexivity. Qed.

Lemma norm_spec : forall x p q,
  sp_norm (map (fun d => nsub (fst d) (snd d)) (combine (qlist x p) (qlist x q))) =
  Ok (Fin (sqrt (Rsum (map (fun e => (eq_ p e - eq_ q e) * (eq_ p e - eq_ q e)) (seq 0 (dE x)))))).
Proof.
  intros x p q. unfold qlist. rewrite combine_map_map, map_map. unfold sp_norm. efc.
  rewrite (map_ext _ (fun e => Fin (eq_ p e - eq_ q e))) by (intro; cbn [fst snd]; apply ef_sub_Fin).
  match goal with |- (if ?b then _ else _) = _ => destruct b eqn:Hb end.
  2:{ rewrite map_map. unfold nsq. efc. cbn [ef_mul].
    replace (map (fun e => Fin ((eq_ p e - eq_ q e) * (eq_ p e - eq_ q e))) (seq 0 (dE x)))
      with (map Fin (map (fun e => (eq_ p e - eq_ q e) * (eq_ p e - eq_ q e)) (seq 0 (dE x)))) by apply map_map.
    rewrite np_sum_Fin, ef_sqrt_Fin; [reflexivity|]. apply Rsum_nonneg. intros y Hy. apply in_map_iff in Hy as (e & <- & _). apply Rle_0_sqr. }
  apply existsb_exists in Hb as (y & Hy & Hb). apply in_map_iff in Hy as (e & <- & _). discriminate.
Qed.

Lemma loop_spec : forall x, finite_votes x -> all_rated x -> forall fuel itr, (fuel + itr = max_itr)%nat -> (0 < fuel)%nat ->
  (forall m, (1 <= m <= itr)%nat -> 1 / 100000000 <= change x (m - 1)) ->
  exists n, stops x n /\ ap_loop fuel itr x (qlist x (iterate x itr)) (blist x (iterate x itr)) =
    Ok (ApEst (qlist x (iterate x n)) (blist x (iterate x n)) (vlist x (iterate x (n - 1))) (vjlist x (iterate x (n - 1))), n).
Proof.
  intros x HF HR. induction fuel as [|f IH]; intros itr Hf Hpos Hpre; [lia|].
  cbn [ap_loop]. rewrite pass_spec by (auto using iterate_consistent). cbn [bind es eb].
  change (next x (iterate x itr)) with (iterate x (S itr)).
  rewrite norm_spec. cbn [bind]. fold (change x itr). rewrite epsilon_ef. efc. cbn [ef_ltb].
  destruct (Rltb (change x itr) (1 / 100000000)) eqn:E.
  - apply Rltb_true in E. exists (S itr). cbn [Nat.sub]. rewrite Nat.sub_0_r. split; [|reflexivity].
    unfold max_itr in Hf. split; [lia|]. split; [left; cbn [Nat.sub]; rewrite Nat.sub_0_r; exact E|]. intros m Hm. apply Hpre. lia.
  - apply Rltb_false in E. destruct (Nat.leb_spec max_itr (S itr)) as [Hm|Hm].
    + exists (S itr). cbn [Nat.sub]. rewrite Nat.sub_0_r. split; [|reflexivity]. unfold max_itr in *.
      split; [lia|]. split; [right; lia|]. intros m Hm'. apply Hpre. lia.
    + apply (IH (S itr)); [lia|lia|]. intros m Hm'. destruct (Nat.eq_dec m (S itr)) as [->|].
      * cbn [Nat.sub]. rewrite Nat.sub_0_r. exact E.
      * apply Hpre. lia.
Qed.

Lemma stops_unique : forall x n m, stops x n -> stops x m -> n = m.
Proof.
  intros x n m (H1 & H2 & H3) (G1 & G2 & G3). destruct (Nat.lt_trichotomy n m) as [H|[H|H]]; [|exact H|].
  - specialize (G3 n ltac:(lia)). destruct H2 as [H2|H2]; [lra|lia].
  - specialize (H3 m ltac:(lia)). destruct G2 as [G2|G2]; [lra|lia].
Qed.

(** The loop of the solver from its starting point. *)
Lemma solver_loop : forall x, finite_votes x -> all_rated x -> exists n, stops x n /\
  ap_loop max_itr 0 x (along1 np_nanmean (stack1 x)) (bias_of x (along1 np_nanmean (stack1 x))) =
    Ok (ApEst (qlist x (iterate x n)) (blist x (iterate x n)) (vlist x (iterate x (n - 1))) (vjlist x (iterate x (n - 1))), n).
Proof.
  intros x HF HR. rewrite start_q by assumption. rewrite start_b by assumption.
  apply (loop_spec x HF HR max_itr 0); [reflexivity|unfold max_itr; lia|]. intros m Hm. lia.
Qed.
