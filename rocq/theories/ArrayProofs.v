(** Stacking, row and column reductions of rating arrays. *)
From Coq Require Import String.
From Coq Require Import List ZArith Bool Arith Lia Reals Lra Permutation.
From Verif Require Import PyBase Num ExtReal NumPy Dataset BaseProofs ExtRealProofs SpecDataset SpecMos.
Import ListNotations.
Local Open Scope list_scope.

Lemma seq_app_mul : forall A (g : nat -> nat -> A) n m,
  map (fun k => g (k mod n) (k / n)) (seq 0 (m * n)) =
  flat_map (fun j => map (fun i => g i j) (seq 0 n)) (seq 0 m).
Proof.
  intros A g n m. destruct n as [|n].
  - rewrite Nat.mul_0_r. simpl. induction (seq 0 m); simpl; auto.
  - induction m as [|m IH]; [reflexivity|].
    rewrite (seq_S m 0), flat_map_app. cbn [flat_map]. rewrite app_nil_r.
    rewrite <- IH. replace (S m * S n) with (m * S n + S n) by lia.
    rewrite seq_app, map_app. f_equal. simpl (0 + _).
    replace (seq (m * S n) (S n)) with (map (fun i => m * S n + i) (seq 0 (S n))).
    + rewrite map_map. apply map_ext_in. intros i Hi. apply in_seq in Hi.
      f_equal.
      * rewrite Nat.add_comm, Nat.mod_add by lia. apply Nat.mod_small. lia.
      * rewrite Nat.div_add_l by lia. rewrite Nat.div_small by lia. lia.
    + generalize (m * S n) as b. generalize (S n) as k.
      intros k b. apply nth_ext with (d := 0) (d' := 0).
      * rewrite map_length, !seq_length. reflexivity.
      * intros i Hi. rewrite map_length, seq_length in Hi.
        rewrite nth_map_seq by exact Hi. rewrite seq_nth by exact Hi. reflexivity.
Qed.

Lemma flat_map_perm_swap : forall A B C (g : A -> B -> C) la lb,
  Permutation (flat_map (fun b => map (fun a => g a b) la) lb) (flat_map (fun a => map (fun b => g a b) lb) la).
Proof.
  intros A B C g la lb; revert la. induction lb as [|b lb IH]; intro la; simpl.
  - induction la; simpl; auto.
  - rewrite IH. clear IH. induction la as [|a la IH]; simpl; [constructor|].
    constructor. rewrite <- IH. rewrite !app_assoc. apply Permutation_app_tail. apply Permutation_app_comm.
Qed.

Lemma row_stack1 : forall T (a : arr3 T) e,
  row (stack1 a) e = flat_map (fun r => map (fun s => at3 a e s r) (seq 0 (dS a))) (seq 0 (dR a)).
Proof. intros. unfold row, stack1; simpl. apply (seq_app_mul T (fun s r => at3 a e s r)). Qed.
Lemma col_stack0 : forall T (a : arr3 T) s,
  col (stack0 a) s = flat_map (fun r => map (fun e => at3 a e s r) (seq 0 (dE a))) (seq 0 (dR a)).
Proof. intros. unfold col, stack0; simpl. apply (seq_app_mul T (fun e r => at3 a e s r)). Qed.

Lemma row_stack1_perm : forall T (a : arr3 T) e,
  Permutation (row (stack1 a) e) (flat_map (fun s => map (fun r => at3 a e s r) (seq 0 (dR a))) (seq 0 (dS a))).
Proof. intros. rewrite row_stack1. apply flat_map_perm_swap. Qed.
Lemma col_stack0_perm : forall T (a : arr3 T) s,
  Permutation (col (stack0 a) s) (flat_map (fun e => map (fun r => at3 a e s r) (seq 0 (dR a))) (seq 0 (dE a))).
Proof. intros. rewrite col_stack0. apply flat_map_perm_swap. Qed.

Lemma row_finnan : forall a e, finite_votes a -> e < dE a -> allfinnan (row (stack1 a) e).
Proof.
  intros a e H He. apply Forall_forall. intros x Hx. rewrite row_stack1 in Hx.
  apply in_flat_map in Hx as (r & Hr & Hx). apply in_map_iff in Hx as (s & <- & Hs).
  apply in_seq in Hr. apply in_seq in Hs. apply H. unfold inside. lia.
Qed.
Lemma col_finnan : forall a s, finite_votes a -> s < dS a -> allfinnan (col (stack0 a) s).
Proof.
  intros a e H He. apply Forall_forall. intros x Hx. rewrite col_stack0 in Hx.
  apply in_flat_map in Hx as (r & Hr & Hx). apply in_map_iff in Hx as (s & <- & Hs).
  apply in_seq in Hr. apply in_seq in Hs. apply H. unfold inside. lia.
Qed.
Lemma presents_row : forall a e, Permutation (presents (row (stack1 a) e)) (video_votes a e).
Proof. intros. apply presents_perm, row_stack1_perm. Qed.
Lemma presents_col : forall a s, Permutation (presents (col (stack0 a) s)) (subject_votes a s).
Proof. intros. apply presents_perm, col_stack0_perm. Qed.

Lemma mean_rows : forall a, finite_votes a ->
  along1 np_nanmean (stack1 a) = map (fun e => nanmeanR (video_votes a e)) (seq 0 (dE a)).
Proof.
  intros a H. unfold along1. change (n0 (stack1 a)) with (dE a). apply map_ext_in. intros e He. apply in_seq in He.
  rewrite np_nanmean_finnan by (apply row_finnan; [exact H|lia]).
  apply nanmeanR_perm, presents_row.
Qed.
Lemma std_rows : forall d a, finite_votes a ->
  along1 (np_nanstd d) (stack1 a) = map (fun e => nanstdR d (video_votes a e)) (seq 0 (dE a)).
Proof.
  intros d a H. unfold along1. change (n0 (stack1 a)) with (dE a). apply map_ext_in. intros e He. apply in_seq in He.
  rewrite np_nanstd_finnan by (apply row_finnan; [exact H|lia]).
  apply nanstdR_perm, presents_row.
Qed.
Lemma cnt_rows : forall a, finite_votes a ->
  map (fun e => np_cnt (row (stack1 a) e)) (seq 0 (n0 (stack1 a))) = map (fun e => length (video_votes a e)) (seq 0 (dE a)).
Proof.
  intros a H. change (n0 (stack1 a)) with (dE a). apply map_ext_in. intros e He. apply in_seq in He.
  rewrite np_cnt_finnan by (apply row_finnan; [exact H|lia]).
  apply Permutation_length, presents_row.
Qed.
Lemma mean_cols : forall a, finite_votes a ->
  along0 np_nanmean (stack0 a) = map (fun s => nanmeanR (subject_votes a s)) (seq 0 (dS a)).
Proof.
  intros a H. unfold along0. change (n1 (stack0 a)) with (dS a). apply map_ext_in. intros e He. apply in_seq in He.
  rewrite np_nanmean_finnan by (apply col_finnan; [exact H|lia]).
  apply nanmeanR_perm, presents_col.
Qed.
Lemma std_cols : forall d a, finite_votes a ->
  along0 (np_nanstd d) (stack0 a) = map (fun s => nanstdR d (subject_votes a s)) (seq 0 (dS a)).
Proof.
  intros d a H. unfold along0. change (n1 (stack0 a)) with (dS a). apply map_ext_in. intros e He. apply in_seq in He.
  rewrite np_nanstd_finnan by (apply col_finnan; [exact H|lia]).
  apply nanstdR_perm, presents_col.
Qed.

Lemma vat_map_seq : forall (f : nat -> ef) n i, i < n -> vat (map f (seq 0 n)) i = f i.
Proof. intros. unfold vat. apply nth_map_seq. assumption. Qed.

Lemma along1_length : forall T (f : list T -> T) x, length (along1 f x) = n0 x.
Proof. intros. unfold along1. rewrite map_length, seq_length. reflexivity. Qed.
Lemma along0_length : forall T (f : list T -> T) x, length (along0 f x) = n1 x.
Proof. intros. unfold along0. rewrite map_length, seq_length. reflexivity. Qed.

(** Votes of an array whose entries are mapped, when missing stays missing. *)
Lemma presents_map_fin : forall (f : ef -> ef) (g : R -> R) l,
  (forall x, In (Fin x) l -> f (Fin x) = Fin (g x)) -> (forall x, In x l -> finnan x) -> f NaN = NaN ->
  presents (map f l) = map g (presents l).
Proof.
  induction l as [|x l IH]; intros H F H0; [reflexivity|].
  assert (IH' := IH (fun x h => H x (or_intror h)) (fun x h => F x (or_intror h)) H0).
  destruct x; simpl.
  - rewrite H by (left; reflexivity). rewrite IH'. reflexivity.
  - exfalso. apply (F PInf). left; reflexivity.
  - exfalso. apply (F NInf). left; reflexivity.
  - rewrite H0. exact IH'.
Qed.

Lemma cells_map : forall (h : nat -> nat -> ef) la lb (f : ef -> ef),
  flat_map (fun s => map (fun r => f (h s r)) lb) la = map f (flat_map (fun s => map (h s) lb) la).
Proof.
  induction la as [|s la IH]; intros lb f; simpl; [reflexivity|].
  rewrite map_app, map_map, IH. reflexivity.
Qed.

Lemma flat_map_ext_in : forall A B (f g : A -> list B) l, (forall x, In x l -> f x = g x) -> flat_map f l = flat_map g l.
Proof.
  induction l as [|a l IH]; intro H; simpl; [reflexivity|].
  rewrite (H a (or_introl eq_refl)), IH; [reflexivity|]. intros; apply H; right; assumption.
Qed.

(** Video e's votes after an entrywise transformation depending on e only. *)
Lemma video_votes_map : forall a a' e (f : ef -> ef) g,
  e < dE a -> dS a' = dS a -> dR a' = dR a ->
  (forall s r, s < dS a -> r < dR a -> at3 a' e s r = f (at3 a e s r)) ->
  finite_votes a -> (forall x, f (Fin x) = Fin (g x)) -> f NaN = NaN ->
  video_votes a' e = map g (video_votes a e).
Proof.
  intros a a' e f g He HS HR Hat Hf Hg H0. unfold video_votes. rewrite HS, HR.
  rewrite <- (presents_map_fin f g).
  - f_equal. rewrite <- cells_map. apply flat_map_ext_in. intros s Hs. apply in_seq in Hs.
    apply map_ext_in. intros r Hr. apply in_seq in Hr. apply Hat; lia.
  - intros; apply Hg.
  - intros x Hx. apply in_flat_map in Hx as (s & Hs & Hx). apply in_map_iff in Hx as (r & <- & Hr).
    apply in_seq in Hs. apply in_seq in Hr. apply Hf. unfold inside. lia.
  - exact H0.
Qed.
Lemma subject_votes_map : forall a a' s (f : ef -> ef) g,
  s < dS a -> dE a' = dE a -> dR a' = dR a ->
  (forall e r, e < dE a -> r < dR a -> at3 a' e s r = f (at3 a e s r)) ->
  finite_votes a -> (forall x, f (Fin x) = Fin (g x)) -> f NaN = NaN ->
  subject_votes a' s = map g (subject_votes a s).
Proof.
  intros a a' s f g He HS HR Hat Hf Hg H0. unfold subject_votes. rewrite HS, HR.
  rewrite <- (presents_map_fin f g).
  - f_equal. rewrite <- (cells_map (fun e r => at3 a e s r)). apply flat_map_ext_in. intros e Hs. apply in_seq in Hs.
    apply map_ext_in. intros r Hr. apply in_seq in Hr. apply Hat; lia.
  - intros; apply Hg.
  - intros x Hx. apply in_flat_map in Hx as (e & Hs & Hx). apply in_map_iff in Hx as (r & <- & Hr).
    apply in_seq in Hs. apply in_seq in Hr. apply Hf. unfold inside. lia.
  - exact H0.
Qed.

Lemma video_votes_In : forall a e x,
  In x (video_votes a e) <-> exists s r, s < dS a /\ r < dR a /\ at3 a e s r = Fin x.
Proof.
  intros a e x. unfold video_votes. rewrite presents_In, in_flat_map. split.
  - intros (s & Hs & H). apply in_map_iff in H as (r & E & Hr). apply in_seq in Hs. apply in_seq in Hr.
    exists s, r. repeat split; [lia|lia|exact E].
  - intros (s & r & Hs & Hr & E). exists s. split; [apply in_seq; lia|].
    apply in_map_iff. exists r. split; [exact E|apply in_seq; lia].
Qed.
Lemma subject_votes_In : forall a s x,
  In x (subject_votes a s) <-> exists e r, e < dE a /\ r < dR a /\ at3 a e s r = Fin x.
Proof.
  intros a s x. unfold subject_votes. rewrite presents_In, in_flat_map. split.
  - intros (e & Hs & H). apply in_map_iff in H as (r & E & Hr). apply in_seq in Hs. apply in_seq in Hr.
    exists e, r. repeat split; [lia|lia|exact E].
  - intros (e & r & Hs & Hr & E). exists e. split; [apply in_seq; lia|].
    apply in_map_iff. exists r. split; [exact E|apply in_seq; lia].
Qed.

(** Bridge to the specification predicates. *)
Lemma nanmeanR_is_mean : forall l, is_mean (nanmeanR l) l.
Proof. intros [|x l]; [left; split; reflexivity|right; split; [discriminate|reflexivity]]. Qed.
Lemma is_mean_fun : forall q l, is_mean q l -> q = nanmeanR l.
Proof. intros q l [[-> ->]|[H ->]]; [reflexivity|]. destruct l; [contradiction|reflexivity]. Qed.
Lemma nanstdR1_is_std : forall l, is_sample_std (nanstdR 1 l) l.
Proof.
  intro l. unfold nanstdR. destruct (Nat.leb_spec (length l) 1).
  - left. split; [lia|reflexivity].
  - right. split; [lia|]. exists (sqrt (Rss l / INR (length l - 1))).
    assert (Hp : (0 < INR (length l - 1))%R) by (apply lt_0_INR; lia).
    assert (0 <= Rss l / INR (length l - 1))%R
      by (apply Rmult_le_pos; [apply Rss_nonneg|apply Rlt_le, Rinv_0_lt_compat; exact Hp]).
    split; [reflexivity|]. split; [apply sqrt_pos|]. rewrite sqrt_sqrt by assumption.
    replace (INR (length l) - 1)%R with (INR (length l - 1)) by (rewrite minus_INR by lia; reflexivity).
    unfold Rdiv at 1. rewrite Rmult_assoc, Rinv_l by lra. rewrite Rmult_1_r. reflexivity.
Qed.

Lemma permutes_surj_perm : forall n p, permutes n p -> Permutation (map p (seq 0 n)) (seq 0 n).
Proof.
  intros n p [Hr Hi]. apply NoDup_Permutation_bis.
  -
    assert (G : forall l, NoDup l -> (forall x, In x l -> x < n) -> NoDup (map p l)).
    { induction l as [|x l IH]; intros Hn Hl; simpl; [constructor|]. inversion Hn; subst. constructor.
      - intro Hin. apply in_map_iff in Hin as (y & E & Hy). apply Hi in E; [subst; contradiction| |].
        + apply Hl; right; exact Hy. + apply Hl; left; reflexivity.
      - apply IH; [assumption|]. intros; apply Hl; right; assumption. }
    apply G; [apply seq_NoDup|]. intros x Hx. apply in_seq in Hx. lia.
  - rewrite map_length. reflexivity.
  - intros x Hx. apply in_map_iff in Hx as (y & <- & Hy). apply in_seq in Hy. apply in_seq.
    split; [lia|]. apply Hr. lia.
Qed.
