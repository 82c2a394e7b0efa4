(** Concrete figures for claims C96-C101. *)
From Coq Require Import String.
From Coq Require Import List ZArith Bool Arith Lia Reals Lra Sorted Permutation.
From Verif Require Import PyBase Num ExtReal NumPy Dataset Stats Figures SpecDataset SpecMos SpecStats SpecFigures
  BaseProofs ExtRealProofs ArrayProofs FiguresProofs Figures2Proofs Figures3Proofs Figures4Proofs.
Import ListNotations.
Local Open Scope list_scope.

(** An order: the positions sorted by their scores. *)
Definition order0 (l : list ef) : list nat := isort (fun i j => nleb (nth i l (Fin 0)) (nth j l (Fin 0))) (seq 0 (length l)).
Lemma nth_Fin : forall (l : list R) i, nth i (map Fin l) (Fin 0) = Fin (nth i l 0%R).
Proof. intros. apply map_nth. Qed.
Lemma ins_sorted_by : forall (f : nat -> R) leb x l, (forall i j, leb i j = Rleb (f i) (f j)) -> StronglySorted (fun i j => (f i <= f j)%R) l -> StronglySorted (fun i j => (f i <= f j)%R) (ins leb x l).
Proof.
  intros f leb x l H S. induction S as [|y l S IH F]; cbn [ins]; [repeat constructor|]. rewrite H. destruct (Rleb (f x) (f y)) eqn:E.
  - apply Rleb_true in E. constructor; [constructor; assumption|]. constructor; [exact E|]. eapply Forall_impl; [|exact F]. cbn. intros; lra.
  - apply Rleb_false in E. constructor; [exact IH|]. apply Forall_forall. intros z Hz. apply (Permutation_in z (Permutation_sym (ins_Permutation leb x l))) in Hz. destruct Hz as [<-|Hz]; [lra|].
    rewrite Forall_forall in F. exact (F z Hz).
Qed.
Lemma order0_sorts : sorts order0.
Proof.
  intro l. unfold order0. rewrite map_length. split; [apply Permutation_sym, isort_Permutation|].
  set (leb := fun i j : nat => nleb (nth i (map Fin l) (Fin 0)) (nth j (map Fin l) (Fin 0))). set (f := fun k => nth k l 0%R).
  assert (HL : forall i j, leb i j = Rleb (f i) (f j)) by (intros i j; unfold leb, f; rewrite !nth_Fin; reflexivity). clearbody leb.
  assert (S : StronglySorted (fun i j => (f i <= f j)%R) (isort leb (seq 0 (length l)))).
  { generalize (seq 0 (length l)). induction l0 as [|x l0 IH]; [constructor|]. cbn [isort fold_right]. apply ins_sorted_by; [exact HL|exact IH]. }
  revert S. generalize (isort leb (seq 0 (length l))). intros o S. induction S as [|x o S IH F]; intros i j u v L Hi Hj.
  - destruct i; discriminate.
  - cbn [map] in Hi, Hj. destruct j as [|j]; [lia|]. cbn [nth_error] in Hj. destruct i as [|i].
    + injection Hi as <-. apply nth_error_In in Hj. apply in_map_iff in Hj as (k & <- & Hk). rewrite Forall_forall in F. exact (F k Hk).
    + cbn [nth_error] in Hi. apply (IH i j u v); [lia|exact Hi|exact Hj].
Qed.

(** Two videos, three subjects (the third did not see the second video), one vote each. *)
Definition g_votes : arr3 ef := Arr3 2 3 1 (fun e s r =>
  nth (3 * e + s) [Fin 5; Fin 4; Fin 5; Fin 1; Fin 2; NaN] NaN).
Definition g_res (ty : string) : @shown ef :=
  Shown ty (Some (map Fin [2; 1]%R)) (Some (Some ([Fin (1/10); Fin (2/10)], [Fin (1/10); Fin (2/10)]))) None false
    (Some (map Fin [0; 1; -1]%R)) None (Some (map Fin [1; 1; 2]%R)) (Some None)
    (Some [false; true; false]) None None (Some ["ann"; "bob"; "cyd"]%string) (Some (map Fin [1; 3]%R)) None.
Definition g_none (ty : string) : @shown ef := Shown ty None None None false None None None None None None None None None None.
Lemma g_finite : finite_votes g_votes.
Proof.
  intros e s r (He & Hs & Hr). cbn [dE dS dR g_votes] in He, Hs, Hr. unfold g_votes. cbn [at3].
  destruct e as [|[|e]]; [| |lia]; (destruct s as [|[|[|s]]]; [| | |lia]); exact I.
Qed.
Lemma g_scores : forall tys, scores_ok g_votes (map g_res tys).
Proof. intros tys r Hr _. apply in_map_iff in Hr as (t & <- & _). exists [2; 1]%R. split; reflexivity. Qed.
Lemma g_biases : forall tys, biases_ok g_votes (map g_res tys).
Proof. intros tys r Hr _. apply in_map_iff in Hr as (t & <- & _). exists [0; 1; -1]%R. split; reflexivity. Qed.
Lemma g_n : forall tys, n_scores 2 (map g_res tys).
Proof. intros tys r Hr _. apply in_map_iff in Hr as (t & <- & _). exists [2; 1]%R. split; reflexivity. Qed.
Lemma g_subjects : forall tys, subjects_ok 3 (map g_res tys).
Proof.
  intros tys r Hr. apply in_map_iff in Hr as (t & <- & _). unfold of_length, rejected_of, g_res. cbn. repeat split; try discriminate.
  - intros v E. injection E as <-. exists [0; 1; -1]%R. split; reflexivity.
  - intros v E. injection E as <-. exists [1; 1; 2]%R. split; reflexivity.
  - intros v E. injection E as <-. exists [0; 1; 0]%R. split; reflexivity.
  - intros o E. injection E as <-. reflexivity.
Qed.
Lemma g_ambiguity : forall tys r, In r (map g_res tys) -> of_length 2 (sh_ambiguity r).
Proof. intros tys r Hr v E. apply in_map_iff in Hr as (t & <- & _). injection E as <-. exists [1; 3]%R. split; reflexivity. Qed.
Definition g_refs : list rvideo := [RVideo 0 "a.yuv" [("content_name", "a")]; RVideo (-1) "b.yuv" [("content_name", "b")]]%string%Z.
Lemma g_refs_ok : forall r, In r g_refs -> (exists k, points_to 2 r k) /\ exists name, content_name r name.
Proof.
  intros r [<-|[<-|[]]].
  - split; [exists 0%nat; split; [lia|left; reflexivity]|exists "a"%string; reflexivity].
  - split; [exists 1%nat; split; [lia|right; reflexivity]|exists "b"%string; reflexivity].
Qed.

(** Sorted scores with margins that stay where they were. *)
Lemma perm2 : forall o, Permutation o (seq 0 2) -> o = [0; 1]%nat \/ o = [1; 0]%nat.
Proof. intros o P. apply Permutation_sym in P. apply Permutation_length_2_inv in P. destruct P as [->| ->]; auto. Qed.
Lemma g_margins : forall argsort, sorts argsort -> exists order p x,
  fig_quality argsort [] PError true [g_res "MOS"] = Ok [DSeries "quality_scores" p [x]] /\
  quality_shown PError order (0%nat, g_res "MOS") x /\ ~ own_margins (g_res "MOS") order x.
Proof.
  intros argsort HA. destruct (c100_result argsort [] PError true [g_res "MOS"] (g_res "MOS") [] 2 [2; 1]%R HA) as (order & p & l & E & P & _ & A & F).
  - discriminate.
  - reflexivity.
  - reflexivity.
  - reflexivity.
  - lia.
  - exact (g_n ["MOS"%string]).
  - cbn. lia.
  - change (filter (fun r => given (sh_quality r)) [g_res "MOS"]) with [g_res "MOS"] in F. unfold numbered_from in F. cbn [length seq combine] in F. inversion F as [|y x ? l' Q F']; subst. inversion F'; subst.
    exists order, p, x. split; [exact E|]. split; [exact Q|]. intro O.
    destruct (perm2 order P) as [->| ->].
    + assert (K := A eq_refl 0%nat 1%nat 2%R 1%R ltac:(lia) eq_refl eq_refl). lra.
    + destruct Q as (q & _ & (_ & _ & _ & _ & _ & ST) & _). cbn [snd] in ST. change (sh_quality_ci (g_res "MOS")) with (Some (Some ([Fin (1/10); Fin (2/10)], [Fin (1/10); Fin (2/10)]))) in ST.
      destruct (O _ _ _ _ eq_refl ST 0%nat 1%nat eq_refl) as [K _]. cbn in K. injection K as K. lra.
Qed.
(** A text is searched for the names. *)
Lemma g_text : forall argsort numbered, exists p pts p' pts',
  draw_all argsort numbered (PText "raw_counts_per_subject") [] PError false g_votes [] [] =
  ([DCounts "raw_counts" p pts 2; DCounts "raw_counts_per_subject" p' pts' 3], Ok tt).
Proof.
  intros argsort numbered. unfold draw_all. change (filter (wanted (PText "raw_counts_per_subject")) plot_names) with ["raw_counts"; "raw_counts_per_subject"]%string.
  cbn [draw]. change (figure argsort numbered [] PError false g_votes [] [] "raw_counts") with (fig_raw_counts (T := ef) [] g_votes).
  change (figure argsort numbered [] PError false g_votes [] [] "raw_counts_per_subject") with (fig_raw_counts_per_subject (T := ef) [] g_votes).
  destruct (c96_raw_counts [] g_votes g_finite) as [(p & pts & -> & _)|[_ K]].
  - destruct (c96_raw_counts_subject [] g_votes g_finite) as [(p' & pts' & -> & _)|[_ K]].
    + exists p, pts, p', pts'. reflexivity.
    + exfalso. assert (Q := K 0%nat 0%nat ltac:(cbn; lia) ltac:(cbn; lia)). discriminate.
  - exfalso. assert (Q := K 0%nat 0%nat ltac:(cbn; lia) ltac:(cbn; lia)). discriminate.
Qed.
Lemma g_list_all : forall argsort numbered axes pt sort a refs rs, draw_all (T := ef) argsort numbered (PList ["all"%string]) axes pt sort a refs rs = ([], Ok tt).
Proof. reflexivity. Qed.
Lemma c100_type : forall argsort axes sort r0 rest q, sorts argsort -> sh_quality r0 = Some (map Fin q) -> fig_quality argsort axes POther sort (r0 :: rest) = Err AssertionError.
Proof.
  intros argsort axes sort r0 rest q HA Hq. unfold fig_quality. rewrite Hq. destruct (order_ok argsort sort q HA) as (P & _ & _). cbv zeta in P.
  set (order := if sort then argsort (map Fin q) else seq 0 (length (map Fin q))) in *. cbn [quality_series]. rewrite Hq. rewrite pick_ok; [reflexivity|].
  intros v Hv. apply (Permutation_in v P) in Hv. apply in_seq in Hv. lia.
Qed.
(** Two videos compared by two subjects: the first one preferred twice. *)
Definition g_pairs : arr3 ef := Arr3 2 2 2 (fun i j s => match i, j with O, S O => Fin 1 | S O, O => Fin 0 | _, _ => NaN end).
Lemma g_pairs_ok : two_sided g_pairs.
Proof.
  split; [reflexivity|]. intros i j s Hi Hj D _. cbn [dE g_pairs] in Hi, Hj. cbn [at3 g_pairs].
  destruct i as [|[|i]]; [| |lia]; (destruct j as [|[|j]]; [| |lia]); try (contradiction D; reflexivity); right.
  - exists 1%R. split; [lra|]. split; [reflexivity|]. f_equal. lra.
  - exists 0%R. split; [lra|]. split; [reflexivity|]. f_equal. lra.
Qed.
