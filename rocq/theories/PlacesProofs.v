(** Lemmas for claim C134: where the figures are drawn. *)
From Coq Require Import String.
From Coq Require Import List ZArith Bool Arith Lia Reals Lra.
From Verif Require Import PyBase Num ExtReal NumPy Dataset Stats Figures SpecDataset SpecMos SpecStats SpecFigures SpecPlaces
  BaseProofs ExtRealProofs ArrayProofs MosProofs StatsProofs Stats2Proofs FiguresProofs Figures2Proofs Figures3Proofs Figures4Proofs FiguresWitness.
Import ListNotations.
Local Open Scope list_scope.

Lemma memb_axes : forall k axes, memb String.eqb k axes = true <-> In k axes.
Proof.
  intros k axes. unfold memb. rewrite existsb_exists. split.
  - intros (x & Hx & E). apply String.eqb_eq in E. subst. exact Hx.
  - intros H. exists k. split; [exact H|apply String.eqb_refl].
Qed.
Lemma placed_own : forall axes k size (P : ef -> ef -> Prop), P (fst size) (snd size) -> on_own_axes axes k (placed axes k size) P.
Proof.
  intros axes k size P HP. unfold placed. destruct (memb String.eqb k axes) eqn:E.
  - split; [reflexivity|]. intros H. apply memb_axes in E. contradiction.
  - split; [intros H; apply memb_axes in H; congruence|]. intros _. exists (fst size), (snd size). split; [reflexivity|exact HP].
Qed.
Lemma imshow_inches : forall rows cols, image_inches rows cols (fst (imshow_size rows cols)) (snd (imshow_size rows cols)).
Proof.
  intros rows cols. destruct (c98_image rows cols) as (c & E & H1 & _ & _ & H2). rewrite E. exists c. cbn [fst snd]. auto.
Qed.
Lemma plot_inches3 : forall n, plot_inches n 3 (fst (plot_size (Some n))) (snd (plot_size (Some n))).
Proof. intros n. destruct (c98_plot n) as (w & E & H). rewrite E. exists w. cbn [fst snd]. tauto. Qed.
Lemma first_length_spec : forall get (rs : list shown),
  match first_length get rs with Some n => exists l, first_entry get rs l /\ length l = n | None => forall r, In r rs -> get r = None end.
Proof.
  intros get rs. unfold first_length. induction rs as [|r rs IH]; cbn [flat_map]; [intros r []|].
  destruct (get r) as [l|] eqn:G.
  - cbn [app]. exists l. split; [|reflexivity]. exists [], r, rs. split; [reflexivity|]. split; [exact G|]. intros r' [].
  - cbn [app]. destruct (flat_map _ rs) as [|n ns].
    + intros r' [<-|H]; [exact G|]. exact (IH r' H).
    + destruct IH as (l & (b & r0 & a & E & E1 & E2) & EL). exists l. split; [|exact EL].
      exists (r :: b), r0, a. split; [rewrite E; reflexivity|]. split; [exact E1|]. intros r' [<-|H]; [exact G|exact (E2 r' H)].
Qed.
Lemma entry3 : forall get (rs : list shown), entry_inches get rs 3 (fst (plot_size (first_length get rs))) (snd (plot_size (first_length get rs))).
Proof.
  intros get rs. assert (H := first_length_spec get rs). destruct (first_length get rs) as [n|].
  - left. destruct H as (l & H & <-). exists l. split; [exact H|]. apply plot_inches3.
  - right. split; [exact H|]. split; reflexivity.
Qed.
Lemma entry8 : forall get (rs : list shown),
  entry_inches get rs 8 (fst (plot_size (first_length get rs))) (nadd (nmul (snd (plot_size (first_length get rs))) (nofZ 2)) (nofZ 2)).
Proof.
  intros get rs. assert (H := entry3 get rs). assert (E : snd (plot_size (first_length get rs)) = Fin 3).
  { destruct (first_length get rs) as [n|]; [destruct (c98_plot n) as (w & E & _); rewrite E; reflexivity|reflexivity]. }
  rewrite E. assert (E8 : nadd (nmul (Fin 3) (nofZ 2)) (nofZ 2) = Fin 8) by (cbn; f_equal; lra). rewrite E8.
  destruct H as [(l & H & x & H1 & H2 & H3)|(H & H1 & H2)].
  - left. exists l. split; [exact H|]. exists x. split; [exact H1|]. split; [reflexivity|exact H3].
  - right. split; [exact H|]. split; [exact H1|reflexivity].
Qed.

Section Drawn.
  Variable argsort : list ef -> list nat.
  Variable numbered : nat -> string.
  Lemma draw_In : forall (fig : string -> res (list drawing)) names d, In d (fst (draw fig names)) ->
    exists n ds, In n names /\ fig n = Ok ds /\ In d ds.
  Proof.
    intros fig names d. induction names as [|n names IH]; cbn [draw]; [intros []|].
    destruct (fig n) as [ds|e] eqn:E; [|intros []]. destruct (draw fig names) as [more r] eqn:ED. cbn [fst] in *. intros H.
    apply in_app_or in H. destruct H as [H|H].
    - exists n, ds. split; [left; reflexivity|]. split; assumption.
    - destruct (IH H) as (n' & ds' & H1 & H2). exists n', ds'. split; [right; exact H1|exact H2].
  Qed.
  Lemma subjects_In : forall axes pt rs ds d, fig_subjects numbered axes pt rs = Ok ds -> In d ds ->
    (exists l, d = DSeries "observer_bias" (if memb String.eqb "ax_observer_bias"%string axes && memb String.eqb "ax_observer_inconsistency"%string axes
       then OnAxes "ax_observer_bias" else NewFigure (fst (plot_size (first_length sh_bias rs))) (nadd (nmul (snd (plot_size (first_length sh_bias rs))) (nofZ 2)) (nofZ 2))) l) \/
    (exists l, d = DSeries "observer_inconsistency" (if memb String.eqb "ax_observer_bias"%string axes && memb String.eqb "ax_observer_inconsistency"%string axes
       then OnAxes "ax_observer_inconsistency" else NewFigure (fst (plot_size (first_length sh_bias rs))) (nadd (nmul (snd (plot_size (first_length sh_bias rs))) (nofZ 2)) (nofZ 2))) l) \/
    (exists k l, d = DSeries k (OnAxes k) l /\ In k rejection_keys /\ In k axes) \/ (exists k l, d = DTicks k l).
  Proof.
    intros axes pt rs ds d H HI. unfold fig_subjects in H. cbv zeta in H.
    destruct (foldM _ rs _) as [st|] eqn:ES; [|discriminate]. cbn [bind] in H. injection H as <-.
    cbn [app] in HI. destruct HI as [<-|[<-|HI]].
    - left. eexists. reflexivity.
    - right. left. eexists. reflexivity.
    - right. right.
      assert (RK : forall key l, In key rejection_keys -> In d (if memb String.eqb key axes then [DSeries key (OnAxes key) l] else []) ->
        exists k l, d = DSeries k (OnAxes k) l /\ In k rejection_keys /\ In k axes).
      { intros key l HK Hd. destruct (memb String.eqb key axes) eqn:E; [|destruct Hd]. destruct Hd as [<-|[]]. exists key, l.
        split; [reflexivity|]. split; [exact HK|]. apply memb_axes; exact E. }
      apply in_app_or in HI. destruct HI as [HI|HI]; [left; eapply RK; [|exact HI]; left; reflexivity|].
      apply in_app_or in HI. destruct HI as [HI|HI]; [left; eapply RK; [|exact HI]; right; left; reflexivity|].
      apply in_app_or in HI. destruct HI as [HI|HI]; [left; eapply RK; [|exact HI]; right; right; left; reflexivity|].
      right. destruct (sf_ticks st) as [o|]; [destruct HI as [<-|[]]; do 2 eexists; reflexivity|].
      destruct (sf_len st) as [[|n]|]; [destruct HI| |destruct HI].
      destruct HI as [<-|HI]; [do 2 eexists; reflexivity|].
      assert (TK : forall (c : bool) key t, In d (if c then [DTicks key t] else []) -> exists k l, d = DTicks k l)
        by (intros [] key t Hd; [destruct Hd as [<-|[]]; do 2 eexists; reflexivity|destruct Hd]).
      apply in_app_or in HI. destruct HI as [HI|HI]; [exact (TK _ _ _ HI)|].
      apply in_app_or in HI. destruct HI as [HI|HI]; [exact (TK _ _ _ HI)|].
      apply in_app_or in HI. destruct HI as [HI|HI]; [exact (TK _ _ _ HI)|destruct HI].
  Qed.

  Ltac names H := cbn in H; repeat (destruct H as [<-|H]; [|]); [.. |destruct H].
  Lemma figure_In : forall axes pt sort a refs rs n ds d, In n plot_names -> figure argsort numbered axes pt sort a refs rs n = Ok ds -> In d ds ->
    (In "ax_observer_bias"%string axes <-> In "ax_observer_inconsistency"%string axes) ->
    well_placed axes rs d \/ exists pts k, d = DCounts "raw_counts_per_subject" (placed axes "raw_counts_per_subject" (plot_size (Some k))) pts k.
  Proof.
    intros axes pt sort a refs rs n ds d HN H HI HB. unfold plot_names in HN.
    repeat (destruct HN as [<-|HN]; [unfold figure in H; cbn [String.eqb Ascii.eqb Bool.eqb] in H|]); [..|destruct HN].
    - injection H as <-. destruct HI as [<-|[]]. left. apply placed_own. exact (imshow_inches (dS a) (dE a)).
    - unfold fig_raw_counts in H. cbv zeta in H. destruct (counts_of _) as [pts|]; [|discriminate]. cbn [bind] in H. injection H as <-. destruct HI as [<-|[]].
      left. apply placed_own. apply plot_inches3.
    - unfold fig_raw_counts_per_subject in H. cbv zeta in H. destruct (counts_of _) as [pts|]; [|discriminate]. cbn [bind] in H. injection H as <-. destruct HI as [<-|[]].
      right. do 2 eexists. reflexivity.
    - injection H as <-. apply in_flat_map in HI. destruct HI as (r & _ & HI). destruct (sh_quality r); [|destruct HI]. destruct HI as [<-|[]].
      left. apply placed_own. apply imshow_inches.
    - injection H as <-. apply in_flat_map in HI. destruct HI as (r & _ & HI). destruct (sh_quality r); [|destruct HI]. destruct (sh_bias r); [|destruct HI]. destruct HI as [<-|[]].
      left. apply placed_own. apply imshow_inches.
    - left. unfold fig_quality_vs_raw in H. cbv zeta in H. destruct (assert_ _) as [[]|]; [|discriminate]. cbn [bind] in H.
      destruct (flat_map _ _); [discriminate|]. cbn [bind] in H.
      match type of H with bind (mapM ?f rs) _ = _ => assert (HG : forall r x, f r = Ok x -> forall d, In d x -> well_placed axes rs d); [|destruct (mapM f rs) as [xs|] eqn:EM; [|discriminate]] end.
      { intros r x Hx d' Hd. destruct (sh_quality r); [|injection Hx as <-; destruct Hd].
        destruct (nisnan _); [discriminate|]. destruct (Nat.leb _ _); [|discriminate]. injection Hx as <-. destruct Hd as [<-|[]]. exact I. }
      cbn [bind] in H. injection H as <-. apply in_concat in HI. destruct HI as (x & Hx & HI).
      destruct (In_nth_error _ _ Hx) as (k & Hk). destruct (BaseProofs.mapM_nth_inv _ _ _ _ _ _ _ EM Hk) as (r & _ & Hr). exact (HG r x Hr d HI).
    - unfold fig_quality in H. destruct rs as [|r rs']; [discriminate|]. destruct (sh_quality r) as [q|]; [|discriminate]. cbv zeta in H.
      destruct (quality_series _ _ _ _) as [l|]; [|discriminate]. cbn [bind] in H. injection H as <-. destruct HI as [<-|[]].
      left. left. split; [reflexivity|]. apply placed_own. apply entry3.
    - left. destruct (subjects_In _ _ _ _ _ H HI) as [(l & ->)|[(l & ->)|[(k & l & -> & K1 & K2)|(k & l & ->)]]].
      + right. right. left. split; [left; reflexivity|].
        destruct (memb String.eqb "ax_observer_bias"%string axes) eqn:E1; destruct (memb String.eqb "ax_observer_inconsistency"%string axes) eqn:E2; cbn [andb].
        * split; [reflexivity|]. intros K. apply memb_axes in E1. contradiction.
        * apply memb_axes in E1. apply HB in E1. apply memb_axes in E1. congruence.
        * apply memb_axes in E2. apply HB in E2. apply memb_axes in E2. congruence.
        * split; [intros K; apply memb_axes in K; cbn [append] in K; congruence|]. intros _. do 2 eexists. split; [reflexivity|]. apply entry8.
      + right. right. left. split; [right; reflexivity|].
        destruct (memb String.eqb "ax_observer_bias"%string axes) eqn:E1; destruct (memb String.eqb "ax_observer_inconsistency"%string axes) eqn:E2; cbn [andb].
        * split; [reflexivity|]. intros K. apply memb_axes in E2. contradiction.
        * apply memb_axes in E1. apply HB in E1. apply memb_axes in E1. congruence.
        * apply memb_axes in E2. apply HB in E2. apply memb_axes in E2. congruence.
        * split; [intros K; apply memb_axes in K; cbn [append] in K; congruence|]. intros _. do 2 eexists. split; [reflexivity|]. apply entry8.
      + right. right. right. split; [exact K1|]. split; [exact K2|reflexivity].
      + exact I.
    - unfold fig_contents in H. destruct (content_series _ _ _) as [l|]; [|discriminate]. cbn [bind] in H. cbv zeta in H.
      assert (HD : d = DSeries "content_ambiguity" (placed axes "ax_content_ambiguity" (plot_size (first_length sh_ambiguity rs))) l \/ exists t, d = DTicks "content_ambiguity" t).
      { destruct (last _ _); [injection H as <-; destruct HI as [<-|[]]; left; reflexivity|].
        destruct (foldM _ _ _) as [t|]; [|discriminate]. cbn [bind] in H. injection H as <-. destruct HI as [<-|[<-|[]]]; [left; reflexivity|right; eexists; reflexivity]. }
      left. destruct HD as [->|(t & ->)]; [|exact I]. right. left. split; [reflexivity|]. apply placed_own. apply entry3.
  Qed.

  Lemma c134_placed : forall d0 axes pt sort a refs rs d, In d (fst (draw_all argsort numbered d0 axes pt sort a refs rs)) ->
    (In "ax_observer_bias"%string axes <-> In "ax_observer_inconsistency"%string axes) ->
    (forall p pts k, d <> DCounts "raw_counts_per_subject" p pts k) -> well_placed axes rs d.
  Proof.
    intros d0 axes pt sort a refs rs d HI HB HN. destruct (draw_In _ _ _ HI) as (n & ds & Hn & HF & Hd).
    apply filter_In in Hn. destruct (figure_In _ _ _ _ _ _ _ _ _ (proj1 Hn) HF Hd HB) as [H|(pts & k & H)]; [exact H|]. destruct (HN _ _ _ H).
  Qed.
  Lemma c134_per_subject : forall axes (a : arr3 ef) ds d, fig_raw_counts_per_subject axes a = Ok ds -> In d ds ->
    exists p pts k, d = DCounts "raw_counts_per_subject" p pts k /\ on_own_axes axes "raw_counts_per_subject" p (plot_inches k 3).
  Proof.
    intros axes a ds d H HI. unfold fig_raw_counts_per_subject in H. cbv zeta in H. destruct (counts_of _) as [pts|]; [|discriminate]. cbn [bind] in H. injection H as <-. destruct HI as [<-|[]].
    do 3 eexists. split; [reflexivity|]. apply placed_own. apply plot_inches3.
  Qed.

  (** ** No axes twice *)
  Definition figure_keys (n : string) : list string :=
    if String.eqb n "raw_counts_per_subject" then ["raw_counts_per_subject"%string]
    else if String.eqb n "subject_scores" then ["ax_observer_bias"; "ax_observer_inconsistency"; "ax_rejected"; "ax_rejected_1st_stats"; "ax_rejected_2nd_stats"]%string
    else if String.eqb n "content_scores" then ["ax_content_ambiguity"%string]
    else ["ax_" ++ n]%string.
  Lemma sublist_nil : forall A (l : list A), sublist [] l.
  Proof. induction l; [constructor|apply sub_drop; assumption]. Qed.
  Lemma sublist_app : forall A (l1 l2 m1 m2 : list A), sublist l1 m1 -> sublist l2 m2 -> sublist (l1 ++ l2) (m1 ++ m2).
  Proof. intros A l1 l2 m1 m2 H1 H2. induction H1; cbn [app]; [exact H2|apply sub_take; assumption|apply sub_drop; assumption]. Qed.
  Lemma sublist_in : forall A (l m : list A), sublist l m -> forall x, In x l -> In x m.
  Proof. induction 1; intros y Hy; [destruct Hy|destruct Hy as [<-|Hy]; [left; reflexivity|right; auto]|right; auto]. Qed.
  Lemma sublist_NoDup : forall A (l m : list A), sublist l m -> NoDup m -> NoDup l.
  Proof.
    induction 1 as [|x l l' H IH|x l l' H IH]; intros HN; [constructor| |]; inversion HN; subst.
    - constructor; [intros K; apply (sublist_in _ _ _ H) in K; contradiction|auto].
    - auto.
  Qed.
  Lemma axes_used_app : forall l m, axes_used (l ++ m) = axes_used l ++ axes_used m.
  Proof. intros. unfold axes_used. apply flat_map_app. Qed.
  Lemma placed_used : forall axes k size, sublist (match placed (T := ef) axes k size with OnAxes k' => [k'] | NewFigure _ _ => [] end) [k].
  Proof. intros. unfold placed. destruct (memb _ _ _); [repeat constructor|apply sublist_nil]. Qed.
  Lemma figure_axes : forall axes pt sort a refs rs n ds, length rs <= 1 -> In n plot_names -> figure argsort numbered axes pt sort a refs rs n = Ok ds ->
    sublist (axes_used ds) (figure_keys n).
  Proof.
    intros axes pt sort a refs rs n ds HL HN H. unfold plot_names in HN.
    assert (ONE : forall (f : shown -> list drawing) k, (forall r, sublist (axes_used (f r)) [k]) -> sublist (axes_used (flat_map f rs)) [k]).
    { intros f k Hf. destruct rs as [|r [|r' rs]]; [apply sublist_nil| |cbn in HL; lia]. cbn [flat_map]. rewrite app_nil_r. apply Hf. }
    repeat (destruct HN as [<-|HN]; [unfold figure in H; cbn [String.eqb Ascii.eqb Bool.eqb] in H; unfold figure_keys; cbn [String.eqb Ascii.eqb Bool.eqb]|]); [..|destruct HN].
    - injection H as <-. cbn [axes_used flat_map place_of]. rewrite app_nil_r. apply placed_used.
    - unfold fig_raw_counts in H. cbv zeta in H. destruct (counts_of _) as [pts|]; [|discriminate]. cbn [bind] in H. injection H as <-.
      cbn [axes_used flat_map place_of]. rewrite app_nil_r. apply placed_used.
    - unfold fig_raw_counts_per_subject in H. cbv zeta in H. destruct (counts_of _) as [pts|]; [|discriminate]. cbn [bind] in H. injection H as <-.
      cbn [axes_used flat_map place_of]. rewrite app_nil_r. apply placed_used.
    - injection H as <-. apply ONE. intros r. destruct (sh_quality r); [|apply sublist_nil]. cbv zeta. cbn [axes_used flat_map place_of]. rewrite app_nil_r. apply placed_used.
    - injection H as <-. apply ONE. intros r. destruct (sh_quality r); [|apply sublist_nil]. destruct (sh_bias r); [|apply sublist_nil]. cbv zeta. cbn [axes_used flat_map place_of]. rewrite app_nil_r. apply placed_used.
    - assert (K : axes_used ds = []); [|rewrite K; apply sublist_nil].
      unfold fig_quality_vs_raw in H. cbv zeta in H. destruct (assert_ _) as [[]|]; [|discriminate]. cbn [bind] in H.
      destruct (flat_map _ _); [discriminate|]. cbn [bind] in H.
      match type of H with bind (mapM ?f rs) _ = _ => assert (HG : forall r x, f r = Ok x -> axes_used x = []); [|destruct (mapM f rs) as [xs|] eqn:EM; [|discriminate]] end.
      { intros r x Hx. destruct (sh_quality r); [|injection Hx as <-; reflexivity].
        destruct (nisnan _); [discriminate|]. destruct (Nat.leb _ _); [|discriminate]. injection Hx as <-. reflexivity. }
      cbn [bind] in H. injection H as <-. apply BaseProofs.mapM_Ok in EM. clear - EM HG. induction EM as [|r x u u' Hx EM IH]; [reflexivity|]. cbn [concat]. rewrite axes_used_app, (HG _ _ Hx). exact IH.
    - unfold fig_quality in H. destruct rs as [|r rs']; [discriminate|]. destruct (sh_quality r) as [q|]; [|discriminate]. cbv zeta in H.
      destruct (quality_series _ _ _ _) as [l|]; [|discriminate]. cbn [bind] in H. injection H as <-. cbn [axes_used flat_map place_of]. rewrite app_nil_r. apply placed_used.
    - unfold fig_subjects in H. cbv zeta in H. destruct (foldM _ rs _) as [st|] eqn:ES; [|discriminate]. cbn [bind] in H. injection H as <-.
      match goal with |- sublist (axes_used (?x :: ?y :: ?rest)) _ => change (axes_used (x :: y :: rest)) with (axes_used ([x; y] ++ rest)) end.
      rewrite !axes_used_app.
      match goal with |- sublist (_ ++ _ ++ _ ++ _ ++ axes_used ?t) _ => assert (HT : axes_used t = []) end.
      { destruct (sf_ticks st); [reflexivity|]. destruct (sf_len st) as [[|n]|]; [reflexivity| |reflexivity].
        cbn [flat_map]. destruct (memb String.eqb "ax_rejected"%string axes), (memb String.eqb "ax_rejected_1st_stats"%string axes), (memb String.eqb "ax_rejected_2nd_stats"%string axes); reflexivity. }
      rewrite HT, app_nil_r. clear HT ES ONE.
      change ["ax_observer_bias"; "ax_observer_inconsistency"; "ax_rejected"; "ax_rejected_1st_stats"; "ax_rejected_2nd_stats"]%string with
        (["ax_observer_bias"; "ax_observer_inconsistency"]%string ++ ["ax_rejected"%string] ++ ["ax_rejected_1st_stats"%string] ++ ["ax_rejected_2nd_stats"%string]).
      apply sublist_app; [|apply sublist_app; [|apply sublist_app]].
      + destruct (memb String.eqb "ax_observer_bias"%string axes && memb String.eqb "ax_observer_inconsistency"%string axes); cbn; [repeat constructor|apply sublist_nil].
      + destruct (memb _ _ _); cbn; [repeat constructor|apply sublist_nil].
      + destruct (memb _ _ _); cbn; [repeat constructor|apply sublist_nil].
      + destruct (memb _ _ _); cbn; [repeat constructor|apply sublist_nil].
    - unfold fig_contents in H. destruct (content_series _ _ _) as [l|]; [|discriminate]. cbn [bind] in H. cbv zeta in H.
      destruct (last _ _); [|destruct (foldM _ _ _) as [t|]; [|discriminate]; cbn [bind] in H]; injection H as <-; cbn [axes_used flat_map place_of]; rewrite app_nil_r; apply placed_used.
  Qed.
  Lemma draw_axes : forall fig names, (forall n ds, In n names -> fig n = Ok ds -> sublist (axes_used ds) (figure_keys n)) ->
    sublist (axes_used (fst (draw fig names))) (flat_map figure_keys names).
  Proof.
    intros fig names. induction names as [|n names IH]; intros H; cbn [draw flat_map]; [apply sublist_nil|].
    destruct (fig n) as [ds|e] eqn:E; [|apply sublist_nil]. destruct (draw fig names) as [more r]. cbn [fst] in *. rewrite axes_used_app.
    apply sublist_app; [apply H; [left; reflexivity|exact E]|]. apply IH. intros n' ds' Hn. apply H. right. exact Hn.
  Qed.
  Lemma filter_keys : forall f names, sublist (flat_map figure_keys (filter f names)) (flat_map figure_keys names).
  Proof.
    intros f names. induction names as [|n names IH]; [constructor|]. cbn [filter flat_map]. destruct (f n); cbn [flat_map].
    - apply sublist_app; [|exact IH]. clear. induction (figure_keys n); constructor; assumption.
    - change (flat_map figure_keys (filter f names)) with ([] ++ flat_map figure_keys (filter f names)). apply sublist_app; [apply sublist_nil|exact IH].
  Qed.
  Lemma c134_shared : forall d0 axes pt sort a refs rs, length rs <= 1 -> NoDup (axes_used (fst (draw_all argsort numbered d0 axes pt sort a refs rs))).
  Proof.
    intros d0 axes pt sort a refs rs HL. unfold draw_all. eapply sublist_NoDup; [apply draw_axes|].
    - intros n ds Hn HF. apply filter_In in Hn. exact (figure_axes _ _ _ _ _ _ _ _ HL (proj1 Hn) HF).
    - eapply sublist_NoDup; [apply filter_keys|]. cbn. repeat (constructor; [cbn; intuition discriminate|]). constructor.
  Qed.
End Drawn.

(** ** Witnesses *)
Lemma g_prefix : forall argsort numbered, exists w h pts,
  draw_all argsort numbered (PList ["raw_counts_per_subject"%string]) ["ax_raw_counts_per_subject"%string] PError false g_votes [] [] =
  ([DCounts "raw_counts_per_subject" (NewFigure w h) pts 3], Ok tt).
Proof.
  intros argsort numbered. destruct (c96_raw_counts_subject ["ax_raw_counts_per_subject"%string] g_votes g_finite) as [(p & pts & E & _)|(_ & E)].
  - unfold draw_all. cbn [filter plot_names wanted memb existsb String.eqb Ascii.eqb Bool.eqb orb draw]. unfold figure. cbn [String.eqb Ascii.eqb Bool.eqb]. rewrite E.
    assert (E' := E). unfold fig_raw_counts_per_subject in E'. cbv zeta in E'. destruct (counts_of _) as [pts'|]; [|discriminate]. cbn [bind] in E'. injection E' as <- <-.
    do 3 eexists. reflexivity.
  - specialize (E 0 0 ltac:(cbn; lia) ltac:(cbn; lia)). discriminate.
Qed.
Lemma g_half : forall argsort numbered, exists w h l rest,
  draw_all argsort numbered (PList ["subject_scores"%string]) ["ax_observer_bias"%string] PError false g_votes [] [g_res "MOS"] =
  (DSeries "observer_bias" (NewFigure w h) l :: rest, Ok tt).
Proof. intros. do 4 eexists. reflexivity. Qed.
Lemma g_over : forall argsort numbered, exists m m',
  draw_all argsort numbered (PList ["raw_scores_minus_quality_scores"%string]) ["ax_raw_scores_minus_quality_scores"%string] PError false g_votes [] [g_res "MOS"; g_res "MLE"] =
  ([DImage "raw_scores_minus_quality_scores" (Some "MOS"%string) (OnAxes "ax_raw_scores_minus_quality_scores") m;
    DImage "raw_scores_minus_quality_scores" (Some "MLE"%string) (OnAxes "ax_raw_scores_minus_quality_scores") m'], Ok tt).
Proof. intros. do 2 eexists. reflexivity. Qed.
Lemma g_on_axes : forall argsort numbered, exists m,
  draw_all argsort numbered (PList ["raw_scores"%string]) ["ax_raw_scores"%string] PError false g_votes [] [g_res "MOS"] =
  ([DImage "raw_scores" None (OnAxes "ax_raw_scores") m], Ok tt).
Proof. intros. eexists. reflexivity. Qed.
