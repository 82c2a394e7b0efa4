(** Checked results, and the sections after a number of results. *)
From Coq Require Import String.
From Coq Require Import List ZArith Bool Arith Lia Sorted Permutation.
From Verif Require Import PyBase BaseProofs Dataset Routine SpecRoutine RoutineProofs Routine2Proofs.
Import ListNotations.
Local Open Scope list_scope.

Section Results.
  Context {V : Type}.
  Variable refs : list rvideo.
  Implicit Types (r : mresult V) (s : sectn V).

  (** ** What is written, part by part *)
  Definition onames r (p : part) : list string :=
    match p with
    | Videos => match r_names r with Some l => l | None => [] end
    | Observers => match r_bias r, r_observers r with Some _, Some o => o | _, _ => [] end
    | Contents => match r_ambiguity r, r_contents r with Some _, Some c => c | _, _ => [] end
    end.
  Definition col_cells (c : option (column V)) : list (cell V) := match c with Some (Some l) => map CVal l | _ => [] end.
  Definition ci_cells (c : option (margins V)) : list (cell V) := match c with Some (Some rows) => map CTuple (zip_star rows) | _ => [] end.
  Definition cols r (p : part) : list (string * list (cell V)) :=
    match p with
    | Videos => [("quality_score"%string, col_cells (r_quality r)); ("quality_score_std"%string, col_cells (r_quality_std r)); ("quality_score_ci95"%string, ci_cells (r_quality_ci r))]
    | Observers =>
        match r_bias r with
        | None => []
        | Some _ => [("observer_bias"%string, col_cells (r_bias r)); ("observer_bias_std"%string, col_cells (r_bias_std r)); ("observer_bias_ci95"%string, ci_cells (r_bias_ci r));
                     ("observer_inconsistency"%string, col_cells (r_incons r)); ("observer_inconsistency_std"%string, col_cells (r_incons_std r)); ("observer_inconsistency_ci95"%string, ci_cells (r_incons_ci r));
                     ("observer_scores_mean"%string, col_cells (r_scores_mean r)); ("observer_scores_std"%string, col_cells (r_scores_std r))]
        end
    | Contents =>
        match r_ambiguity r with
        | None => []
        | Some _ => [("content_ambiguity"%string, col_cells (r_ambiguity r)); ("content_ambiguity_std"%string, col_cells (r_ambiguity_std r)); ("content_ambiguity_ci95"%string, ci_cells (r_ambiguity_ci r))]
        end
    end.
  Definition write_cols (t : string) (l : list (string * list (cell V))) (s : sectn V) : sectn V :=
    fold_left (fun s kc => write_cells t (fst kc) (snd kc) s) l s.
  Definition write_part (p : part) (t : string) r s : res (sectn V) :=
    do s <- write_names (onames r p) s; Ok (write_cols t (cols r p) s).

  Definition len_of r (p : part) : nat := length (onames r p).

  Lemma cols_keys : forall r p, NoDup (map fst (cols r p)).
  Proof.
    intros r p. destruct p; cbn [cols]; [|destruct (r_bias r)|destruct (r_ambiguity r)]; cbn [map fst]; repeat constructor; cbn [In]; intuition discriminate.
  Qed.

  Lemma col_cells_at : forall c i x, nth_error (col_cells c) i = Some x <-> exists y, x = CVal y /\ has_at c i y.
  Proof.
    intros [[l|]|] i x; cbn [col_cells]; unfold has_at.
    - rewrite nth_error_map. destruct (nth_error l i) eqn:E; cbn; split.
      + intro H. injection H as <-. eauto 6.
      + intros (y & -> & l' & H & N). injection H as <-. congruence.
      + discriminate.
      + intros (y & -> & l' & H & N). injection H as <-. congruence.
    - split; [destruct i; discriminate|]. intros (y & _ & l' & H & _). discriminate.
    - split; [destruct i; discriminate|]. intros (y & _ & l' & H & _). discriminate.
  Qed.
  Lemma ci_cells_at : forall n c i x, ci_fits n c -> (nth_error (ci_cells c) i = Some x <-> exists a b, x = CTuple [a; b] /\ has_pair_at c i a b).
  Proof.
    intros n [[[|lo [|hi [|z rows]]]|]|] i x F; cbn [ci_fits] in F; try contradiction; unfold has_pair_at; cbn [ci_cells].
    - rewrite zip2, map_map, nth_error_map. destruct (nth_error (combine lo hi) i) as [[a b]|] eqn:E; cbn; split.
      + intro H. injection H as <-. apply nth_combine in E. destruct E. eauto 10.
      + intros (a' & b' & -> & lo' & hi' & H & Ha & Hb). injection H as <- <-. apply nth_combine in E. destruct E. cbn in *. congruence.
      + discriminate.
      + intros (a' & b' & -> & lo' & hi' & H & Ha & Hb). injection H as <- <-. assert (X : nth_error (combine lo hi) i = Some (a', b')) by (apply nth_combine; auto). congruence.
    - split; [destruct i; discriminate|]. intros (a & b & _ & lo & hi & H & _). discriminate.
  Qed.
  Lemma col_cells_len : forall n c, col_fits n c -> length (col_cells c) <= n.
  Proof. intros n [[l|]|] F; cbn in *; [rewrite map_length; lia|lia|lia]. Qed.
  Lemma ci_cells_len : forall n c, ci_fits n c -> length (ci_cells c) <= n.
  Proof. intros n [[[|lo [|hi [|z rows]]]|]|] F; cbn [ci_fits] in F; try contradiction; cbn [ci_cells]; [rewrite map_length, zip2_length; lia|cbn; lia]. Qed.

  (** ** The completed result *)
  Record completed r r' : Prop := Completed {
    cm_names : forall p i n, names refs r p i n <-> nth_error (onames r' p) i = Some n;
    cm_cols : forall p, cols r' p = cols r p;
    cm_aic : r_aic r' = r_aic r;
    cm_bic : r_bic r' = r_bic r;
    cm_nq : r_names r' <> None;
    cm_obs : r_bias r' <> None -> r_observers r' <> None;
    cm_con : r_ambiguity r' <> None -> r_contents r' <> None;
    cm_len : forall p k cs, In (k, cs) (cols r' p) -> length cs <= len_of r' p;
    cm_some : forall p k i c, (exists cs, In (k, cs) (cols r' p) /\ nth_error cs i = Some c) <-> says r p i k c;
    cm_write : forall t v o c, write_videos t r' v = write_part Videos t r' v /\ write_observers t r' o = write_part Observers t r' o /\
                 write_contents t r' c = write_part Contents t r' c }.

  Lemma bind_tt : forall A (m : res unit) (k : res A) x, (do _ <- m; k) = Ok x <-> m = Ok tt /\ k = Ok x.
  Proof. intros A [[]|e] k x; cbn; split; [auto|tauto|discriminate|intros [? ?]; discriminate]. Qed.
  Lemma bind_unit_err : forall A (m : res unit) (k : res A) e, (do _ <- m; k) = Err e -> m = Err e \/ k = Err e.
  Proof. intros A [[]|e'] k e H; cbn in H; [right; exact H|left; congruence]. Qed.
  Lemma length_obs : forall n, length (map observer_name (seq 0 n)) = n.
  Proof. intros. rewrite map_length, seq_length. reflexivity. Qed.

  Lemma check_quality_ok : forall r, check_quality r = Ok tt <-> videos_fit r.
  Proof.
    intro r. unfold check_quality, videos_fit. destruct (r_quality r) as [[q|]|]; destruct (r_names r) as [ns|]; cbn [items bind];
      try (split; [discriminate|intros (? & ? & ? & ? & _); discriminate]).
    rewrite !bind_tt, assert_eqb, check_col_ok, check_ci_ok. split.
    - intros (H1 & H2 & H3). exists q, ns. auto.
    - intros (q' & ns' & E1 & E2 & H). injection E1 as <-. injection E2 as <-. exact H.
  Qed.
  Lemma check_quality_err : forall r e, no_none r -> check_quality r = Err e -> e = AssertionError.
  Proof.
    intros r e (N1 & N2 & N3 & _) H. unfold check_quality in H. destruct (r_quality r) as [[q|]|]; [|exfalso; apply N1; reflexivity|congruence].
    destruct (r_names r); [|congruence]. cbn [items bind] in H.
    apply bind_unit_err in H. destruct H as [H|H]; [apply assert_err in H; exact H|].
    apply bind_unit_err in H. destruct H as [H|H]; [apply check_col_err in H; assumption|apply check_ci_err in H; assumption].
  Qed.

  Definition obs_of r : mresult V :=
    match r_bias r, r_observers r with
    | Some (Some l), None => set_observers r (map observer_name (seq 0 (length l)))
    | _, _ => r
    end.
  Lemma check_observers_ok : forall r r', check_observers r = Ok r' <-> observers_fit r /\ r' = obs_of r.
  Proof.
    intros r r'. unfold check_observers, observers_fit, obs_of. destruct (r_bias r) as [[b|]|]; destruct (r_observers r) as [o|]; cbn [items bind];
      try (split; [discriminate|tauto]); try (split; [intro H; injection H as <-; auto|intros [_ ->]; reflexivity]).
    - destruct (Nat.eqb_spec (length o) (length b)) as [E|E]; cbn [assert_ bind].
      + rewrite !bind_tt, !check_col_ok, !check_ci_ok. split.
        * intros (H1 & H2 & H3 & H4 & H5 & H6 & H7 & H8). injection H8 as <-. split; [|reflexivity]. split; [intros o' Ho; injection Ho as <-; exact E|tauto].
        * intros [(_ & H) ->]. tauto.
      + split; [discriminate|]. intros [(H & _) _]. exfalso. apply E. apply H. reflexivity.
    - rewrite !bind_tt, !check_col_ok, !check_ci_ok. split.
      + intros (H1 & H2 & H3 & H4 & H5 & H6 & H7 & H8). injection H8 as <-. split; [|reflexivity]. split; [discriminate|tauto].
      + intros [(_ & H) ->]. tauto.
  Qed.
  Lemma check_observers_err : forall r e, no_none r -> check_observers r = Err e -> e = AssertionError.
  Proof.
    intros r e (_ & _ & _ & N4 & N5 & N6 & N7 & N8 & N9 & N10 & N11 & _) H. unfold check_observers in H.
    destruct (r_bias r) as [[b|]|]; [|exfalso; apply N4; reflexivity|discriminate].
    assert (H' : assert_ true = Err e \/ (exists r', (do _ <- check_col (Some b) (r_bias_std r); do _ <- check_ci (Some b) (r_bias_ci r); do _ <- check_col (Some b) (r_incons r);
        do _ <- check_col (Some b) (r_incons_std r); do _ <- check_ci (Some b) (r_incons_ci r); do _ <- check_col (Some b) (r_scores_mean r);
        do _ <- check_col (Some b) (r_scores_std r); Ok r') = Err e) \/ e = AssertionError).
    { destruct (r_observers r) as [o|]; cbn [items bind] in H; [|eauto].
      destruct (Nat.eqb (length o) (length b)); cbn [assert_ bind] in H; [eauto|injection H as <-; auto]. }
    clear H. destruct H' as [H|[[r' H]|H]]; [discriminate| |exact H].
    repeat (apply bind_unit_err in H; destruct H as [H|H]; [first [apply check_col_err in H; assumption|apply check_ci_err in H; assumption]|]). discriminate.
  Qed.
  Definition with_contents r r' : Prop :=
    (r_ambiguity r = None /\ r' = r) \/ (r_ambiguity r <> None /\ exists cs, contents_in_order refs cs /\ r' = set_contents r cs).
  Lemma check_contents_ok : forall r r', check_contents refs r = Ok r' <-> contents_fit refs r /\ with_contents r r'.
  Proof.
    intros r r'. unfold check_contents, contents_fit, with_contents. destruct (r_ambiguity r) as [[a|]|].
    - destruct (contents_of refs) as [cs|e] eqn:E; cbn [bind items].
      + apply contents_of_ok in E. destruct E as [AN C]. rewrite !bind_tt, assert_eqb, check_col_ok, check_ci_ok. split.
        * intros (H1 & H2 & H3 & H4). injection H4 as <-. split; [eauto 6|]. right. split; [discriminate|eauto].
        * intros [(_ & (cs1 & C1 & L1) & H2 & H3) [[? _]|(_ & cs2 & C2 & ->)]]; [discriminate|].
          rewrite (contents_unique _ _ _ C1 C) in L1. rewrite (contents_unique _ _ _ C2 C). auto.
      + split; [discriminate|]. intros [(AN & _) _]. destruct (contents_of_total refs AN) as [cs Hc]. congruence.
    - split; [|tauto]. destruct (contents_of refs); discriminate.
    - split; [intro H; injection H as <-; auto|]. intros [_ [[_ ->]|[H _]]]; [reflexivity|contradiction].
  Qed.
  Lemma check_contents_err : forall r e, no_none r -> all_named refs -> check_contents refs r = Err e -> e = AssertionError.
  Proof.
    intros r e (_ & _ & _ & _ & _ & _ & _ & _ & _ & _ & _ & N1 & N2 & N3) AN H. unfold check_contents in H. destruct (r_ambiguity r) as [[a|]|]; [|exfalso; apply N1; reflexivity|discriminate].
    destruct (contents_of_total refs AN) as [cs Hc]. rewrite Hc in H. cbn [bind items] in H.
    apply bind_unit_err in H. destruct H as [H|H]; [apply assert_err in H; exact H|].
    apply bind_unit_err in H. destruct H as [H|H]; [apply check_col_err in H; assumption|].
    apply bind_unit_err in H. destruct H as [H|H]; [apply check_ci_err in H; assumption|discriminate].
  Qed.
  Lemma obs_of_fields : forall r,
    r_names (obs_of r) = r_names r /\ r_ambiguity (obs_of r) = r_ambiguity r /\ (contents_fit refs (obs_of r) <-> contents_fit refs r) /\ (no_none r -> no_none (obs_of r)).
  Proof. intro r. unfold obs_of. destruct (r_bias r) as [[b|]|] eqn:E; destruct (r_observers r); auto; cbn; tauto. Qed.
  Lemma check_result_ok : forall r r', check_result refs r = Ok r' <-> fits refs r /\ with_contents (obs_of r) r'.
  Proof.
    intros r r'. unfold check_result, fits. rewrite bind_tt, check_quality_ok. destruct (check_observers r) as [r1|e] eqn:E; cbn [bind].
    - apply check_observers_ok in E. destruct E as [F ->]. rewrite check_contents_ok. destruct (obs_of_fields r) as (_ & _ & C & _). rewrite C. tauto.
    - split; [intros [_ H]; discriminate|]. intros [(_ & F & _) _]. assert (X : check_observers r = Ok (obs_of r)) by (apply check_observers_ok; auto). congruence.
  Qed.
  Lemma check_result_total : forall r, fits refs r -> exists r', check_result refs r = Ok r'.
  Proof.
    intros r F. destruct (obs_of_fields r) as (_ & EA & _ & _). destruct (r_ambiguity r) as [a|] eqn:E.
    - assert (X : exists cs, contents_in_order refs cs).
      { destruct F as (_ & _ & F). unfold contents_fit in F. rewrite E in F. destruct a as [a|]; [|contradiction]. destruct F as (_ & (cs & C & _) & _). eauto. }
      destruct X as [cs C]. exists (set_contents (obs_of r) cs). apply check_result_ok. split; [exact F|]. right. rewrite EA. split; [discriminate|eauto].
    - exists (obs_of r). apply check_result_ok. split; [exact F|]. left. auto.
  Qed.
  Lemma check_result_err : forall r e, no_none r -> all_named refs -> check_result refs r = Err e -> e = AssertionError.
  Proof.
    intros r e N AN H. unfold check_result in H. apply bind_unit_err in H. destruct H as [H|H]; [eapply check_quality_err; eassumption|].
    destruct (check_observers r) as [r1|e1] eqn:E; cbn [bind] in H.
    - apply check_observers_ok in E. destruct E as [F ->]. eapply check_contents_err; [|exact AN|exact H]. apply obs_of_fields. exact N.
    - injection H as <-. eapply check_observers_err; eassumption.
  Qed.

  (** ** The checked result is the completed one *)
  Lemma col_fits_list : forall n (c : option (column V)), col_fits n c -> col_list c.
  Proof. intros n c F ->. exact F. Qed.
  Lemma ci_fits_list : forall n (c : option (margins V)), ci_fits n c -> ci_list c.
  Proof. intros n c F ->. exact F. Qed.
  Lemma write_col_eq : forall t k c s n, col_fits n c -> write_col t k c s = Ok (write_cells t k (col_cells c) s).
  Proof. intros t k [[l|]|] s n F; cbn in *; [reflexivity|contradiction|reflexivity]. Qed.
  Lemma write_ci_eq : forall t k c s n, ci_fits n c -> write_ci t k c s = Ok (write_cells t k (ci_cells c) s).
  Proof. intros t k [[l|]|] s n F; [reflexivity|destruct F|reflexivity]. Qed.

  Lemma cols_checked : forall r r', with_contents (obs_of r) r' ->
    (forall p, cols r' p = cols r p) /\ r_aic r' = r_aic r /\ r_bic r' = r_bic r /\ r_names r' = r_names r /\ r_bias r' = r_bias r /\ r_ambiguity r' = r_ambiguity r /\
    r_quality r' = r_quality r /\ r_quality_std r' = r_quality_std r /\ r_quality_ci r' = r_quality_ci r /\
    r_bias_std r' = r_bias_std r /\ r_bias_ci r' = r_bias_ci r /\ r_incons r' = r_incons r /\ r_incons_std r' = r_incons_std r /\ r_incons_ci r' = r_incons_ci r /\
    r_scores_mean r' = r_scores_mean r /\ r_scores_std r' = r_scores_std r /\ r_ambiguity_std r' = r_ambiguity_std r /\ r_ambiguity_ci r' = r_ambiguity_ci r /\
    r_observers r' = r_observers (obs_of r).
  Proof.
    intros r r' W. unfold obs_of in *. destruct W as [[_ ->]|(_ & cs & _ & ->)]; (destruct (r_bias r) as [[b|]|] eqn:EB; destruct (r_observers r) eqn:EO);
      (repeat split; try reflexivity; try (intros []; cbn; rewrite ?EB; reflexivity); cbn; congruence).
  Qed.
End Results.
