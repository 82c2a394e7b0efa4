(** From checked results to the formatted output. *)
From Coq Require Import String.
From Coq Require Import List ZArith Bool Arith Lia Sorted Permutation.
From Verif Require Import PyBase BaseProofs Dataset Routine SpecRoutine RoutineProofs Routine2Proofs Routine3Proofs.
Import ListNotations.
Local Open Scope list_scope.

Section Output.
  Context {V : Type}.
  Variable refs : list rvideo.
  Implicit Types (r : mresult V) (s : sectn V).
  Notation completed := (completed refs).

  Ltac col_says H := apply col_cells_at in H; destruct H as (? & -> & H).

  Lemma says_cols : forall r, fits refs r -> forall p k i c, (exists cs, In (k, cs) (cols r p) /\ nth_error cs i = Some c) <-> says r p i k c.
  Proof.
    intros r (FV & FO & FC) p k i c. split.
    - intros (cs & I & N). destruct p; cbn [cols] in I.
      + destruct FV as (q & ns & EQ & EN & _ & F1 & F2). cbn [In] in I. destruct I as [I|[I|[I|[]]]]; injection I as <- <-.
        * col_says N. constructor; exact N.
        * col_says N. constructor; exact N.
        * apply (ci_cells_at _ _ _ _ F2) in N. destruct N as (? & ? & -> & N). constructor; exact N.
      + unfold observers_fit in FO. destruct (r_bias r) as [[b|]|] eqn:EB; [|contradiction|destruct I].
        assert (NB : r_bias r <> None) by congruence. rewrite <- EB in I. destruct FO as (_ & F1 & F2 & F3 & F4 & F5 & F6 & F7).
        cbn [In] in I. destruct I as [I|[I|[I|[I|[I|[I|[I|[I|[]]]]]]]]]; injection I as <- <-;
          first [col_says N; constructor; assumption | apply (ci_cells_at (length b)) in N; [destruct N as (? & ? & -> & N); constructor; assumption|assumption]].
      + unfold contents_fit in FC. destruct (r_ambiguity r) as [[a|]|] eqn:EB; [|contradiction|destruct I].
        assert (NB : r_ambiguity r <> None) by congruence. rewrite <- EB in I. destruct FC as (_ & _ & F1 & F2).
        cbn [In] in I. destruct I as [I|[I|[I|[]]]]; injection I as <- <-;
          first [col_says N; constructor; assumption | apply (ci_cells_at (length a)) in N; [destruct N as (? & ? & -> & N); constructor; assumption|assumption]].
    - assert (HC : forall c i x, has_at c i x -> nth_error (col_cells c) i = Some (CVal (V := V) x)) by (intros; apply col_cells_at; eauto).
      assert (HP : forall n c i a b, ci_fits n c -> has_pair_at c i a b -> nth_error (ci_cells c) i = Some (CTuple (V := V) [a; b])) by (intros n c0 i0 a b F H; apply (ci_cells_at n); eauto).
      assert (CO : r_bias r <> None -> exists b, observers_fit r /\ r_bias r = Some (Some b)).
      { intro N. generalize FO. unfold observers_fit. destruct (r_bias r) as [[b|]|]; [eauto|contradiction|contradiction]. }
      assert (CC : r_ambiguity r <> None -> exists a, contents_fit refs r /\ r_ambiguity r = Some (Some a)).
      { intro N. generalize FC. unfold contents_fit. destruct (r_ambiguity r) as [[b|]|]; [eauto|contradiction|contradiction]. }
      destruct FV as (q & ns & EQ & EN & _ & FV1 & FV2).
      intro S; destruct S;
        try (destruct (CO ltac:(assumption)) as (bb & FO' & EB); unfold observers_fit in FO'; rewrite EB in FO'; destruct FO' as (_ & F1 & F2 & F3 & F4 & F5 & F6 & F7));
        try (destruct (CC ltac:(assumption)) as (aa & FC' & EA); unfold contents_fit in FC'; rewrite EA in FC'; destruct FC' as (_ & _ & F1 & F2));
        (eexists; split; [|first [apply HC; eassumption | eapply HP; [|eassumption]; eassumption]]; cbn [cols]; rewrite ?EB, ?EA; cbn [In]; rewrite <- ?EB, <- ?EA; tauto).
  Qed.

  Lemma completed_ok : forall r r', check_result refs r = Ok r' -> fits refs r /\ completed r r'.
  Proof.
    intros r r' H. apply check_result_ok in H. destruct H as [F W]. split; [exact F|].
    destruct (cols_checked refs r r' W) as (EC & Eaic & Ebic & En & Eb & Ea & Eq & Eqs & Eqc & Ebs & Ebc & Ev & Evs & Evc & Em & Ems & Eas & Eac & Eo).
    assert (EOB : forall b, r_bias r = Some (Some b) -> exists o, r_observers r' = Some o /\ length o = length b /\
      forall i n, nth_error o i = Some n <-> (exists o', r_observers r = Some o' /\ nth_error o' i = Some n) \/ (r_observers r = None /\ i < length b /\ n = observer_name i)).
    { intros b B. rewrite Eo. unfold obs_of. rewrite B. destruct F as (_ & FO & _). unfold observers_fit in FO. rewrite B in FO. destruct (r_observers r) as [o|] eqn:EO.
      - exists o. split; [exact EO|]. split; [apply FO; reflexivity|]. intros i n. split; [intro X; left; eauto|]. intros [(o' & X & Y)|(X & _)]; congruence.
      - eexists. split; [reflexivity|]. split; [apply length_obs|]. intros i n. rewrite nth_error_map. destruct (Nat.lt_ge_cases i (length b)) as [L|L].
        + rewrite (nth_error_nth' _ 0) by (rewrite seq_length; exact L). rewrite seq_nth by exact L. cbn [option_map Nat.add]. generalize (observer_name i). intro on. split; [intro X; right; split; [reflexivity|]; split; [exact L|]; congruence|]. intros [(o' & X & _)|(_ & _ & ->)]; [discriminate|reflexivity].
        + rewrite (proj2 (nth_error_None _ _)) by (rewrite seq_length; exact L). cbn [option_map]. split; [discriminate|]. intros [(o' & X & _)|(_ & X & _)]; [discriminate|lia]. }
    assert (ECO : forall a, r_ambiguity r = Some (Some a) -> exists cs, r_contents r' = Some cs /\ contents_in_order refs cs /\ length cs = length a).
    { intros a A. destruct W as [[X _]|(_ & cs & C & ->)]; [destruct (obs_of_fields refs r) as (_ & Y & _); congruence|]. exists cs. split; [reflexivity|]. split; [exact C|].
      destruct F as (_ & _ & FC). unfold contents_fit in FC. rewrite A in FC. destruct FC as (_ & (cs' & C' & L) & _). rewrite (contents_unique _ _ _ C C'). exact L. }
    assert (SC := says_cols r F). destruct F as (FV & FO & FC). destruct FV as (q & ns & EQ & EN & Lq & FV1 & FV2).
    constructor; try assumption.
    - intros p i n. destruct p; cbn [onames].
      + rewrite En, EN. split; [intro X; inversion X; congruence|]. intro X. econstructor; eassumption.
      + rewrite Eb. unfold observers_fit in FO. destruct (r_bias r) as [[b|]|] eqn:EB; [|contradiction|].
        * destruct (EOB b eq_refl) as (o & E1 & L & G). rewrite E1, G. split.
          -- intro X. inversion X; subst; [left; eauto|]. right. rewrite EB in *. match goal with [H : Some (Some _) = Some (Some _) |- _] => injection H as <- end. auto.
          -- intros [(o' & X & Y)|(X & Y & ->)]; [eapply names_observer; [congruence|eassumption|eassumption]|]. unfold observer_name. eapply names_default; eassumption.
        * split; [|destruct i; discriminate]. intro X. inversion X; congruence.
      + rewrite Ea. unfold contents_fit in FC. destruct (r_ambiguity r) as [[a|]|] eqn:EA; [|contradiction|].
        * destruct (ECO a eq_refl) as (cs & E1 & C & L). rewrite E1. split.
          -- intro X. inversion X; subst. match goal with [H : contents_in_order refs ?x |- _] => rewrite (contents_unique _ _ _ C H) end. assumption.
          -- intro X. econstructor; [congruence|exact C|exact X].
        * split; [|destruct i; discriminate]. intro X. inversion X; congruence.
    - congruence.
    - rewrite Eb. unfold observers_fit in FO. destruct (r_bias r) as [[b|]|] eqn:EB; [|contradiction|congruence]. destruct (EOB b eq_refl) as (o & E1 & _). congruence.
    - rewrite Ea. unfold contents_fit in FC. destruct (r_ambiguity r) as [[b|]|] eqn:EB; [|contradiction|congruence]. destruct (ECO b eq_refl) as (o & E1 & _). congruence.
    - intros p k cs I. rewrite EC in I. unfold len_of. destruct p; cbn [cols onames] in *.
      + rewrite En, EN, Lq. cbn [In] in I. destruct I as [I|[I|[I|[]]]]; injection I as <- <-; [apply col_cells_len; rewrite EQ; reflexivity|apply col_cells_len; assumption|apply ci_cells_len; assumption].
      + rewrite Eb. unfold observers_fit in FO. destruct (r_bias r) as [[b|]|] eqn:EB; [|contradiction|destruct I]. destruct (EOB b eq_refl) as (o & E1 & L & _). rewrite E1, L.
        destruct FO as (_ & F1 & F2 & F3 & F4 & F5 & F6 & F7). cbn [In] in I. destruct I as [I|[I|[I|[I|[I|[I|[I|[I|[]]]]]]]]]; injection I as <- <-;
          first [apply col_cells_len; assumption|apply ci_cells_len; assumption|rewrite map_length; apply Nat.le_refl].
      + rewrite Ea. unfold contents_fit in FC. destruct (r_ambiguity r) as [[b|]|] eqn:EB; [|contradiction|destruct I]. destruct (ECO b eq_refl) as (o & E1 & _ & L). rewrite E1, L.
        destruct FC as (_ & _ & F1 & F2). cbn [In] in I. destruct I as [I|[I|[I|[]]]]; injection I as <- <-;
          first [apply col_cells_len; assumption|apply ci_cells_len; assumption|rewrite map_length; apply Nat.le_refl].
    - intros p k i c. rewrite EC. apply SC.
    - intros t v o c. unfold write_part, write_videos, write_observers, write_contents, write_cols. rewrite !EC. cbn [onames cols]. split; [|split].
      + rewrite En, EN, Eq, Eqs, Eqc. cbn [write_opt_names]. destruct (write_names ns v); cbn [bind]; [|reflexivity].
        rewrite (write_col_eq _ _ _ _ (length q)) by (rewrite EQ; reflexivity). cbn [bind]. rewrite (write_col_eq _ _ _ _ (length q)) by assumption. cbn [bind].
        rewrite (write_ci_eq _ _ _ _ (length q)) by assumption. reflexivity.
      + rewrite Eb. unfold observers_fit in FO. destruct (r_bias r) as [[b|]|] eqn:EB; [|contradiction|].
        * destruct (EOB b eq_refl) as (ob & E1 & L & _). rewrite E1. cbn [write_opt_names]. destruct (write_names ob o); cbn [bind]; [|reflexivity].
          destruct FO as (_ & F1 & F2 & F3 & F4 & F5 & F6 & F7). rewrite Ebs, Ebc, Ev, Evs, Evc, Em, Ems.
          rewrite (write_col_eq _ _ _ _ (length b)) by reflexivity. cbn [bind].
          repeat first [rewrite (write_col_eq _ _ _ _ (length b)) by assumption | rewrite (write_ci_eq _ _ _ _ (length b)) by assumption | progress cbn [bind]]. reflexivity.
        * reflexivity.
      + rewrite Ea. unfold contents_fit in FC. destruct (r_ambiguity r) as [[b|]|] eqn:EB; [|contradiction|].
        * destruct (ECO b eq_refl) as (ob & E1 & _ & L). rewrite E1. cbn [write_opt_names]. destruct (write_names ob c); cbn [bind]; [|reflexivity].
          destruct FC as (_ & _ & F1 & F2). rewrite Eas, Eac.
          rewrite (write_col_eq _ _ _ _ (length b)) by reflexivity. cbn [bind].
          repeat first [rewrite (write_col_eq _ _ _ _ (length b)) by assumption | rewrite (write_ci_eq _ _ _ _ (length b)) by assumption | progress cbn [bind]]. reflexivity.
        * reflexivity.
  Qed.

  (** ** One section *)
  Lemma write_cols_spec : forall t l s n, dense s n -> NoDup (map fst l) -> (forall k cs, In (k, cs) l -> length cs <= n) ->
    let s' := write_cols t l s in
    dense s' n /\ (forall i, name_at s' i = name_at s i) /\
    (forall i t' k c, cell_at s' i t' k = Some c <-> (t' = t /\ exists cs, In (k, cs) l /\ nth_error cs i = Some c) \/
       (cell_at s i t' k = Some c /\ ~ (t' = t /\ exists cs, In (k, cs) l /\ i < length cs))).
  Proof.
    intros t l. unfold write_cols. induction l as [|[k0 cs0] l IH]; intros s n D ND L; cbn [fold_left fst snd].
    - split; [exact D|]. split; [reflexivity|]. intros i t' k c. split; [intro H; right; split; [exact H|]; intros (_ & cs & [] & _)|]. intros [(_ & cs & [] & _)|[H _]]. exact H.
    - cbn [map fst] in ND. inversion ND as [|? ? NI ND']; subst.
      destruct (write_cells_spec t k0 cs0 s n D) as (D1 & N1 & C1). rewrite Nat.max_l in D1 by (apply (L k0); left; reflexivity).
      destruct (IH _ n D1 ND' (fun k cs H => L k cs (or_intror H))) as (D2 & N2 & C2). split; [exact D2|]. split; [intro i; rewrite N2; apply N1|].
      intros i t' k c. rewrite C2, C1. clear C1 C2.
      destruct (String.eqb_spec t' t) as [->|NT]; cbn [andb].
      + destruct (String.eqb_spec k k0) as [->|NK].
        * assert (NO : forall cs, ~ In (k0, cs) l) by (intros cs Hc; apply NI; apply (in_map fst) in Hc; exact Hc).
          destruct (nth_error cs0 i) as [c0|] eqn:E.
          -- assert (Li : i < length cs0) by (apply nth_error_Some; congruence). split.
             ++ intros [(_ & cs & I & _)|[H _]]; [exfalso; eapply NO; exact I|]. injection H as <-. left. split; [reflexivity|]. exists cs0. split; [left; reflexivity|exact E].
             ++ intros [(_ & cs & [I|I] & N)|[_ H]]; [injection I as <-; right; split; [congruence|]; intros (_ & cs & I & _); eapply NO; exact I|exfalso; eapply NO; exact I|].
                exfalso. apply H. split; [reflexivity|]. exists cs0. split; [left; reflexivity|exact Li].
          -- assert (Li : length cs0 <= i) by (apply nth_error_None; exact E). split.
             ++ intros [(_ & cs & I & _)|[H _]]; [exfalso; eapply NO; exact I|]. right. split; [exact H|]. intros (_ & cs & [I|I] & X); [injection I as <-; lia|eapply NO; exact I].
             ++ intros [(_ & cs & [I|I] & N)|[H _]]; [injection I as <-; congruence|exfalso; eapply NO; exact I|]. right. split; [exact H|]. intros (_ & cs & I & _). eapply NO; exact I.
        * split.
          -- intros [(_ & cs & I & N)|[H X]]; [left; split; [reflexivity|]; exists cs; split; [right; exact I|exact N]|].
             right. split; [exact H|]. intros (_ & cs & [I|I] & Y); [injection I as <- <-; contradiction|apply X; split; [reflexivity|]; eauto].
          -- intros [(_ & cs & [I|I] & N)|[H X]]; [injection I as <- <-; contradiction|left; split; [reflexivity|]; eauto|].
             right. split; [exact H|]. intros (_ & cs & I & Y). apply X. split; [reflexivity|]. exists cs. split; [right; exact I|exact Y].
      + split; (intros [(X & _)|[H _]]; [contradiction|]; right; split; [exact H|]; intros (X & _); contradiction).
  Qed.
End Output.
