(** Proofs for claims C117-C119. *)
From Coq Require Import String.
From Coq Require Import List ZArith Bool Arith Reals Lra Lia.
From Verif Require Import PyBase Num ExtReal NumPy Perf Runs Names Converter SpecMos SpecScript Script BaseProofs DatasetProofs ExtRealProofs Perf3Proofs.
Import ListNotations.
Local Open Scope R_scope.

Section Draws.
  Context {G : Type} (rg : vrng ef G) (P : proper_vectors rg).
  Lemma uniform_draw : forall lo hi n g, lo <= hi -> exists l, fst (draw_uniform rg (Fin lo) (Fin hi) n g) = map Fin l /\ length l = n /\
    Forall (fun x => exists u, 0 <= u < 1 /\ x = lo + (hi - lo) * u) l.
  Proof.
    intros lo hi n g H. destruct (P n g) as [(us & E & L & F) _]. unfold draw_uniform. destruct (v_uniform rg n g) as [l g']. cbn [fst] in *. subst l.
    exists (map (fun u => lo + (hi - lo) * u) us). split; [rewrite !map_map; apply map_ext; intro; reflexivity|]. split; [rewrite map_length; exact L|].
    apply Forall_forall. intros x Hx. apply in_map_iff in Hx as (u & <- & Hu). exists u. split; [|reflexivity]. exact (proj1 (Forall_forall _ _) F u Hu).
  Qed.
  Lemma normal_draw : forall mu sd n g, exists l, fst (draw_normal rg (Fin mu) (Fin sd) n g) = map Fin l /\ length l = n /\
    Forall (fun x => exists z, x = mu + sd * z) l.
  Proof.
    intros mu sd n g. destruct (P n g) as [_ (zs & E & L)]. unfold draw_normal. destruct (v_normal rg n g) as [l g']. cbn [fst] in *. subst l.
    exists (map (fun z => mu + sd * z) zs). split; [rewrite !map_map; apply map_ext; intro; reflexivity|]. split; [rewrite map_length; exact L|].
    apply Forall_forall. intros x Hx. apply in_map_iff in Hx as (z & <- & Hz). exists z. reflexivity.
  Qed.
  Lemma all_zero : forall l, Forall (fun x => x = 0) l -> map Fin l = repeat (Fin 0) (length l).
  Proof. induction 1 as [|x l -> H IH]; [reflexivity|]. cbn. f_equal. exact IH. Qed.
  Lemma abs_all : forall l, Forall (fun x => 0 <= x) l -> map nabs (map Fin l) = map Fin l.
  Proof. induction 1 as [|x l H F IH]; [reflexivity|]. cbn. f_equal; [f_equal; apply Rabs_pos_eq; exact H|exact IH]. Qed.

  Lemma quality_draw : forall g, exists l, fst (draw_uniform rg (nofZ 1) (nofZ 5) 79 g) = map Fin l /\ length l = 79%nat /\ Forall (fun q => 1 <= q < 5) l.
  Proof.
    intros g. destruct (uniform_draw 1 5 79 g) as (l & E & L & F); [lra|]. exists l. split; [exact E|]. split; [exact L|].
    eapply Forall_impl; [|exact F]. intros x (u & Hu & ->). lra.
  Qed.
  Lemma unit_draws : forall n g, exists l, fst (draw_uniform rg nzero none_ n g) = map Fin l /\ length l = n /\ Forall (fun q => 0 <= q < 1) l.
  Proof.
    intros n g. destruct (uniform_draw 0 1 n g) as (l & E & L & F); [lra|]. exists l. split; [exact E|]. split; [exact L|].
    eapply Forall_impl; [|exact F]. intros x (u & Hu & ->). lra.
  Qed.
  Lemma zero_uniform : forall n g, map nabs (fst (draw_uniform rg nzero nzero n g)) = repeat (Fin 0) n.
  Proof.
    intros n g. destruct (uniform_draw 0 0 n g) as (l & E & L & F); [lra|].
    change (fst (draw_uniform rg nzero nzero n g) = map Fin l) in E. rewrite E.
    assert (Z : Forall (fun x => x = 0) l) by (eapply Forall_impl; [|exact F]; intros x (u & Hu & ->); lra).
    rewrite abs_all by (eapply Forall_impl; [|exact Z]; intros x ->; lra). rewrite all_zero by exact Z. rewrite L. reflexivity.
  Qed.
  Lemma zero_normal : forall n g, fst (draw_normal rg nzero nzero n g) = repeat (Fin 0) n.
  Proof.
    intros n g. destruct (normal_draw 0 0 n g) as (l & E & L & F).
    change (fst (draw_normal rg nzero nzero n g) = map Fin l) in E. rewrite E. rewrite all_zero; [rewrite L; reflexivity|].
    eapply Forall_impl; [|exact F]; intros x (z & ->); lra.
  Qed.

  Lemma ambiguity_ok : forall g, ambiguity_scenario (fst (ambiguity_params rg g)).
  Proof.
    intros g. unfold ambiguity_params. assert (Q := quality_draw g). destruct (draw_uniform rg (nofZ 1) (nofZ 5) 79 g) as [q g1]. cbn [fst] in Q.
    assert (B := zero_normal 30 g1). destruct (draw_normal rg nzero nzero 30 g1) as [b g2]. cbn [fst] in B. subst b.
    assert (I := zero_uniform 30 g2). destruct (draw_uniform rg nzero nzero 30 g2) as [i g3]. cbn [fst] in I. rewrite I.
    assert (CB := zero_normal 9 g3). destruct (draw_normal rg nzero nzero 9 g3) as [cb g4]. cbn [fst] in CB. subst cb.
    assert (CA := zero_uniform 9 g4). destruct (draw_uniform rg nzero nzero 9 g4) as [ca g5]. cbn [fst] in CA. rewrite CA.
    destruct (unit_draws 79 g5) as (l & E & L & F). destruct (draw_uniform rg nzero none_ 79 g5) as [qa g6]. cbn [fst] in E. subst qa.
    rewrite abs_all by (eapply Forall_impl; [|exact F]; intros x Hx; lra).
    destruct Q as (lq & Eq & Lq & Fq). cbn [fst]. split; [exists lq; rewrite <- Eq; split; [reflexivity|split; assumption]|].
    split; [reflexivity|]. split; [reflexivity|]. split; [reflexivity|]. split; [reflexivity|]. exists l. split; [reflexivity|]. split; [exact L|]. split; [exact F|].
    cbn [p_qstd]. f_equal. rewrite map_map. apply map_ext. intros x. rewrite repeat_length.
    assert (S : nsqrt (nofnat 30) = Fin (sqrt 30)).
    { unfold nofnat. change (nofZ (Z.of_nat 30)) with (Fin 30). change (nsqrt (Fin 30)) with (if Rltb 30 0 then NaN else Fin (sqrt 30)). unfold Rltb. destruct (Rlt_dec 30 0); [lra|reflexivity]. }
    rewrite S. assert (0 < sqrt 30) by (apply sqrt_lt_R0; lra). change (ef_div (Fin x) (Fin (sqrt 30)) = Fin (x / sqrt 30)). rewrite ef_div_Fin by lra. reflexivity.
  Qed.
  Lemma observer_ok : forall g, observer_scenario false (fst (observer_params rg g)).
  Proof.
    intros g. unfold observer_params. assert (Q := quality_draw g). destruct (draw_uniform rg (nofZ 1) (nofZ 5) 79 g) as [q g1]. cbn [fst] in Q.
    assert (B := normal_draw 0 1 30 g1). change (Fin 0) with (nzero : ef) in B. change (Fin 1) with (none_ : ef) in B. destruct (draw_normal rg nzero none_ 30 g1) as [b g2]. cbn [fst] in B.
    assert (I := unit_draws 30 g2). destruct (draw_uniform rg nzero none_ 30 g2) as [i g3]. cbn [fst] in I.
    assert (CB := zero_normal 9 g3). destruct (draw_normal rg nzero nzero 9 g3) as [cb g4]. cbn [fst] in CB. subst cb.
    assert (CA := zero_uniform 9 g4). destruct (draw_uniform rg nzero nzero 9 g4) as [ca g5]. cbn [fst] in CA. rewrite CA.
    destruct Q as (lq & Eq & Lq & Fq). destruct I as (li & Ei & Li & Fi). destruct B as (lb & Eb & Lb & _). subst q i b.
    rewrite abs_all by (eapply Forall_impl; [|exact Fi]; intros x Hx; lra). cbn [fst].
    split; [exists lq; split; [reflexivity|split; assumption]|]. split; [exists li; split; [reflexivity|split; assumption]|]. repeat (split; [reflexivity|]).
    exists lb. split; [reflexivity|]. split; [exact Lb|discriminate].
  Qed.
End Draws.

(** Subtracting the mean. *)
Lemma mean_zero_sum : forall b, b <> [] -> Rsum (map (fun x => x - Rmean b) b) = 0.
Proof.
  intros b H. assert (A : forall l c, Rsum (map (fun x => x - c) l) = Rsum l - INR (length l) * c).
  { induction l as [|x l IH]; intros c; [cbn; lra|]. cbn [map length]. rewrite S_INR. change (Rsum (x :: l)) with (x + Rsum l). change (Rsum (x - c :: map (fun x0 => x0 - c) l)) with (x - c + Rsum (map (fun x0 => x0 - c) l)). rewrite IH. lra. }
  rewrite A. unfold Rmean. assert (INR (length b) <> 0) by (apply not_0_INR; destruct b; [contradiction|discriminate]). field. assumption.
Qed.
Lemma zero_mean_false : forall d : params ef, zero_mean false d = Ok d.
Proof. reflexivity. Qed.
Lemma zero_mean_true : forall (d : params ef) b, p_bias d = Some (map Fin b) -> b <> [] ->
  exists d', zero_mean true d = Ok d' /\ same_but_bias d d' /\ p_bias d' = Some (map Fin (map (fun x => x - Rmean b) b)).
Proof.
  intros d b E H. unfold zero_mean. rewrite E. eexists. split; [reflexivity|]. split; [repeat split|]. cbn [p_bias]. rewrite np_mean_Fin, nanmeanR_ne by exact H.
  f_equal. rewrite !map_map. apply map_ext. intro. reflexivity.
Qed.

Section Wrapper.
  Context {G : Type} (rg : vrng ef G) (P : proper_vectors rg) {V : Type}
    (validate : list string -> params ef -> option (list string) -> bool -> option nat -> G -> res (V * G)).
  (** The steps of a call that returns. *)
  Lemma wrapper_inv : forall classes o g d v c g', validate_wrapper rg V validate classes o g = Ok (d, v, c, g') ->
    exists d0 axes g1, choose_params rg (w_synth o) (v_seeded rg (w_seed o)) = Ok (d0, axes, g1) /\ zero_mean (w_force o) d0 = Ok d /\
      validate classes d (if w_plot o then Some axes else None) (w_errorbar o) (w_bootstrap o) g1 = Ok (v, g') /\
      c = match w_synth o with SynDict _ => Some d | _ => None end /\ (0 <= w_seed o < 4294967296)%Z.
  Proof.
    intros classes o g d v c g' H. unfold validate_wrapper in H.
    destruct (((0 <=? w_seed o) && (w_seed o <? 4294967296))%Z) eqn:Es; cbn [bind] in H; [|discriminate H].
    match type of H with bind ?m _ = _ => destruct m as [[]|e]; cbn [bind] in H; [|discriminate H] end.
    destruct (choose_params rg (w_synth o) (v_seeded rg (w_seed o))) as [[[d0 axes] g1]|e]; cbn [bind] in H; [|discriminate H].
    destruct (zero_mean (w_force o) d0) as [d1|e] eqn:Ez; cbn [bind] in H; [|discriminate H].
    destruct (validate classes d1 _ _ _ g1) as [[v1 g2]|e] eqn:Ev; cbn [bind fst snd] in H; [|discriminate H].
    injection H as <- <- <- <-. exists d0, axes, g1. split; [reflexivity|]. split; [exact Ez|]. split; [exact Ev|]. split; [reflexivity|]. apply andb_true_iff in Es. lia.
  Qed.
  (** The state of the generator before the call does not matter. *)
  Lemma wrapper_seeded : forall classes o g g', validate_wrapper rg V validate classes o g = validate_wrapper rg V validate classes o g'.
  Proof. intros. reflexivity. Qed.

  Lemma c117_ambiguity : forall classes o g d v c g', validate_wrapper rg V validate classes o g = Ok (d, v, c, g') ->
    w_synth o = SynNone \/ w_synth o = SynStr "quality_ambiguity" ->
    ambiguity_scenario d /\ c = None /\ exists g1, validate classes d (if w_plot o then Some ["quality_scores"; "quality_scores_std"; "quality_ambiguity"]%string else None) (w_errorbar o) (w_bootstrap o) g1 = Ok (v, g').
  Proof.
    intros classes o g d v c g' H Ho. destruct (wrapper_inv _ _ _ _ _ _ _ H) as (d0 & axes & g1 & H1 & H2 & H3 & H4 & _).
    assert (E : choose_params rg (w_synth o) (v_seeded rg (w_seed o)) = let (d, g') := ambiguity_params rg (v_seeded rg (w_seed o)) in Ok (d, ["quality_scores"; "quality_scores_std"; "quality_ambiguity"]%string, g')) by (destruct Ho as [-> | ->]; reflexivity).
    rewrite E in H1. assert (S := ambiguity_ok rg P (v_seeded rg (w_seed o))). destruct (ambiguity_params rg (v_seeded rg (w_seed o))) as [da ga]. cbn [fst] in S.
    injection H1 as <- <- <-. split; [|split; [rewrite H4; destruct Ho as [-> | ->]; reflexivity|exists ga; exact H3]].
    destruct (w_force o); [|rewrite zero_mean_false in H2; injection H2 as <-; exact S].
    destruct S as (S1 & S2 & S3 & S4 & S5 & S6). unfold zeros in S2.
    assert (B : p_bias da = Some (map Fin (repeat 0 30))) by exact S2.
    destruct (zero_mean_true da (repeat 0 30) B) as (d' & E1 & (K1 & K2 & K3 & K4 & K5 & K6) & K7); [discriminate|]. rewrite E1 in H2. injection H2 as <-.
    unfold ambiguity_scenario, zeros in *. rewrite K1, K2, K3, K4, K5, K6. split; [exact S1|]. split; [|split; [exact S3|split; [exact S4|split; [exact S5|exact S6]]]].
    rewrite K7. f_equal. assert (M : Rmean (repeat 0 30) = 0) by (unfold Rmean, Rsum; cbn [repeat fold_right length]; field_simplify; [lra|cbn; lra]).
    rewrite M. rewrite all_zero; [rewrite map_length, repeat_length; reflexivity|]. apply Forall_forall. intros x Hx. apply in_map_iff in Hx as (y & <- & Hy). apply repeat_spec in Hy. lra.
  Qed.
  Lemma c117_observer : forall classes o g d v c g', validate_wrapper rg V validate classes o g = Ok (d, v, c, g') ->
    w_synth o = SynStr "observer_only" ->
    observer_scenario (w_force o) d /\ c = None /\ exists g1, validate classes d (if w_plot o then Some ["quality_scores"; "observer_bias"; "observer_inconsistency"]%string else None) (w_errorbar o) (w_bootstrap o) g1 = Ok (v, g').
  Proof.
    intros classes o g d v c g' H Ho. destruct (wrapper_inv _ _ _ _ _ _ _ H) as (d0 & axes & g1 & H1 & H2 & H3 & H4 & _).
    rewrite Ho in H1, H4. cbn [choose_params] in H1. change (String.eqb "observer_only" "quality_ambiguity") with false in H1. change (String.eqb "observer_only" "observer_only") with true in H1. cbv iota in H1.
    assert (S := observer_ok rg P (v_seeded rg (w_seed o))). destruct (observer_params rg (v_seeded rg (w_seed o))) as [da ga]. cbn [fst] in S.
    injection H1 as <- <- <-. split; [|split; [exact H4|exists ga; exact H3]].
    destruct (w_force o); [|rewrite zero_mean_false in H2; injection H2 as <-; exact S].
    destruct S as (S1 & S2 & S3 & S4 & S5 & S6 & b & Eb & Lb & _).
    destruct (zero_mean_true da b Eb) as (d' & E1 & (K1 & K2 & K3 & K4 & K5 & K6) & K7); [intro E; rewrite E in Lb; discriminate Lb|]. rewrite E1 in H2. injection H2 as <-.
    unfold observer_scenario, zeros in *. rewrite K1, K2, K3, K4, K5, K6. repeat (split; [assumption|]). exists (map (fun x => x - Rmean b) b). split; [exact K7|]. split; [rewrite map_length; exact Lb|].
    intros _. apply mean_zero_sum. intro E; rewrite E in Lb; discriminate Lb.
  Qed.
  (** Refused calls. *)
  Lemma c117_refused : forall classes o g,
    (~ (0 <= w_seed o < 4294967296)%Z -> validate_wrapper rg V validate classes o g = Err ValueError) /\
    ((0 <= w_seed o < 4294967296)%Z -> (w_synth o = SynOther \/ exists s, w_synth o = SynStr s /\ s <> "quality_ambiguity"%string /\ s <> "observer_only"%string) ->
      validate_wrapper rg V validate classes o g = Err AssertionError).
  Proof.
    intros classes o g. split.
    - intros H. unfold validate_wrapper. replace ((0 <=? w_seed o) && (w_seed o <? 4294967296))%Z with false by (symmetry; apply andb_false_iff; lia). reflexivity.
    - intros H Ho. unfold validate_wrapper. replace ((0 <=? w_seed o) && (w_seed o <? 4294967296))%Z with true by (symmetry; apply andb_true_iff; lia). cbn [bind].
      assert (E : choose_params rg (w_synth o) (v_seeded rg (w_seed o)) = Err AssertionError).
      { destruct Ho as [-> |(s & -> & N1 & N2)]; [reflexivity|]. cbn [choose_params]. apply String.eqb_neq in N1. apply String.eqb_neq in N2. rewrite N1, N2. reflexivity. }
      rewrite E. destruct (w_bootstrap o) as [n|]; cbn [bind]; [|reflexivity].
      assert (A : forall l, forM_ (fun c : string => assert_ (contains "bootstrap" (lower c))) l = Ok tt \/ forM_ (fun c : string => assert_ (contains "bootstrap" (lower c))) l = Err AssertionError).
      { unfold forM_. induction l as [|c l IH]; [left; reflexivity|]. cbn [foldM]. destruct (contains "bootstrap" (lower c)); cbn [assert_ bind]; [exact IH|right; reflexivity]. }
      destruct (A classes) as [-> | ->]; reflexivity.
  Qed.

  (** The caller's dictionary. *)
  Lemma c118 : forall classes o g d0 d v c g', validate_wrapper rg V validate classes o g = Ok (d, v, c, g') -> w_synth o = SynDict d0 ->
    c = Some d /\ (w_force o = false -> d = d0) /\
    (w_force o = true -> forall b, p_bias d0 = Some (map Fin b) -> b <> [] -> same_but_bias d0 d /\ p_bias d = Some (map Fin (map (fun x => x - Rmean b) b)) /\ (d = d0 <-> Rsum b = 0)).
  Proof.
    intros classes o g d0 d v c g' H Ho. destruct (wrapper_inv _ _ _ _ _ _ _ H) as (d1 & axes & g1 & H1 & H2 & H3 & H4 & _). rewrite Ho in H1, H4. cbn [choose_params] in H1.
    injection H1 as <- <- <-. split; [exact H4|]. split; [intros E; rewrite E in H2; cbn in H2; injection H2 as <-; reflexivity|]. intros E b Eb Hb. rewrite E in H2.
    destruct (zero_mean_true d0 b Eb Hb) as (d' & E1 & K & K7). rewrite E1 in H2. injection H2 as <-. split; [exact K|]. split; [exact K7|]. split.
    - intros ->. rewrite Eb in K7. injection K7 as K7. destruct b as [|x b]; [contradiction|]. cbn [map] in K7. injection K7 as K7 _.
      assert (M : Rmean (x :: b) = 0) by lra. unfold Rmean in M. assert (L : INR (length (x :: b)) <> 0) by (apply not_0_INR; discriminate).
      apply (f_equal (fun t => t * INR (length (x :: b)))) in M. unfold Rdiv in M. rewrite Rmult_assoc, Rinv_l in M by exact L. lra.
    - intros M. destruct K as (K1 & K2 & K3 & K4 & K5 & K6). destruct d0, d'. cbn in *. subst. f_equal. f_equal. f_equal.
      unfold Rmean. rewrite M. rewrite <- (map_id b) at 2. apply map_ext. intro. unfold Rdiv. lra.
  Qed.
End Wrapper.

(** ** Averages *)
(** Every percentage of a validation lies between 0 and 100. *)
Definition in_percent (o : option ef) : Prop := forall x, o = Some x -> exists v, x = Fin v /\ 0 <= v <= 100.
Definition dict_percent (d : vdict ef) : Prop := forall k r p, dget String.eqb d k = Some (r, p) -> in_percent (pc_quality p) /\ in_percent (pc_bias p) /\ in_percent (pc_incons p).
Lemma coverage_range : forall syn e old q, coverage syn e old = Ok q -> in_percent old -> in_percent q.
Proof.
  intros syn e old q H Ho. unfold coverage in H. destruct (es_value e) as [ys|], syn as [xs|], (es_ci e) as [ci|]; try (injection H as <-; exact Ho).
  destruct (get_ci_percentage xs ys ci) as [p|] eqn:E; cbn [bind] in H; [|discriminate H]. injection H as <-. intros x Hx. injection Hx as <-. eapply c62_range. exact E.
Qed.
Lemma validate_percent : forall p models syn d, validate_results p models syn = Ok d -> dict_percent d.
Proof.
  intros p models syn d H. unfold validate_results in H. match type of H with bind ?m _ = _ => destruct m as [[]|]; cbn [bind] in H; [|discriminate H] end.
  match type of H with bind ?m _ = _ => destruct m as [rs|]; cbn [bind] in H; [|discriminate H] end.
  assert (C : dict_percent (collect rs)).
  { unfold collect. assert (A : forall l d0, dict_percent d0 -> dict_percent (fold_left (fun d r => dset String.eqb d (fst r) (snd r, Perc None None None)) l d0)).
    { induction l as [|x l IH]; intros d0 H0; [exact H0|]. cbn [fold_left]. apply IH. intros k r q Hk. rewrite (dget_dset String.eqb string_eqb_spec) in Hk.
      destruct (String.eqb k (fst x)); [|exact (H0 k r q Hk)]. injection Hk as <- <-. repeat split; intros y Hy; discriminate Hy. }
    apply A. intros k r q Hk. discriminate Hk. }
  revert H C. generalize (collect rs). induction rs as [|x rs IH]; intros d0 H C; [cbn in H; injection H as <-; exact C|]. cbn [foldM] in H.
  destruct (validate_one syn d0 x) as [d1|] eqn:E; cbn [bind] in H; [|discriminate H]. apply (IH d1 H). clear IH H.
  unfold validate_one in E. destruct (dget String.eqb d0 (fst x)) as [[own pr]|] eqn:Eg; [|discriminate E]. destruct (C _ _ _ Eg) as (C1 & C2 & C3).
  destruct (coverage (sy_quality syn) _ _) as [q|] eqn:E1; cbn [bind] in E; [|discriminate E]. destruct (coverage (sy_bias syn) _ _) as [b|] eqn:E2; cbn [bind] in E; [|discriminate E].
  destruct (coverage (sy_incons syn) _ _) as [i|] eqn:E3; cbn [bind] in E; [|discriminate E]. injection E as <-.
  intros k r pp Hk. rewrite (dget_dset String.eqb string_eqb_spec) in Hk. destruct (String.eqb k (fst x)); [|exact (C k r pp Hk)]. injection Hk as <- <-.
  cbn [pc_quality pc_bias pc_incons]. split; [exact (coverage_range _ _ _ _ E1 C1)|]. split; [exact (coverage_range _ _ _ _ E2 C2)|exact (coverage_range _ _ _ _ E3 C3)].
Qed.

(** ** Substrings *)
Lemma prefix_app : forall p s, String.prefix p s = true <-> exists r, s = (p ++ r)%string.
Proof.
  induction p as [|a p IH]; intros s; [split; [exists s; reflexivity|destruct s; reflexivity]|]. destruct s as [|b s]; [split; [discriminate|intros (r & E); discriminate E]|].
  cbn [String.prefix]. destruct (Ascii.ascii_dec a b) as [<-|N].
  - rewrite IH. split; intros (r & E); exists r; [rewrite E; reflexivity|cbn in E; congruence].
  - split; [discriminate|]. intros (r & E). cbn in E. congruence.
Qed.
Lemma contains_spec : forall p s, contains p s = true <-> exists a b, s = (a ++ p ++ b)%string.
Proof.
  intros p s. induction s as [|c s IH]; cbn [contains]; rewrite orb_true_iff, prefix_app.
  - split; [intros [(r & E)|E]; [exists ""%string, r; exact E|discriminate E]|]. intros (a & b & E). left. destruct a; [exists b; exact E|discriminate E].
  - rewrite IH. split.
    + intros [(r & E)|(a & b & E)]; [exists ""%string, r; exact E|]. exists (String c a), b. rewrite E. reflexivity.
    + intros (a & b & E). destruct a as [|c' a]; [left; exists b; exact E|]. right. cbn in E. injection E as -> E. exists a, b. exact E.
Qed.
Lemma forM_assert_all : forall A (f : A -> bool) l, forM_ (fun x => assert_ (f x)) l = if forallb f l then Ok tt else Err AssertionError.
Proof. intros A f l. unfold forM_. induction l as [|x l IH]; [reflexivity|]. cbn [foldM forallb]. destruct (f x); cbn [assert_ bind andb]; [exact IH|reflexivity]. Qed.
Lemma c117_bootstrap : forall {G} (rg : vrng ef G) V validate classes o g n, w_bootstrap o = Some n -> (0 <= w_seed o < 4294967296)%Z ->
  (exists c, In c classes /\ ~ exists a b, lower c = (a ++ "bootstrap" ++ b)%string) -> validate_wrapper rg V validate classes o g = Err AssertionError.
Proof.
  intros G rg V validate classes o g n E S (c & Hc & H). unfold validate_wrapper. replace ((0 <=? w_seed o) && (w_seed o <? 4294967296))%Z with true by (symmetry; apply andb_true_iff; lia).
  cbn [bind]. rewrite E, forM_assert_all. destruct (forallb (fun c0 => contains "bootstrap" (lower c0)) classes) eqn:F; [|reflexivity]. exfalso. rewrite forallb_forall in F. apply H, contains_spec, F, Hc.
Qed.

Section Averages.
  Context {G : Type} (rg : vrng ef G) (validate : list string -> params ef -> option (list string) -> bool -> option nat -> G -> res (vdict ef * G)).
  Lemma seeds_inv : forall cls o n start g ds g', seeds_run rg validate cls o (map Z.of_nat (seq start n)) g = Ok (ds, g') ->
    length ds = n /\ forall k v, nth_error ds k = Some v -> run_of rg validate cls o (start + k) v.
  Proof.
    intros cls o n. induction n as [|n IH]; intros start g ds g' H.
    - cbn in H. injection H as <- <-. split; [reflexivity|]. intros [|k] v E; discriminate E.
    - cbn [seq map seeds_run] in H. destruct (validate_wrapper rg _ validate [cls] _ g) as [[[[d v] c] g1]|] eqn:E; cbn [bind] in H; [|discriminate H].
      destruct (seeds_run rg validate cls o (map Z.of_nat (seq (S start) n)) g1) as [[rest g2]|] eqn:E2; cbn [bind fst snd] in H; [|discriminate H]. injection H as <- <-.
      destruct (IH _ _ _ _ E2) as [L R]. split; [cbn [length]; f_equal; exact L|]. intros [|k] w Hk.
      + cbn in Hk. injection Hk as <-. rewrite Nat.add_0_r. exists d, c, g1. intros g0. rewrite <- E. apply wrapper_seeded.
      + cbn [nth_error] in Hk. replace (start + S k)%nat with (S start + k)%nat by lia. exact (R k w Hk).
  Qed.
  Lemma run_percent : validations validate -> forall cls o k v, run_of rg validate cls o k v -> dict_percent v.
  Proof.
    intros HV cls o k v (d & c & g1 & H). destruct (wrapper_inv _ _ _ _ _ _ _ _ _ (H g1)) as (d0 & axes & g2 & _ & _ & E & _). destruct (HV _ _ _ _ _ _ _ _ E) as (p & models & syn & Hv).
    exact (validate_percent _ _ _ _ Hv).
  Qed.
  Lemma percentage_shows : forall ty key d x, In key [pc_quality; pc_bias; pc_incons] -> dict_percent d -> percentage ty key d = Ok x -> exists p, x = Fin p /\ shows ty key d p.
  Proof.
    intros ty key d x Hk HD H. unfold percentage, dget_res in H. destruct (dget String.eqb d ty) as [[r pc]|] eqn:E; cbn [bind snd] in H; [|discriminate H].
    destruct (key pc) as [y|] eqn:Ey; [|discriminate H]. injection H as <-. destruct (HD _ _ _ E) as (H1 & H2 & H3).
    assert (I : in_percent (key pc)) by (destruct Hk as [<-|[<-|[<-|[]]]]; assumption). destruct (I y Ey) as (p & -> & Hp). exists p. split; [reflexivity|]. exists r, pc. split; [exact E|]. split; assumption.
  Qed.
  Lemma mean_percent : forall l, l <> [] -> Forall (fun p => 0 <= p <= 100) l -> np_mean (map Fin l) = Fin (Rsum l / INR (length l)) /\ 0 <= Rsum l / INR (length l) <= 100.
  Proof.
    intros l H F. rewrite np_mean_Fin, nanmeanR_ne by exact H. split; [reflexivity|].
    assert (B : 0 <= Rsum l <= 100 * INR (length l)).
    { clear H. induction F as [|x l Hx F IH]; [change (Rsum []) with 0; change (INR (length (@nil R))) with 0; lra|]. change (Rsum (x :: l)) with (x + Rsum l). cbn [length]. rewrite S_INR. lra. }
    assert (P : 0 < INR (length l)) by (apply lt_0_INR; destruct l; [contradiction|cbn; lia]). split.
    - apply Rmult_le_pos; [lra|]. apply Rlt_le, Rinv_0_lt_compat, P.
    - apply Rmult_le_reg_r with (INR (length l)); [exact P|]. unfold Rdiv. rewrite Rmult_assoc, Rinv_l by lra. lra.
  Qed.
  Lemma mapM_shows : forall ty key, In key [pc_quality; pc_bias; pc_incons] -> forall ds xs, Forall dict_percent ds -> mapM (percentage ty key) ds = Ok xs ->
    exists ps, xs = map Fin ps /\ Forall2 (shows ty key) ds ps.
  Proof.
    intros ty key Hk ds. induction ds as [|d ds IH]; intros xs F H; [cbn in H; injection H as <-; exists []; split; [reflexivity|constructor]|].
    inversion F as [|? ? Fd Fs]; subst. cbn [mapM] in H. destruct (percentage ty key d) as [x|] eqn:E; cbn [bind] in H; [|discriminate H].
    destruct (mapM (percentage ty key) ds) as [ys|] eqn:E2; cbn [bind] in H; [|discriminate H]. injection H as <-. destruct (IH ys Fs eq_refl) as (ps & -> & F2).
    destruct (percentage_shows ty key d x Hk Fd E) as (p & -> & S). exists (p :: ps). split; [reflexivity|]. constructor; assumption.
  Qed.
  Lemma shows_range : forall ty key ds ps, Forall2 (shows ty key) ds ps -> Forall (fun p => 0 <= p <= 100) ps.
  Proof. induction 1 as [|d p ds ps (r & pc & _ & _ & H) F IH]; constructor; assumption. Qed.
  Lemma shows_mean : forall ty key ds ps, Forall2 (shows ty key) ds ps -> length ds = 10%nat -> np_mean (map Fin ps) = Fin (Rsum ps / 10) /\ 0 <= Rsum ps / 10 <= 100.
  Proof.
    intros ty key ds ps F L. assert (L2 : length ps = 10%nat) by (rewrite <- L; clear L; induction F; cbn [length]; congruence).
    destruct (mean_percent ps) as [M1 M2]; [intros ->; discriminate L2|exact (shows_range _ _ _ _ F)|]. rewrite L2 in M1, M2. replace (INR 10) with 10 in M1, M2 by (cbn; lra). split; assumption.
  Qed.

  Lemma c119_mos : validations validate -> forall g a g', run_synthetic_validate_mos rg validate g = Ok (a, g') ->
    exists ds ps, length ds = 10%nat /\ (forall k v, nth_error ds k = Some v -> run_of rg validate "MosModel" "quality_ambiguity" k v) /\
      Forall2 (shows "MOS" pc_quality) ds ps /\ a = Fin (Rsum ps / 10) /\ 0 <= Rsum ps / 10 <= 100.
  Proof.
    intros HV g a g' H. unfold run_synthetic_validate_mos, ten_seeds in H. destruct (seeds_run rg validate _ _ _ g) as [[ds g1]|] eqn:E; cbn [bind fst snd] in H; [|discriminate H].
    destruct (seeds_inv _ _ _ _ _ _ _ E) as [L R]. destruct (mapM _ ds) as [xs|] eqn:E2; cbn [bind] in H; [|discriminate H]. injection H as <- <-.
    assert (F : Forall dict_percent ds). { apply Forall_forall. intros v Hv. apply In_nth_error in Hv as [k Hk]. exact (run_percent HV _ _ _ _ (R k v Hk)). }
    destruct (mapM_shows "MOS" pc_quality) with (ds := ds) (xs := xs) as (ps & -> & F2); [left; reflexivity|exact F|exact E2|].
    exists ds, ps. split; [exact L|]. split; [exact R|]. split; [exact F2|]. exact (shows_mean _ _ _ _ F2 L).
  Qed.
  Lemma mapM_three : forall ds xs, Forall dict_percent ds -> mapM (fun d => do q <- percentage "MLE_CO" pc_quality d; do b <- percentage "MLE_CO" pc_bias d;
      do i <- percentage "MLE_CO" pc_incons d; Ok (q, b, i)) ds = Ok xs ->
    exists qs bs is, map (fun x => fst (fst x)) xs = map Fin qs /\ map (fun x => snd (fst x)) xs = map Fin bs /\ map snd xs = map Fin is /\
      Forall2 (shows "MLE_CO" pc_quality) ds qs /\ Forall2 (shows "MLE_CO" pc_bias) ds bs /\ Forall2 (shows "MLE_CO" pc_incons) ds is.
  Proof.
    intros ds. induction ds as [|d ds IH]; intros xs F H; [cbn in H; injection H as <-; exists [], [], []; repeat split; constructor|].
    inversion F as [|? ? Fd Fs]; subst. cbn [mapM] in H.
    destruct (percentage "MLE_CO" pc_quality d) as [q|] eqn:E1; cbn [bind] in H; [|discriminate H].
    destruct (percentage "MLE_CO" pc_bias d) as [b|] eqn:E2; cbn [bind] in H; [|discriminate H].
    destruct (percentage "MLE_CO" pc_incons d) as [i|] eqn:E3; cbn [bind] in H; [|discriminate H].
    match type of H with bind ?m _ = _ => destruct m as [ys|] eqn:E; cbn [bind] in H; [|discriminate H] end. injection H as <-.
    destruct (IH ys Fs eq_refl) as (qs & bs & is_ & M1 & M2 & M3 & F1 & F2 & F3).
    destruct (percentage_shows _ _ _ _ (or_introl eq_refl) Fd E1) as (p1 & -> & S1).
    destruct (percentage_shows _ _ _ _ (or_intror (or_introl eq_refl)) Fd E2) as (p2 & -> & S2).
    destruct (percentage_shows _ _ _ _ (or_intror (or_intror (or_introl eq_refl))) Fd E3) as (p3 & -> & S3).
    exists (p1 :: qs), (p2 :: bs), (p3 :: is_). cbn [map fst snd]. rewrite M1, M2, M3. repeat (split; [reflexivity|]). split; [constructor; assumption|]. split; constructor; assumption.
  Qed.
  Lemma c119_mleco : validations validate -> forall g a b c g', run_synthetic_validate_mleco rg validate g = Ok (a, b, c, g') ->
    exists ds qs bs is, length ds = 10%nat /\ (forall k v, nth_error ds k = Some v -> run_of rg validate "MaximumLikelihoodEstimationModelContentOblivious" "observer_only" k v) /\
      Forall2 (shows "MLE_CO" pc_quality) ds qs /\ Forall2 (shows "MLE_CO" pc_bias) ds bs /\ Forall2 (shows "MLE_CO" pc_incons) ds is /\
      a = Fin (Rsum qs / 10) /\ b = Fin (Rsum bs / 10) /\ c = Fin (Rsum is / 10).
  Proof.
    intros HV g a b c g' H. unfold run_synthetic_validate_mleco, ten_seeds in H. destruct (seeds_run rg validate _ _ _ g) as [[ds g1]|] eqn:E; cbn [bind fst snd] in H; [|discriminate H].
    destruct (seeds_inv _ _ _ _ _ _ _ E) as [L R]. match type of H with bind ?m _ = _ => destruct m as [xs|] eqn:E2; cbn [bind] in H; [|discriminate H] end.
    assert (F : Forall dict_percent ds). { apply Forall_forall. intros v Hv. apply In_nth_error in Hv as [k Hk]. exact (run_percent HV _ _ _ _ (R k v Hk)). }
    destruct (mapM_three ds xs F E2) as (qs & bs & is_ & M1 & M2 & M3 & F1 & F2 & F3). rewrite M1, M2, M3 in H. injection H as <- <- <- <-.
    exists ds, qs, bs, is_. split; [exact L|]. split; [exact R|]. split; [exact F1|]. split; [exact F2|]. split; [exact F3|].
    split; [exact (proj1 (shows_mean _ _ _ _ F1 L))|]. split; [exact (proj1 (shows_mean _ _ _ _ F2 L))|exact (proj1 (shows_mean _ _ _ _ F3 L))].
  Qed.
  (** Whatever happened before. *)
  Lemma c119_seeded : forall g g', (run_synthetic_validate_mos rg validate g = run_synthetic_validate_mos rg validate g') /\
    (run_synthetic_validate_mleco rg validate g = run_synthetic_validate_mleco rg validate g').
  Proof. intros. split; reflexivity. Qed.
End Averages.
