(** Theorems for claims C117-C119: the script that validates confidence intervals
    with synthetic votes. *)
From Coq Require Import String.
From Coq Require Import List ZArith Bool Arith Reals Lra Lia.
From Verif Require Import PyBase Num ExtReal NumPy Perf Runs Names Converter SpecMos SpecScript Script ScriptProofs Perf3Proofs.
Import ListNotations.
Local Open Scope R_scope.

(** C117: the parameters of the ambiguity scenario, and the panels. *)
Theorem C117_ambiguity : forall G (rg : vrng ef G), proper_vectors rg -> forall V validate classes o g d v c g',
  validate_wrapper rg V validate classes o g = Ok (d, v, c, g') -> w_synth o = SynNone \/ w_synth o = SynStr "quality_ambiguity" ->
  ambiguity_scenario d /\ c = None /\ exists g1,
    validate classes d (if w_plot o then Some ["quality_scores"; "quality_scores_std"; "quality_ambiguity"]%string else None) (w_errorbar o) (w_bootstrap o) g1 = Ok (v, g').
Proof. exact @c117_ambiguity. Qed.
Print Assumptions C117_ambiguity.

(** C117: the parameters of the scenario with observers. *)
Theorem C117_observer : forall G (rg : vrng ef G), proper_vectors rg -> forall V validate classes o g d v c g',
  validate_wrapper rg V validate classes o g = Ok (d, v, c, g') -> w_synth o = SynStr "observer_only" ->
  observer_scenario (w_force o) d /\ c = None /\ exists g1,
    validate classes d (if w_plot o then Some ["quality_scores"; "observer_bias"; "observer_inconsistency"]%string else None) (w_errorbar o) (w_bootstrap o) g1 = Ok (v, g').
Proof. exact @c117_observer. Qed.
Print Assumptions C117_observer.

(** C117: the seed decides, not what was drawn before. *)
Theorem C117_reproducible : forall G (rg : vrng ef G) V validate classes o g g', validate_wrapper rg V validate classes o g = validate_wrapper rg V validate classes o g'.
Proof. exact @wrapper_seeded. Qed.
Print Assumptions C117_reproducible.

(** C117: seeds, scenarios and classes that are refused. *)
Theorem C117_refused : forall G (rg : vrng ef G) V validate classes o g,
  (~ (0 <= w_seed o < 4294967296)%Z -> validate_wrapper rg V validate classes o g = Err ValueError) /\
  ((0 <= w_seed o < 4294967296)%Z -> (w_synth o = SynOther \/ exists s, w_synth o = SynStr s /\ s <> "quality_ambiguity"%string /\ s <> "observer_only"%string) ->
    validate_wrapper rg V validate classes o g = Err AssertionError).
Proof. exact @c117_refused. Qed.
Print Assumptions C117_refused.

Theorem C117_bootstrap : forall G (rg : vrng ef G) V validate classes o g n, w_bootstrap o = Some n -> (0 <= w_seed o < 4294967296)%Z ->
  (exists c, In c classes /\ ~ exists a b, lower c = (a ++ "bootstrap" ++ b)%string) -> validate_wrapper rg V validate classes o g = Err AssertionError.
Proof. exact @c117_bootstrap. Qed.
Print Assumptions C117_bootstrap.

(** A generator that draws 1/2 and a validation that covers everything. *)
Definition w_rg : vrng ef unit := VRng (fun _ => tt) (fun n _ => (repeat (Fin (1/2)) n, tt)) (fun n _ => (repeat (Fin 2) n, tt)).
Lemma w_proper : proper_vectors w_rg.
Proof.
  intros n g. split; cbn [v_uniform v_normal w_rg fst].
  - exists (repeat (1/2) n). split; [symmetry; induction n; cbn [repeat map]; congruence|]. split; [apply repeat_length|]. apply Forall_forall. intros x H. apply repeat_spec in H. lra.
  - exists (repeat 2 n). split; [symmetry; induction n; cbn [repeat map]; congruence|apply repeat_length].
Qed.
Definition w_est : estimates ef := Est (Some [Fin 1]) (Some [[Fin 1]; [Fin 1]]).
Definition w_val (cls : list string) (_ : params ef) (_ : option (list string)) (_ : bool) (_ : option nat) (g : unit) : res (vdict ef * unit) :=
  do d <- validate_results None (map (fun c => ((if String.eqb c "MosModel" then "MOS" else "MLE_CO")%string, Ok (VRes w_est w_est w_est))) cls)
            (Syn (Some [Fin 1]) (Some [Fin 2]) (Some [Fin 4])); Ok (d, g).
Lemma w_percents : exists q b i, forall c, validate_results None (map (fun c => ((if String.eqb c "MosModel" then "MOS" else "MLE_CO")%string, Ok (VRes w_est w_est w_est))) [c])
            (Syn (Some [Fin 1]) (Some [Fin 2]) (Some [Fin 4])) = Ok [((if String.eqb c "MosModel" then "MOS" else "MLE_CO")%string, (VRes w_est w_est w_est, Perc (Some q) (Some b) (Some i)))].
Proof.
  assert (P : forall x, exists v, get_ci_percentage [Fin x] [Fin 1] [[Fin 1]; [Fin 1]] = Ok v).
  { intros x. apply c62_accepts. exists [Fin 1], [Fin 1]. repeat split; discriminate. }
  destruct (P 1) as (q & Q), (P 2) as (b & B), (P 4) as (i & I). exists q, b, i. intros c. unfold validate_results, w_est.
  cbn [map bind mapM snd fst foldM collect fold_left validate_one dset]. unfold validate_one. cbn [dget fst snd]. rewrite String.eqb_refl.
  cbn [coverage es_value es_ci sy_quality sy_bias sy_incons v_quality v_bias v_incons pc_quality pc_bias pc_incons].
  rewrite Q, B, I. cbn [bind dset]. rewrite String.eqb_refl. reflexivity.
Qed.

Example C117_nonvacuous : forall o, In o [SynNone; SynStr "quality_ambiguity"; SynStr "observer_only"] ->
  exists d v g', validate_wrapper w_rg _ w_val ["MosModel"%string] (WrapOpts true true 3 true o None) tt = Ok (d, v, None, g').
Proof.
  destruct w_percents as (q & b & i & W). intros o H. unfold validate_wrapper. cbn [w_seed w_bootstrap w_synth w_force w_plot w_errorbar].
  change ((0 <=? 3) && (3 <? 4294967296))%Z with true. cbn [bind]. destruct H as [<-|[<-|[<-|[]]]]; cbn -[np_mean Z.leb]; rewrite ?(W "MosModel"%string); repeat eexists.
Qed.
Example C117_nonvacuous_refused : validate_wrapper w_rg _ w_val ["MosModel"%string] (WrapOpts true true (-1) true SynNone None) tt = Err ValueError /\
  validate_wrapper w_rg _ w_val ["MosModel"%string] (WrapOpts true true 1 true (SynStr "both") None) tt = Err AssertionError /\
  validate_wrapper w_rg _ w_val ["BootstrapMosModel"; "MosModel"]%string (WrapOpts true true 1 true SynNone (Some 3%nat)) tt = Err AssertionError.
Proof. repeat split. Qed.

(** C118: with biases that need not add up to zero, the caller's dictionary stays
    as it is. *)
Theorem C118_dictionary_partial : forall G (rg : vrng ef G) V validate classes o g d0 d v c g',
  validate_wrapper rg V validate classes o g = Ok (d, v, c, g') -> w_synth o = SynDict d0 ->
  c = Some d /\ (w_force o = false -> d = d0) /\
  (w_force o = true -> forall b, p_bias d0 = Some (map Fin b) -> b <> [] ->
    same_but_bias d0 d /\ p_bias d = Some (map Fin (map (fun x => x - Rmean b) b)) /\ (d = d0 <-> Rsum b = 0)).
Proof. exact @c118. Qed.
Print Assumptions C118_dictionary_partial.

Definition w_dict : params ef := Params (Some [Fin 3; Fin 4]) (Some [Fin 1; Fin 2]) (Some [Fin 1; Fin 1]) None None None None.
Lemma w_dict_run : exists d v g', validate_wrapper w_rg _ w_val ["MosModel"%string] (WrapOpts false true 3 true (SynDict w_dict) None) tt = Ok (d, v, Some d, g').
Proof.
  destruct w_percents as (q & b & i & W). unfold validate_wrapper. cbn [w_seed w_bootstrap w_synth w_force w_plot w_errorbar].
  change ((0 <=? 3) && (3 <? 4294967296))%Z with true. cbn [bind choose_params zero_mean p_bias w_dict]. unfold w_val. rewrite (W "MosModel"%string). cbn [bind fst snd]. repeat eexists.
Qed.
Theorem C118_dictionary_refuted : exists validate d0 d v g', validate_wrapper w_rg (vdict ef) validate ["MosModel"%string] (WrapOpts false true 3 true (SynDict d0) None) tt = Ok (d, v, Some d, g') /\ d <> d0.
Proof.
  destruct w_dict_run as (d & v & g' & H). exists w_val, w_dict, d, v, g'. split; [exact H|].
  destruct (C118_dictionary_partial _ _ _ _ _ _ _ _ _ _ _ _ H eq_refl) as (_ & _ & K). destruct (K eq_refl [1; 2] eq_refl) as (_ & _ & K2); [discriminate|].
  intros E. apply K2 in E. unfold Rsum in E. cbn in E. lra.
Qed.
Print Assumptions C118_dictionary_refuted.

(** C119: the printed average is that of the ten seeds, and a percentage. *)
Theorem C119_mos : forall G (rg : vrng ef G) validate, validations validate -> forall g a g', run_synthetic_validate_mos rg validate g = Ok (a, g') ->
  exists ds ps, length ds = 10%nat /\ (forall k v, nth_error ds k = Some v -> run_of rg validate "MosModel" "quality_ambiguity" k v) /\
    Forall2 (shows "MOS" pc_quality) ds ps /\ a = Fin (Rsum ps / 10) /\ 0 <= Rsum ps / 10 <= 100.
Proof. exact @c119_mos. Qed.
Print Assumptions C119_mos.

Theorem C119_mleco : forall G (rg : vrng ef G) validate, validations validate -> forall g a b c g', run_synthetic_validate_mleco rg validate g = Ok (a, b, c, g') ->
  exists ds qs bs is, length ds = 10%nat /\ (forall k v, nth_error ds k = Some v -> run_of rg validate "MaximumLikelihoodEstimationModelContentOblivious" "observer_only" k v) /\
    Forall2 (shows "MLE_CO" pc_quality) ds qs /\ Forall2 (shows "MLE_CO" pc_bias) ds bs /\ Forall2 (shows "MLE_CO" pc_incons) ds is /\
    a = Fin (Rsum qs / 10) /\ b = Fin (Rsum bs / 10) /\ c = Fin (Rsum is / 10).
Proof. exact @c119_mleco. Qed.
Print Assumptions C119_mleco.

(** C119: the averages do not depend on what was drawn before. *)
Theorem C119_reproducible : forall G (rg : vrng ef G) validate g g', run_synthetic_validate_mos rg validate g = run_synthetic_validate_mos rg validate g' /\
  run_synthetic_validate_mleco rg validate g = run_synthetic_validate_mleco rg validate g'.
Proof. exact @c119_seeded. Qed.
Print Assumptions C119_reproducible.

Example C119_nonvacuous : validations w_val /\ exists a, run_synthetic_validate_mos w_rg w_val tt = Ok (a, tt).
Proof.
  split.
  - intros c d ax eb n g v g' H. unfold w_val in H. match type of H with bind ?m _ = _ => destruct m as [r|] eqn:E; cbn [bind] in H; [|discriminate H] end.
    injection H as <- <-. do 3 eexists. exact E.
  - destruct w_percents as (q & b & i & W).
    assert (R : forall s g, (0 <= s < 4294967296)%Z -> exists d, validate_wrapper w_rg _ w_val ["MosModel"%string] (WrapOpts true true s true (SynStr "quality_ambiguity") None) g =
      Ok (d, [("MOS"%string, (VRes w_est w_est w_est, Perc (Some q) (Some b) (Some i)))], None, tt)).
    { intros s g Hs. unfold validate_wrapper. cbn [w_seed w_bootstrap w_synth w_force w_plot w_errorbar].
      replace ((0 <=? s) && (s <? 4294967296))%Z with true by (symmetry; apply andb_true_iff; lia). cbn -[np_mean Z.leb w_val]. unfold w_val. rewrite (W "MosModel"%string). eexists. reflexivity. }
    unfold run_synthetic_validate_mos.
    assert (S : forall l g, Forall (fun s => (0 <= s < 4294967296)%Z) l -> seeds_run w_rg w_val "MosModel" "quality_ambiguity" l g =
      Ok (repeat [("MOS"%string, (VRes w_est w_est w_est, Perc (Some q) (Some b) (Some i)))] (length l), tt)).
    { induction l as [|s l IH]; intros [] F; [reflexivity|]. inversion F; subst. cbn [seeds_run]. destruct (R s tt) as (d & E); [assumption|]. rewrite E. cbn [bind]. rewrite IH by assumption. reflexivity. }
    rewrite S by (repeat constructor; lia). eexists. reflexivity.
Qed.
