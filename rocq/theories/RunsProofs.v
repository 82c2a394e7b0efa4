(** Proofs about Runs.v: reconstruction statistics (C84). *)
From Coq Require Import String.
From Coq Require Import List ZArith Bool Arith Reals Lia Lra.
From Verif Require Import PyBase Num ExtReal NumPy Dataset Preproc Mos Perf Mocked Runs SpecMos SpecPerf SpecRuns BaseProofs ExtRealProofs
  ArrayProofs MosProofs Reject2Proofs StepsProofs MosReportProofs PerfProofs Perf2Proofs.
Import ListNotations.
Local Open Scope list_scope.
Local Open Scope R_scope.

(** ** The pairs the statistics are taken over *)
Lemma kept_pairs : forall raw rec : list ef, Forall finnan raw -> Forall finnan rec ->
  filter (fun p => (negb (nisnan (snd p)) && negb (nisnan (fst p)))%bool) (combine raw rec) = map (fun p => (Fin (fst p), Fin (snd p))) (complete_pairs raw rec).
Proof.
  intros raw rec F. revert rec. induction F as [|x raw Hx F IH]; intros rec G; [reflexivity|].
  destruct G as [|y rec Hy G]; [destruct x; reflexivity|]. cbn [combine filter].
  destruct x, y; cbn in Hx, Hy; try contradiction; cbn [fst snd nisnan Num_ef ef_isnan negb andb complete_pairs map]; rewrite IH by exact G; reflexivity.
Qed.

Lemma pairs_stat : forall lstsq m raw rec, Forall finnan raw -> Forall finnan rec ->
  reconstruction_stat lstsq m raw rec =
  match complete_pairs raw rec with [] => Err ValueError | ps => perf_score lstsq m false (plain (map fst ps)) (map Fin (map snd ps)) end.
Proof.
  intros lstsq m raw rec F G. unfold reconstruction_stat. rewrite kept_pairs by assumption.
  destruct (complete_pairs raw rec) as [|p ps]; [reflexivity|]. unfold plain. cbn [map fst snd]. rewrite !map_map. reflexivity.
Qed.

Lemma flat3_finnan : forall a, finite_votes a -> Forall finnan (flat3 a).
Proof.
  intros a F. apply Forall_forall. intros x H. unfold flat3 in H. apply in_flat_map in H as (e & He & H). apply in_flat_map in H as (s & Hs & H).
  apply in_map_iff in H as (r & <- & Hr). apply in_seq in He. apply in_seq in Hs. apply in_seq in Hr. apply F. repeat split; lia.
Qed.

Lemma shape_test : forall a b : arr3 ef, (Nat.eqb (dE a) (dE b) && Nat.eqb (dS a) (dS b) && Nat.eqb (dR a) (dR b))%bool = true <-> same_shape a b.
Proof. intros a b. unfold same_shape. rewrite !andb_true_iff, !Nat.eqb_eq. tauto. Qed.

Lemma c84_shape : forall lstsq raw rec, ~ same_shape raw rec -> reconstruction_stats lstsq raw rec = Err AssertionError.
Proof.
  intros lstsq raw rec H. unfold reconstruction_stats. destruct (_ && _)%bool eqn:E; [|reflexivity]. apply shape_test in E. contradiction.
Qed.

Lemma c84_stats : forall lstsq raw rec, same_shape raw rec -> finite_votes raw -> finite_votes rec ->
  (length (complete_pairs (flat3 raw) (flat3 rec)) < 2)%nat -> reconstruction_stats lstsq raw rec = Err ValueError.
Proof.
  intros lstsq raw rec S F G L. unfold reconstruction_stats. replace (_ && _)%bool with true by (symmetry; apply shape_test; exact S). cbn [assert_ bind].
  rewrite !pairs_stat by (apply flat3_finnan; assumption).
  destruct (complete_pairs (flat3 raw) (flat3 rec)) as [|[x y] [|q ps]]; [reflexivity| |cbn in L; lia].
  rewrite c63_rmse by (try discriminate; reflexivity). cbn [bind].
  change (perf_score lstsq PCC false (plain (map fst [(x, y)])) (map Fin (map snd [(x, y)]))) with (perf_score lstsq PCC false (plain [x]) [Fin y]). rewrite c63_short. reflexivity.
Qed.

Lemma c84_values : forall lstsq raw rec g p, same_shape raw rec -> finite_votes raw -> finite_votes rec ->
  g = map fst (complete_pairs (flat3 raw) (flat3 rec)) -> p = map snd (complete_pairs (flat3 raw) (flat3 rec)) -> (2 <= length g)%nat ->
  (has_spread g -> has_spread p ->
     reconstruction_stats lstsq raw rec = Ok (Recon (Fin (distance g p)) (Fin (pearson g p)) (Fin (pearson (map (avg_rank g) g) (map (avg_rank p) p))))) /\
  (~ (has_spread g /\ has_spread p) -> reconstruction_stats lstsq raw rec = Ok (Recon (Fin (distance g p)) NaN NaN)).
Proof.
  intros lstsq raw rec g p S F G Eg Ep L.
  assert (E : reconstruction_stats lstsq raw rec =
    (do rm <- perf_score lstsq RMSE false (plain g) (map Fin p); do cc <- perf_score lstsq PCC false (plain g) (map Fin p);
     do sr <- perf_score lstsq SRCC false (plain g) (map Fin p); Ok (Recon rm cc sr))).
  { unfold reconstruction_stats. replace (_ && _)%bool with true by (symmetry; apply shape_test; exact S). cbn [assert_ bind].
    rewrite !pairs_stat by (apply flat3_finnan; assumption). subst g p.
    destruct (complete_pairs (flat3 raw) (flat3 rec)) as [|x ps]; [cbn in L; lia|reflexivity]. }
  assert (Lp : length p = length g) by (subst; rewrite !map_length; reflexivity).
  rewrite E, c63_rmse by (try assumption; intro H; rewrite H in L; cbn in L; lia). cbn [bind]. split.
  - intros Sg Sp. rewrite (proj1 (c63_pcc_exact lstsq g p Lp Sg Sp)), (proj1 (c75_srcc_exact lstsq g p Lp Sg Sp)). reflexivity.
  - intro H. rewrite c63_pcc_constant by assumption. rewrite srcc_value by assumption. cbn [bind].
    destruct (spread_dec g); [destruct (spread_dec p)|]; try reflexivity. tauto.
Qed.

(** ** Votes against the mean of their video *)
Section Groups.
  Variable A : Type.
  Variables (votes : A -> list R) (es : list A).
  Let mu (e : A) := Rmean (votes e).
  Definition flat_all : list R := flat_map votes es.
  Definition flat_of (q : A -> R) : list R := flat_map (fun e => map (fun _ => q e) (votes e)) es.

  Lemma flat_of_length : forall q, length (flat_of q) = length flat_all.
  Proof. intro q. unfold flat_of, flat_all. induction es as [|e l IH]; [reflexivity|]. cbn [flat_map]. rewrite !app_length, map_length, IH. reflexivity. Qed.
  Lemma combine_app : forall X Y (a b : list X) (c d : list Y), length a = length c -> combine (a ++ b) (c ++ d) = combine a c ++ combine b d.
  Proof. intros X Y a. induction a as [|x a IH]; intros b [|y c] d L; try discriminate; [reflexivity|]. cbn. rewrite IH by (cbn in L; lia). reflexivity. Qed.
  Lemma combine_self_map : forall (v : list R) (c : R), combine v (map (fun _ => c) v) = map (fun x => (x, c)) v.
  Proof. induction v as [|x v IH]; intro c; [reflexivity|]. cbn. rewrite IH. reflexivity. Qed.
  Lemma flat_pairs : forall q, combine flat_all (flat_of q) = flat_map (fun e => map (fun x => (x, q e)) (votes e)) es.
  Proof.
    intro q. unfold flat_of, flat_all. induction es as [|e l IH]; [reflexivity|]. cbn [flat_map]. rewrite combine_app by (rewrite map_length; reflexivity).
    rewrite IH, combine_self_map. reflexivity.
  Qed.
  Lemma Rsum_groups : forall (f : R * R -> R) q, Rsum (map f (combine flat_all (flat_of q))) = Rsum (map (fun e => Rsum (map (fun x => f (x, q e)) (votes e))) es).
  Proof.
    intros f q. rewrite flat_pairs. induction es as [|e l IH]; [reflexivity|]. cbn [flat_map map]. rewrite map_app, Rsum_app, Rsum_cons, IH, map_map. reflexivity.
  Qed.
  Lemma Rsum_flat_all : Rsum flat_all = Rsum (map (fun e => INR (length (votes e)) * mu e) es).
  Proof.
    unfold flat_all. induction es as [|e l IH]; [reflexivity|]. cbn [flat_map map]. rewrite Rsum_app, Rsum_cons, IH. f_equal.
    unfold mu, Rmean. destruct (votes e) as [|v l']; [change (Rsum []) with 0; unfold Rdiv; cbn [length INR]; rewrite !Rmult_0_l; reflexivity|]. field. apply INR_len_neq. discriminate.
  Qed.
  Lemma Rsum_flat_of : forall q (f : R -> R), Rsum (map f (flat_of q)) = Rsum (map (fun e => INR (length (votes e)) * f (q e)) es).
  Proof.
    intros q f. unfold flat_of. induction es as [|e l IH]; [reflexivity|]. cbn [flat_map map]. rewrite map_app, Rsum_app, Rsum_cons, IH. f_equal.
    rewrite map_map. apply Rsum_map_const.
  Qed.
  Lemma group_dev : forall e, Rsum (map (fun x => x - mu e) (votes e)) = 0.
  Proof. intro e. unfold mu. destruct (votes e) as [|v l] eqn:E; [reflexivity|]. apply Rsum_dev. discriminate. Qed.

  Lemma same_mean : Rmean (flat_of mu) = Rmean flat_all.
  Proof.
    unfold Rmean. rewrite flat_of_length. f_equal. rewrite Rsum_flat_all. rewrite <- (map_id (flat_of mu)). exact (Rsum_flat_of mu (fun x => x)).
  Qed.

  (** Within one video. *)
  Lemma group_cov : forall e m, Rsum (map (fun x => (x - m) * (mu e - m)) (votes e)) = INR (length (votes e)) * ((mu e - m) * (mu e - m)).
  Proof.
    intros e m. rewrite Rsum_map_mulr. replace (Rsum (map (fun x => x - m) (votes e))) with (Rsum (map (fun x => (x - mu e) + (mu e - m)) (votes e))).
    - rewrite Rsum_map_add, group_dev, Rsum_map_const. ring.
    - apply Rsum_map_ext. intros x _. ring.
  Qed.
  Lemma group_total : forall e c, Rsum (map (fun x => (x - c) * (x - c)) (votes e)) =
    Rsum (map (fun x => (x - mu e) * (x - mu e)) (votes e)) + INR (length (votes e)) * ((mu e - c) * (mu e - c)).
  Proof.
    intros e c. replace (Rsum (map (fun x => (x - c) * (x - c)) (votes e))) with
      (Rsum (map (fun x => ((x - mu e) * (x - mu e) + (x - mu e) * (2 * (mu e - c))) + (mu e - c) * (mu e - c)) (votes e))).
    - rewrite !Rsum_map_add, Rsum_map_mulr, group_dev, Rsum_map_const. ring.
    - apply Rsum_map_ext. intros x _. ring.
  Qed.

  Definition within : R := Rsum (map (fun e => Rsum (map (fun x => (x - mu e) * (x - mu e)) (votes e))) es).
  Definition explained : R := sumsq (Rmean flat_all) (flat_of mu).

  Lemma cov_explained : covsum flat_all (flat_of mu) = explained.
  Proof.
    unfold covsum, explained, sumsq. rewrite same_mean.
    rewrite (Rsum_groups (fun p => (fst p - Rmean flat_all) * (snd p - Rmean flat_all)) mu).
    rewrite (Rsum_flat_of mu (fun x => (x - Rmean flat_all) * (x - Rmean flat_all))).
    apply Rsum_map_ext. intros e _. cbn [fst snd]. apply group_cov.
  Qed.
  Lemma total_split : sumsq (Rmean flat_all) flat_all = within + explained.
  Proof.
    unfold explained, within, sumsq. rewrite (Rsum_flat_of mu (fun x => (x - Rmean flat_all) * (x - Rmean flat_all))), <- Rsum_map_add.
    generalize (Rmean flat_all) as m. intro m. unfold flat_all. rewrite flat_map_concat_map, concat_map, map_map.
    assert (C : forall (l : list (list R)), Rsum (concat l) = Rsum (map Rsum l)).
    { induction l as [|x l IH]; [reflexivity|]. cbn [concat map]. rewrite Rsum_app, Rsum_cons, IH. reflexivity. }
    rewrite C, map_map. apply Rsum_map_ext. intros e _. apply group_total.
  Qed.
  Lemma residual_of : forall q, Rsum (map (fun p => (fst p - snd p) * (fst p - snd p)) (combine flat_all (flat_of q))) =
    within + Rsum (map (fun e => INR (length (votes e)) * ((mu e - q e) * (mu e - q e))) es).
  Proof.
    intro q. rewrite (Rsum_groups (fun p => (fst p - snd p) * (fst p - snd p)) q). unfold within. rewrite <- Rsum_map_add. apply Rsum_map_ext. intros e _. cbn [fst snd]. apply group_total.
  Qed.
  Lemma residual_mu : Rsum (map (fun p => (fst p - snd p) * (fst p - snd p)) (combine flat_all (flat_of mu))) = within.
  Proof.
    rewrite residual_of. replace (Rsum (map (fun e => INR (length (votes e)) * ((mu e - mu e) * (mu e - mu e))) es)) with 0; [ring|].
    symmetry. rewrite (Rsum_map_ext _ _ (fun _ => 0)) by (intros; ring). rewrite Rsum_map_const. ring.
  Qed.
  Lemma within_nonneg : 0 <= within.
  Proof.
    unfold within. apply Rsum_nonneg. intros x H. apply in_map_iff in H as (e & <- & _). apply Rsum_nonneg. intros y H. apply in_map_iff in H as (v & <- & _).
    generalize (Rle_0_sqr (v - mu e)). unfold Rsqr. lra.
  Qed.

  Lemma mean_best : forall q, distance flat_all (flat_of mu) <= distance flat_all (flat_of q).
  Proof.
    intro q. unfold distance. destruct flat_all as [|v l] eqn:E; [cbn; lra|]. rewrite <- E. apply sqrt_le_1_alt. apply Rmult_le_compat_r.
    - left. apply Rinv_0_lt_compat. rewrite E. apply INR_len_pos. discriminate.
    - rewrite residual_mu, residual_of. assert (0 <= Rsum (map (fun e => INR (length (votes e)) * ((mu e - q e) * (mu e - q e))) es)); [|lra].
      apply Rsum_nonneg. intros x H. apply in_map_iff in H as (e & <- & _). apply Rmult_le_pos; [apply pos_INR|]. generalize (Rle_0_sqr (mu e - q e)). unfold Rsqr. lra.
  Qed.

  Lemma mean_spread : has_spread (flat_of mu) -> has_spread flat_all.
  Proof.
    intro S. destruct (spread_dec flat_all) as [H|H]; [exact H|]. exfalso.
    assert (P := proj1 (spread_pos _) S). rewrite same_mean in P. fold explained in P.
    assert (Z : sumsq (Rmean flat_all) flat_all = 0).
    { unfold sumsq. rewrite (Rsum_map_ext _ _ (fun _ => 0)); [rewrite Rsum_map_const; ring|]. intros x Hx.
      assert (Q : x = Rmean flat_all); [|rewrite Q at 1 2; ring].
      assert (N : flat_all <> []) by (intro Q; rewrite Q in Hx; contradiction).
      assert (B : x <= Rmean flat_all <= x); [|lra]. apply Rmean_bounds; [exact N|]. intros y Hy. destruct (Req_dec x y) as [->|D]; [lra|]. exfalso. apply H. exists x, y. auto. }
    rewrite total_split in Z. generalize within_nonneg. lra.
  Qed.

  Lemma mean_fit : has_spread (flat_of mu) ->
    0 < pearson flat_all (flat_of mu) <= 1 /\
    pearson flat_all (flat_of mu) * pearson flat_all (flat_of mu) = 1 - distance flat_all (flat_of mu) * distance flat_all (flat_of mu) / pvar flat_all.
  Proof.
    intro S. assert (Sa := mean_spread S). assert (P := proj1 (spread_pos _) S). assert (Pa := proj1 (spread_pos _) Sa). rewrite same_mean in P.
    assert (L := pearson_bounds flat_all (flat_of mu)).
    assert (N : flat_all <> []) by (destruct Sa as (u & _ & H & _); intro Q; rewrite Q in H; contradiction).
    assert (NL := INR_len_pos _ _ N).
    assert (V : pearson flat_all (flat_of mu) = explained / (sqrt (within + explained) * sqrt explained)).
    { unfold pearson. rewrite cov_explained, total_split, same_mean. reflexivity. }
    assert (D : distance flat_all (flat_of mu) * distance flat_all (flat_of mu) = within / INR (length flat_all)).
    { unfold distance. rewrite residual_mu. apply sqrt_sqrt. apply Rmult_le_pos; [apply within_nonneg|left; apply Rinv_0_lt_compat; exact NL]. }
    assert (T : pvar flat_all = (within + explained) / INR (length flat_all)) by (unfold pvar; rewrite total_split; reflexivity).
    change (0 < explained) in P. rewrite total_split in Pa.
    assert (Q1 := sqrt_lt_R0 _ Pa). assert (Q2 := sqrt_lt_R0 _ P).
    split; [split|].
    - rewrite V. apply Rdiv_lt_0_compat; [exact P|]. apply Rmult_lt_0_compat; assumption.
    - apply L; assumption || (rewrite flat_of_length; reflexivity).
    - rewrite D, T, V.
      replace (explained / (sqrt (within + explained) * sqrt explained) * (explained / (sqrt (within + explained) * sqrt explained))) with
        (explained * explained / ((sqrt (within + explained) * sqrt (within + explained)) * (sqrt explained * sqrt explained))) by (field; lra).
      rewrite !sqrt_sqrt by lra. field. lra.
  Qed.
End Groups.

(** ** The MOS classes *)
Lemma complete_app : forall a b c d : list ef, length a = length c -> complete_pairs (a ++ b) (c ++ d) = complete_pairs a c ++ complete_pairs b d.
Proof.
  induction a as [|x a IH]; intros b [|y c] d L; try discriminate; [reflexivity|]. cbn in L. cbn [app].
  destruct x, y; cbn [complete_pairs app]; rewrite IH by lia; reflexivity.
Qed.
Lemma complete_row : forall (l : list ef) y m, (presents l <> [] -> y = Fin m) -> complete_pairs l (map (fun _ => y) l) = map (fun x => (x, m)) (presents l).
Proof.
  induction l as [|x l IH]; intros y m H; [reflexivity|]. cbn [map].
  assert (IH' : presents l <> [] -> y = Fin m -> complete_pairs l (map (fun _ => y) l) = map (fun x => (x, m)) (presents l)) by (intros _ ->; apply IH; auto).
  destruct x as [x| | |].
  - rewrite H by discriminate. cbn [complete_pairs presents flat_map app map]. f_equal. apply IH. auto.
  - apply IH. exact H.
  - apply IH. exact H.
  - apply IH. exact H.
Qed.
Lemma complete_flat : forall (row rec : nat -> list ef) (pr : nat -> list (R * R)) l, (forall e, In e l -> length (row e) = length (rec e)) ->
  (forall e, In e l -> complete_pairs (row e) (rec e) = pr e) -> complete_pairs (flat_map row l) (flat_map rec l) = flat_map pr l.
Proof.
  intros row rec pr. induction l as [|e l IH]; intros L E; [reflexivity|]. cbn [flat_map]. rewrite complete_app by (apply L; left; reflexivity).
  rewrite IH by (intros; (apply L || apply E); right; assumption). rewrite E by (left; reflexivity). reflexivity.
Qed.
Lemma const_row : forall (raw rec : nat -> nat -> ef) y ls lr, (forall s r, In s ls -> In r lr -> rec s r = y) ->
  flat_map (fun s => map (fun r => rec s r) lr) ls = map (fun _ => y) (flat_map (fun s => map (fun r => raw s r) lr) ls).
Proof.
  intros raw rec y ls lr. induction ls as [|s ls IH]; intro H; [reflexivity|]. cbn [flat_map]. rewrite map_app, map_map, IH by (intros; apply H; [right|]; assumption).
  f_equal. apply map_ext_in. intros r Hr. apply H; [left; reflexivity|exact Hr].
Qed.

Lemma recon_pairs : forall raw rec (y : nat -> ef), same_shape raw rec -> (forall e s r, inside raw e s r -> at3 rec e s r = y e) ->
  (forall e, (e < dE raw)%nat -> video_votes raw e <> [] -> y e = Fin (Rmean (video_votes raw e))) ->
  complete_pairs (flat3 raw) (flat3 rec) = flat_map (fun e => map (fun x => (x, Rmean (video_votes raw e))) (video_votes raw e)) (seq 0 (dE raw)).
Proof.
  intros raw rec y (D1 & D2 & D3) A Y. unfold flat3. rewrite <- D1, <- D2, <- D3.
  assert (C : forall e, In e (seq 0 (dE raw)) -> flat_map (fun s => map (fun r => at3 rec e s r) (seq 0 (dR raw))) (seq 0 (dS raw)) =
    map (fun _ => y e) (flat_map (fun s => map (fun r => at3 raw e s r) (seq 0 (dR raw))) (seq 0 (dS raw)))).
  { intros e He. apply in_seq in He. apply (const_row (at3 raw e) (at3 rec e)). intros s r Hs Hr. apply in_seq in Hs. apply in_seq in Hr. apply A. repeat split; lia. }
  apply complete_flat.
  - intros e He. rewrite (C e He), map_length. reflexivity.
  - intros e He. rewrite (C e He). unfold video_votes. apply complete_row. intro H. apply in_seq in He. apply (Y e); [lia|exact H].
Qed.

Lemma fst_pairs : forall (v : nat -> list R) (q : nat -> R) l, map fst (flat_map (fun e => map (fun x => (x, q e)) (v e)) l) = flat_map v l.
Proof.
  intros v q l. induction l as [|e l IH]; [reflexivity|]. cbn [flat_map]. rewrite map_app, IH, map_map. f_equal. apply map_id.
Qed.
Lemma snd_pairs : forall (v : nat -> list R) (q : nat -> R) l, map snd (flat_map (fun e => map (fun x => (x, q e)) (v e)) l) = flat_map (fun e => map (fun _ => q e) (v e)) l.
Proof.
  intros v q l. induction l as [|e l IH]; [reflexivity|]. cbn [flat_map]. rewrite map_app, IH, map_map. reflexivity.
Qed.

Lemma mos_recon_entry : forall c (rd : reader ef) k a0 m, rd_arr rd = Ok a0 -> finite_votes a0 -> (forall rs, ds_ref_score (rd_ds rd) = Some (Some rs) -> finnan rs) ->
  run_modeling c rd k = Ok m -> finite_votes (mr_raw m) /\ same_shape (mr_raw m) (mr_recon m) /\
  forall e s r, inside (mr_raw m) e s r -> at3 (mr_recon m) e s r = nanmeanR (video_votes (mr_raw m) e).
Proof.
  intros c rd k a0 m Ha Hf Hr H. unfold run_modeling in H. destruct (run_kwargs c k) as [k'|] eqn:Ek; [|discriminate]. cbn [bind] in H.
  unfold mos_run in H. destruct (preprocess rd k') as [pp|] eqn:Ep; [|discriminate]. cbn [bind] in H. cbv zeta in H.
  destruct (pp_shape _ _ _ _ Ha Hf Hr Ep) as (O & DE & DR & DS & F & B1 & B2).
  match type of H with bind (bind ?mm _) _ = _ => destruct mm as [b|] eqn:Eb; [|discriminate] end. cbn [bind] in H.
  destruct (attach_observers rd) as [obs|] eqn:Eo; [|discriminate]. cbn [bind] in H. apply Ok_inj in H. subst m. cbn [mr_raw mr_recon].
  set (x := pp_arr pp) in *. set (dof := if is_biasremv c then dof_biasremv else dof_mos) in *.
  assert (E1 := mos_quality_eq x F dof (pp_orig pp)). unfold mos_and_stats in *. cbn [mr_quality mr_raw mr_recon] in *.
  split; [exact F|]. split.
  - unfold same_shape, mos_reconstructions. cbn [dE dS dR]. rewrite E1, map_length, seq_length. auto.
  - intros e s r (I1 & I2 & I3). cbn [mos_reconstructions at3]. rewrite E1. unfold vat. rewrite BaseProofs.nth_map_seq by exact I1. reflexivity.
Qed.

Lemma c84_mos : forall lstsq c (rd : reader ef) k a0 m g p, rd_arr rd = Ok a0 -> finite_votes a0 -> (forall rs, ds_ref_score (rd_ds rd) = Some (Some rs) -> finnan rs) ->
  run_modeling c rd k = Ok m -> g = all_votes (mr_raw m) -> p = score_of_each (mr_raw m) (fun e => Rmean (video_votes (mr_raw m) e)) ->
  ((length g < 2)%nat -> reconstruction_stats lstsq (mr_raw m) (mr_recon m) = Err ValueError) /\
  ((2 <= length g)%nat -> ~ has_spread p -> reconstruction_stats lstsq (mr_raw m) (mr_recon m) = Ok (Recon (Fin (distance g p)) NaN NaN)) /\
  (has_spread p -> exists rm cc sr, reconstruction_stats lstsq (mr_raw m) (mr_recon m) = Ok (Recon (Fin rm) (Fin cc) (Fin sr)) /\
     rm = distance g p /\ (forall q, rm <= distance g (score_of_each (mr_raw m) q)) /\ 0 < cc <= 1 /\ cc * cc = 1 - rm * rm / pvar g /\ -1 <= sr <= 1).
Proof.
  intros lstsq c rd k a0 m g p Ha Hf Hr H Eg Ep. destruct (mos_recon_entry _ _ _ _ _ Ha Hf Hr H) as (F & S & A).
  set (raw := mr_raw m) in *. set (rec := mr_recon m) in *.
  assert (Fr : finite_votes rec).
  { intros e s r (I1 & I2 & I3). destruct S as (D1 & D2 & D3). rewrite A by (unfold inside; lia). apply nanmeanR_finnan. }
  assert (C : complete_pairs (flat3 raw) (flat3 rec) = flat_map (fun e => map (fun x => (x, Rmean (video_votes raw e))) (video_votes raw e)) (seq 0 (dE raw))).
  { apply (recon_pairs raw rec (fun e => nanmeanR (video_votes raw e)) S A). intros e _ N. apply nanmeanR_ne. exact N. }
  assert (Eg' : g = map fst (complete_pairs (flat3 raw) (flat3 rec))) by (rewrite C, fst_pairs; exact Eg).
  assert (Ep' : p = map snd (complete_pairs (flat3 raw) (flat3 rec))) by (rewrite C, snd_pairs; exact Ep).
  assert (Gg : g = flat_all nat (video_votes raw) (seq 0 (dE raw))) by exact Eg.
  assert (Gp : p = flat_of nat (video_votes raw) (seq 0 (dE raw)) (fun e => Rmean (video_votes raw e))) by exact Ep.
  split; [|split].
  - intro L. apply c84_stats; try assumption. rewrite <- (map_length fst), <- Eg'. exact L.
  - intros L N. apply (c84_values lstsq raw rec g p S F Fr Eg' Ep' L). tauto.
  - intro Sp. assert (Sg : has_spread g). { rewrite Gg. apply mean_spread. rewrite <- Gp. exact Sp. }
    assert (L : (2 <= length g)%nat).
    { destruct Sg as (u & w & Hu & Hw & D). destruct g as [|a [|b l]]; [contradiction| |cbn; lia]. exfalso. apply D. destruct Hu as [<-|[]], Hw as [<-|[]]. reflexivity. }
    destruct (c84_values lstsq raw rec g p S F Fr Eg' Ep' L) as (V & _). rewrite (V Sg Sp). eexists _, _, _. split; [reflexivity|].
    assert (Sp' := Sp). rewrite Gp in Sp'. destruct (mean_fit _ _ _ Sp') as (B1 & B2). rewrite <- Gg, <- Gp in B1, B2.
    split; [reflexivity|]. split; [|split; [exact B1|split; [exact B2|]]].
    + intro q. rewrite Gg, Gp. exact (mean_best nat (video_votes raw) (seq 0 (dE raw)) q).
    + apply (proj2 (c75_srcc_exact lstsq g p ltac:(rewrite Eg', Ep', !map_length; reflexivity) Sg Sp)).
Qed.

Lemma complete_self : forall l : list ef, complete_pairs l l = map (fun x => (x, x)) (presents l).
Proof. induction l as [|[x| | |] l IH]; [reflexivity|cbn [complete_pairs]; rewrite IH; reflexivity|exact IH|exact IH|exact IH]. Qed.
Lemma flat3_presents : forall a, presents (flat3 a) = all_votes a.
Proof. intro a. unfold flat3, all_votes. rewrite presents_flat_map. reflexivity. Qed.
Lemma c84_perfect : forall lstsq a, finite_votes a -> has_spread (all_votes a) -> reconstruction_stats lstsq a a = Ok (Recon (Fin 0) (Fin 1) (Fin 1)).
Proof.
  intros lstsq a F S. assert (E := complete_self (flat3 a)). rewrite flat3_presents in E.
  assert (E1 : map fst (complete_pairs (flat3 a) (flat3 a)) = all_votes a) by (rewrite E, map_map; apply map_id).
  assert (E2 : map snd (complete_pairs (flat3 a) (flat3 a)) = all_votes a) by (rewrite E, map_map; apply map_id).
  assert (L : (2 <= length (all_votes a))%nat).
  { destruct S as (u & w & Hu & Hw & D). destruct (all_votes a) as [|x [|y l]]; [contradiction| |cbn; lia]. exfalso. apply D. destruct Hu as [<-|[]], Hw as [<-|[]]. reflexivity. }
  destruct (c84_values lstsq a a (all_votes a) (all_votes a)) as (V & _); auto; [repeat split|]. rewrite (V S S). do 2 f_equal.
  - f_equal. apply distance_zero; auto. intro N. rewrite N in L. cbn in L. lia.
  - f_equal. apply pearson_self. exact S.
  - destruct (c75_srcc_exact lstsq _ _ eq_refl S S) as (Q & _). rewrite <- (map_id (all_votes a)) in Q at 2.
    rewrite (c75_agree lstsq SRCC (fun x => x) (all_votes a) S) in Q by (auto; intros ? ? ? ? ?; assumption). apply Ok_inj in Q. congruence.
Qed.
