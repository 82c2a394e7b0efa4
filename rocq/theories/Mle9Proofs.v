(** Maximum likelihood models: the result dictionary (C71). *)
From Coq Require Import String.
From Coq Require Import List ZArith Bool Arith Reals Lra Lia Permutation.
From Verif Require Import PyBase Num ExtReal NumPy Dataset Preproc Mos AP Mle SpecMos SpecAp SpecMle
  BaseProofs ExtRealProofs ArrayProofs StepsProofs MosProofs ApProofs Ap2Proofs Ap6Proofs MleProofs Mle2Proofs Mle3Proofs Mle4Proofs Mle5Proofs Mle6Proofs Mle7Proofs Mle8Proofs.
Import ListNotations.
Local Open Scope list_scope.
Local Open Scope R_scope.

Lemma zero_mean_zeros : forall f (q : list ef) n, snd (zero_mean f q (repeat (Fin 0) n)) = repeat (Fin 0) n.
Proof.
  intros f q n. destruct f; [|reflexivity]. cbn [zero_mean snd]. destruct n as [|n]; [reflexivity|].
  assert (E : repeat (Fin 0) (S n) = map Fin (repeat 0 (S n))).
  { generalize (S n). induction n0 as [|k IH]; [reflexivity|]. cbn. f_equal. exact IH. }
  rewrite E, np_mean_Fin, nanmeanR_ne by discriminate.
  assert (M : Rmean (repeat 0 (S n)) = 0).
  { unfold Rmean. rewrite (Rsum_const _ 0) by (intros y Hy; apply repeat_spec in Hy; exact Hy). unfold Rdiv. ring. }
  rewrite M, map_map. apply map_ext_in. intros y Hy. apply repeat_spec in Hy. subst y. cbn. f_equal. ring.
Qed.
Lemma preprocess_orig : forall (rd : reader ef) k pp, preprocess rd k = Ok pp -> rd_arr rd = Ok (pp_orig pp).
Proof.
  intros rd k pp H. unfold preprocess in H. destruct (rd_arr rd) as [a|]; [|discriminate]. cbn [bind] in H.
  destruct (if kw_rej k then _ else _); [|discriminate]. cbn [bind] in H. destruct (assert_ _); [|discriminate]. cbn [bind] in H.
  destruct (if kw_dscore k then _ else _); [|discriminate]. cbn [bind] in H. cbv zeta in H.
  destruct (kw_rej k).
  - match type of H with bind ?z _ = _ => destruct z as [[[[? ?] ?] ?]|]; [|discriminate] end. cbn [bind] in H. apply Ok_inj in H. subst pp. reflexivity.
  - apply Ok_inj in H. subst pp. reflexivity.
Qed.

Lemma some_inj : forall A (x y : A), Some x = Some y -> x = y.
Proof. intros A x y H. injection H as H. exact H. Qed.

Section Report.
  Variable chi : ef -> ef -> ef.
  Lemma c71 : forall c (rd : reader ef) k o a0 x cids C s m, rd_arr rd = Ok a0 -> finite_votes a0 -> begins c rd k x cids C s -> finite_votes x ->
    kw_normalize_final k = false -> kw_transform_final k = None -> mle_run_modeling chi c rd k o = Ok m ->
    exists q b v a, passes (mode_of c) (gradient_of o) (pdf_of o) x cids C (ml_iter m) s = Ok (q, b, v, a) /\
      ml_report chi (mode_of c) o a0 x cids C q b v a (ml_iter m) m.
  Proof.
    intros c rd k o a0 x cids C s m Ha F0 B HF N1 N2 H.
    destruct (run_begins chi _ _ _ _ _ _ _ _ _ H B) as (k' & pp & mm & obs & m0 & H1 & H2 & H3 & H4 & H5 & H6 & H7).
    assert (Eo := preprocess_orig _ _ _ H2). rewrite Ha in Eo. apply Ok_inj in Eo. rewrite <- Eo in H6. clear Eo Ha.
    destruct (solve_inv chi _ _ _ _ _ _ _ _ H6) as (st & itr & L & R). destruct (report_iter _ _ _ _ _ _ _ _ _ _ R) as [Ei Er].
    assert (NP : forall q, postprocess k' q = q).
    { intro q. assert (N : kw_normalize_final k' = false /\ kw_transform_final k' = None).
      { clear - H1 N1 N2. unfold mle_kwargs in H1. destruct c; try (apply Ok_inj in H1; subst k'; auto);
          unfold guard, assert_ in H1; destruct (kw_dscore k); cbn [negb bind] in H1; try discriminate; apply Ok_inj in H1; subst k'; auto. }
      unfold postprocess. destruct N as [-> ->]. reflexivity. }
    replace (ml_iter m) with itr by (rewrite H7, <- Ei; reflexivity).
    unfold loop_from in L. rewrite <- H5 in L. destruct s as [[[q0 b0] v0] s0].
    destruct (loop_stops _ _ _ _ _ _ _ _ _ _ _ _ _ _ _ L) as (L1 & (q' & b' & v' & a' & d & P1 & P2 & P3 & P4 & P5) & _).
    rewrite Nat.sub_0_r in P3. exists (sx st), (sb st), (sv st), (sa st). split; [exact P3|].
    destruct (pass_facts _ _ _ _ _ _ _ _ _ _ _ P2) as (_ & _ & _ & _ & _ & _ & F7 & F8 & _).
    unfold report in R. destruct (zero_mean _ (sx st) (sb st)) as [qz bz] eqn:EZ. cbv zeta in R.
    destruct (ll_s (pdf_of o) x qz bz (sv st) (sa st) cids) as [l|] eqn:EL; [|discriminate]. cbn [bind] in R. apply Ok_inj in R.
    assert (EF : mo_force o = Some false -> qz = sx st /\ bz = sb st).
    { intro E. rewrite E in EZ. cbn in EZ. injection EZ as <- <-. auto. }
    assert (EB : mode_of c = SubjectOblivious -> bz = repeat (Fin 0) (dS x)).
    { intro M. destruct (F8 M) as [Z _]. rewrite Z in EZ. assert (G := zero_mean_zeros (match mo_force o with Some f => f | None => true end) (sx st) (dS x)).
      rewrite EZ in G. exact G. }
    rewrite H7, <- R. unfold finish. cbn [ml_raw ml_quality ml_quality_std ml_quality_lo ml_quality_hi ml_iter ml_bias ml_bias_std ml_bias_lo ml_bias_hi
      ml_incons ml_incons_std ml_incons_lo ml_incons_hi ml_ambiguity ml_ambiguity_std ml_ambiguity_lo ml_ambiguity_hi ml_recon ml_dof ml_ll ml_aic ml_bic ml_observers].
    rewrite NP.
    assert (Z95 : forall l, map (fun y : ef => nmul z95 y) l = map (ef_mul (Fin (195996 / 100000))) l) by (intro l0; rewrite z95_ef; reflexivity).
    assert (Bz : or_zeros (dS x) (if match mode_of c with SubjectOblivious => true | _ => false end then None else Some bz) = bz).
    { destruct (mode_of c); try reflexivity. cbn. symmetry. apply EB. reflexivity. }
    assert (Vz : or_zeros (dS x) (if match mode_of c with SubjectOblivious => true | _ => false end then None else Some (sv st)) = sv st).
    { destruct (mode_of c); try reflexivity. cbn. symmetry. apply F8. reflexivity. }
    assert (Az : or_zeros C (if match mode_of c with ContentOblivious => true | _ => false end then None else Some (sa st)) = sa st).
    { destruct (mode_of c); try reflexivity. cbn. symmetry. apply F7. reflexivity. }
    assert (CS : forall i, (i < dS x)%nat -> nofnat (np_cnt (col (stack0 x) i)) = Fin (scount x i)).
    { intros i Hi. rewrite np_cnt_finnan by (apply col_finnan; [exact HF|exact Hi]). rewrite (Permutation_length (presents_col x i)). rewrite nofnat_ef, subject_count. reflexivity. }
    assert (NC : forall (f : nat * ef -> ef) l i, (i < dS x)%nat -> length l = dS x ->
      nth i (map f (combine (map (fun s => np_cnt (col (stack0 x) s)) (seq 0 (n1 (stack0 x)))) l)) NaN = f (np_cnt (col (stack0 x) i), nth i l NaN)).
    { intros f l0 i Hi Hl. rewrite (nth_indep _ NaN (f (0%nat, NaN))) by (rewrite map_length, combine_length, map_length, seq_length; cbn [stack0 n1]; lia).
      rewrite map_nth. f_equal. rewrite combine_nth by (rewrite map_length, seq_length; cbn [stack0 n1]; lia). f_equal.
      rewrite (nth_indep _ _ (np_cnt (col (stack0 x) 0))) by (rewrite map_length, seq_length; cbn [stack0 n1]; lia). rewrite (map_nth (fun s => np_cnt (col (stack0 x) s))). f_equal. f_equal. apply seq_nth. exact Hi. }
    split; cbn [ml_raw ml_quality ml_quality_std ml_quality_lo ml_quality_hi ml_iter ml_bias ml_bias_std ml_bias_lo ml_bias_hi
      ml_incons ml_incons_std ml_incons_lo ml_incons_hi ml_ambiguity ml_ambiguity_std ml_ambiguity_lo ml_ambiguity_hi ml_recon ml_dof ml_ll ml_aic ml_bic ml_observers];
      rewrite ?Bz, ?Vz, ?Az.
    - reflexivity.
    - reflexivity.
    - intro E. destruct (EF E) as [-> _]. reflexivity.
    - intro E. destruct (EF E) as [_ ->]. reflexivity.
    - reflexivity.
    - reflexivity.
    - rewrite Z95. split; reflexivity.
    - unfold width95. rewrite Z95. destruct (mode_of c); split; reflexivity.
    - unfold width95. rewrite Z95. destruct (mode_of c); split; reflexivity.
    - intros i l0 h Hi E1 E2 Hl. destruct (mode_of c); try discriminate; apply some_inj in E1; apply some_inj in E2; subst l0 h;
        (rewrite NC by assumption; cbn [fst snd]; rewrite CS by exact Hi; unfold none_; rewrite ndec_ef by lia; efc; rewrite ef_sub_Fin;
         replace (1 - 25 / 1000) with (975 / 1000) by field; reflexivity).
    - intros i l0 h Hi E1 E2 Hl. destruct (mode_of c); try discriminate; apply some_inj in E1; apply some_inj in E2; subst l0 h;
        (rewrite NC by assumption; cbn [fst snd]; rewrite CS by exact Hi; unfold none_; rewrite ndec_ef by lia; efc; reflexivity).
    - repeat split.
    - intros e i r HI. cbn [ap_reconstructions at3]. reflexivity.
    - rewrite (cnt_flat3 a0 F0), nofnat_ef. efc. destruct (mode_of c); reflexivity.
    - intros EP p HH HR. rewrite EP in EL. destruct (likelihood_is x cids C p qz bz (sv st) (sa st) HF H4 HH HR) as (l' & E1 & E2).
      rewrite EL in E1. apply Ok_inj in E1. subst l'. rewrite E2, (cnt_flat3 x HF). reflexivity.
    - reflexivity.
    - rewrite (cnt_flat3 a0 F0). reflexivity.
  Qed.
End Report.
