(** Concrete datasets for the paired comparison claims. *)
From Coq Require Import String.
From Coq Require Import List ZArith Bool Arith Reals Lia Lra.
From Verif Require Import PyBase Num ExtReal NumPy Dataset PcDataset SpecDataset SpecMos SpecConv SpecPc BaseProofs ExtRealProofs DatasetProofs StepsProofs PcProofs Pc2Proofs Pc3Proofs Pc4Proofs Pc5Proofs Pc6Proofs.
Import ListNotations.
Local Open Scope list_scope.
Local Open Scope string_scope.

(** Decides the comparisons of concrete numbers left by the evaluation. *)
Lemma Rltb_yes : forall a b, (a < b)%R -> Rltb a b = true. Proof. intros. apply Rltb_true. assumption. Qed.
Lemma Rltb_no : forall a b, (b <= a)%R -> Rltb a b = false. Proof. intros. apply Rltb_false. lra. Qed.
Lemma Rleb_yes : forall a b, (a <= b)%R -> Rleb a b = true. Proof. intros. apply Rleb_true. assumption. Qed.
Lemma Rleb_no : forall a b, (b < a)%R -> Rleb a b = false. Proof. intros. apply Rleb_false. lra. Qed.
Ltac reals_step :=
  match goal with
  | |- context [Rltb ?a ?b] => first [rewrite (Rltb_yes a b) by lra | rewrite (Rltb_no a b) by lra]
  | |- context [Rleb ?a ?b] => first [rewrite (Rleb_yes a b) by lra | rewrite (Rleb_no a b) by lra]
  | |- context [Req_EM_T ?a ?b] => destruct (Req_EM_T a b); [exfalso; lra|] || (destruct (Req_EM_T a b); [|exfalso; lra])
  end.
Ltac reals := repeat (reals_step; cbv iota beta).
Ltac run_pc := lazy -[Rltb Rleb Req_EM_T Reqbb Rplus Rmult Rinv Rdiv Rminus Ropp IZR]; reals.

Definition yv (z : Z) : pyv ef := PNum (Fin (IZR z)).
Definition ydv (c a : Z) (p : string) (o : osval ef string) : dvideo ef string := DVideo c a p (Some o) None None [("fps", "25")].
Definition yds (dvs : list (dvideo ef string)) : dataset ef string :=
  Dataset [RVideo 0 "ref0" []; RVideo 1 "ref1" []] dvs (Some "pc") None [("yuv_fmt", "420p")].
Definition y_stream (l : list R) : rng ef := Rng (fun n => Fin (nth n l 0%R)) (fun n s => s).

(** Three videos, two of the same content; subject c rates only one. *)
Definition y_main : dataset ef string :=
  yds [ydv 0 0 "p0" (ODict [("b", yv 3); ("a", yv 1)]); ydv 0 1 "p1" (ODict [("a", yv 1); ("b", yv 2); ("c", yv 4)]); ydv 1 2 "p2" (ODict [("b", yv 5)])]%Z.
(** Subject b skipped video 0. *)
Definition y_skip : dataset ef string :=
  yds [ydv 0 0 "p0" (ODict [("a", yv 1)]); ydv 0 1 "p1" (ODict [("a", yv 1); ("b", yv 2)]); ydv 0 2 "p2" (ODict [("b", yv 5)])]%Z.
(** List style: a tie, and a missing vote. *)
Definition y_tie : dataset ef string := yds [ydv 0 0 "p0" (OSeq true [yv 3; yv 4]); ydv 0 1 "p1" (OSeq true [yv 3; yv 5])]%Z.
Definition y_missing : dataset ef string := yds [ydv 0 0 "p0" (OSeq true [yv 3]); ydv 0 1 "p1" (OSeq true [PNum NaN])]%Z.
Definition y_eleven : dataset ef string := yds [ydv 0 0 "p0" (OSeq true (map yv [0; 1; 2; 3; 4; 5; 6; 7; 8; 9; 10]%Z))]%Z.

Definition y_rates (l : list ef) : pcopts ef := PcOpts None None None (Some l) None None None None None.
Definition y_sampled (r : ef) (tie : option string) : pcopts ef := PcOpts None tie (Some r) None None None None None None.
Definition y_none : pcopts ef := PcOpts None None None None None None None None None.

Ltac nodup := repeat (constructor; [cbn; intuition discriminate|]); constructor.
Lemma y_main_source : pc_source (ds_dis y_main).
Proof. split; [discriminate|]. split; [nodup|]. right. repeat constructor; eexists; (split; [reflexivity|nodup]). Qed.
Lemma y_skip_source : pc_source (ds_dis y_skip).
Proof. split; [discriminate|]. split; [nodup|]. right. repeat constructor; eexists; (split; [reflexivity|nodup]). Qed.
Lemma y_tie_style : list_style (ds_dis y_tie) 2.
Proof. repeat constructor; do 2 eexists; (split; reflexivity). Qed.
Lemma y_tie_source : pc_source (ds_dis y_tie).
Proof. split; [discriminate|]. split; [nodup|]. left. exists 2. apply y_tie_style. Qed.
Lemma y_missing_source : pc_source (ds_dis y_missing).
Proof. split; [discriminate|]. split; [nodup|]. left. exists 1. repeat constructor; do 2 eexists; (split; reflexivity). Qed.
Lemma y_eleven_source : pc_source (ds_dis y_eleven).
Proof. split; [discriminate|]. split; [nodup|]. left. exists 11. repeat constructor; do 2 eexists; (split; reflexivity). Qed.

(** What is produced for them. *)
Definition y_pc (kws : list (string * string)) (l : list (Z * Z * string * list ((string * Z) * R))) : dataset ef (string * Z) :=
  Dataset [RVideo 0 "ref0" []; RVideo 1 "ref1" []]
    (map (fun q => let '(c, a, p, d) := q in DVideo c a p (Some (ODict (map (fun kx => (fst kx, PNum (Fin (snd kx)))) d))) None None [("fps", "25")]) l) (Some "pc") None kws.
Lemma y_main_run : exists after, to_pc_dataset 2 y_main no_kw y_none (y_stream []) =
  Ok (y_pc [("yuv_fmt", "420p")] [(0, 0, "p0", [(("b", 1), 1%R); (("a", 1), (1/2)%R)]); (0, 1, "p1", [(("a", 0), (1/2)%R)]); (1, 2, "p2", [])]%Z, after, 0).
Proof. eexists. run_pc. unfold Rdiv. reflexivity. Qed.
(** Sampling rate 2, a tie broken by tossing a coin twice. *)
Lemma y_twice_run : exists after, to_pc_dataset 4 y_tie no_kw (y_sampled (Fin 2) (Some "coin_toss")) (y_stream [9/10; 1/10]%R) =
  Ok (y_pc [("yuv_fmt", "420p")] [(0, 0, "p0", [(("0", 1), 1%R)]); (0, 1, "p1", [(("0", 0), 1%R); (("1", 0), 1%R)])]%Z, after, 2).
Proof. eexists. run_pc. reflexivity. Qed.
(** Rate 1/2: the first draw keeps the comparison, the second one breaks the tie... *)
Lemma y_half_run : exists after, to_pc_dataset 4 y_tie no_kw (y_sampled (Fin (1/2)) (Some "coin_toss")) (y_stream [0; 9/10; 9/10]%R) =
  Ok (y_pc [("yuv_fmt", "420p")] [(0, 0, "p0", []); (0, 1, "p1", [(("0", 0), 1%R)])]%Z, after, 3).
Proof. eexists. run_pc. reflexivity. Qed.
(** ... without sampling the first draw breaks it. *)
Lemma y_full_run : exists after, to_pc_dataset 4 y_tie no_kw (unsampled (y_sampled (Fin (1/2)) (Some "coin_toss"))) (y_stream [0; 9/10; 9/10]%R) =
  Ok (y_pc [("yuv_fmt", "420p")] [(0, 0, "p0", [(("0", 1), 1%R)]); (0, 1, "p1", [(("1", 0), 1%R)])]%Z, after, 1).
Proof. eexists. run_pc. reflexivity. Qed.
Lemma y_missing_run : exists after, to_pc_dataset 2 y_missing no_kw y_none (y_stream []) =
  Ok (y_pc [("yuv_fmt", "420p")] [(0, 0, "p0", [(("0", 1), (1/2)%R)]); (0, 1, "p1", [(("0", 0), (1/2)%R)])]%Z, after, 0).
Proof. eexists. run_pc. unfold Rdiv. reflexivity. Qed.
(** Rates 0, 0, 2: video 1 against video 2 has mean rate 1. *)
Lemma y_skip_run : exists after, to_pc_dataset 4 y_skip no_kw (y_rates [Fin 0; Fin 0; Fin 2]) (y_stream []) =
  Ok (y_pc [("yuv_fmt", "420p")] [(0, 0, "p0", []); (0, 1, "p1", []); (0, 2, "p2", [])]%Z, after, 0).
Proof. eexists. run_pc. reflexivity. Qed.
(** Complete, ids increasing: rates 0, 2. *)
Lemma y_tie_rates_run : exists after, to_pc_dataset 4 y_tie no_kw (y_rates [Fin 0; Fin 2]) (y_stream []) =
  Ok (y_pc [("yuv_fmt", "420p")] [(0, 0, "p0", [(("0", 1), (1/2)%R)]); (0, 1, "p1", [(("0", 0), (1/2)%R); (("1", 0), 1%R)])]%Z, after, 0).
Proof. eexists. run_pc. unfold Rdiv. reflexivity. Qed.

(** An infinite rate never ends. *)
Lemma while_infinite : forall fuel o g p n, (forall n, exists r, pc_pass o g p n = Ok r) -> pc_while fuel o g p PInf n = Err Diverges.
Proof.
  intros fuel o g p; induction fuel as [|f IH]; intros n H; [reflexivity|]. cbn [pc_while]. change (nzero <? PInf)%num with true. change (none_ <=? PInf)%num with true. cbv iota.
  destruct (H n) as [r ->]. cbn [bind]. change (PInf - none_)%num with PInf. rewrite (IH (snd r) H). reflexivity.
Qed.
Lemma y_infinite : forall fuel, to_pc_dataset fuel y_tie no_kw (y_sampled PInf None) (y_stream []) = Err Diverges.
Proof.
  intros fuel. unfold to_pc_dataset.
  assert (E : exists p ps dvs tbl, pc_check (y_sampled PInf None) (length (ds_dis y_tie)) = Ok tt /\ pc_convert (ds_dis y_tie) = Ok dvs /\ subj_assets dvs = Ok tbl /\
     flat_map (subject_pairs (y_sampled PInf None)) tbl = p :: ps /\ p = Pair "0" 1 0 1%Z 0%Z (yv 3, 0%Z) (yv 3, 0%Z)).
  { do 4 eexists. split; [reflexivity|]. split; [reflexivity|]. split; [reflexivity|]. split; reflexivity. }
  destruct E as (p & ps & dvs & tbl & -> & -> & E1 & E2 & Ep). cbn [bind]. rewrite E1. cbn [bind]. rewrite E2. cbn [mapS]. unfold pc_pair at 1. cbn [pc_rate y_sampled po_rate bind].
  rewrite while_infinite; [reflexivity|]. intros n. subst p. unfold pc_pass, pc_coin. cbn [y_sampled po_coin po_coins bind]. unfold pc_judge, pc_scores, pc_noisy. cbn.
  destruct (Rltb 3 3); [eexists; reflexivity|]. eexists; reflexivity.
Qed.
Lemma y_eleven_run : exists pc after, to_pc_dataset 2 y_eleven no_kw y_none (y_stream []) = Ok (pc, after, 0) /\
  exists a a', opinion_score_3darray_with (ds_dis y_eleven) (get_num_observers (ds_dis y_eleven)) = Ok a /\
    opinion_score_3darray_with (ds_dis after) (get_num_observers (ds_dis after)) = Ok a' /\ at3 a 0 2 0 = Fin 2 /\ at3 a' 0 2 0 = Fin 10.
Proof. do 2 eexists. split; [vm_compute; reflexivity|]. do 2 eexists. split; [vm_compute; reflexivity|]. split; [vm_compute; reflexivity|]. split; reflexivity. Qed.

(** Paired comparison datasets. *)
Definition y_pair (l : list (Z * list ((string * Z) * R))) : dataset ef (string * Z) := y_pc [] (map (fun q => (0%Z, fst q, "p", snd q)) l).
(** The first video has asset id 1. *)
Definition y_swapped := y_pair [(1, [(("s", 0), 1%R)]); (0, [])]%Z.
Definition y_straight := y_pair [(0, [(("s", 1), 1%R); (("t", 1), (1/2)%R)]); (1, [])]%Z.
Lemma y_okval : forall x, pc_val x -> ((Fin x =? nzero) || (Fin x =? ndec 1 2) || (Fin x =? none_))%num = true.
Proof. intros x H. apply (proj2 (okval_ef (Fin x))). eauto. Qed.
Lemma y_swapped_run : exists a, pc_reader_3darray y_swapped = Ok a /\ at3 a 1 0 0 = NaN /\ at3 a 0 0 0 = Fin 0.
Proof.
  unfold pc_reader_3darray. replace (pc_assert_dataset y_swapped) with (@Ok unit tt) by (symmetry; vm_compute; reflexivity). cbn [bind].
  unfold pc_opinion_3darray. replace (pc_list_observers (ds_dis y_swapped)) with (Ok ["s"]) by (symmetry; vm_compute; reflexivity). cbn [bind ds_dis y_swapped y_pair y_pc map enumerate length seq combine foldM get_os dv_os snd fst].
  unfold pc_write. cbn [pc_value snd fst]. rewrite (y_okval 1) by (right; right; reflexivity). cbn. eexists. split; [reflexivity|]. cbn. split; [reflexivity|]. f_equal. lra.
Qed.
Lemma y_straight_run : exists a, pc_reader_3darray y_straight = Ok a /\ dR a = 2 /\ at3 a 0 1 0 = Fin 1 /\ at3 a 1 0 0 = Fin 0 /\ at3 a 1 0 1 = Fin (1/2) /\ at3 a 0 0 0 = NaN.
Proof.
  unfold pc_reader_3darray. replace (pc_assert_dataset y_straight) with (@Ok unit tt) by (symmetry; vm_compute; reflexivity). cbn [bind].
  unfold pc_opinion_3darray. replace (pc_list_observers (ds_dis y_straight)) with (Ok ["s"; "t"]) by (symmetry; vm_compute; reflexivity). cbn [bind ds_dis y_straight y_pair y_pc map enumerate length seq combine foldM get_os dv_os snd fst].
  unfold pc_write. cbn [pc_value snd fst]. rewrite (y_okval 1) by (right; right; reflexivity). cbn [bind]. rewrite (y_okval (1/2)) by (right; left; reflexivity). cbn. eexists. split; [reflexivity|]. cbn.
  change (Pos.to_nat 1) with 1. unfold set3. cbn [Nat.eqb andb]. repeat split; f_equal; lra.
Qed.
Lemma dict_finite : forall dvs, Forall (fun dv => match dv_os dv with Some (ODict d) => Forall (fun kv => exists x, snd kv = PNum (Fin x)) d | _ => False end) dvs -> finite_single dvs.
Proof.
  intros dvs H dv s v Hin Hv. rewrite Forall_forall in H. specialize (H dv Hin). inversion Hv as [d s' v' E Hd|b l i v' E Hd]; subst; rewrite E in H; [|contradiction].
  rewrite Forall_forall in H. destruct (H _ Hd) as [x Ex]. exists x. left. exact Ex.
Qed.
Lemma list_finite : forall dvs, Forall (fun dv => match dv_os dv with Some (OSeq _ l) => Forall (fun v => exists x, v = PNum (Fin x)) l | _ => False end) dvs -> finite_single dvs.
Proof.
  intros dvs H dv s v Hin Hv. rewrite Forall_forall in H. specialize (H dv Hin). inversion Hv as [d s' v' E Hd|b l i v' E Hd]; subst; rewrite E in H; [contradiction|].
  rewrite Forall_forall in H. destruct (H _ (nth_error_In _ _ Hd)) as [x Ex]. exists x. left. exact Ex.
Qed.
Lemma y_main_wf : raw_dataset_ok y_main /\ finite_single (ds_dis y_main) /\ ids_are_positions (ds_dis y_main).
Proof.
  split; [|split].
  - apply assert_dataset_raw_iff. exists tt. vm_compute. reflexivity.
  - apply dict_finite. repeat constructor; eexists; reflexivity.
  - intros [|[|[|[|i]]]] dv E; cbn in E; try discriminate; injection E as <-; reflexivity.
Qed.
Lemma y_tie_finite : finite_single (ds_dis y_tie).
Proof. apply list_finite. repeat constructor; eexists; reflexivity. Qed.
Lemma y_skip_finite : finite_single (ds_dis y_skip).
Proof. apply dict_finite. repeat constructor; eexists; reflexivity. Qed.
Lemma y_tie_complete : everyone_rated_all (ds_dis y_tie) /\ increasing_ids (ds_dis y_tie).
Proof.
  split.
  - intros dv dv' s v I1 I2 Hv. inversion Hv as [d s' v' E Hd|b l i v' E Hd]; subst.
    + cbn in I1. destruct I1 as [<-|[<-|[]]]; discriminate.
    + assert (i < 2) by (cbn in I1; destruct I1 as [<-|[<-|[]]]; cbn in E; injection E as <- <-; destruct i as [|[|[|i]]]; try lia; discriminate).
      destruct i as [|[|i]]; [| |lia]; cbn in I2; destruct I2 as [<-|[<-|[]]]; eexists; (eapply vo_list with (i := 0) || eapply vo_list with (i := 1)); reflexivity.
  - intros [|[|[|i]]] [|[|[|j]]] dv dv' L E1 E2; cbn in E1, E2; try discriminate; try lia; injection E1 as <-; injection E2 as <-; cbn; lia.
Qed.
(** ** The refuted claims *)
Ltac outc pos := do 2 eexists; split; [cbn; pos; reflexivity|]; split; [reflexivity|]; split; [reflexivity|cbn; left; reflexivity].
Lemma y_missing_tie : exists pc after, to_pc_dataset 2 y_missing no_kw y_none (y_stream []) = Ok (pc, after, 0) /\
  vote_of (ydv 0 1 "p1" (OSeq true [PNum NaN])) "0" (PNum NaN) /\ outcome pc 0 "0" 1 (Fin (1/2)) /\ outcome pc 1 "0" 0 (Fin (1/2)).
Proof.
  destruct y_missing_run as [after E]. do 2 eexists. split; [exact E|]. split; [eapply vo_list with (i := 0); reflexivity|].
  split; [outc ltac:(left)|outc ltac:(right; left)].
Qed.
Lemma y_contradiction : exists ds o g pc after n, pc_source (ds_dis ds) /\ finite_single (ds_dis ds) /\ to_pc_dataset 4 ds no_kw o g = Ok (pc, after, n) /\
  exists a s b, outcome pc a s b (Fin 1) /\ outcome pc b s a (Fin 1).
Proof.
  destruct y_twice_run as [after E]. do 6 eexists. split; [apply y_tie_source|]. split; [apply y_tie_finite|]. split; [exact E|]. exists 0%Z, "0", 1%Z.
  split; [outc ltac:(left)|outc ltac:(right; left)].
Qed.
Lemma y_not_sub : exists ds o g pc after n pc0 after0 n0 x, pc_source (ds_dis ds) /\ finite_single (ds_dis ds) /\ po_rate o = Some (Fin x) /\ (x <= 1)%R /\
  to_pc_dataset 4 ds no_kw o g = Ok (pc, after, n) /\ to_pc_dataset 4 ds no_kw (unsampled o) g = Ok (pc0, after0, n0) /\
  exists a s b v, outcome pc a s b v /\ ~ outcome pc0 a s b v.
Proof.
  destruct y_half_run as [after E]. destruct y_full_run as [after0 E0]. exists y_tie, (y_sampled (Fin (1/2)) (Some "coin_toss")), (y_stream [0; 9/10; 9/10]%R). do 6 eexists. exists (1/2)%R. split; [apply y_tie_source|]. split; [apply y_tie_finite|]. split; [reflexivity|]. split; [lra|].
  split; [exact E|]. split; [exact E0|]. exists 1%Z, "0", 0%Z, (Fin 1). split.
  - outc ltac:(right; left).
  - intros (dv & d & Hin & Ea & Eo & Hv). cbn in Hin. destruct Hin as [<-|[<-|[]]]; [discriminate|]. cbn in Eo. injection Eo as <-. cbn in Hv. destruct Hv as [Hv|[]]. discriminate.
Qed.
Lemma y_wrong_rate : exists ds o g pc after n, pc_source (ds_dis ds) /\ finite_single (ds_dis ds) /\ increasing_ids (ds_dis ds) /\ to_pc_dataset 4 ds no_kw o g = Ok (pc, after, n) /\
  exists s i j va vb, nth_error (ds_dis ds) i = Some va /\ nth_error (ds_dis ds) j = Some vb /\ compared (ds_dis ds) (any_content o) s va vb /\
    (exists q, deciding_at o s va vb i j q) /\ forall q, deciding_at o s va vb i j q -> ~ decided pc g q s (dv_aid va) (dv_aid vb).
Proof.
  destruct y_skip_run as [after E]. exists y_skip, (y_rates [Fin 0; Fin 0; Fin 2]), (y_stream []). do 3 eexists. split; [apply y_skip_source|]. split; [apply y_skip_finite|].
  split; [intros [|[|[|[|i]]]] [|[|[|[|j]]]] dv dv' L E1 E2; cbn in E1, E2; try discriminate; try lia; injection E1 as <-; injection E2 as <-; cbn; lia|].
  split; [exact E|]. exists "b", 2, 1. do 2 eexists. split; [reflexivity|]. split; [reflexivity|].
  assert (V1 : vote_of (ydv 0 2 "p2" (ODict [("b", yv 5)])) "b" (yv 5)) by (eapply vo_dict; [reflexivity|left; reflexivity]).
  assert (V2 : vote_of (ydv 0 1 "p1" (ODict [("a", yv 1); ("b", yv 2)])) "b" (yv 2)) by (eapply vo_dict; [reflexivity|right; left; reflexivity]).
  split; [|split].
  - split; [right; right; left; reflexivity|]. split; [right; left; reflexivity|]. split; [eexists; exact V1|]. split; [eexists; exact V2|]. split; [reflexivity|]. right. reflexivity.
  - exists (Deciding (ef_div (ef_add (Fin 2) (Fin 0)) (Fin 2)) None None None (Fin 5) (Fin 2) true).
    split; [eexists; split; [exists (Fin 2), (Fin 0); repeat split|reflexivity]|]. cbn. repeat split; left; assumption.
  - intros q ((r & (r1 & r2 & E1 & E2 & ->) & Hr) & _) (m & ws & m' & C & O1 & O2). cbn in E1, E2. injection E1 as <-. injection E2 as <-.
    replace (ef_div (ef_add (Fin 2) (Fin 0)) (Fin 2)) with (Fin 1) in Hr by (cbn [ef_add]; rewrite ef_div_Fin by lra; f_equal; lra).
    rewrite Hr in C. destruct (comparisons_unit _ _ _ _ _ C) as [w ->].
    assert (No : forall a s b v, ~ outcome (y_pc [("yuv_fmt", "420p")] [(0, 0, "p0", []); (0, 1, "p1", []); (0, 2, "p2", [])]%Z) a s b v).
    { intros a s b v (dv & d & Hin & _ & Eo & Hv). cbn in Hin. destruct Hin as [<-|[<-|[<-|[]]]]; cbn in Eo; injection Eo as <-; contradiction. }
    destruct w; [apply (No _ _ _ _ (proj2 (O1 (Fin 1)) eq_refl))|apply (No _ _ _ _ (proj2 (O2 (Fin 1)) eq_refl))|apply (No _ _ _ _ (proj2 (O1 (Fin (1/2))) eq_refl))].
Qed.
Lemma y_misplaced : exists ds a, pc_reader_3darray ds = Ok a /\ outcome ds 1 "s" 0 (Fin 1) /\ pc_observers (ds_dis ds) ["s"] /\ at3 a 1 0 0 = NaN.
Proof.
  destruct y_swapped_run as (a & E & E1 & E2). exists y_swapped, a. split; [exact E|]. split; [outc ltac:(left)|].
  split; [|exact E1]. apply pc_list_observers_spec. vm_compute. reflexivity.
Qed.
