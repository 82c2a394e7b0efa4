(** Lemmas for claim C92 over the extended reals, and a concrete file. *)
From Coq Require Import String.
From Coq Require Import List ZArith Bool Arith Lia Reals Lra.
From Verif Require Import PyBase Num ExtReal NumPy Dataset Preproc Mos AP Demo SpecMos SpecAp SpecDemo BaseProofs ExtRealProofs
  MosProofs MosWitness ApProofs Ap2Proofs Ap3Proofs Ap4Proofs Ap5Proofs Ap6Proofs Ap7Proofs Ap8Proofs ApWitness DemoProofs.
Import ListNotations.
Local Open Scope list_scope.

(** float() of a cell, for the cells used here. *)
Definition parse_ef (c : string) : res ef :=
  match c with
  | "1" => Ok (Fin 1) | "2" => Ok (Fin 2) | "3" => Ok (Fin 3) | "4" => Ok (Fin 4) | "5" => Ok (Fin 5)
  | "nan" => Ok NaN | _ => Err ValueError end%string.
Definition wp_file : list (list string) := [["1"; "2"; "4"]; ["3"; "nan"; "5"]]%string.
Definition short_file : list (list string) := [["1"; "2"; "4"]; ["3"; "nan"; "5"]; ["" ; ""]; ["5"; "4"; "4"]]%string.
Definition wide_file : list (list string) := [["1"; "2"; "4"]; ["3"; "nan"; "5"]; ["" ; ""]; ["5"; "4"; "4"]; ["2"; "2"; "2"]]%string.

Lemma wp_table : table parse_ef wp_file 2 3 (fun j i => at3 (w_arr wp_ds) j i 0).
Proof.
  split; [reflexivity|]. split.
  - intros row [<-|[<-|[]]]; reflexivity.
  - intros j i Hj Hi. destruct j as [|[|j]]; [| |lia]; (destruct i as [|[|[|i]]]; [| | |lia]); eexists; eexists; (split; [reflexivity|]); (split; [reflexivity|]); reflexivity.
Qed.

Section S.
  Context (parse : string -> res ef).
  Definition votes2 (J I : nat) (a : nat -> nat -> ef) : arr3 ef := Arr3 J I 1 (fun j i _ => a j i).
  (** A reader of the given votes. *)
  Definition holding (a : arr3 ef) : reader ef := Reader (w_ds []) [] (Ok a).
  Lemma holding_observers : forall a, attach_observers (holding a) = Ok (Some []) .
  Proof. reflexivity. Qed.
  Lemma holding_run : forall chi a f m, ap_run_modeling chi Projection2 (holding a) no_options f = Ok m ->
    exists m1, ap_solve chi true (match f with Some b => b | None => true end) a a = Ok m1 /\ projected m1 = projected m /\ ap_bias m1 = ap_bias m.
  Proof.
    intros chi a f m H. unfold ap_run_modeling in H. change (preprocess (holding a) no_options) with (Ok (PP a a None None)) in H. cbn [bind pp_arr pp_orig is_alt] in H.
    destruct (ap_solve chi true _ a a) as [m1|]; [|discriminate]. cbn [bind] in H. rewrite holding_observers in H. cbn [bind] in H.
    injection H as <-. exists m1. split; [reflexivity|]. split; reflexivity.
  Qed.

  Lemma c92_outcome3 : forall u, finite_votes u ->
    (all_rated u -> exists r, run_alternating_projection_3d u = Ok r) /\ (~ all_rated u -> run_alternating_projection_3d u = Err ValueError).
  Proof.
    intros u HF. split; intro H; rewrite (c92_same3 (fun _ _ => NaN) u u).
    - destruct (run_ok (fun _ _ => NaN) Projection2 (holding u) None u (Some []) eq_refl HF H eq_refl) as [m Hm].
      destruct (holding_run _ _ _ _ Hm) as (m1 & E & _). rewrite E. eauto.
    - rewrite solve_unrated; [reflexivity|exact HF|]. destruct (rated_dec u) as [R|Q]; [contradiction|exact Q].
  Qed.
  Lemma c92_zero3 : forall u r, finite_votes u -> all_voted u -> run_alternating_projection_3d u = Ok r ->
    exists bs, dr_bias r = map Fin bs /\ List.length bs = dS u /\ Rsum bs = 0%R.
  Proof.
    intros u r HF HV H.
    assert (HR : all_rated u). { destruct (rated_dec u) as [R|(e & He & Q)]; [exact R|]. destruct (c92_outcome3 u HF) as [_ B]. rewrite B in H; [discriminate|]. intro R. apply Q, R, He. }
    destruct (run_ok (fun _ _ => NaN) Projection2 (holding u) (Some true) u (Some []) eq_refl HF HR eq_refl) as [m Hm].
    destruct (run_ok (fun _ _ => NaN) Projection2 (holding u) (Some false) u (Some []) eq_refl HF HR eq_refl) as [m' Hm'].
    destruct (c39 (fun _ _ => NaN) Projection2 (holding u) u m m' eq_refl HF HV Hm Hm') as [(bs & B & L & Z) _].
    destruct (holding_run _ _ _ _ Hm) as (m1 & E & _ & Eb). rewrite (c92_same3 (fun _ _ => NaN) u u), E in H. injection H as <-.
    exists bs. unfold projected. cbn [dr_bias]. rewrite Eb. auto.
  Qed.
  Lemma c92_recovery : forall u q b r, (0 < dE u)%nat -> (0 < dS u)%nat -> (0 < dR u)%nat ->
    (forall e i t, inside u e i t -> at3 u e i t = Fin (q e + b i)) -> run_alternating_projection_3d u = Ok r ->
    let mb := Rmean (map b (seq 0 (dS u))) in
    dr_mos r = map (fun e => Fin (q e + mb)) (seq 0 (dE u)) /\ dr_bias r = map (fun i => Fin (b i - mb)) (seq 0 (dS u)).
  Proof.
    intros u q b r H1 H2 H3 HV H mb.
    assert (HF : finite_votes u) by (intros e s t Hi; rewrite (HV e s t Hi); exact I).
    assert (HR : all_rated u). { intros e He. exists 0%nat, 0%nat, (q e + b 0%nat)%R. assert (inside u e 0%nat 0%nat) by (repeat split; assumption). split; [assumption|]. apply HV. assumption. }
    destruct (run_ok (fun _ _ => NaN) Projection2 (holding u) None u (Some []) eq_refl HF HR eq_refl) as [m Hm].
    destruct (c44 (fun _ _ => NaN) Projection2 (holding u) None u q b m eq_refl H1 H2 H3 HV Hm) as (Q & B & _).
    destruct (holding_run _ _ _ _ Hm) as (m1 & E & P & _). rewrite (c92_same3 (fun _ _ => NaN) u u), E in H. injection H as <-.
    rewrite P. unfold projected. cbn [dr_mos dr_bias]. split; assumption.
  Qed.

  Lemma c92_outcome2 : forall file J I a, (0 < J)%nat -> table parse file J I a -> finite_votes (votes2 J I a) ->
    (all_rated (votes2 J I a) -> exists r, demo_p910 parse file = Ok r) /\ (~ all_rated (votes2 J I a) -> demo_p910 parse file = Err ValueError).
  Proof.
    intros file J I a HJ Ht HF. rewrite (c92_program2 (fun _ _ => NaN) parse file J I a HJ Ht).
    change (Arr3 J I 1 (fun j i _ => a j i)) with (votes2 J I a). rewrite <- (c92_same3 (fun _ _ => NaN) (votes2 J I a) (votes2 J I a)). apply c92_outcome3. exact HF.
  Qed.
  Lemma c92_zero2 : forall file J I a r, (0 < J)%nat -> table parse file J I a -> finite_votes (votes2 J I a) -> all_voted (votes2 J I a) -> demo_p910 parse file = Ok r ->
    exists bs, dr_bias r = map Fin bs /\ List.length bs = I /\ Rsum bs = 0%R.
  Proof.
    intros file J I a r HJ Ht HF HV H. rewrite (c92_program2 (fun _ _ => NaN) parse file J I a HJ Ht) in H.
    change (Arr3 J I 1 (fun j i _ => a j i)) with (votes2 J I a) in H. rewrite <- (c92_same3 (fun _ _ => NaN) (votes2 J I a) (votes2 J I a)) in H.
    exact (c92_zero3 _ r HF HV H).
  Qed.
End S.

(** ** Witnesses *)
Lemma wp_tables : tables parse_ef 2 3 wp_file (map (fun r j i => at3 (w_arr wp_ds) j i r) (seq 0 1)).
Proof. constructor; [exact wp_table|]. intros [H|[H|[]]]; discriminate. Qed.
Definition wp_a (j i : nat) : ef := at3 (w_arr wp_ds) j i 0.
Lemma wp_a_finite : finite_votes (votes2 2 3 wp_a). Proof. cells 2 3 1; exact Logic.I. Qed.
Lemma wp_a_rated : all_rated (votes2 2 3 wp_a).
Proof. intros e He. change (e < 2) in He. destruct e as [|[|e]]; [| |lia]; [exists 0%nat, 0%nat, 1%R|exists 0%nat, 0%nat, 3%R]; (split; [repeat split; cbn; lia|reflexivity]). Qed.
Lemma wp_a_voted : all_voted (votes2 2 3 wp_a).
Proof. intros i Hi. change (i < 3) in Hi. destruct i as [|[|[|i]]]; [| | |lia]; [exists 0%nat, 0%nat, 1%R|exists 0%nat, 0%nat, 2%R|exists 0%nat, 0%nat, 4%R]; (split; [repeat split; cbn; lia|reflexivity]). Qed.
Lemma wp_demo : exists r, demo_bt500 parse_ef wp_file = Ok r /\ demo_p910 parse_ef wp_file = Ok r /\
  exists bs, dr_bias r = map Fin bs /\ List.length bs = 3 /\ Rsum bs = 0%R.
Proof.
  destruct (c92_outcome2 parse_ef wp_file 2 3 _ ltac:(lia) wp_table wp_a_finite) as [A _]. destruct (A wp_a_rated) as [r Hr]. exists r.
  split; [|split; [exact Hr|exact (c92_zero2 parse_ef wp_file 2 3 _ r ltac:(lia) wp_table wp_a_finite wp_a_voted Hr)]].
  rewrite <- Hr. rewrite (c92_program2 (fun _ _ => NaN) parse_ef wp_file 2 3 _ ltac:(lia) wp_table).
  rewrite (c92_program3 (fun _ _ => NaN) parse_ef wp_file (Arr3 2 3 1 (fun j i _ => at3 (w_arr wp_ds) j i 0)) ltac:(cbn; lia) ltac:(cbn; lia) wp_tables). reflexivity.
Qed.
Lemma wide_tables : tables parse_ef 2 3 wide_file [fun j i => at3 (w_arr wp_ds) j i 0; fun j i => match j, i with O, O => Fin 5 | O, _ => Fin 4 | _, _ => Fin 2 end].
Proof.
  apply (tables_more parse_ef 2 3 wp_file _ [["5"; "4"; "4"]; ["2"; "2"; "2"]]%string); [exact wp_table|intros [H|[H|[]]]; discriminate|].
  constructor; [|intros [H|[H|[]]]; discriminate]. split; [reflexivity|]. split; [intros row [<-|[<-|[]]]; reflexivity|].
  intros j i Hj Hi. destruct j as [|[|j]]; [| |lia]; (destruct i as [|[|[|i]]]; [| | |lia]); eexists; eexists; (split; [reflexivity|]); (split; [reflexivity|]); reflexivity.
Qed.
(** A repetition table with one row only. *)
Lemma short_read : exists u r, read_csv_into_3darray parse_ef short_file = Ok u /\ dE u = 2 /\ dS u = 3 /\ dR u = 2 /\ (forall i, at3 u 1 i 1 = at3 u 0 i 1) /\ at3 u 1 0 1 = Fin 5 /\
  demo_bt500 parse_ef short_file = Ok r.
Proof.
  set (U := match read_csv_into_3darray parse_ef short_file with Ok u => u | Err _ => Arr3 0 0 0 (fun _ _ _ => NaN) end).
  assert (E : read_csv_into_3darray parse_ef short_file = Ok U) by reflexivity.
  assert (HF : finite_votes U). { intros e s t (A & B & C). change (e < 2) in A. change (s < 3) in B. change (t < 2) in C.
    destruct e as [|[|e]]; [| |lia]; (destruct s as [|[|[|s]]]; [| | |lia]); (destruct t as [|[|t]]; [| |lia]); exact I. }
  assert (HR : all_rated U). { intros e A. change (e < 2) in A. destruct e as [|[|e]]; [| |lia]; (exists 0, 1, 5%R; split; [repeat split; cbn; lia|reflexivity]). }
  destruct (proj1 (c92_outcome3 U HF) HR) as [r Hr]. exists U, r. split; [exact E|]. split; [reflexivity|]. split; [reflexivity|]. split; [reflexivity|]. split; [reflexivity|]. split; [reflexivity|].
  unfold demo_bt500. rewrite E. exact Hr.
Qed.
Lemma short_not_tables : forall J I l, ~ tables parse_ef J I short_file l.
Proof.
  intros J I l H.
  assert (G : forall f, tables parse_ef J I f l -> f = short_file -> False).
  { clear H. intros f H E. destruct H as [file a Ht Hc|file a rest l Ht Hc Hr].
    - apply Hc. rewrite E. cbn. tauto.
    - assert (Q : file = [["1"; "2"; "4"]; ["3"; "nan"; "5"]]%string /\ rest = [["5"; "4"; "4"]]%string).
      { unfold short_file, comma in *. destruct file as [|r0 [|r1 [|r2 [|r3 file]]]]; cbn [app] in E; try discriminate E.
        - injection E as -> -> ->. split; reflexivity.
        - injection E as _ _ _ _ E. destruct file; discriminate. }
      destruct Q as [-> ->]. destruct Ht as [A _]. cbn in A. subst J.
      inversion Hr as [file' a' Ht' Hc' E1|file' a' rest' l' Ht' Hc' Hr' E1]; [destruct Ht' as [A _]; discriminate A|].
      destruct file' as [|x [|y file']]; cbn in E1; discriminate. }
  exact (G _ H eq_refl).
Qed.
