(** Claims C92, C93: the reference programs beside the package. *)
From Coq Require Import String.
From Coq Require Import List ZArith Bool Arith Lia Reals.
From Verif Require Import PyBase Num ExtReal NumPy Dataset Preproc Mos AP Demo SpecMos SpecAp SpecDemo ApWitness MosWitness DemoProofs DemoWitness Demo2Proofs.
Import ListNotations.

(** C92: a file is read exactly when it is a table, and the votes are those in its cells. *)
Theorem C92_read2 : forall T (N : Num T) (parse : string -> res T) file o, read_csv_into_2darray parse file = Ok o -> (0 < n0 o)%nat /\ table parse file (n0 o) (n1 o) (at2 o).
Proof. exact @c92_read2. Qed.
Print Assumptions C92_read2.
Theorem C92_read2_total : forall T (N : Num T) (parse : string -> res T) file J I a, (0 < J)%nat -> table parse file J I a ->
  exists o, read_csv_into_2darray parse file = Ok o /\ n0 o = J /\ n1 o = I /\ forall j i, (j < J)%nat -> (i < I)%nat -> at2 o j i = a j i.
Proof. exact @c92_read2_ok. Qed.
Print Assumptions C92_read2_total.
Theorem C92_read2_error : forall T (N : Num T) (parse : string -> res T) file e, (forall c e', parse c = Err e' -> e' = ValueError) ->
  read_csv_into_2darray parse file = Err e -> e = ValueError.
Proof. exact @c92_read2_err. Qed.
Print Assumptions C92_read2_error.
Example C92_read2_ex : table parse_ef wp_file 2 3 (fun j i => at3 (w_arr wp_ds) j i 0).
Proof. exact wp_table. Qed.

(** C93: tables of one size under each other become the repetitions. *)
Theorem C93_read3 : forall T (N : Num T) (parse : string -> res T) J I file l, (0 < J)%nat -> tables parse J I file l ->
  exists u, read_csv_into_3darray parse file = Ok u /\ dE u = J /\ dS u = I /\ dR u = List.length l /\
  forall j i r, (j < J)%nat -> (i < I)%nat -> (r < List.length l)%nat -> at3 u j i r = nth r l (fun _ _ => nnan) j i.
Proof. exact @c92_read3. Qed.
Print Assumptions C93_read3.
Example C93_read3_ex : tables parse_ef 2 3 wide_file [fun j i => at3 (w_arr wp_ds) j i 0; fun j i => match j, i with O, O => Fin 5 | O, _ => Fin 4 | _, _ => Fin 2 end].
Proof. exact wide_tables. Qed.
(** The converse is false: one row of repeated votes is given to every PVS. *)
Theorem C93_size_refuted : exists file u r, read_csv_into_3darray parse_ef file = Ok u /\ demo_bt500 parse_ef file = Ok r /\
  (forall J I l, ~ tables parse_ef J I file l) /\ dE u = 2 /\ dR u = 2 /\ forall i, at3 u 1 i 1 = at3 u 0 i 1.
Proof.
  destruct short_read as (u & r & A & B & _ & C & D & _ & E). exists short_file, u, r.
  split; [exact A|]. split; [exact E|]. split; [exact short_not_tables|]. split; [exact B|]. split; [exact C|exact D].
Qed.
Print Assumptions C93_size_refuted.

(** C92: on the same votes the programs compute what the package's second projection class computes, bit for bit, in every arithmetic. *)
Theorem C92_same : forall T (N : Num T) (chi : T -> T -> T) (x x0 : arr3 T),
  run_alternating_projection_3d x = match ap_solve chi true true x x0 with Ok m => Ok (projected m) | Err e => Err e end.
Proof. exact @c92_same3. Qed.
Print Assumptions C92_same.
Theorem C92_once : forall T (N : Num T) (o : arr2 T), run_alternating_projection_2d o = run_alternating_projection_3d (once o).
Proof. exact @c92_once. Qed.
Print Assumptions C92_once.
Theorem C92_program2 : forall T (N : Num T) (chi : T -> T -> T) (parse : string -> res T) file J I a, (0 < J)%nat -> table parse file J I a ->
  demo_p910 parse file = match ap_solve chi true true (Arr3 J I 1 (fun j i _ => a j i)) (Arr3 J I 1 (fun j i _ => a j i)) with Ok m => Ok (projected m) | Err e => Err e end.
Proof. exact @c92_program2. Qed.
Print Assumptions C92_program2.
Theorem C92_program3 : forall T (N : Num T) (chi : T -> T -> T) (parse : string -> res T) file (u : arr3 T), (0 < dE u)%nat -> (0 < dR u)%nat ->
  tables parse (dE u) (dS u) file (map (fun r j i => at3 u j i r) (seq 0 (dR u))) ->
  demo_bt500 parse file = match ap_solve chi true true u u with Ok m => Ok (projected m) | Err e => Err e end.
Proof. exact @c92_program3. Qed.
Print Assumptions C92_program3.
Theorem C92_package : forall T (N : Num T) (chi : T -> T -> T) (parse : string -> res T) file (rd : reader T) c kw pp m, is_alt c = true -> preprocess rd kw = Ok pp ->
  kw_normalize_final kw = false -> kw_transform_final kw = None -> (0 < dE (pp_arr pp))%nat -> (0 < dR (pp_arr pp))%nat ->
  tables parse (dE (pp_arr pp)) (dS (pp_arr pp)) file (map (fun r j i => at3 (pp_arr pp) j i r) (seq 0 (dR (pp_arr pp)))) ->
  ap_run_modeling chi c rd kw None = Ok m -> demo_bt500 parse file = Ok (projected m).
Proof. exact @c92_package. Qed.
Print Assumptions C92_package.
Example C92_package_ex : preprocess (w_reader wp_ds) no_options = Ok (PP (w_arr wp_ds) (w_arr wp_ds) None None) /\
  tables parse_ef 2 3 wp_file (map (fun r j i => at3 (w_arr wp_ds) j i r) (seq 0 1)) /\
  exists m, ap_run_modeling (fun _ _ => NaN) Projection2 (w_reader wp_ds) no_options None = Ok m.
Proof. split; [reflexivity|]. split; [exact wp_tables|]. apply w_run; [cbn; tauto|exact wp_finite|exact wp_rated]. Qed.

(** C92: the programs succeed exactly if no vote is infinite and every PVS has a vote, and raise ValueError otherwise; the biases then sum to zero if every subject voted. *)
Theorem C92_outcome : forall parse file J I a, (0 < J)%nat -> table parse file J I a ->
  ((finite_votes (votes2 J I a) /\ all_rated (votes2 J I a)) <-> exists r, demo_p910 parse file = Ok r) /\
  (~ (finite_votes (votes2 J I a) /\ all_rated (votes2 J I a)) <-> demo_p910 parse file = Err ValueError).
Proof. exact c92_outcome2_any. Qed.
Print Assumptions C92_outcome.
Theorem C92_outcome3 : forall u,
  ((finite_votes u /\ all_rated u) <-> exists r, run_alternating_projection_3d u = Ok r) /\
  (~ (finite_votes u /\ all_rated u) <-> run_alternating_projection_3d u = Err ValueError).
Proof. exact c92_outcome3_any. Qed.
Print Assumptions C92_outcome3.
Theorem C92_zero_mean : forall parse file J I a r, (0 < J)%nat -> table parse file J I a -> all_voted (votes2 J I a) ->
  demo_p910 parse file = Ok r -> exists bs, dr_bias r = map Fin bs /\ List.length bs = I /\ Rsum bs = 0%R.
Proof. exact c92_zero2_any. Qed.
Print Assumptions C92_zero_mean.
Theorem C92_zero_mean3 : forall u r, all_voted u -> run_alternating_projection_3d u = Ok r ->
  exists bs, dr_bias r = map Fin bs /\ List.length bs = dS u /\ Rsum bs = 0%R.
Proof. exact c92_zero3_any. Qed.
Print Assumptions C92_zero_mean3.
Example C92_zero_mean_ex : exists r, demo_bt500 parse_ef wp_file = Ok r /\ demo_p910 parse_ef wp_file = Ok r /\
  exists bs, dr_bias r = map Fin bs /\ List.length bs = 3 /\ Rsum bs = 0%R.
Proof. exact wp_demo. Qed.
(** C92: votes without noise are taken apart exactly. *)
Theorem C92_recovery : forall u q b r, (0 < dE u)%nat -> (0 < dS u)%nat -> (0 < dR u)%nat ->
  (forall e i t, inside u e i t -> at3 u e i t = Fin (q e + b i)) -> run_alternating_projection_3d u = Ok r ->
  let mb := Rmean (map b (seq 0 (dS u))) in
  dr_mos r = map (fun e => Fin (q e + mb)) (seq 0 (dE u)) /\ dr_bias r = map (fun i => Fin (b i - mb)) (seq 0 (dS u)).
Proof. exact c92_recovery. Qed.
Print Assumptions C92_recovery.
Example C92_recovery_ex : (forall e i t, inside (w_arr wn_ds) e i t -> at3 (w_arr wn_ds) e i t = Fin (wn_q e + wn_b i)) /\ exists r, run_alternating_projection_3d (w_arr wn_ds) = Ok r.
Proof.
  split; [exact wn_at|]. apply c92_outcome3; [|exact wn_rated]. intros e s t H. rewrite (wn_at e s t H). exact Logic.I.
Qed.
