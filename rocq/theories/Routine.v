(** Collecting and formatting results: sureal/routine.py. *)
From Coq Require Import String.
From Coq Require Import List ZArith Bool Arith.
From Verif Require Import PyBase Dataset.
Import ListNotations.
Local Open Scope list_scope.

Section Routine.
  Context {V : Type}.

  (** A column of a result: a list of numbers, or Python's None. *)
  Definition column := option (list V).
  (** A pair of lists of margins ('..._ci95'), or None. *)
  Definition margins := option (list (list V)).

  (** The entries of a result dictionary that format_output looks at; the outer
      option says whether the key is present.  Simplified: names are strings,
      columns are lists of numbers. *)
  Record mresult := MR {
    r_names : option (list string);
    r_quality : option column; r_quality_std : option column; r_quality_ci : option margins;
    r_observers : option (list string);
    r_bias : option column; r_bias_std : option column; r_bias_ci : option margins;
    r_incons : option column; r_incons_std : option column; r_incons_ci : option margins;
    r_scores_mean : option column; r_scores_std : option column;
    r_ambiguity : option column; r_ambiguity_std : option column; r_ambiguity_ci : option margins;
    r_contents : option (list string);
    r_aic : option V; r_bic : option V }.

  Definition set_observers (r : mresult) (o : list string) : mresult :=
    MR (r_names r) (r_quality r) (r_quality_std r) (r_quality_ci r) (Some o) (r_bias r) (r_bias_std r) (r_bias_ci r)
       (r_incons r) (r_incons_std r) (r_incons_ci r) (r_scores_mean r) (r_scores_std r)
       (r_ambiguity r) (r_ambiguity_std r) (r_ambiguity_ci r) (r_contents r) (r_aic r) (r_bic r).
  Definition set_contents (r : mresult) (c : list string) : mresult :=
    MR (r_names r) (r_quality r) (r_quality_std r) (r_quality_ci r) (r_observers r) (r_bias r) (r_bias_std r) (r_bias_ci r)
       (r_incons r) (r_incons_std r) (r_incons_ci r) (r_scores_mean r) (r_scores_std r)
       (r_ambiguity r) (r_ambiguity_std r) (r_ambiguity_ci r) (Some c) (r_aic r) (r_bic r).
  (** sureal/routine.py:99-101: the names of the reader's videos. *)
  Definition set_names (r : mresult) (n : list string) : mresult :=
    MR (Some n) (r_quality r) (r_quality_std r) (r_quality_ci r) (r_observers r) (r_bias r) (r_bias_std r) (r_bias_ci r)
       (r_incons r) (r_incons_std r) (r_incons_ci r) (r_scores_mean r) (r_scores_std r)
       (r_ambiguity r) (r_ambiguity_std r) (r_ambiguity_ci r) (r_contents r) (r_aic r) (r_bic r).

  (** len(x), iteration over x: TypeError for None. *)
  Definition items {A} (c : option (list A)) : res (list A) := match c with Some l => Ok l | None => Err TypeError end.
  (** list(zip( *rows)). *)
  Fixpoint zip_star (rows : list (list V)) : list (list V) :=
    match rows with
    | [] => []
    | [l] => map (fun x => [x]) l
    | l :: rows' => map (fun p => fst p :: snd p) (combine l (zip_star rows'))
    end.

  (** if key in result: assert len(base) == len(result[key]). *)
  Definition check_col (base : column) (c : option column) : res unit :=
    match c with
    | None => Ok tt
    | Some c => do b <- items base; do l <- items c; assert_ (Nat.eqb (length b) (length l))
    end.
  (** if key in result: assert len(result[key]) == 2;
      assert len(base) == len(list(zip( *result[key]))). *)
  Definition check_ci (base : column) (c : option margins) : res unit :=
    match c with
    | None => Ok tt
    | Some c => do rows <- items c; do _ <- assert_ (Nat.eqb (length rows) 2);
                do b <- items base; assert_ (Nat.eqb (length b) (length (zip_star rows)))
    end.

  (** sureal/routine.py:645-649: names of the contents by increasing content_id
      (KeyError without 'content_name'). *)
  Definition contents_of (refs : list rvideo) : res (list string) :=
    do d <- foldM (fun d rv => do n <- dget_res String.eqb (rv_extra rv) "content_name"%string; Ok (dset Z.eqb d (rv_cid rv) n)) refs [];
    mapM (fun k => dget_res Z.eqb d k) (isort Z.leb (dkeys d)).

  (** sureal/routine.py:626: f'observer{o}'. *)
  Definition observer_name (o : nat) : string := ("observer" ++ str_of_nat o)%string.

  (** sureal/routine.py:612-620 *)
  Definition check_quality (r : mresult) : res unit :=
    match r_quality r with
    | None => Err AssertionError
    | Some q =>
        match r_names r with
        | None => Err AssertionError
        | Some ns =>
            do l <- items q; do _ <- assert_ (Nat.eqb (length ns) (length l));
            do _ <- check_col q (r_quality_std r);
            check_ci q (r_quality_ci r)
        end
    end.
  (** sureal/routine.py:622-642 *)
  Definition check_observers (r : mresult) : res mresult :=
    match r_bias r with
    | None => Ok r
    | Some b =>
        do r' <- match r_observers r with
                 | Some o => do l <- items b; do _ <- assert_ (Nat.eqb (length o) (length l)); Ok r
                 | None => do l <- items b; Ok (set_observers r (map observer_name (seq 0 (length l))))
                 end;
        do _ <- check_col b (r_bias_std r);
        do _ <- check_ci b (r_bias_ci r);
        do _ <- check_col b (r_incons r);
        do _ <- check_col b (r_incons_std r);
        do _ <- check_ci b (r_incons_ci r);
        do _ <- check_col b (r_scores_mean r);
        do _ <- check_col b (r_scores_std r);
        Ok r'
    end.
  (** sureal/routine.py:644-655 *)
  Definition check_contents (refs : list rvideo) (r : mresult) : res mresult :=
    match r_ambiguity r with
    | None => Ok r
    | Some a =>
        do cs <- contents_of refs;
        let r' := set_contents r cs in
        do l <- items a; do _ <- assert_ (Nat.eqb (length cs) (length l));
        do _ <- check_col a (r_ambiguity_std r);
        do _ <- check_ci a (r_ambiguity_ci r);
        Ok r'
    end.
  (** sureal/routine.py:611-655: the body of the first loop. *)
  Definition check_result (refs : list rvideo) (r : mresult) : res mresult :=
    do _ <- check_quality r;
    do r1 <- check_observers r;
    check_contents refs r1.

  (** The output.  An entry of a section: its name and, per model TYPE, the
      reported values. *)
  Inductive cell := CVal (x : V) | CTuple (l : list V).
  Record entry := Entry { en_name : option string; en_models : list (string * list (string * cell)) }.
  Definition sectn := list (nat * entry).
  (** Simplified: an empty list stands for a missing section. *)
  Record output := Out { o_videos : sectn; o_observers : sectn; o_contents : sectn;
                         o_stats : list (string * list (string * V)) }.

  (** output.setdefault(section, dict()).setdefault(idx, dict()) *)
  Definition entry_at (s : sectn) (idx : nat) : entry :=
    match dget Nat.eqb s idx with Some e => e | None => Entry None [] end.
  (** sureal/routine.py:659-663 and likewise 675-679, 706-710. *)
  Definition write_name (s : sectn) (p : nat * string) : res sectn :=
    let e := entry_at s (fst p) in
    match en_name e with
    | Some n => do _ <- assert_ (String.eqb n (snd p)); Ok s
    | None => Ok (dset Nat.eqb s (fst p) (Entry (Some (snd p)) (en_models e)))
    end.
  Definition write_names (ns : list string) (s : sectn) : res sectn := foldM write_name (combine (seq 0 (length ns)) ns) s.
  (** ....setdefault('models', dict()).setdefault(TYPE, dict())[key] = value. *)
  Definition subdict {A} (d : list (string * list (string * A))) (t : string) : list (string * A) :=
    match dget String.eqb d t with Some m => m | None => [] end.
  Definition write_in {A} (t key : string) (c : A) (d : list (string * list (string * A))) : list (string * list (string * A)) :=
    dset String.eqb d t (dset String.eqb (subdict d t) key c).
  Definition write_cell (t key : string) (s : sectn) (p : nat * cell) : sectn :=
    let e := entry_at s (fst p) in
    dset Nat.eqb s (fst p) (Entry (en_name e) (write_in t key (snd p) (en_models e))).
  Definition write_cells (t key : string) (cs : list cell) (s : sectn) : sectn :=
    fold_left (write_cell t key) (combine (seq 0 (length cs)) cs) s.
  (** if key in result: for idx, x in enumerate(result[key]): ... *)
  Definition write_col (t key : string) (c : option column) (s : sectn) : res sectn :=
    match c with None => Ok s | Some c => do l <- items c; Ok (write_cells t key (map CVal l) s) end.
  Definition write_ci (t key : string) (c : option margins) (s : sectn) : res sectn :=
    match c with None => Ok s | Some c => do rows <- items c; Ok (write_cells t key (map CTuple (zip_star rows)) s) end.
  Definition write_opt_names (ns : option (list string)) (s : sectn) : res sectn :=
    match ns with Some ns => write_names ns s | None => Ok s end.

  (** sureal/routine.py:658-671 *)
  Definition write_videos (t : string) (r : mresult) (s : sectn) : res sectn :=
    do s <- write_opt_names (r_names r) s;
    do s <- write_col t "quality_score" (r_quality r) s;
    do s <- write_col t "quality_score_std" (r_quality_std r) s;
    write_ci t "quality_score_ci95" (r_quality_ci r) s.
  (** sureal/routine.py:673-702 *)
  Definition write_observers (t : string) (r : mresult) (s : sectn) : res sectn :=
    match r_bias r with
    | None => Ok s
    | Some _ =>
        do s <- write_opt_names (r_observers r) s;
        do s <- write_col t "observer_bias" (r_bias r) s;
        do s <- write_col t "observer_bias_std" (r_bias_std r) s;
        do s <- write_ci t "observer_bias_ci95" (r_bias_ci r) s;
        do s <- write_col t "observer_inconsistency" (r_incons r) s;
        do s <- write_col t "observer_inconsistency_std" (r_incons_std r) s;
        do s <- write_ci t "observer_inconsistency_ci95" (r_incons_ci r) s;
        do s <- write_col t "observer_scores_mean" (r_scores_mean r) s;
        write_col t "observer_scores_std" (r_scores_std r) s
    end.
  (** sureal/routine.py:704-718 *)
  Definition write_contents (t : string) (r : mresult) (s : sectn) : res sectn :=
    match r_ambiguity r with
    | None => Ok s
    | Some _ =>
        do s <- write_opt_names (r_contents r) s;
        do s <- write_col t "content_ambiguity" (r_ambiguity r) s;
        do s <- write_col t "content_ambiguity_std" (r_ambiguity_std r) s;
        write_ci t "content_ambiguity_ci95" (r_ambiguity_ci r) s
    end.
  (** sureal/routine.py:720-723 *)
  Definition write_stats (t : string) (r : mresult) (d : list (string * list (string * V))) : list (string * list (string * V)) :=
    let d := match r_aic r with Some x => write_in t "aic" x d | None => d end in
    match r_bic r with Some x => write_in t "bic" x d | None => d end.

  (** sureal/routine.py:658-723: the body of the second loop. *)
  Definition write_result (o : output) (p : string * mresult) : res output :=
    let '(t, r) := p in
    do v <- write_videos t r (o_videos o);
    do b <- write_observers t r (o_observers o);
    do c <- write_contents t r (o_contents o);
    Ok (Out v b c (write_stats t r (o_stats o))).

  (** The returned sections: list(output[...].values()), sureal/routine.py:725-730. *)
  Record formatted := Formatted { f_videos : list entry; f_observers : list entry; f_contents : list entry;
                                  f_stats : list (string * list (string * V)) }.

  (** sureal/routine.py:609-732 format_output_of_run_subjective_models; [types]
      are the TYPE attributes of the models. *)
  Definition format_output (refs : list rvideo) (types : list string) (results : list mresult) : res formatted :=
    do _ <- assert_ (Nat.eqb (length types) (length results));
    do rs <- mapM (check_result refs) results;
    do o <- foldM write_result (combine types rs) (Out [] [] [] []);
    Ok (Formatted (dvals (o_videos o)) (dvals (o_observers o)) (dvals (o_contents o)) (o_stats o)).
End Routine.
Arguments mresult : clear implicits.
Arguments formatted : clear implicits.
Arguments entry : clear implicits.
Arguments cell : clear implicits.
Arguments output : clear implicits.
Arguments column : clear implicits.
Arguments margins : clear implicits.
Arguments sectn : clear implicits.
