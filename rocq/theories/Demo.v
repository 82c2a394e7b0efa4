(** The reference programs beside the package: itut_p910_demo/demo_p910.py,
    itut_p913_demo/demo.py (the same text) and itur_bt500_demo/demo_bt500.py. *)
From Coq Require Import String.
From Coq Require Import List ZArith Bool Arith.
From Verif Require Import PyBase Num NumPy.
Import ListNotations.
Local Open Scope list_scope.

Section Demo.
  Context {T : Type} {N : Num T}.
  Local Open Scope num_scope.

  (** ** Reading the votes *)
  (** The rows come from csv.reader; [parse] is float() of a cell. *)
  Variable parse : string -> res T.
  (** np.array of rows: all of the length of the first, ValueError otherwise. *)
  Definition rectangular (rows : list (list T)) : bool :=
    match rows with [] => true | r :: rows' => forallb (fun q => Nat.eqb (List.length q) (List.length r)) rows' end.
  Definition entry (rows : list (list T)) (j i : nat) : T := nth i (nth j rows []) nnan.

  (** demo_p910.py:10-24 read_csv_into_2darray.  An empty file gives an array of
      one dimension, which line 93 (J, I = o_ji.shape) refuses with ValueError. *)
  Definition read_csv_into_2darray (file : list (list string)) : res (arr2 T) :=
    do rows <- mapM (mapM parse) file;
    match rows with
    | [] => Err ValueError
    | r :: _ => if rectangular rows then Ok (Arr2 (List.length rows) (List.length r) (entry rows)) else Err ValueError
    end.

  (** demo_bt500.py:27-38: the blocks between the rows with a single comma. *)
  Definition separator (row : list string) : bool := match row with [a; b] => String.eqb a "" && String.eqb b "" | _ => false end.
  Fixpoint blocks (file : list (list string)) (data : list (list T)) : res (list (list (list T))) :=
    match file with
    | [] => Ok [data]
    | row :: file' =>
        if separator row then (do bs <- blocks file' []; Ok (data :: bs))
        else (do v <- mapM parse row; blocks file' (data ++ [v]))
    end.

  (** data3d[:, :, r] = r_mat (demo_bt500.py:42-43): numpy repeats a single row or
      a single column; any other shape raises ValueError.  Block without rows is
      an array of shape (0,). *)
  Definition fit (J I : nat) (m : list (list T)) : res (nat -> nat -> T) :=
    if rectangular m then
      let p := match m with [] => 1 | _ => List.length m end in
      let q := match m with [] => 0 | r :: _ => List.length r end in
      if (Nat.eqb p J || Nat.eqb p 1) && (Nat.eqb q I || Nat.eqb q 1) then
        Ok (fun j i => entry m (if Nat.eqb p 1 then 0 else j) (if Nat.eqb q 1 then 0 else i))
      else Err ValueError
    else Err ValueError.

  (** demo_bt500.py:10-45 read_csv_into_3darray *)
  Definition read_csv_into_3darray (file : list (list string)) : res (arr3 T) :=
    do bs <- blocks file [];
    match bs with
    | (row :: rows) :: _ =>
        let J := S (List.length rows) in
        let I := List.length row in
        do fs <- mapM (fit J I) bs;
        Ok (Arr3 J I (List.length bs) (fun j i r => nth r fs (fun _ _ => nnan) j i))
    | _ => Err IndexError
    end.

  (** ** Shared by the two programs *)
  (** demo_p910.py:27-53, demo_bt500.py:48-74 weighed_nanmean_2d with axis=1 (the
      only use), for weights of the length of the rows. *)
  Definition weighed_row (l w : list T) : T :=
    np_nansum (map (fun p => fst p * snd p) (combine l w))
    / np_nansum (map (fun p => (if nisnan (fst p) then nzero else none_) * snd p) (combine l w)).
  (** MAX_ITR, DELTA_THR, EPSILON: demo_p910.py:102-104, demo_bt500.py:159-161 *)
  Definition demo_max_itr : nat := 1000.
  Definition demo_delta : T := ndec 1 100000000.
  Definition demo_epsilon : T := ndec 1 100000000.
  (** demo_p910.py:56-66, demo_bt500.py:77-87 one_or_nan *)
  Definition demo_one_or_nan (v : T) : T := if nisnan v then v else none_.
  (** The estimates: mos, bias, inconsistency of subjects and of stimuli. *)
  Record demo_state := DemoState { d_mos : list T; d_bias : list T; d_sig_i : list T; d_sig_j : list T }.
  (** The returned dictionary: mos_j, sos_j, bias_i, inconsistency_i. *)
  Record demo_result := DemoResult { dr_mos : list T; dr_sos : list T; dr_bias : list T; dr_incons : list T }.

  (** demo_p910.py:106-145, demo_bt500.py:163-205: the loop around one pass. *)
  Fixpoint demo_loop (pass : list T -> list T -> demo_state) (fuel itr : nat) (mos bias : list T) : res demo_state :=
    match fuel with
    | O => Err Diverges
    | S f =>
        let st := pass mos bias in
        let itr := S itr in
        do d <- sp_norm (map (fun p => fst p - snd p) (combine mos (d_mos st)));
        if d <? demo_delta then Ok st
        else if Nat.leb demo_max_itr itr then Ok st
        else demo_loop pass f itr (d_mos st) (d_bias st)
    end.
  (** demo_p910.py:150-159, demo_bt500.py:210-219 *)
  Definition demo_finish (st : demo_state) (sos : list T) : demo_result :=
    let m := np_mean (d_bias st) in
    DemoResult (map (fun v => v + m) (d_mos st)) sos (map (fun v => v - m) (d_bias st)) (d_sig_i st).

  (** ** demo_p910.py *)
  Definition map2d (f : nat -> nat -> T -> T) (o : arr2 T) : arr2 T := Arr2 (n0 o) (n1 o) (fun j i => f j i (at2 o j i)).
  (** demo_p910.py:99-100, 125-127: b_ji and its mean over stimuli *)
  Definition bias2 (o : arr2 T) (mos : list T) : list T := along0 np_nanmean (map2d (fun j i v => v - vat mos j) o).
  (** demo_p910.py:111-127: one pass *)
  Definition pass2 (o : arr2 T) (mos bias : list T) : demo_state :=
    let r := map2d (fun j i v => v - vat mos j - vat bias i) o in
    let sig_i := along0 (np_nanstd 0) r in
    let sig_j := along1 (np_nanstd 0) r in
    let w := map (fun s => none_ / (nsq s + demo_epsilon)) sig_i in
    let mos' := along1 (fun l => weighed_row l w) (map2d (fun j i v => v - vat bias i) o) in
    DemoState mos' (bias2 o mos') sig_i sig_j.
  (** demo_p910.py:69-79 get_sos_j *)
  Definition sos2 (sig_j : list T) (o : arr2 T) : list T :=
    map (fun den => none_ / nsqrt (nmaximum nzero den))
        (along1 np_nansum (map2d (fun j i v => demo_one_or_nan v / nsq (vat sig_j j)) o)).
  (** demo_p910.py:82-159 run_alternating_projection *)
  Definition run_alternating_projection_2d (o : arr2 T) : res demo_result :=
    let mos := along1 np_nanmean o in
    do st <- demo_loop (pass2 o) demo_max_itr 0 mos (bias2 o mos);
    Ok (demo_finish st (sos2 (d_sig_j st) o)).

  (** ** demo_bt500.py *)
  (** demo_bt500.py:105-134 stack_3rd_dimension_along_axis: the slices below or
      beside each other. *)
  Definition slices_below (u : arr3 T) : arr2 T := Arr2 (dR u * dE u) (dS u) (fun k i => at3 u (k mod dE u) i (k / dE u)).
  Definition slices_beside (u : arr3 T) : arr2 T := Arr2 (dE u) (dR u * dS u) (fun j k => at3 u j (k mod dS u) (k / dS u)).
  (** demo_bt500.py:156-157, 185-187 *)
  Definition bias3 (u : arr3 T) (mos : list T) : list T := along0 np_nanmean (slices_below (map3 (fun j i r v => v - vat mos j) u)).
  (** demo_bt500.py:168-187: one pass *)
  Definition pass3 (u : arr3 T) (mos bias : list T) : demo_state :=
    let e := map3 (fun j i r v => v - vat mos j - vat bias i) u in
    let sig_i := along0 (np_nanstd 0) (slices_below e) in
    let sig_j := along1 (np_nanstd 0) (slices_beside e) in
    let w := map (fun s => none_ / (nsq s + demo_epsilon)) sig_i in
    let mos' := along1 (fun l => weighed_row l (concat (repeat w (dR u)))) (slices_beside (map3 (fun j i r v => v - vat bias i) u)) in
    DemoState mos' (bias3 u mos') sig_i sig_j.
  (** demo_bt500.py:90-102 get_sos_j *)
  Definition sos3 (sig_j : list T) (u : arr3 T) : list T :=
    map (fun den => none_ / nsqrt (nmaximum nzero den))
        (along1 np_nansum (slices_beside (map3 (fun j i r v => demo_one_or_nan v / nsq (vat sig_j j)) u))).
  (** demo_bt500.py:138-219 run_alternating_projection *)
  Definition run_alternating_projection_3d (u : arr3 T) : res demo_result :=
    let mos := along1 np_nanmean (slices_beside u) in
    do st <- demo_loop (pass3 u) demo_max_itr 0 mos (bias3 u mos);
    Ok (demo_finish st (sos3 (d_sig_j st) u)).

  (** demo_p910.py:162-179 and demo_bt500.py:222-239: the programs. *)
  Definition demo_p910 (file : list (list string)) : res demo_result :=
    do o <- read_csv_into_2darray file; run_alternating_projection_2d o.
  Definition demo_bt500 (file : list (list string)) : res demo_result :=
    do u <- read_csv_into_3darray file; run_alternating_projection_3d u.
End Demo.
Arguments demo_result : clear implicits.
Arguments demo_state : clear implicits.
