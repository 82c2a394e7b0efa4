(** Model of sureal/dataset_reader.py:344-522 (to_pc_dataset) and 995-1063
    (PairedCompDatasetReader). *)
From Coq Require Import String.
From Coq Require Import List ZArith Bool Arith.
From Verif Require Import PyBase Num NumPy Dataset.
Import ListNotations.
Local Open Scope string_scope.
Local Open Scope list_scope.

(** The random module from sureal/dataset_reader.py:426-428 on: [ru n] is the
    value of random.random() when it is the n-th call, [rg n sigma] the value of
    random.gauss(0, sigma) when it is the n-th call. *)
Record rng (T : Type) := Rng { ru : nat -> T; rg : nat -> T -> T }.
Arguments Rng {T} ru rg. Arguments ru {T}. Arguments rg {T}.

(** Keyword arguments of to_pc_dataset (sureal/dataset_reader.py:351-366); the
    seed only selects the random stream. *)
Record pcopts (T : Type) := PcOpts {
  po_type : option string; po_tie : option string;
  po_rate : option T; po_rates : option (list T);
  po_coin : option T; po_coins : option (list T);
  po_noise : option T; po_noises : option (list T);
  po_means : option (list T) }.
Arguments PcOpts {T}.
Arguments po_type {T}. Arguments po_tie {T}. Arguments po_rate {T}. Arguments po_rates {T}.
Arguments po_coin {T}. Arguments po_coins {T}. Arguments po_noise {T}. Arguments po_noises {T}. Arguments po_means {T}.

(** No option given. *)
Definition pc_default {T} : pcopts T := PcOpts None None None None None None None None None.

(** Key of a paired comparison entry: (subject, asset_id). *)
Definition pckey_eqb (a b : string * Z) : bool := String.eqb (fst a) (fst b) && Z.eqb (snd a) (snd b).

(** A [for] loop over items that draws random numbers: the number of draws made
    so far is threaded through. *)
Fixpoint mapS {A B} (f : A -> nat -> res (B * nat)) (l : list A) (n : nat) : res (list B * nat) :=
  match l with
  | [] => Ok ([], n)
  | a :: l' => do r <- f a n; do r' <- mapS f l' (snd r); Ok (fst r :: fst r', snd r')
  end.

(** for idx in range(len(l)): for idx2 in range(idx)
    (sureal/dataset_reader.py:433-434); [before] are the elements already seen. *)
Fixpoint upper {A} (before l : list A) : list (A * A) :=
  match l with [] => [] | x :: l' => map (fun y => (x, y)) before ++ upper (before ++ [x]) l' end.

(** l[z] for a Python integer z. *)
Definition py_index_z {A} (l : list A) (z : Z) : res A :=
  match py_norm_index (length l) z with Some k => py_index l k | None => Err IndexError end.

Section Pc.
  Context {T : Type} {N : Num T}.
  Notation dv_t := (dvideo T string).
  Notation ds_t := (dataset T string).

  Definition is_some {A} (o : option A) : bool := match o with Some _ => true | None => false end.
  Definition o_all {A} (f : A -> bool) (o : option A) : bool := match o with Some x => f x | None => true end.
  (** sureal/dataset_reader.py:351, 352 defaults. *)
  Definition the_type (o : pcopts T) : string := match po_type o with Some t => t | None => "within_subject_within_content" end.
  Definition the_tie (o : pcopts T) : string := match po_tie o with Some t => t | None => "even_split" end.

  (** sureal/dataset_reader.py:367-397: argument checks; [nv] is
      len(self.dis_videos).  Numbers are scalars (np.isscalar). *)
  Definition pc_check (o : pcopts T) (nv : nat) : res unit :=
    let nonneg x := (nzero <=? x)%num in
    let unit_ x := ((nzero <=? x) && (x <=? none_))%num in
    let sized {A} (l : list A) := Nat.eqb (length l) nv in
    assert_ (
      (String.eqb (the_type o) "within_subject_within_content" || String.eqb (the_type o) "within_subject")
      && (String.eqb (the_tie o) "even_split" || String.eqb (the_tie o) "coin_toss")
      && negb (is_some (po_rate o) && is_some (po_rates o))
      && o_all nonneg (po_rate o) && o_all (fun l => sized l && forallb nonneg l) (po_rates o)
      && negb (is_some (po_coin o) && is_some (po_coins o))
      && o_all unit_ (po_coin o) && o_all (fun l => sized l && forallb unit_ l) (po_coins o)
      && negb (is_some (po_noise o) && is_some (po_noises o))
      && o_all nonneg (po_noise o) && o_all (fun l => sized l && forallb nonneg l) (po_noises o)
      && o_all (@sized T) (po_means o)).

  (** sureal/dataset_reader.py:399-408: list-style datasets are converted in
      place, subject i becoming str(i).  Simplified: a dict-style video after a
      list-style first one (or the reverse) is a TypeError. *)
  Definition pc_convert (dvs : list dv_t) : res (list dv_t) :=
    do o0 <- first_os dvs;
    match o0 with
    | ODict _ => Ok dvs
    | OSeq _ _ =>
        mapM (fun dv => do o <- get_os dv;
                match o with
                | OSeq _ l => Ok (with_os dv (ODict (dict_of (map (fun iv => (str_of_nat (fst iv), snd iv)) (enumerate l)))))
                | _ => Err TypeError
                end) dvs
    | OOther => Err AssertionError
    end.

  (** One rating: score and content_id (sureal/dataset_reader.py:417). *)
  Definition rating := (pyv T * Z)%type.

  (** sureal/dataset_reader.py:410-417: subject -> (asset_id -> rating). *)
  Definition subj_assets (dvs : list dv_t) : res (list (string * list (Z * rating))) :=
    foldM (fun d dv =>
      do o <- get_os dv;
      match o with
      | ODict os =>
          foldM (fun d sv =>
            let tbl := match dget String.eqb d (fst sv) with Some t => t | None => [] end in
            do _ <- assert_ (negb (dmem Z.eqb tbl (dv_aid dv)));
            Ok (dset String.eqb d (fst sv) (dset Z.eqb tbl (dv_aid dv) (snd sv, dv_cid dv)))) os d
      | _ => Err TypeError
      end) dvs [].

  (** One pair of assets of one subject (sureal/dataset_reader.py:435-438):
      position in the subject's sorted asset ids, asset id, rating. *)
  Record pair := Pair { pr_s : string; pr_i : nat; pr_j : nat; pr_a : Z; pr_b : Z; pr_x : rating; pr_y : rating }.

  (** sureal/dataset_reader.py:431-446: the pairs in loop order, with the content
      filter.  The ratings are looked up by sorting the (asset_id, rating)
      entries by asset_id. *)
  Definition subject_pairs (o : pcopts T) (st : string * list (Z * rating)) : list pair :=
    let entries := isort (fun e e' => Z.leb (fst e) (fst e')) (snd st) in
    filter (fun p => String.eqb (the_type o) "within_subject" || Z.eqb (snd (pr_x p)) (snd (pr_y p)))
      (map (fun p => let '((i, (a, x)), (j, (b, y))) := p in Pair (fst st) i j a b x y) (upper [] (enumerate entries))).

  (** An assignment new_dis_videos[index of as_a]['os'][(as_s, as_b)] = as_v. *)
  Record assign := Assign { as_a : Z; as_s : string; as_b : Z; as_v : T }.

  Definition half : T := ndec 1 2.
  Definition a_wins (p : pair) : assign := Assign (pr_a p) (pr_s p) (pr_b p) none_.
  Definition b_wins (p : pair) : assign := Assign (pr_b p) (pr_s p) (pr_a p) none_.

  (** The number compared.  Simplified: a list or tuple score is a TypeError. *)
  Definition pc_num (v : pyv T) : res T :=
    match v with PNum x => Ok x | PArr [x] => Ok x | _ => Err TypeError end.

  (** sureal/dataset_reader.py:486-491. *)
  Definition pc_scores (o : pcopts T) (p : pair) : res (T * T) :=
    match po_means o with
    | Some m => do x <- py_index_z m (pr_a p); do y <- py_index_z m (pr_b p); Ok (x, y)
    | None => do x <- pc_num (fst (pr_x p)); do y <- pc_num (fst (pr_y p)); Ok (x, y)
    end.

  (** sureal/dataset_reader.py:493-501. *)
  Definition pc_noisy (o : pcopts T) (g : rng T) (p : pair) (xy : T * T) (n : nat) : res (T * T * nat) :=
    match po_noise o, po_noises o with
    | Some s, _ => Ok ((fst xy + rg g n s)%num, (snd xy + rg g (S n) s)%num, S (S n))
    | None, Some l =>
        do s <- py_index l (pr_i p); do s2 <- py_index l (pr_j p);
        Ok ((fst xy + rg g n s)%num, (snd xy + rg g (S n) s2)%num, S (S n))
    | None, None => Ok (fst xy, snd xy, n)
    end.

  (** sureal/dataset_reader.py:485-518: decision by scores. *)
  Definition pc_judge (o : pcopts T) (g : rng T) (p : pair) (n : nat) : res (list assign * nat) :=
    do xy <- pc_scores o p;
    do xyn <- pc_noisy o g p xy n;
    let '(x, y, n') := xyn in
    if (y <? x)%num then Ok ([a_wins p], n')
    else if (x <? y)%num then Ok ([b_wins p], n')
    else if String.eqb (the_tie o) "even_split" then
      Ok ([Assign (pr_a p) (pr_s p) (pr_b p) half; Assign (pr_b p) (pr_s p) (pr_a p) half], n')
    else Ok ([if (half <? ru g n')%num then a_wins p else b_wins p], S n').

  (** sureal/dataset_reader.py:472-477. *)
  Definition pc_coin (o : pcopts T) (p : pair) : res (option T) :=
    match po_coin o, po_coins o with
    | Some c, _ => Ok (Some c)
    | None, Some l => do c <- py_index l (pr_i p); do c2 <- py_index l (pr_j p); Ok (Some ((c + c2) / nofZ 2)%num)
    | None, None => Ok None
    end.

  (** sureal/dataset_reader.py:472-518: one comparison. *)
  Definition pc_pass (o : pcopts T) (g : rng T) (p : pair) (n : nat) : res (list assign * nat) :=
    do c <- pc_coin o p;
    match c with
    | Some c =>
        if (ru g n <? c)%num then Ok ([if (half <? ru g (S n))%num then a_wins p else b_wins p], S (S n))
        else pc_judge o g p (S n)
    | None => pc_judge o g p n
    end.

  (** sureal/dataset_reader.py:459-518: the while loop. *)
  Fixpoint pc_while (fuel : nat) (o : pcopts T) (g : rng T) (p : pair) (rate : T) (n : nat) : res (list assign * nat) :=
    match fuel with
    | O => Err Diverges
    | S f =>
        if (nzero <? rate)%num then
          if (none_ <=? rate)%num then
            do r <- pc_pass o g p n;
            do r' <- pc_while f o g p (rate - none_)%num (snd r);
            Ok (fst r ++ fst r', snd r')
          else if (rate <? ru g n)%num then pc_while f o g p nzero (S n)
          else
            do r <- pc_pass o g p (S n);
            do r' <- pc_while f o g p nzero (snd r);
            Ok (fst r ++ fst r', snd r')
        else Ok ([], n)
    end.

  (** sureal/dataset_reader.py:448-457. *)
  Definition pc_rate (o : pcopts T) (p : pair) : res T :=
    match po_rate o, po_rates o with
    | Some r, _ => Ok r
    | None, Some l => do r <- py_index l (pr_i p); do r2 <- py_index l (pr_j p); Ok ((r + r2) / nofZ 2)%num
    | None, None => Ok none_
    end.
  Definition pc_pair (fuel : nat) (o : pcopts T) (g : rng T) (p : pair) (n : nat) : res (list assign * nat) :=
    do r <- pc_rate o p; pc_while fuel o g p r n.

  (** sureal/dataset_reader.py:419-424: asset_id -> position (the last one). *)
  Definition assetid_index (dvs : list dv_t) : list (Z * nat) :=
    fold_left (fun d iv => dset Z.eqb d (dv_aid (snd iv)) (fst iv)) (enumerate dvs) [].

  (** The assignments performed in order on the produced dicts.  The dicts are
      not read by the loops, so the assignments are collected first. *)
  Definition pc_store (index : list (Z * nat)) (dicts : list (list ((string * Z) * pyv T))) (x : assign)
    : res (list (list ((string * Z) * pyv T))) :=
    do i <- dget_res Z.eqb index (as_a x);
    do d <- py_index dicts i;
    Ok (list_set dicts i (dset pckey_eqb d (as_s x, as_b x) (PNum (as_v x)))).

  (** sureal/dataset_reader.py:344-522 to_pc_dataset.  Returns the produced
      dataset, the reader's dataset after the call, and the number of draws. *)
  Definition to_pc_dataset (fuel : nat) (ds : ds_t) (kw : convkw T) (o : pcopts T) (g : rng T)
    : res (dataset T (string * Z) * ds_t * nat) :=
    do _ <- pc_check o (length (ds_dis ds));
    do dvs <- pc_convert (ds_dis ds);
    do tbl <- subj_assets dvs;
    do r <- mapS (pc_pair fuel o g) (flat_map (subject_pairs o) tbl) 0;
    do dicts <- foldM (pc_store (assetid_index dvs)) (concat (fst r)) (map (fun _ => []) dvs);
    let new := map (fun p => with_os (fst p) (ODict (snd p))) (combine dvs dicts) in
    Ok (prepare_new_dataset ds kw (ds_refs ds) new,
        Dataset (ds_refs ds) dvs (ds_name ds) (ds_ref_score ds) (ds_attrs ds), snd r).
End Pc.
Arguments pair : clear implicits. Arguments assign : clear implicits. Arguments rating : clear implicits.

(** ** PairedCompDatasetReader *)
Section PcReader.
  Context {T : Type} {N : Num T}.
  Notation dv_t := (dvideo T (string * Z)).

  (** sureal/dataset_reader.py:998-1014 _assert_dataset; keys are typed
      (string, integer) here. *)
  Definition pc_assert_dataset (ds : dataset T (string * Z)) : res unit :=
    do _ <- assert_dataset_raw (ds_refs ds) (ds_dis ds);
    let n := Z.of_nat (length (ds_dis ds)) in
    forM_ (fun dv => match dv_os dv with
                     | Some (ODict _) => assert_ ((0 <=? dv_aid dv)%Z && (dv_aid dv <? n)%Z)
                     | _ => Err AssertionError
                     end) (ds_dis ds).

  (** sureal/dataset_reader.py:1043-1053 _get_list_observers. *)
  Definition pc_list_observers (dvs : list dv_t) : res (list string) :=
    do ds <- mapM (fun dv => do o <- get_os dv; match o with ODict d => Ok (dkeys d) | _ => Err AssertionError end) dvs;
    Ok (get_unique_sorted_list String.eqb str_leb (flat_map (map fst) ds)).

  (** Position of a subject among the observers
      (sureal/dataset_reader.py:1025-1027). *)
  Fixpoint str_index (s : string) (l : list string) : option nat :=
    match l with [] => None | x :: l' => if String.eqb s x then Some 0 else option_map S (str_index s l') end.

  Definition set3 (f : nat -> nat -> nat -> T) (i j s : nat) (v : T) : nat -> nat -> nat -> T :=
    fun i' j' s' => if Nat.eqb i i' && Nat.eqb j j' && Nat.eqb s s' then v else f i' j' s'.

  (** value in [0, 0.5, 1] (sureal/dataset_reader.py:1033-1034).  Simplified: a
      value that is not a number is refused. *)
  Definition pc_value (v : pyv T) : res T :=
    match v with
    | PNum x => if ((x =? nzero) || (x =? ndec 1 2) || (x =? none_))%num then Ok x else Err AssertionError
    | _ => Err AssertionError
    end.

  (** sureal/dataset_reader.py:1031-1039: one entry; row is the position of the
      video, column the asset_id of the key (negative ids count from the end). *)
  Definition pc_write (obs : list string) (nv i : nat) (f : nat -> nat -> nat -> T) (kv : (string * Z) * pyv T)
    : res (nat -> nat -> nat -> T) :=
    do x <- pc_value (snd kv);
    match py_norm_index nv (snd (fst kv)), str_index (fst (fst kv)) obs with
    | None, _ => Err IndexError
    | _, None => Err KeyError
    | Some j, Some s => Ok (set3 (set3 f i j s x) j i s (none_ - x)%num)
    end.

  (** sureal/dataset_reader.py:1016-1041 opinion_score_3darray. *)
  Definition pc_opinion_3darray (dvs : list dv_t) : res (arr3 T) :=
    do obs <- pc_list_observers dvs;
    let nv := length dvs in
    do f <- foldM (fun f iv => do o <- get_os (snd iv);
                     match o with
                     | ODict d => foldM (pc_write obs nv (fst iv)) d f
                     | _ => Err AttributeError
                     end) (enumerate dvs) (fun _ _ _ => nnan);
    Ok (Arr3 nv nv (length obs) f).

  (** PairedCompDatasetReader(dataset).opinion_score_3darray. *)
  Definition pc_reader_3darray (ds : dataset T (string * Z)) : res (arr3 T) :=
    do _ <- pc_assert_dataset ds; pc_opinion_3darray (ds_dis ds).
End PcReader.
