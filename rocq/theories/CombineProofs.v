(** Proofs for the combination of overlapping datasets (claims C07, C08). *)
From Coq Require Import String.
From Coq Require Import List ZArith Bool Arith Lia.
From Verif Require Import PyBase Num Dataset BaseProofs SpecDataset SpecConv DatasetProofs Combine ConvProofs.
Import ListNotations.
Local Open Scope list_scope.

Section CombineProofs.
  Context {T : Type} {N : Num T}.
  Notation dv_t := (dvideo T string).
  Notation ds_t := (dataset T string).
  Notation votes := (list (string * pyv T)).
  Notation sget := (dget String.eqb).
  Notation sset := (dset String.eqb).

  Definition as_list (v : pyv T) : list (pyv T) := match v with PSeq true l => l | v => [v] end.
  Definition merged (v1 v2 : pyv T) : pyv T := PSeq true (as_list v1 ++ as_list v2).
  Definition is_pylist (v : pyv T) : bool := match v with PSeq true _ => true | _ => false end.
  Definition appended (v1 v2 : pyv T) : bool := is_pylist v1 && negb (is_pylist v2).
  Definition dict_of_dv (dv : dv_t) : votes := match dv_os dv with Some (ODict d) => d | _ => [] end.

  Lemma sget_sset : forall V (d : list (string * V)) k k' v, sget (sset d k v) k' = if String.eqb k' k then Some v else sget d k'.
  Proof. intros. apply (dget_dset String.eqb string_eqb_spec). Qed.

  Lemma combine_key_step : forall d1 new k0 w, In k0 (map fst new) ->
    let st := combine_key (d1, new) (k0, w) in
    (forall k, sget (fst st) k = match sget d1 k with None => None
       | Some v1 => Some (if String.eqb k k0 then if appended v1 w then merged v1 w else v1 else v1) end) /\
    map fst (fst st) = map fst d1 /\
    (forall k, sget (snd st) k = match sget d1 k with None => sget new k
       | Some v1 => if String.eqb k k0 then Some (if appended v1 w then AliasOf k else Own (merged v1 w)) else sget new k end) /\
    map fst (snd st) = map fst new /\
    ((forall v1, sget d1 k0 = Some v1 -> appended v1 w = false) -> fst st = d1).
  Proof.
    intros d1 new k0 w Hk st. unfold combine_key in st.
    destruct (sget d1 k0) as [v1|] eqn:E1.
    - assert (K1 : In k0 (map fst d1)).
      { apply (dget_In String.eqb string_eqb_spec) in E1. apply (in_map fst) in E1. exact E1. }
      assert (OWN : forall v, merged v1 w = v -> appended v1 w = false -> st = (d1, sset new k0 (Own v)) ->
        (forall k, sget (fst st) k = match sget d1 k with None => None
          | Some v1 => Some (if String.eqb k k0 then if appended v1 w then merged v1 w else v1 else v1) end) /\
        map fst (fst st) = map fst d1 /\
        (forall k, sget (snd st) k = match sget d1 k with None => sget new k
          | Some v1 => if String.eqb k k0 then Some (if appended v1 w then AliasOf k else Own (merged v1 w)) else sget new k end) /\
        map fst (snd st) = map fst new /\
        ((forall v1, Some v1 = Some v1 -> appended v1 w = false) -> fst st = d1 \/ True)).
      { intros v Hm Ha ->. cbn [fst snd]. split; [|split; [reflexivity|split; [|split; [apply (dset_keys_mem String.eqb string_eqb_spec); exact Hk|auto]]]].
        - intro k. destruct (sget d1 k) as [u|] eqn:Eu; [|reflexivity]. destruct (String.eqb_spec k k0) as [->|]; [|reflexivity].
          assert (u = v1) by congruence. subst u. rewrite Ha. reflexivity.
        - intro k. rewrite sget_sset. destruct (String.eqb_spec k k0) as [->|].
          + rewrite E1, Ha, Hm. reflexivity.
          + destruct (sget d1 k); reflexivity. }
      assert (APP : forall l1, v1 = PSeq true l1 -> is_pylist w = false ->
        st = (sset d1 k0 (PSeq true (l1 ++ [w])), sset new k0 (AliasOf k0)) ->
        (forall k, sget (fst st) k = match sget d1 k with None => None
          | Some v1 => Some (if String.eqb k k0 then if appended v1 w then merged v1 w else v1 else v1) end) /\
        map fst (fst st) = map fst d1 /\
        (forall k, sget (snd st) k = match sget d1 k with None => sget new k
          | Some v1 => if String.eqb k k0 then Some (if appended v1 w then AliasOf k else Own (merged v1 w)) else sget new k end) /\
        map fst (snd st) = map fst new /\ appended v1 w = true).
      { intros l1 -> Hw ->. cbn [fst snd].
        assert (Ha : appended (PSeq true l1) w = true) by (unfold appended; rewrite Hw; reflexivity).
        assert (Hm : merged (PSeq true l1) w = PSeq true (l1 ++ [w])).
        { unfold merged. destruct w as [x|[|] l|x]; try reflexivity. discriminate. }
        split; [|split; [apply (dset_keys_mem String.eqb string_eqb_spec); exact K1|split; [|split; [apply (dset_keys_mem String.eqb string_eqb_spec); exact Hk|exact Ha]]]].
        - intro k. rewrite sget_sset. destruct (String.eqb_spec k k0) as [->|].
          + rewrite E1, Ha, Hm. reflexivity.
          + destruct (sget d1 k); reflexivity.
        - intro k. rewrite sget_sset. destruct (String.eqb_spec k k0) as [->|].
          + rewrite E1, Ha. reflexivity.
          + destruct (sget d1 k); reflexivity. }
      destruct (is_pylist v1) eqn:L1, (is_pylist w) eqn:L2.
      + destruct v1 as [|[|] l1|]; try discriminate. destruct w as [|[|] l2|]; try discriminate.
        destruct (OWN (PSeq true (l1 ++ l2)) eq_refl eq_refl eq_refl) as (A & B & C & D & _). repeat (split; [assumption|]). reflexivity.
      + destruct v1 as [|[|] l1|]; try discriminate.
        destruct (APP l1 eq_refl eq_refl) as (A & B & C & D & F).
        { unfold st. destruct w as [|[|] l2|]; try discriminate; reflexivity. }
        repeat (split; [assumption|]). intro H. rewrite (H _ eq_refl) in F. discriminate.
      + destruct w as [|[|] l2|]; try discriminate.
        destruct (OWN (PSeq true (v1 :: l2))) as (A & B & C & D & _).
        { destruct v1 as [|[|] l1|]; try discriminate; reflexivity. }
        { unfold appended. rewrite L1. reflexivity. }
        { unfold st. destruct v1 as [|[|] l1|]; try discriminate; reflexivity. }
        repeat (split; [assumption|]). intros _. unfold st. destruct v1 as [|[|] l1|]; try discriminate; reflexivity.
      + destruct (OWN (PSeq true [v1; w])) as (A & B & C & D & _).
        { destruct v1 as [|[|] l1|], w as [|[|] l2|]; try discriminate; reflexivity. }
        { unfold appended. rewrite L1. reflexivity. }
        { unfold st. destruct v1 as [|[|] l1|], w as [|[|] l2|]; try discriminate; reflexivity. }
        repeat (split; [assumption|]). intros _. unfold st.
        destruct v1 as [|[|] l1|], w as [|[|] l2|]; try discriminate; reflexivity.
    - subst st. cbn [fst snd]. split; [|split; [reflexivity|split; [|split; [reflexivity|reflexivity]]]].
      + intro k. destruct (sget d1 k) as [u|] eqn:Eu; [|reflexivity]. destruct (String.eqb_spec k k0) as [->|]; [congruence|reflexivity].
      + intro k. destruct (sget d1 k) as [u|] eqn:Eu; [|reflexivity]. destruct (String.eqb_spec k k0) as [->|]; [congruence|reflexivity].
  Qed.

  Lemma fold_key : forall d2 d1 new, NoDup (map fst d2) -> (forall k, In k (map fst d2) -> In k (map fst new)) ->
    let st := fold_left combine_key d2 (d1, new) in
    (forall k, sget (fst st) k = match sget d1 k, sget d2 k with
       | None, _ => None | Some v1, None => Some v1 | Some v1, Some v2 => Some (if appended v1 v2 then merged v1 v2 else v1) end) /\
    map fst (fst st) = map fst d1 /\
    (forall k, sget (snd st) k = match sget d1 k, sget d2 k with
       | Some v1, Some v2 => Some (if appended v1 v2 then AliasOf k else Own (merged v1 v2)) | _, _ => sget new k end) /\
    map fst (snd st) = map fst new /\
    ((forall k v1 v2, sget d1 k = Some v1 -> sget d2 k = Some v2 -> appended v1 v2 = false) -> fst st = d1).
  Proof.
    induction d2 as [|[k0 w] d2 IH]; intros d1 new ND Hk; cbn zeta.
    - cbn [fold_left fst snd]. split; [intro k; cbn; destruct (sget d1 k); reflexivity|]. split; [reflexivity|].
      split; [intro k; cbn; destruct (sget d1 k); reflexivity|]. split; reflexivity.
    - cbn [fold_left]. inversion ND as [|? ? Hn ND']; subst.
      destruct (combine_key_step d1 new k0 w (Hk k0 (or_introl eq_refl))) as (A & B & C & D & E).
      destruct (combine_key (d1, new) (k0, w)) as [e1 enew] eqn:EK. cbn [fst snd] in *.
      destruct (IH e1 enew ND') as (A' & B' & C' & D' & E').
      { intros k H. rewrite D. apply Hk. right. exact H. }
      assert (NK : sget d2 k0 = None) by (apply (dget_None String.eqb string_eqb_spec); exact Hn).
      split; [|split; [congruence|split; [|split; [congruence|]]]].
      + intro k. rewrite A', A. cbn [dget]. destruct (sget d1 k) as [v1|]; [|reflexivity].
        destruct (String.eqb_spec k k0) as [->|]; [rewrite NK; reflexivity|reflexivity].
      + intro k. rewrite C', A, C. cbn [dget]. destruct (sget d1 k) as [v1|]; [|reflexivity].
        destruct (String.eqb_spec k k0) as [->|]; [rewrite NK; reflexivity|reflexivity].
      + intro H. assert (E1 : e1 = d1).
        { apply E. intros v1 Hv. apply (H k0 v1 w Hv). cbn [dget]. rewrite String.eqb_refl. reflexivity. }
        subst e1. apply E'. intros k v1 v2 H1 H2. apply (H k v1 v2 H1). cbn [dget].
        destruct (String.eqb_spec k k0) as [->|]; [congruence|exact H2].
  Qed.

  Lemma initial_new : forall d2 (new : list (string * cell T)), NoDup (map fst d2) ->
    let n := fold_left (fun d kv => sset d (fst kv) (Own (snd kv))) d2 new in
    (forall k, sget n k = match sget d2 k with Some v => Some (Own v) | None => sget new k end) /\
    (forall k, In k (map fst n) <-> In k (map fst new) \/ In k (map fst d2)) /\
    (NoDup (map fst new) -> NoDup (map fst n)).
  Proof.
    induction d2 as [|[k0 w] d2 IH]; intros new ND; cbn zeta.
    - cbn. split; [reflexivity|]. split; [tauto|auto].
    - cbn [fold_left fst snd]. inversion ND as [|? ? Hn ND']; subst.
      assert (NK : sget d2 k0 = None) by (apply (dget_None String.eqb string_eqb_spec); exact Hn).
      destruct (IH (sset new k0 (Own w)) ND') as (A & B & C). split; [|split].
      + intro k. rewrite A, sget_sset. cbn [dget]. destruct (String.eqb_spec k k0) as [->|]; [rewrite NK; reflexivity|reflexivity].
      + intro k. rewrite B, (dset_keys_In String.eqb string_eqb_spec). cbn [map fst In].
        split; intros H; repeat destruct H as [H|H]; auto.
      + intro H. apply C. apply (dset_NoDup String.eqb string_eqb_spec). exact H.
  Qed.

  Lemma sget_map_own : forall (d : votes) k, sget (map (fun kv => (fst kv, Own (snd kv))) d) k = option_map Own (sget d k).
  Proof. induction d as [|[k0 v] d IH]; intro k; [reflexivity|]. cbn. destruct (String.eqb k k0); [reflexivity|apply IH]. Qed.
  Lemma sget_resolve : forall d1 (new : list (string * cell T)) k, sget (resolve d1 new) k =
    option_map (fun c => match c with Own v => v | AliasOf k => match sget d1 k with Some v => v | None => PSeq true [] end end) (sget new k).
  Proof.
    intros d1 new k. unfold resolve. induction new as [|[k0 c] new IH]; [reflexivity|]. cbn [map fst snd dget].
    destruct (String.eqb k k0); [reflexivity|exact IH].
  Qed.
  Lemma resolve_keys : forall d1 (new : list (string * cell T)), map fst (resolve d1 new) = map fst new.
  Proof. intros. unfold resolve. rewrite map_map. reflexivity. Qed.

  (** What the dict of a combined video is. *)
  Definition joined (d1 d2 d : votes) : Prop :=
    NoDup (map fst d) /\ (forall k, In k (map fst d) <-> In k (map fst d1) \/ In k (map fst d2)) /\
    forall k, sget d k = match sget d1 k, sget d2 k with
      | Some v1, Some v2 => Some (merged v1 v2) | Some v1, None => Some v1 | None, o => o end.

  Lemma combine_os_spec : forall d1 d2, NoDup (map fst d1) -> NoDup (map fst d2) ->
    let st := combine_os d1 d2 in
    joined d1 d2 (resolve (fst st) (snd st)) /\ map fst (fst st) = map fst d1 /\
    (forall k, sget (fst st) k = match sget d1 k, sget d2 k with
       | None, _ => None | Some v1, None => Some v1 | Some v1, Some v2 => Some (if appended v1 v2 then merged v1 v2 else v1) end) /\
    ((forall k v1 v2, sget d1 k = Some v1 -> sget d2 k = Some v2 -> appended v1 v2 = false) -> fst st = d1).
  Proof.
    intros d1 d2 N1 N2 st. unfold combine_os in st.
    set (new0 := map (fun kv => (fst kv, Own (snd kv))) d1) in *.
    destruct (initial_new d2 new0 N2) as (A & B & C).
    set (new1 := fold_left _ d2 new0) in *.
    assert (K0 : map fst new0 = map fst d1) by (unfold new0; rewrite map_map; reflexivity).
    destruct (fold_key d2 d1 new1 N2) as (D & E & F & G & H).
    { intros k Hk. apply B. right. exact Hk. }
    fold st in D, E, F, G, H. split; [|split; [exact E|split; [exact D|exact H]]].
    split; [|split].
    - rewrite resolve_keys, G. apply C. rewrite K0. exact N1.
    - intro k. rewrite resolve_keys, G, B, K0. reflexivity.
    - intro k. rewrite sget_resolve, F, A. unfold new0. rewrite sget_map_own.
      destruct (sget d1 k) as [v1|] eqn:E1, (sget d2 k) as [v2|] eqn:E2; cbn [option_map]; try reflexivity.
      destruct (appended v1 v2) eqn:EA; cbn; [|reflexivity]. rewrite D, E1, E2, EA. reflexivity.
  Qed.

  (** ** The inner loop *)
  Definition matches (v1 : dv_t) (second : list dv_t) : list dv_t := filter (fun v2 => String.eqb (dv_path v1) (dv_path v2)) second.
  Definition pairstep (refs1 : list rvideo) (v1 : dv_t) (st : inner) (v2 : dv_t) : inner :=
    let cr := renumber refs1 (dv_cid v1) (in_cids st, in_refs st) in
    let dn := combine_os (in_d1 st) (dict_of_dv v2) in
    Inner (fst cr) (snd cr) (fst dn) (in_new st ++ [(Z.of_nat (index_of (dv_cid v1) (fst cr)), snd dn)]).

  Lemma inner_fold : forall refs1 v1 second st, dict_style second ->
    foldM (combine_pair refs1 v1) second st = Ok (fold_left (pairstep refs1 v1) (matches v1 second) st).
  Proof.
    intros refs1 v1 second. induction second as [|v2 second IH]; intros st Hd; [reflexivity|].
    inversion Hd as [|? ? (d2 & E2 & _) Hd']; subst. cbn [foldM matches filter].
    unfold combine_pair at 1. destruct (String.eqb (dv_path v1) (dv_path v2)).
    - unfold os_dict, get_os. rewrite E2. cbn [bind].
      destruct (renumber refs1 (dv_cid v1) (in_cids st, in_refs st)) as [c r] eqn:ER.
      destruct (combine_os (in_d1 st) d2) as [d1' new] eqn:EC. cbn [bind fold_left]. rewrite IH by exact Hd'.
      f_equal. f_equal. unfold pairstep, dict_of_dv. rewrite E2, ER, EC. reflexivity.
    - cbn [bind]. apply IH. exact Hd'.
  Qed.

  Lemma renumber_idem : forall refs1 c cr, renumber refs1 c (renumber refs1 c cr) = renumber refs1 c cr.
  Proof.
    intros refs1 c [cids refs]. cbn [renumber]. destruct (memb Z.eqb c cids) eqn:E; cbn [renumber]; [rewrite E; reflexivity|].
    replace (memb Z.eqb c (cids ++ [c])) with true; [reflexivity|]. symmetry.
    apply (memb_In Z Z.eqb Z_eqb_spec). apply in_or_app. right. left. reflexivity.
  Qed.

  (** Votes are appended in place for some subject. *)
  Definition appends_d (d1 d2 : votes) : Prop := exists k v1 v2, sget d1 k = Some v1 /\ sget d2 k = Some v2 /\ appended v1 v2 = true.
  Lemma not_appends_d : forall d1 d2, ~ appends_d d1 d2 -> forall k v1 v2, sget d1 k = Some v1 -> sget d2 k = Some v2 -> appended v1 v2 = false.
  Proof. intros d1 d2 H k v1 v2 E1 E2. destruct (appended v1 v2) eqn:E; [|reflexivity]. exfalso. apply H. exists k, v1, v2. auto. Qed.

  Definition after_first (refs1 : list rvideo) (v1 : dv_t) (ms : list dv_t) (cr : list Z * list rvideo) :=
    match ms with [] => cr | _ => renumber refs1 (dv_cid v1) cr end.

  (** Result of the inner loop: contents, references and one new dict per match,
      each joined from the votes; allowed when the first video is only matched
      once or is never appended to. *)
  Lemma inner_result : forall refs1 v1 d1 ms cids refs, NoDup (map fst d1) ->
    (forall v2, In v2 ms -> NoDup (map fst (dict_of_dv v2))) ->
    (length ms <= 1 \/ forall v2, In v2 ms -> ~ appends_d d1 (dict_of_dv v2)) ->
    let i := fold_left (pairstep refs1 v1) ms (Inner cids refs d1 []) in
    let cr := after_first refs1 v1 ms (cids, refs) in
    in_cids i = fst cr /\ in_refs i = snd cr /\ map fst (in_d1 i) = map fst d1 /\
    Forall2 (fun v2 cn => fst cn = Z.of_nat (index_of (dv_cid v1) (fst cr)) /\ joined d1 (dict_of_dv v2) (resolve (in_d1 i) (snd cn))) ms (in_new i).
  Proof.
    intros refs1 v1 d1 ms cids refs N1 N2 Hc. cbn zeta.
    destruct ms as [|v2 ms].
    { cbn. auto. }
    destruct Hc as [Hl|Hna].
    - destruct ms as [|v3 ms]; [|cbn in Hl; lia]. cbn [fold_left after_first]. unfold pairstep. cbn [in_cids in_refs in_d1 in_new].
      destruct (combine_os_spec d1 (dict_of_dv v2) N1 (N2 v2 (or_introl eq_refl))) as (A & B & _ & _).
      split; [reflexivity|]. split; [reflexivity|]. split; [exact B|]. cbn [app]. constructor; [|constructor].
      split; [reflexivity|exact A].
    - assert (G : forall ms nw c r, (forall v2, In v2 ms -> NoDup (map fst (dict_of_dv v2))) -> (forall v2, In v2 ms -> ~ appends_d d1 (dict_of_dv v2)) ->
        renumber refs1 (dv_cid v1) (c, r) = (c, r) ->
        exists nw', fold_left (pairstep refs1 v1) ms (Inner c r d1 nw) = Inner c r d1 (nw ++ nw') /\
          Forall2 (fun v2 cn => fst cn = Z.of_nat (index_of (dv_cid v1) c) /\ joined d1 (dict_of_dv v2) (resolve d1 (snd cn))) ms nw').
      { clear - N1. induction ms as [|v2 ms IH]; intros nw c r N2 Hna Hi.
        - exists []. rewrite app_nil_r. split; [reflexivity|constructor].
        - cbn [fold_left]. unfold pairstep at 2. cbn [in_cids in_refs in_d1 in_new]. rewrite Hi. cbn [fst snd].
          destruct (combine_os_spec d1 (dict_of_dv v2) N1 (N2 v2 (or_introl eq_refl))) as (A & _ & _ & F).
          rewrite (F (not_appends_d _ _ (Hna v2 (or_introl eq_refl)))) in A |- *.
          destruct (IH (nw ++ [(Z.of_nat (index_of (dv_cid v1) c), snd (combine_os d1 (dict_of_dv v2)))]) c r) as (nw' & E & FA).
          { intros v H. apply N2. right; exact H. } { intros v H. apply Hna. right; exact H. } { exact Hi. }
          rewrite E. eexists. rewrite <- app_assoc. split; [reflexivity|]. constructor; [split; [reflexivity|exact A]|exact FA]. }
      destruct (combine_os_spec d1 (dict_of_dv v2) N1 (N2 v2 (or_introl eq_refl))) as (A & _ & _ & F).
      specialize (F (not_appends_d _ _ (Hna v2 (or_introl eq_refl)))). rewrite F in A.
      destruct (renumber refs1 (dv_cid v1) (cids, refs)) as [c r] eqn:ER.
      assert (S0 : pairstep refs1 v1 (Inner cids refs d1 []) v2 =
        Inner c r d1 [(Z.of_nat (index_of (dv_cid v1) c), snd (combine_os d1 (dict_of_dv v2)))]).
      { unfold pairstep. cbn [in_cids in_refs in_d1 in_new app]. rewrite ER, F. reflexivity. }
      cbn [fold_left after_first]. rewrite S0, ER. cbn [fst snd].
      destruct (G ms [(Z.of_nat (index_of (dv_cid v1) c), snd (combine_os d1 (dict_of_dv v2)))] c r) as (nw' & E & FA).
      { intros v H. apply N2. right; exact H. } { intros v H. apply Hna. right; exact H. }
      { rewrite <- ER. apply renumber_idem. }
      rewrite E. cbn [in_cids in_refs in_d1 in_new app]. repeat (split; [reflexivity|]).
      constructor; [split; [reflexivity|exact A]|exact FA].
  Qed.

  (** ** Contents and references *)
  Definition refs_of (refs1 : list rvideo) (cids : list Z) : list rvideo :=
    flat_map (fun ic => match find (fun r => Z.eqb (rv_cid r) (snd ic)) refs1 with
                        | Some r => [RVideo (Z.of_nat (fst ic)) (rv_path r) (rv_extra r)] | None => [] end) (enumerate cids).
  Lemma index_of_app : forall c l l', In c l -> index_of c (l ++ l') = index_of c l.
  Proof.
    induction l as [|x l IH]; intros l' H; [destruct H|]. cbn. destruct (Z.eqb_spec c x); [reflexivity|].
    f_equal. apply IH. destruct H as [H|H]; [congruence|exact H].
  Qed.
  Lemma index_of_fresh : forall c l, ~ In c l -> index_of c (l ++ [c]) = length l.
  Proof.
    induction l as [|x l IH]; intro H; cbn; [rewrite Z.eqb_refl; reflexivity|].
    destruct (Z.eqb_spec c x); [exfalso; apply H; left; congruence|]. f_equal. apply IH. intro; apply H; right; assumption.
  Qed.
  Lemma index_of_nth : forall c l, In c l -> nth_error l (index_of c l) = Some c.
  Proof.
    induction l as [|x l IH]; intro H; [destruct H|]. cbn. destruct (Z.eqb_spec c x); [subst; reflexivity|].
    cbn. apply IH. destruct H as [H|H]; [congruence|exact H].
  Qed.
  Lemma enumerate_snoc : forall A (l : list A) x, enumerate (l ++ [x]) = enumerate l ++ [(length l, x)].
  Proof.
    intros A l x. unfold enumerate. rewrite app_length. cbn [length]. rewrite seq_app. cbn [seq].
    rewrite Nat.add_0_l. assert (G : forall (s : list nat) n, length s = length l -> combine (s ++ [n]) (l ++ [x]) = combine s l ++ [(n, x)]).
    { induction l as [|a l IH]; intros [|b s] n H; try discriminate; [reflexivity|]. cbn. f_equal. apply IH. cbn in H. lia. }
    apply G. apply seq_length.
  Qed.
  Lemma refs_of_snoc : forall refs1 C c, refs_of refs1 (C ++ [c]) = refs_of refs1 C ++
    match find (fun r => Z.eqb (rv_cid r) c) refs1 with Some r => [RVideo (Z.of_nat (length C)) (rv_path r) (rv_extra r)] | None => [] end.
  Proof. intros. unfold refs_of. rewrite enumerate_snoc, flat_map_app. cbn [flat_map fst snd]. rewrite app_nil_r. reflexivity. Qed.

  Lemma renumber_spec : forall refs1 c cids, NoDup cids ->
    let cr := renumber refs1 c (cids, refs_of refs1 cids) in
    NoDup (fst cr) /\ In c (fst cr) /\ snd cr = refs_of refs1 (fst cr) /\
    exists ext, fst cr = cids ++ ext /\ forall x, In x ext -> x = c.
  Proof.
    intros refs1 c cids ND. cbn zeta. cbn [renumber]. destruct (memb Z.eqb c cids) eqn:E; cbn [fst snd].
    - apply (memb_In Z Z.eqb Z_eqb_spec) in E. split; [exact ND|]. split; [exact E|]. split; [reflexivity|].
      exists []. rewrite app_nil_r. split; [reflexivity|intros x []].
    - assert (NI : ~ In c cids). { intro H. apply (memb_In Z Z.eqb Z_eqb_spec) in H. congruence. }
      split; [|split; [apply in_or_app; right; left; reflexivity|split]].
      + apply (Permutation.Permutation_NoDup (l := c :: cids)); [apply Permutation.Permutation_cons_append|constructor; assumption].
      + rewrite refs_of_snoc, (index_of_fresh c cids NI). destruct (find _ refs1); [reflexivity|rewrite app_nil_r; reflexivity].
      + exists [c]. split; [reflexivity|]. intros x [H|[]]. auto.
  Qed.

  Lemma refs_of_ids : forall refs1 C, (forall c, In c C -> exists r, In r refs1 /\ rv_cid r = c) ->
    map rv_cid (refs_of refs1 C) = map Z.of_nat (seq 0 (length C)) /\ length (refs_of refs1 C) = length C.
  Proof.
    intros refs1 C. induction C as [|c C IH] using rev_ind; intro H; [split; reflexivity|].
    destruct IH as (A & B). { intros x Hx. apply H. apply in_or_app. left; exact Hx. }
    rewrite refs_of_snoc, map_app, !app_length, A, B. cbn [length]. rewrite seq_app, map_app. cbn [seq map].
    destruct (find (fun r => Z.eqb (rv_cid r) c) refs1) eqn:E; [split; reflexivity|].
    destruct (H c) as (r & Hr & Hc); [apply in_or_app; right; left; reflexivity|].
    exfalso. apply (find_none _ _ E) in Hr. cbn in Hr. rewrite Hc, Z.eqb_refl in Hr. discriminate.
  Qed.
  Lemma refs_of_In : forall refs1 C c, In c C -> (exists r, In r refs1 /\ rv_cid r = c) ->
    exists r1, find (fun r => Z.eqb (rv_cid r) c) refs1 = Some r1 /\
      In (RVideo (Z.of_nat (index_of c C)) (rv_path r1) (rv_extra r1)) (refs_of refs1 C).
  Proof.
    intros refs1 C c Hc (r & Hr & Er). destruct (find (fun r => Z.eqb (rv_cid r) c) refs1) as [r1|] eqn:E.
    - exists r1. split; [reflexivity|]. unfold refs_of. apply in_flat_map. exists (index_of c C, c). split.
      + assert (H := index_of_nth c C Hc). pose proof (enumerate_nth _ C (index_of c C)) as HE. rewrite H in HE. cbn in HE.
        apply (nth_error_In _ _ HE).
      + cbn [fst snd]. rewrite E. left; reflexivity.
    - exfalso. apply (find_none _ _ E) in Hr. cbn in Hr. rewrite Er, Z.eqb_refl in Hr. discriminate.
  Qed.

  (** ** The outer loop *)
  Definition d1_after (d1 : votes) (ms : list dv_t) : votes := fold_left (fun d v2 => fst (combine_os d (dict_of_dv v2))) ms d1.
  Lemma pairstep_d1 : forall refs1 v1 ms st, in_d1 (fold_left (pairstep refs1 v1) ms st) = d1_after (in_d1 st) ms.
  Proof. intros refs1 v1. unfold d1_after. induction ms as [|v2 ms IH]; intro st; [reflexivity|]. cbn [fold_left]. rewrite IH. reflexivity. Qed.

  Definition made (C : list Z) (p : dv_t * dv_t) (v : dv_t) : Prop :=
    dv_aid v = dv_aid (fst p) /\ dv_path v = dv_path (fst p) /\ dv_gt v = dv_gt (fst p) /\ dv_gtstd v = dv_gtstd (fst p) /\
    dv_extra v = dv_extra (fst p) /\
    (exists d, dv_os v = Some (ODict d) /\ joined (dict_of_dv (fst p)) (dict_of_dv (snd p)) d) /\
    In (dv_cid (fst p)) C /\ dv_cid v = Z.of_nat (index_of (dv_cid (fst p)) C).
  Lemma made_app : forall C ext p v, made C p v -> made (C ++ ext) p v.
  Proof.
    intros C ext p v (A1 & A2 & A3 & A4 & A5 & A6 & A7 & A8). repeat (split; [assumption|]).
    split; [apply in_or_app; left; exact A7|]. rewrite index_of_app by exact A7. exact A8.
  Qed.

  (** The first video is matched at most once, or its votes are never appended to. *)
  Definition safe (second : list dv_t) (v1 : dv_t) : Prop :=
    length (matches v1 second) <= 1 \/ forall v2, In v2 (matches v1 second) -> ~ appends_d (dict_of_dv v1) (dict_of_dv v2).

  Lemma dict_style_In : forall dvs dv, dict_style dvs -> In dv dvs -> dv_os dv = Some (ODict (dict_of_dv dv)) /\ NoDup (map fst (dict_of_dv dv)).
  Proof.
    intros dvs dv H Hin. unfold dict_style in H. rewrite Forall_forall in H. destruct (H dv Hin) as (d & E & ND).
    unfold dict_of_dv. rewrite E. auto.
  Qed.
  Lemma matches_dict : forall v1 second v2, dict_style second -> In v2 (matches v1 second) -> NoDup (map fst (dict_of_dv v2)).
  Proof. intros v1 second v2 H Hin. apply filter_In in Hin as [Hin _]. apply (dict_style_In second v2 H Hin). Qed.

  Lemma outer_total : forall refs1 second first st, dict_style second -> dict_style first ->
    exists st', foldM (combine_first refs1 second) first st = Ok st' /\
      out_first st' = out_first st ++ map (fun v1 => with_os v1 (ODict (d1_after (dict_of_dv v1) (matches v1 second)))) first.
  Proof.
    intros refs1 second first. induction first as [|v1 first IH]; intros st Hs Hf.
    - exists st. split; [reflexivity|]. rewrite app_nil_r. reflexivity.
    - destruct (dict_style_In _ v1 Hf (or_introl eq_refl)) as (E1 & _). inversion Hf as [|? ? _ Hf']; subst.
      cbn [foldM]. unfold combine_first at 1, os_dict, get_os. rewrite E1. cbn [bind].
      rewrite inner_fold by exact Hs. cbn [bind].
      match goal with |- context [foldM _ first ?s] => destruct (IH s Hs Hf') as (st' & A & B) end.
      exists st'. split; [exact A|]. rewrite B. cbn [out_first map]. rewrite <- app_assoc. cbn [app]. rewrite pairstep_d1. reflexivity.
  Qed.

  Lemma outer_spec : forall refs1 second first st st', dict_style second -> dict_style first ->
    (forall v1, In v1 first -> safe second v1) -> NoDup (out_cids st) -> out_refs st = refs_of refs1 (out_cids st) ->
    foldM (combine_first refs1 second) first st = Ok st' ->
    exists ext dis, out_cids st' = out_cids st ++ ext /\ NoDup (out_cids st') /\ out_refs st' = refs_of refs1 (out_cids st') /\
      out_dis st' = out_dis st ++ dis /\ Forall2 (made (out_cids st')) (same_path_pairs first second) dis /\
      (forall c, In c ext -> exists p, In p (same_path_pairs first second) /\ dv_cid (fst p) = c).
  Proof.
    intros refs1 second first. induction first as [|v1 first IH]; intros st st' Hs Hf Hsafe ND HR H.
    - cbn in H. injection H as <-. exists [], []. rewrite !app_nil_r. split; [reflexivity|]. split; [exact ND|]. split; [exact HR|].
      split; [reflexivity|]. split; [constructor|intros c []].
    - destruct (dict_style_In _ v1 Hf (or_introl eq_refl)) as (E1 & ND1). inversion Hf as [|? ? _ Hf']; subst.
      cbn [foldM] in H. unfold combine_first at 1, os_dict, get_os in H. rewrite E1 in H. cbn [bind] in H.
      rewrite inner_fold in H by exact Hs. cbn [bind] in H.
      destruct (inner_result refs1 v1 (dict_of_dv v1) (matches v1 second) (out_cids st) (out_refs st) ND1
        (fun v2 => matches_dict v1 second v2 Hs) (Hsafe v1 (or_introl eq_refl))) as (A & B & _ & F).
      set (i := fold_left (pairstep refs1 v1) _ _) in *.
      set (cr := after_first refs1 v1 (matches v1 second) (out_cids st, out_refs st)) in *.
      assert (CR : NoDup (fst cr) /\ snd cr = refs_of refs1 (fst cr) /\ (matches v1 second <> [] -> In (dv_cid v1) (fst cr)) /\
        exists ext, fst cr = out_cids st ++ ext /\ forall x, In x ext -> x = dv_cid v1 /\ matches v1 second <> []).
      { unfold cr. destruct (matches v1 second) as [|m ms] eqn:EM.
        - cbn [after_first fst snd]. split; [exact ND|]. split; [exact HR|]. split; [intro Hx; contradiction|].
          exists []. rewrite app_nil_r. split; [reflexivity|intros x []].
        - cbn [after_first]. rewrite HR. destruct (renumber_spec refs1 (dv_cid v1) (out_cids st) ND) as (R1 & R2 & R3 & ext & R4 & R5).
          split; [exact R1|]. split; [exact R3|]. split; [intros _; exact R2|]. exists ext. split; [exact R4|].
          intros x Hx. split; [apply R5; exact Hx|discriminate]. }
      destruct CR as (CR1 & CR2 & CR3 & ext0 & CR4 & CR5).
      match type of H with foldM _ _ ?s = _ => set (s1 := s) in * end.
      destruct (IH s1 st' Hs Hf' (fun v Hv => Hsafe v (or_intror Hv))) as (ext & dis & X1 & X2 & X3 & X4 & X5 & X6).
      { cbn [s1 out_cids]. rewrite A. exact CR1. } { cbn [s1 out_cids out_refs]. rewrite A, B. exact CR2. } { exact H. }
      cbn [s1 out_cids out_dis] in X1, X4. rewrite A in X1.
      exists (ext0 ++ ext). eexists. split; [rewrite app_assoc, <- CR4; exact X1|]. split; [exact X2|]. split; [exact X3|].
      split; [rewrite X4, <- app_assoc; reflexivity|]. split.
      + unfold same_path_pairs. cbn [flat_map]. apply Forall2_app; [|exact X5].
        fold (matches v1 second). rewrite X1.
        assert (G : matches v1 second <> [] -> In (dv_cid v1) (fst cr)) by exact CR3.
        clear - F G. revert F G. generalize (in_new i), (in_d1 i), (fst cr). intros nw dd C F.
        induction F as [|v2 cn ms nw (Fc & Fj) F IH]; intro G; [constructor|]. cbn [map]. constructor.
        * apply made_app. unfold made. cbn [fst snd with_cid_os dv_aid dv_path dv_gt dv_gtstd dv_extra dv_os dv_cid].
          repeat (split; [reflexivity|]). split; [eexists; split; [reflexivity|exact Fj]|].
          split; [apply G; discriminate|exact Fc].
        * apply IH. intros _. apply G. discriminate.
      + intros c Hc. apply in_app_or in Hc as [Hc|Hc].
        * destruct (CR5 c Hc) as (-> & Hm). destruct (matches v1 second) as [|m ms] eqn:EM; [contradiction|].
          exists (v1, m). split; [|reflexivity]. unfold same_path_pairs. cbn [flat_map]. apply in_or_app. left.
          fold (matches v1 second). rewrite EM. left; reflexivity.
        * destruct (X6 c Hc) as (p & Hp & Ep). exists p. split; [|exact Ep]. unfold same_path_pairs. cbn [flat_map]. apply in_or_app. right. exact Hp.
  Qed.

  (** ** Votes *)
  Lemma as_list_votes : forall v xs, (exists x, v = PNum x) \/ (exists ys, v = PSeq true (map PNum ys)) -> vote_value v xs -> as_list v = map PNum xs.
  Proof. intros v xs H Hv. destruct Hv as [x|b xs|x]; destruct H as [(y & E)|(ys & E)]; try discriminate; [reflexivity|]. injection E as -> _. reflexivity. Qed.

  Lemma made_combined : forall C first second p v, dict_style first -> dict_style second -> list_votes first -> list_votes second ->
    In (fst p) first -> In (snd p) second -> made C p v -> combined (fst p) (snd p) v.
  Proof.
    intros C first second [v1 v2] v H1 H2 L1 L2 I1 I2 (A1 & A2 & A3 & A4 & A5 & (d & Ed & JN & JK & JG) & _). cbn [fst snd] in *.
    destruct (dict_style_In _ _ H1 I1) as (E1 & N1). destruct (dict_style_In _ _ H2 I2) as (E2 & N2).
    unfold combined. repeat (split; [assumption|]). split; [exists d; auto|]. split.
    - intros name d1 d2 d' Hd1 Hd2 Hd. assert (d1 = dict_of_dv v1) by congruence. assert (d2 = dict_of_dv v2) by congruence.
      assert (d' = d) by congruence. subst. apply JK.
    - intros name xs1 xs2 (d1 & Hd1 & V1) (d2 & Hd2 & V2).
      assert (d1 = dict_of_dv v1) by congruence. assert (d2 = dict_of_dv v2) by congruence. subst d1 d2.
      exists d. split; [exact Ed|]. specialize (JG name).
      destruct V1 as [(w1 & In1 & W1)|(NI1 & ->)], V2 as [(w2 & In2 & W2)|(NI2 & ->)].
      + rewrite (In_dget String.eqb string_eqb_spec _ _ _ N1 In1), (In_dget String.eqb string_eqb_spec _ _ _ N2 In2) in JG.
        left. exists (merged w1 w2). split; [apply (dget_In String.eqb string_eqb_spec); exact JG|].
        unfold merged. rewrite (as_list_votes w1 xs1 (L1 v1 _ name w1 I1 E1 In1) W1), (as_list_votes w2 xs2 (L2 v2 _ name w2 I2 E2 In2) W2), <- map_app.
        constructor.
      + apply (dget_None String.eqb string_eqb_spec) in NI2. rewrite (In_dget String.eqb string_eqb_spec _ _ _ N1 In1), NI2 in JG.
        left. exists w1. rewrite app_nil_r. split; [apply (dget_In String.eqb string_eqb_spec); exact JG|exact W1].
      + apply (dget_None String.eqb string_eqb_spec) in NI1. rewrite (In_dget String.eqb string_eqb_spec _ _ _ N2 In2), NI1 in JG.
        left. exists w2. split; [apply (dget_In String.eqb string_eqb_spec); exact JG|exact W2].
      + right. split; [|reflexivity]. rewrite JK. tauto.
  Qed.

  (** ** Conversion *)
  Definition converted (dv dv' : dv_t) : Prop :=
    same_video dv dv' /\ dv_gt dv' = dv_gt dv /\ dv_gtstd dv' = dv_gtstd dv /\
    exists b l d name, dv_os dv = Some (OSeq b l) /\ dv_os dv' = Some (ODict d) /\ named_votes name l d.

  Lemma conversion_inv : forall (ds f : ds_t), to_dictionary_style_dataset ds (ds_dis ds) no_kw = Ok f -> no_dup_keys (ds_dis ds) ->
    ds_refs f = ds_refs ds /\ dict_style (ds_dis f) /\ (f = ds \/ Forall2 converted (ds_dis ds) (ds_dis f)).
  Proof.
    intros ds f H ND. unfold to_dictionary_style_dataset in H.
    destruct (first_os (ds_dis ds)) as [o0|]; [|discriminate]. cbn [bind] in H. destruct (os_is_dict o0).
    - match type of H with bind ?m _ = _ => destruct m as [[]|] eqn:EM; [|discriminate] end. cbn [bind] in H.
      assert (f = ds) by congruence. subst f. split; [reflexivity|]. split; [|left; reflexivity].
      unfold dict_style. apply Forall_forall. intros dv Hin. apply (proj1 (forM_Ok _ _ _)) with (a := dv) in EM; [|exact Hin].
      unfold get_os in EM. destruct (dv_os dv) as [o|] eqn:Eo; [|discriminate]. destruct o as [b l|d|]; try discriminate.
      exists d. split; [reflexivity|]. apply (ND dv d Hin Eo).
    - match type of H with bind ?m _ = _ => destruct m as [dvs'|] eqn:EM; [|discriminate] end. cbn [bind] in H.
      assert (f = prepare_new_dataset ds no_kw (ds_refs ds) dvs') by congruence. subst f. cbn [prepare_new_dataset ds_refs ds_dis].
      assert (F : Forall2 converted (ds_dis ds) dvs').
      { apply mapM_Ok in EM. clear - EM. induction EM as [|dv dv' l l' Hc _ IH]; constructor; [|exact IH].
        unfold get_os in Hc. destruct (dv_os dv) as [o|] eqn:Eo; [|discriminate]. cbn [bind] in Hc. destruct o as [b lv|d|]; try discriminate.
        match type of Hc with bind ?m _ = _ => destruct m as [name|] eqn:En; [|discriminate] end. cbn [bind] in Hc.
        match type of Hc with Ok ?x = _ => assert (Hd : x = dv') by congruence end. clear Hc. subst dv'.
        split; [repeat split|]. split; [reflexivity|]. split; [reflexivity|]. exists b, lv. eexists. exists name.
        split; [exact Eo|]. split; [reflexivity|]. apply named_dict. }
      split; [reflexivity|]. split; [|right; exact F]. clear - F. unfold dict_style. induction F as [|dv dv' l l' Hc _ IH]; constructor; [|exact IH].
      destruct Hc as (_ & _ & _ & b & lv & d & name & _ & E & (_ & ND & _)). exists d. auto.
  Qed.

  (** ** What happens to the votes of the first dataset *)
  Lemma d1_after_same : forall ms d1, NoDup (map fst d1) -> (forall v2, In v2 ms -> NoDup (map fst (dict_of_dv v2))) ->
    (forall v2, In v2 ms -> ~ appends_d d1 (dict_of_dv v2)) -> d1_after d1 ms = d1.
  Proof.
    unfold d1_after. induction ms as [|v2 ms IH]; intros d1 N1 N2 H; [reflexivity|]. cbn [fold_left].
    destruct (combine_os_spec d1 (dict_of_dv v2) N1 (N2 v2 (or_introl eq_refl))) as (_ & _ & _ & F).
    rewrite (F (not_appends_d _ _ (H v2 (or_introl eq_refl)))). apply IH; [exact N1| |]; intros v Hv; [apply N2|apply H]; right; exact Hv.
  Qed.
  Lemma d1_after_keys : forall ms d1, NoDup (map fst d1) -> (forall v2, In v2 ms -> NoDup (map fst (dict_of_dv v2))) ->
    map fst (d1_after d1 ms) = map fst d1.
  Proof.
    unfold d1_after. induction ms as [|v2 ms IH]; intros d1 N1 N2; [reflexivity|]. cbn [fold_left].
    destruct (combine_os_spec d1 (dict_of_dv v2) N1 (N2 v2 (or_introl eq_refl))) as (_ & K & _).
    rewrite IH; [exact K|rewrite K; exact N1|intros v Hv; apply N2; right; exact Hv].
  Qed.
  Lemma d1_after_grows : forall ms d1 k l, NoDup (map fst d1) -> (forall v2, In v2 ms -> NoDup (map fst (dict_of_dv v2))) ->
    sget d1 k = Some (PSeq true l) ->
    exists ext, sget (d1_after d1 ms) k = Some (PSeq true (l ++ ext)) /\
      forall v2 w, In v2 ms -> sget (dict_of_dv v2) k = Some w -> is_pylist w = false -> ext <> [].
  Proof.
    unfold d1_after. induction ms as [|v2 ms IH]; intros d1 k l N1 N2 Hk.
    - exists []. rewrite app_nil_r. split; [exact Hk|intros ? ? []].
    - cbn [fold_left]. destruct (combine_os_spec d1 (dict_of_dv v2) N1 (N2 v2 (or_introl eq_refl))) as (_ & K & G & _).
      specialize (G k). rewrite Hk in G.
      assert (X : exists e0, sget (fst (combine_os d1 (dict_of_dv v2))) k = Some (PSeq true (l ++ e0)) /\
        forall w, sget (dict_of_dv v2) k = Some w -> is_pylist w = false -> e0 <> []).
      { destruct (sget (dict_of_dv v2) k) as [w|].
        - destruct (is_pylist w) eqn:Ew.
          + exists []. rewrite app_nil_r. unfold appended in G. rewrite Ew in G. cbn in G. split; [exact G|]. intros w' [= <-]. congruence.
          + exists (as_list w). unfold appended in G. rewrite Ew in G. cbn in G. split; [exact G|]. intros w' [= <-] _.
            destruct w as [x|[|] lw|x]; cbn; try discriminate.
        - exists []. rewrite app_nil_r. split; [exact G|discriminate]. }
      destruct X as (e0 & X1 & X2).
      destruct (IH (fst (combine_os d1 (dict_of_dv v2))) k (l ++ e0)) as (ext & Y1 & Y2).
      { rewrite K. exact N1. } { intros v Hv; apply N2; right; exact Hv. } { exact X1. }
      exists (e0 ++ ext). rewrite app_assoc. split; [exact Y1|].
      intros v w [<-|Hin] Hw Hl He; apply app_eq_nil in He as [He1 He2]; [apply (X2 w Hw Hl He1)|apply (Y2 v w Hin Hw Hl He2)].
  Qed.
  Lemma appends_iff : forall first second v1 v2, dict_style first -> dict_style second -> In v1 first -> In v2 second ->
    (appends v1 v2 <-> appends_d (dict_of_dv v1) (dict_of_dv v2)).
  Proof.
    intros first second v1 v2 H1 H2 I1 I2. destruct (dict_style_In _ _ H1 I1) as (E1 & N1). destruct (dict_style_In _ _ H2 I2) as (E2 & N2). split.
    - intros (d1 & d2 & n & l & v & Ed1 & Ed2 & In1 & In2 & Hn).
      assert (d1 = dict_of_dv v1) by congruence. assert (d2 = dict_of_dv v2) by congruence. subst.
      exists n, (PSeq true l), v. split; [apply (In_dget String.eqb string_eqb_spec); assumption|].
      split; [apply (In_dget String.eqb string_eqb_spec); assumption|]. destruct v as [x|[|] lv|x]; try reflexivity. exfalso. apply (Hn lv). reflexivity.
    - intros (k & w1 & w2 & G1 & G2 & Ha). unfold appended in Ha. apply andb_true_iff in Ha as [Ha1 Ha2]. destruct w1 as [x|[|] l|x]; try discriminate.
      exists (dict_of_dv v1), (dict_of_dv v2), k, l, w2. repeat (split; [assumption|]).
      split; [apply (dget_In String.eqb string_eqb_spec); exact G1|]. split; [apply (dget_In String.eqb string_eqb_spec); exact G2|].
      intros l2 ->. discriminate.
  Qed.

  Lemma keys_vals_eq : forall V (d d' : list (string * V)), map fst d = map fst d' -> map snd d = map snd d' -> d = d'.
  Proof.
    induction d as [|[k v] d IH]; intros [|[k' v'] d'] H1 H2; try discriminate; [reflexivity|]. cbn in *.
    injection H1 as -> H1. injection H2 as -> H2. f_equal. apply IH; assumption.
  Qed.

  (** One video of the first dataset after the call. *)
  Lemma write_back_eq : forall (dv dv' : dv_t) d', (dv' = dv /\ dv_os dv = Some (ODict (dict_of_dv dv)) \/ converted dv dv') ->
    map fst d' = map fst (dict_of_dv dv') -> (write_back dv (with_os dv' (ODict d')) = dv <-> d' = dict_of_dv dv').
  Proof.
    intros dv dv' d' H HK. unfold write_back. cbn [with_os dv_os]. destruct H as [(-> & E)|(_ & _ & _ & b & l & d & name & E & E' & (NV & _))].
    - rewrite E. destruct dv as [c a p o g gs x]. cbn [with_os dv_cid dv_aid dv_path dv_gt dv_gtstd dv_extra] in *. cbn in E.
      unfold dict_of_dv in *. cbn [dv_os] in *.
      destruct o as [[b l|d|]|]; try discriminate. split; intro H; [injection H as ->; reflexivity|subst; reflexivity].
    - rewrite E. unfold dict_of_dv in *. rewrite E' in *. destruct dv as [c a p o g gs x].
      cbn [with_os dv_cid dv_aid dv_path dv_gt dv_gtstd dv_extra dv_os] in *. subst o. split; intro H.
      + injection H as H. apply keys_vals_eq; [exact HK|]. rewrite NV. exact H.
      + subst d'. unfold dvals. rewrite NV. reflexivity.
  Qed.
End CombineProofs.

(** ** The theorems *)
Section Main.
  Context {T : Type} {N : Num T}.
  Notation dv_t := (dvideo T string).
  Notation ds_t := (dataset T string).

  Lemma pairs_In : forall (l1 l2 : list dv_t) p, In p (same_path_pairs l1 l2) <->
    In (fst p) l1 /\ In (snd p) l2 /\ dv_path (fst p) = dv_path (snd p).
  Proof.
    intros l1 l2 [v1 v2]. unfold same_path_pairs. rewrite in_flat_map. cbn [fst snd]. split.
    - intros (x & Hx & H). apply in_map_iff in H as (y & E & H). injection E as -> ->. apply filter_In in H as [H E].
      apply String.eqb_eq in E. auto.
    - intros (H1 & H2 & E). exists v1. split; [exact H1|]. apply in_map_iff. exists v2. split; [reflexivity|]. apply filter_In.
      split; [exact H2|]. apply String.eqb_eq. exact E.
  Qed.

  Lemma combined_total : forall (ds1 ds2 f1 f2 : ds_t) kw, no_dup_keys (ds_dis ds1) -> no_dup_keys (ds_dis ds2) ->
    to_dictionary_style_dataset ds1 (ds_dis ds1) no_kw = Ok f1 -> to_dictionary_style_dataset ds2 (ds_dis ds2) no_kw = Ok f2 ->
    exists out, to_combined_overlap_dataset ds1 ds2 kw = Ok out.
  Proof.
    intros ds1 ds2 f1 f2 kw N1 N2 H1 H2. destruct (conversion_inv ds1 f1 H1 N1) as (_ & D1 & _). destruct (conversion_inv ds2 f2 H2 N2) as (_ & D2 & _).
    unfold to_combined_overlap_dataset. rewrite H1, H2. cbn [bind].
    destruct (outer_total (ds_refs f1) (ds_dis f2) (ds_dis f1) (Outer [] [] [] []) D2 D1) as (st & E & _). rewrite E. eexists. reflexivity.
  Qed.

  Lemma combined_spec : forall (ds1 ds2 f1 f2 out ds1' : ds_t) kw, no_dup_keys (ds_dis ds1) -> no_dup_keys (ds_dis ds2) ->
    to_dictionary_style_dataset ds1 (ds_dis ds1) no_kw = Ok f1 -> to_dictionary_style_dataset ds2 (ds_dis ds2) no_kw = Ok f2 ->
    list_votes (ds_dis f1) -> list_votes (ds_dis f2) ->
    (forall v1 v2, In (v1, v2) (same_path_pairs (ds_dis f1) (ds_dis f2)) -> appends v1 v2 ->
       filter (fun v => String.eqb (dv_path v1) (dv_path v)) (ds_dis f2) = [v2]) ->
    (forall dv, In dv (ds_dis ds1) -> exists r, In r (ds_refs ds1) /\ rv_cid r = dv_cid dv) ->
    to_combined_overlap_dataset ds1 ds2 kw = Ok (out, ds1') ->
    attributes_kept ds1 kw out /\
    Forall2 (fun p v => combined (fst p) (snd p) v) (same_path_pairs (ds_dis f1) (ds_dis f2)) (ds_dis out) /\
    (forall i j p q v w, nth_error (same_path_pairs (ds_dis f1) (ds_dis f2)) i = Some p -> nth_error (same_path_pairs (ds_dis f1) (ds_dis f2)) j = Some q ->
       nth_error (ds_dis out) i = Some v -> nth_error (ds_dis out) j = Some w ->
       (dv_cid v = dv_cid w <-> dv_cid (fst p) = dv_cid (fst q))) /\
    map rv_cid (ds_refs out) = map Z.of_nat (seq 0 (length (ds_refs out))) /\
    (forall i p v, nth_error (same_path_pairs (ds_dis f1) (ds_dis f2)) i = Some p -> nth_error (ds_dis out) i = Some v ->
       exists r r1, In r (ds_refs out) /\ rv_cid r = dv_cid v /\ find (fun r => Z.eqb (rv_cid r) (dv_cid (fst p))) (ds_refs ds1) = Some r1 /\
         rv_path r = rv_path r1 /\ rv_extra r = rv_extra r1) /\
    (forall r, In r (ds_refs out) -> exists v, In v (ds_dis out) /\ dv_cid v = rv_cid r).
  Proof.
    intros ds1 ds2 f1 f2 out ds1' kw N1 N2 H1 H2 L1 L2 Hs Href H.
    destruct (conversion_inv ds1 f1 H1 N1) as (R1 & D1 & C1). destruct (conversion_inv ds2 f2 H2 N2) as (_ & D2 & _).
    unfold to_combined_overlap_dataset in H. rewrite H1, H2 in H. cbn [bind] in H.
    match type of H with bind ?m _ = _ => destruct m as [st|] eqn:ES; [|discriminate] end. cbn [bind] in H.
    assert (EO : out = prepare_new_dataset ds1 kw (out_refs st) (out_dis st)) by congruence. subst out. clear H.
    cbn [prepare_new_dataset ds_dis ds_refs]. split; [apply attributes_prepared|].
    assert (Href1 : forall dv, In dv (ds_dis f1) -> exists r, In r (ds_refs f1) /\ rv_cid r = dv_cid dv).
    { rewrite R1. destruct C1 as [->|C1]; [exact Href|]. intros dv Hin. apply In_nth_error in Hin as (i & Hi).
      assert (X : exists dv0, nth_error (ds_dis ds1) i = Some dv0 /\ converted dv0 dv).
      { clear - C1 Hi. revert i Hi. induction C1 as [|x y l l' Hc _ IH]; intros [|i] Hi; try discriminate.
        - cbn in Hi. injection Hi as <-. exists x. split; [reflexivity|exact Hc].
        - apply (IH i Hi). }
      destruct X as (dv0 & Hd & ((-> & _) & _)). apply Href. eapply nth_error_In. exact Hd. }
    assert (SAFE : forall v1, In v1 (ds_dis f1) -> safe (ds_dis f2) v1).
    { intros v1 Hv1. unfold safe.
      assert (DEC : (exists v2, In v2 (matches v1 (ds_dis f2)) /\ appends v1 v2) \/ (forall v2, In v2 (matches v1 (ds_dis f2)) -> ~ appends v1 v2)).
      { assert (Dec1 : forall v2, In v2 (ds_dis f2) -> appends v1 v2 \/ ~ appends v1 v2).
        { intros v2 Hv2. rewrite (appends_iff _ _ v1 v2 D1 D2 Hv1 Hv2).
          destruct (existsb (fun kv => match dget String.eqb (dict_of_dv v1) (fst kv), dget String.eqb (dict_of_dv v2) (fst kv) with
            | Some a, Some b => appended a b | _, _ => false end) (dict_of_dv v1)) eqn:EX.
          - left. apply existsb_exists in EX as ([k v] & _ & Hk). cbn [fst] in Hk.
            destruct (dget String.eqb (dict_of_dv v1) k) as [a|] eqn:Ea; [|discriminate]. destruct (dget String.eqb (dict_of_dv v2) k) as [b|] eqn:Eb; [|discriminate].
            exists k, a, b. auto.
          - right. intros (k & a & b & Ea & Eb & Hab).
            assert (XX := dget_In String.eqb string_eqb_spec _ _ _ Ea).
            assert (existsb (fun kv => match dget String.eqb (dict_of_dv v1) (fst kv), dget String.eqb (dict_of_dv v2) (fst kv) with
              | Some a, Some b => appended a b | _, _ => false end) (dict_of_dv v1) = true); [|congruence].
            apply existsb_exists. exists (k, a). split; [exact XX|]. cbn [fst]. rewrite Ea, Eb. exact Hab. }
        assert (Dec2 : forall l, (forall v2, In v2 l -> In v2 (ds_dis f2)) -> (exists v2, In v2 l /\ appends v1 v2) \/ (forall v2, In v2 l -> ~ appends v1 v2)).
        { induction l as [|x l IH]; intro Hl; [right; intros v2 []|]. destruct (Dec1 x (Hl x (or_introl eq_refl))) as [Hx|Hx].
          - left. exists x. split; [left; reflexivity|exact Hx].
          - destruct (IH (fun v Hv => Hl v (or_intror Hv))) as [(v2 & Hv & Ha)|Hn].
            + left. exists v2. split; [right; exact Hv|exact Ha].
            + right. intros v2 [<-|Hv]; [exact Hx|apply Hn; exact Hv]. }
        apply Dec2. intros v2 Hv. apply filter_In in Hv. apply Hv. }
      destruct DEC as [(v2 & Hm & Ha)|Hn].
      - left. assert (Hm' := Hm). apply filter_In in Hm' as [Hm1 Hm2]. apply String.eqb_eq in Hm2.
        unfold matches. rewrite (Hs v1 v2); [cbn; lia| |exact Ha]. apply pairs_In. cbn [fst snd]. auto.
      - right. intros v2 Hm Ha. apply (Hn v2 Hm). apply filter_In in Hm as [Hm1 _]. apply (appends_iff _ _ v1 v2 D1 D2 Hv1 Hm1). exact Ha. }
    destruct (outer_spec (ds_refs f1) (ds_dis f2) (ds_dis f1) (Outer [] [] [] []) st D2 D1 SAFE) as (ext & dis & X1 & X2 & X3 & X4 & X5 & X6).
    { constructor. } { reflexivity. } { exact ES. }
    cbn [out_cids out_dis app] in X1, X4. rewrite X4, X3, X1 in *. clear X3 X4.
    assert (HC : forall c, In c ext -> exists r, In r (ds_refs f1) /\ rv_cid r = c).
    { intros c Hc. destruct (X6 c Hc) as (p & Hp & <-). apply Href1. apply pairs_In in Hp. apply Hp. }
    assert (NTH : forall i p v, nth_error (same_path_pairs (ds_dis f1) (ds_dis f2)) i = Some p -> nth_error dis i = Some v -> made ext p v).
    { clear - X5. induction X5 as [|p0 v0 ps vs H0 _ IH]; intros [|i] p v Hp Hv; try discriminate.
      - cbn in Hp, Hv. injection Hp as <-. injection Hv as <-. exact H0.
      - apply (IH i p v Hp Hv). }
    split; [|split; [|split; [|split]]].
    - assert (SUB : forall p, In p (same_path_pairs (ds_dis f1) (ds_dis f2)) -> In (fst p) (ds_dis f1) /\ In (snd p) (ds_dis f2)).
      { intros p Hp. apply pairs_In in Hp. tauto. }
      clear - X5 SUB L1 L2 D1 D2. induction X5 as [|p v ps vs H0 _ IH]; constructor.
      + destruct (SUB p (or_introl eq_refl)) as [S1 S2]. apply (made_combined ext (ds_dis f1) (ds_dis f2)); assumption.
      + apply IH. intros q Hq. apply SUB. right; exact Hq.
    - intros i j p q v w Hp Hq Hv Hw. destruct (NTH i p v Hp Hv) as (_ & _ & _ & _ & _ & _ & I1 & E1).
      destruct (NTH j q w Hq Hw) as (_ & _ & _ & _ & _ & _ & I2 & E2). rewrite E1, E2. split.
      + intro E. apply Nat2Z.inj in E. assert (Y1 := index_of_nth _ _ I1). assert (Y2 := index_of_nth _ _ I2). rewrite E in Y1. congruence.
      + intros ->. reflexivity.
    - destruct (refs_of_ids (ds_refs f1) ext HC) as (Y1 & Y2). rewrite Y1, Y2. reflexivity.
    - intros i p v Hp Hv. destruct (NTH i p v Hp Hv) as (_ & _ & _ & _ & _ & _ & I1 & E1).
      destruct (refs_of_In (ds_refs f1) ext (dv_cid (fst p)) I1 (HC _ I1)) as (r1 & F1 & Hr). rewrite R1 in F1.
      eexists. exists r1. split; [exact Hr|]. cbn [rv_cid rv_path rv_extra]. split; [symmetry; exact E1|]. split; [exact F1|split; reflexivity].
    - intros r Hr. assert (Hid := in_map rv_cid _ _ Hr). rewrite (proj1 (refs_of_ids (ds_refs f1) ext HC)) in Hid.
      apply in_map_iff in Hid as (n & En & Hn). apply in_seq in Hn.
      destruct (nth_error ext n) as [c|] eqn:Ec; [|apply nth_error_None in Ec; lia].
      destruct (X6 c (nth_error_In _ _ Ec)) as (p & Hp & Epc). apply In_nth_error in Hp as (i & Hi).
      destruct (nth_error dis i) as [v|] eqn:Ev.
      + exists v. split; [eapply nth_error_In; exact Ev|]. destruct (NTH i p v Hi Ev) as (_ & _ & _ & _ & _ & _ & I1 & E1).
        rewrite E1, <- En. f_equal. rewrite Epc in I1 |- *. assert (Y := index_of_nth _ _ I1).
        apply (proj1 (NoDup_nth_error ext) X2); [apply nth_error_Some; congruence|congruence].
      + apply nth_error_None in Ev. assert (i < length (same_path_pairs (ds_dis f1) (ds_dis f2))) by (apply nth_error_Some; congruence).
        apply Forall2_len in X5. lia.
  Qed.

  (** C08: the first dataset is left as it was iff no vote is appended. *)
  Lemma combined_unchanged_iff : forall (ds1 ds2 f1 f2 out ds1' : ds_t) kw, no_dup_keys (ds_dis ds1) -> no_dup_keys (ds_dis ds2) ->
    to_dictionary_style_dataset ds1 (ds_dis ds1) no_kw = Ok f1 -> to_dictionary_style_dataset ds2 (ds_dis ds2) no_kw = Ok f2 ->
    to_combined_overlap_dataset ds1 ds2 kw = Ok (out, ds1') ->
    (ds1' = ds1 <-> forall v1 v2, In (v1, v2) (same_path_pairs (ds_dis f1) (ds_dis f2)) -> ~ appends v1 v2).
  Proof.
    intros ds1 ds2 f1 f2 out ds1' kw N1 N2 H1 H2 H.
    destruct (conversion_inv ds1 f1 H1 N1) as (R1 & D1 & C1). destruct (conversion_inv ds2 f2 H2 N2) as (_ & D2 & _).
    unfold to_combined_overlap_dataset in H. rewrite H1, H2 in H. cbn [bind] in H.
    destruct (outer_total (ds_refs f1) (ds_dis f2) (ds_dis f1) (Outer [] [] [] []) D2 D1) as (st & ES & EF). rewrite ES in H. cbn [bind] in H.
    cbn [out_first app] in EF.
    assert (ED : ds1' = Dataset (ds_refs ds1) (map (fun p => write_back (fst p) (snd p)) (combine (ds_dis ds1) (out_first st)))
                (ds_name ds1) (ds_ref_score ds1) (ds_attrs ds1)) by congruence. rewrite ED, EF. clear H ED EF ES.
    assert (C : Forall2 (fun dv dv' => dv' = dv /\ dv_os dv = Some (ODict (dict_of_dv dv)) \/ converted dv dv') (ds_dis ds1) (ds_dis f1)).
    { destruct C1 as [->|C1].
      - clear - D1. assert (G : forall dv, In dv (ds_dis ds1) -> dv_os dv = Some (ODict (dict_of_dv dv))) by (intros; apply (dict_style_In _ _ D1 H)).
        clear D1. induction (ds_dis ds1) as [|dv l IH]; constructor; [left; split; [reflexivity|apply G; left; reflexivity]|apply IH; intros; apply G; right; assumption].
      - clear - C1. induction C1; constructor; auto. }
    set (g := fun v1 => with_os v1 (ODict (d1_after (dict_of_dv v1) (matches v1 (ds_dis f2))))).
    transitivity (Forall (fun dv' => d1_after (dict_of_dv dv') (matches dv' (ds_dis f2)) = dict_of_dv dv') (ds_dis f1)).
    - transitivity (map (fun p => write_back (fst p) (snd p)) (combine (ds_dis ds1) (map g (ds_dis f1))) = ds_dis ds1).
      { split; intro E; [apply (f_equal (@ds_dis T string)) in E; exact E|]. rewrite E. destruct ds1; reflexivity. }
      assert (K : forall dv', In dv' (ds_dis f1) -> map fst (d1_after (dict_of_dv dv') (matches dv' (ds_dis f2))) = map fst (dict_of_dv dv')).
      { intros dv' Hin. apply d1_after_keys; [apply (dict_style_In _ _ D1 Hin)|intros v2 Hv; eapply matches_dict; eassumption]. }
      clear - C K. induction C as [|dv dv' l l' H0 _ IH]; [split; constructor|]. cbn [map combine fst snd].
      assert (W := write_back_eq dv dv' _ H0 (K dv' (or_introl eq_refl))). split.
      + intro E. injection E as E1 E2. constructor; [apply W; exact E1|apply IH; [intros; apply K; right; assumption|exact E2]].
      + intro F. inversion F; subst. f_equal; [apply W; assumption|apply IH; [intros; apply K; right; assumption|assumption]].
    - rewrite Forall_forall. split.
      + intros F v1 v2 Hp Ha. apply pairs_In in Hp as (I1 & I2 & Ep). cbn [fst snd] in *.
        specialize (F v1 I1). assert (M : In v2 (matches v1 (ds_dis f2))) by (apply filter_In; split; [exact I2|apply String.eqb_eq; exact Ep]).
        apply (appends_iff _ _ v1 v2 D1 D2 I1 I2) in Ha. destruct Ha as (k & w1 & w2 & G1 & G2 & Ha).
        unfold appended in Ha. apply andb_true_iff in Ha as [Ha1 Ha2]. destruct w1 as [x|[|] l|x]; try discriminate. apply negb_true_iff in Ha2.
        destruct (d1_after_grows (matches v1 (ds_dis f2)) (dict_of_dv v1) k l) as (ext & E & Hext).
        { apply (dict_style_In _ _ D1 I1). } { intros v Hv; eapply matches_dict; eassumption. } { exact G1. }
        rewrite F, G1 in E. injection E as E. apply (Hext v2 w2 M G2 Ha2).
        apply (app_inv_head l). rewrite <- E, app_nil_r. reflexivity.
      + intros H dv' Hin. apply d1_after_same; [apply (dict_style_In _ _ D1 Hin)|intros v Hv; eapply matches_dict; eassumption|].
        intros v2 Hv Ha. assert (Hv' := Hv). apply filter_In in Hv' as [I2 Ep]. apply String.eqb_eq in Ep. apply (H dv' v2).
        * apply pairs_In. auto.
        * apply (appends_iff _ _ dv' v2 D1 D2 Hin I2). exact Ha.
  Qed.
End Main.
