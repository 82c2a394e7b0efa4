(** Proofs about the paired comparison conversion (PcDataset.v). *)
From Coq Require Import String.
From Coq Require Import List ZArith Bool Arith Reals Lia Lra Permutation Sorted.
From Verif Require Import PyBase Num ExtReal NumPy Dataset PcDataset BaseProofs ExtRealProofs SpecDataset SpecConv SpecPc DatasetProofs StepsProofs ConvProofs.
Import ListNotations.
Local Open Scope list_scope.

(** ** Loops *)
Lemma foldM_app : forall A S (f : S -> A -> res S) l l' s, foldM f (l ++ l') s = bind (foldM f l s) (foldM f l').
Proof. intros A S f l; induction l as [|a l IH]; intros l' s; simpl; [reflexivity|]. destruct (f s a); simpl; [apply IH|reflexivity]. Qed.

Lemma foldM_map : forall A B S (f : S -> B -> res S) (h : A -> B) l s, foldM f (map h l) s = foldM (fun s a => f s (h a)) l s.
Proof. intros A B S f h l; induction l as [|a l IH]; intros s; simpl; [reflexivity|]. destruct (f s (h a)); simpl; [apply IH|reflexivity]. Qed.

Lemma foldM_concat : forall A B S (f : S -> B -> res S) (h : A -> list B) l s,
  foldM f (flat_map h l) s = foldM (fun s a => foldM f (h a) s) l s.
Proof.
  intros A B S f h l; induction l as [|a l IH]; intros s; simpl; [reflexivity|].
  rewrite foldM_app. destruct (foldM f (h a) s); simpl; [apply IH|reflexivity].
Qed.

Lemma foldM_ext_in : forall A S (f f' : S -> A -> res S) l s, (forall s a, In a l -> f s a = f' s a) -> foldM f l s = foldM f' l s.
Proof.
  intros A S f f' l; induction l as [|a l IH]; intros s H; simpl; [reflexivity|].
  rewrite H by (left; reflexivity). destruct (f' s a); simpl; [apply IH; intros; apply H; right; assumption|reflexivity].
Qed.

(** The k-th element of a threaded loop. *)
Lemma mapS_nth : forall A B (f : A -> nat -> res (B * nat)) l n rs n', mapS f l n = Ok (rs, n') ->
  length rs = length l /\
  forall k a, nth_error l k = Some a -> exists n0 r n1, nth_error rs k = Some r /\ f a n0 = Ok (r, n1).
Proof.
  intros A B f l; induction l as [|a l IH]; intros n rs n' H; cbn [mapS] in H.
  - apply Ok_inj in H. assert (rs = []) by congruence. subst rs. split; [reflexivity|]. intros [|k] b; discriminate.
  - destruct (f a n) as [r|] eqn:E1; cbn [bind] in H; [|discriminate].
    destruct (mapS f l (snd r)) as [r'|] eqn:E2; cbn [bind] in H; [|discriminate].
    apply Ok_inj in H. destruct r' as [rs' n2]. cbn [fst snd] in H. destruct (IH _ _ _ E2) as [L K].
    assert (rs = fst r :: rs') by congruence. subst rs. split; [simpl; congruence|].
    intros [|k] b Hk; cbn [nth_error] in *.
    + replace b with a by congruence. exists n, (fst r), (snd r). split; [reflexivity|]. rewrite E1. destruct r; reflexivity.
    + apply K, Hk.
Qed.

Lemma mapS_nth_inv : forall A B (f : A -> nat -> res (B * nat)) l n rs n', mapS f l n = Ok (rs, n') ->
  forall k r, nth_error rs k = Some r -> exists a n0 n1, nth_error l k = Some a /\ f a n0 = Ok (r, n1).
Proof.
  intros A B f l n rs n' H k r Hr. destruct (mapS_nth _ _ _ _ _ _ _ H) as [L K].
  assert (Hk : k < length rs) by (apply nth_error_Some; congruence). rewrite L in Hk.
  destruct (nth_error l k) as [a|] eqn:Ha; [|apply nth_error_None in Ha; lia].
  destruct (K k a Ha) as (n0 & r' & n1 & H1 & H2). exists a, n0, n1. split; [reflexivity|]. congruence.
Qed.

Lemma mapS_total : forall A B (f : A -> nat -> res (B * nat)) l n, (forall a n, In a l -> exists r, f a n = Ok r) ->
  exists r, mapS f l n = Ok r.
Proof.
  intros A B f l; induction l as [|a l IH]; intros n H; cbn [mapS]; [eexists; reflexivity|].
  destruct (H a n (or_introl eq_refl)) as [r ->]. cbn [bind]. destruct (IH (snd r)) as [r' ->]; [intros; apply H; right; assumption|].
  eexists; reflexivity.
Qed.

Lemma mapS_bound : forall A B (f : A -> nat -> res (B * nat)) c l n rs n', (forall a n r n', In a l -> f a n = Ok (r, n') -> n' <= n + c) ->
  mapS f l n = Ok (rs, n') -> n' <= n + c * length l.
Proof.
  intros A B f c l; induction l as [|a l IH]; intros n rs n' Hc H; cbn [mapS] in H.
  - apply Ok_inj in H. assert (n = n') by congruence. lia.
  - destruct (f a n) as [r|] eqn:E1; cbn [bind] in H; [|discriminate].
    destruct (mapS f l (snd r)) as [r'|] eqn:E2; cbn [bind] in H; [|discriminate].
    apply Ok_inj in H. destruct r as [r m], r' as [rs' n2]. cbn [fst snd] in *.
    pose proof (Hc a n r m (or_introl eq_refl) E1). pose proof (IH _ _ _ (fun a0 n0 r0 n0' h => Hc a0 n0 r0 n0' (or_intror h)) E2).
    assert (n2 = n') by congruence. simpl. lia.
Qed.

(** ** Pairs of list elements *)
Lemma upper_In : forall A (l before : list A) x y,
  In (x, y) (upper before l) <-> exists l1 l2, l = l1 ++ x :: l2 /\ In y (before ++ l1).
Proof.
  intros A l; induction l as [|z l IH]; intros before x y; cbn [upper].
  - split; [intros []|]. intros (l1 & l2 & H & _). destruct l1; discriminate.
  - rewrite in_app_iff, in_map_iff, IH. split.
    + intros [(y' & H & Hy)|(l1 & l2 & H & Hy)].
      * injection H as <- <-. exists [], l. split; [reflexivity|]. rewrite app_nil_r. exact Hy.
      * exists (z :: l1), l2. subst l. split; [reflexivity|]. rewrite <- app_assoc in Hy. exact Hy.
    + intros (l1 & l2 & H & Hy). destruct l1 as [|z' l1]; cbn [app] in H.
      * injection H as <- <-. left. exists y. rewrite app_nil_r in Hy. split; [reflexivity|exact Hy].
      * injection H as <- H. right. exists l1, l2. split; [exact H|]. rewrite <- app_assoc. exact Hy.
Qed.

Lemma upper_enumerate : forall A (l : list A) i j x y,
  In ((i, x), (j, y)) (upper [] (enumerate l)) <-> nth_error l i = Some x /\ nth_error l j = Some y /\ j < i.
Proof.
  intros A l i j x y. rewrite upper_In. cbn [app]. split.
  - intros (l1 & l2 & H & Hy). 
    assert (Hi : nth_error (enumerate l) (length l1) = Some (i, x)).
    { rewrite H, nth_error_app2, Nat.sub_diag by lia. reflexivity. }
    apply In_nth_error in Hy. destruct Hy as [k Hk].
    assert (Hk' : k < length l1) by (apply nth_error_Some; congruence).
    assert (Hj : nth_error (enumerate l) k = Some (j, y)) by (rewrite H, nth_error_app1 by lia; exact Hk).
    rewrite enumerate_nth in Hi, Hj.
    destruct (nth_error l (length l1)) as [x'|] eqn:Ex; [|discriminate]. destruct (nth_error l k) as [y'|] eqn:Ey; [|discriminate].
    cbn [option_map] in Hi, Hj. assert (i = length l1) by congruence. assert (j = k) by congruence. subst i j.
    repeat split; [congruence|congruence|lia].
  - intros (Hi & Hj & L).
    assert (Hi' : nth_error (enumerate l) i = Some (i, x)) by (rewrite enumerate_nth, Hi; reflexivity).
    assert (Hj' : nth_error (enumerate l) j = Some (j, y)) by (rewrite enumerate_nth, Hj; reflexivity).
    destruct (nth_error_split _ _ Hi') as (l1 & l2 & H & Ll). exists l1, l2. split; [exact H|].
    rewrite H, nth_error_app1 in Hj' by lia. eapply nth_error_In, Hj'.
Qed.

Lemma NoDup_upper : forall A (l before : list A), NoDup (before ++ l) -> NoDup (upper before l).
Proof.
  intros A l; induction l as [|z l IH]; intros before H; cbn [upper]; [constructor|].
  assert (Hz : ~ In z (before ++ l)) by (apply NoDup_remove_2 in H; exact H).
  assert (Hb : NoDup before) by (clear -H; induction before as [|b before IH]; [constructor|]; inversion H; subst; constructor; [rewrite in_app_iff in *; tauto|auto]).
  assert (E : NoDup ((before ++ [z]) ++ l)) by (rewrite <- app_assoc; exact H).
  specialize (IH _ E).
  assert (D : forall p, In p (upper (before ++ [z]) l) -> fst p <> z).
  { intros [x y] Hp. apply upper_In in Hp. destruct Hp as (l1 & l2 & -> & _). cbn [fst]. intros ->. apply Hz. rewrite !in_app_iff. simpl. tauto. }
  clear H E Hz. induction before as [|b before IHb]; cbn [map app]; [exact IH|].
  inversion Hb; subst. assert (G : forall bs, NoDup bs -> NoDup (map (fun y => (z, y)) bs ++ upper ((b :: before) ++ [z]) l)).
  { induction bs as [|c bs IHc]; intros Hc; cbn [map app]; [exact IH|]. inversion Hc; subst. constructor; [|auto].
    rewrite in_app_iff, in_map_iff. intros [(c' & Hc' & ?)|Hin]; [injection Hc' as ->; contradiction|]. apply (D _ Hin). reflexivity. }
  apply (G (b :: before)). exact Hb.
Qed.

(** ** The table of ratings *)
Section Table.
  Context {T : Type} {N : Num T}.
  Notation dv_t := (dvideo T string).
  (** (subject, asset_id, rating) *)
  Notation entry := (string * (Z * rating T))%type.

  Definition votes_of (dv : dv_t) : list entry :=
    match dv_os dv with Some (ODict d) => map (fun sv => (fst sv, (dv_aid dv, (snd sv, dv_cid dv)))) d | _ => [] end.
  Definition tstep (d : list (string * list (Z * rating T))) (e : entry) : res (list (string * list (Z * rating T))) :=
    let tbl := match dget String.eqb d (fst e) with Some t => t | None => [] end in
    do _ <- assert_ (negb (dmem Z.eqb tbl (fst (snd e))));
    Ok (dset String.eqb d (fst e) (dset Z.eqb tbl (fst (snd e)) (snd (snd e)))).

  Lemma subj_assets_flat : forall dvs, dict_style dvs -> subj_assets dvs = foldM tstep (flat_map votes_of dvs) [].
  Proof.
    intros dvs H. rewrite foldM_concat. unfold subj_assets. apply foldM_ext_in. intros d dv Hin.
    unfold dict_style in H. rewrite Forall_forall in H. destruct (H dv Hin) as (os & E & _).
    unfold votes_of, get_os. rewrite E. cbn [bind]. rewrite foldM_map. reflexivity.
  Qed.

  Definition mine (s : string) (L : list entry) : list (Z * rating T) := map snd (filter (fun e => String.eqb (fst e) s) L).
  Definition ekey (e : entry) : string * Z := (fst e, fst (snd e)).

  Lemma dset_fresh : forall V (d : list (Z * V)) k v, dmem Z.eqb d k = false -> dset Z.eqb d k v = d ++ [(k, v)].
  Proof.
    intros V d k v. unfold dmem. induction d as [|[k' v'] d IH]; cbn [dget dset app]; [reflexivity|].
    destruct (Z.eqb k k'); [discriminate|]. intros H. rewrite IH by exact H. reflexivity.
  Qed.

  Lemma mine_app : forall s L L', mine s (L ++ L') = mine s L ++ mine s L'.
  Proof. intros. unfold mine. rewrite filter_app, map_app. reflexivity. Qed.

  Lemma mine_In : forall s L a r, In (a, r) (mine s L) <-> In (s, (a, r)) L.
  Proof.
    intros s L a r. unfold mine. rewrite in_map_iff. split.
    - intros ([s' [a' r']] & E & H). cbn [snd] in E. apply filter_In in H. destruct H as [H1 H2]. cbn [fst] in H2.
      apply String.eqb_eq in H2. congruence.
    - intros H. exists (s, (a, r)). split; [reflexivity|]. apply filter_In. split; [exact H|]. apply String.eqb_refl.
  Qed.

  Lemma dmem_In : forall V (d : list (Z * V)) k, dmem Z.eqb d k = true <-> In k (map fst d).
  Proof.
    intros V d k. unfold dmem. pose proof (dget_None Z.eqb Z_eqb_spec d k) as H. destruct (dget Z.eqb d k).
    - split; [intros _|reflexivity]. destruct (in_dec Z.eq_dec k (map fst d)) as [?|n]; [assumption|]. apply H in n. discriminate.
    - split; [discriminate|]. intros Hin. exfalso. apply (proj1 H eq_refl). exact Hin.
  Qed.

  (** The table after processing L, for a table describing L0. *)
  Definition describes (d : list (string * list (Z * rating T))) (L : list entry) : Prop :=
    NoDup (map fst d) /\ (forall s, In s (map fst d) <-> In s (map fst L)) /\ (forall s t, dget String.eqb d s = Some t -> t = mine s L) /\ NoDup (map ekey L).

  Lemma describes_tbl : forall d L s, describes d L -> match dget String.eqb d s with Some t => t | None => [] end = mine s L.
  Proof.
    intros d L s (H1 & H2 & H3 & H4). destruct (dget String.eqb d s) as [t|] eqn:E; [apply H3, E|].
    apply (dget_None String.eqb string_eqb_spec) in E. rewrite H2 in E. clear - E. unfold mine.
    induction L as [|e L IH]; [reflexivity|]. cbn [filter]. destruct (String.eqb (fst e) s) eqn:X.
    - apply String.eqb_eq in X. exfalso. apply E. left. exact X.
    - apply IH. intros H. apply E. right. exact H.
  Qed.

  Lemma NoDup_snoc : forall A (l : list A) x, NoDup l -> ~ In x l -> NoDup (l ++ [x]).
  Proof.
    intros A l x H Hx. induction l as [|y l IH]; cbn [app]; [constructor; [intros []|constructor]|].
    inversion H; subst. constructor.
    - rewrite in_app_iff. simpl in *. intros [?|[?|[]]]; [contradiction|subst; tauto].
    - apply IH; [assumption|]. simpl in Hx. tauto.
  Qed.

  Lemma tstep_ok : forall d L e d', describes d L -> tstep d e = Ok d' -> describes d' (L ++ [e]).
  Proof.
    intros d L [s [a r]] d' D H. unfold tstep in H. cbn [fst snd] in H. rewrite (describes_tbl _ _ _ D) in H.
    destruct (dmem Z.eqb (mine s L) a) eqn:M; cbn [negb assert_ bind] in H; [discriminate|].
    apply Ok_inj in H. subst d'. rewrite (dset_fresh _ _ _ _ M). destruct D as (H1 & H2 & H3 & H4).
    split; [apply (dset_NoDup String.eqb string_eqb_spec); exact H1|]. split; [|split].
    - intros s'. rewrite (dset_keys_In String.eqb string_eqb_spec), map_app, in_app_iff, H2. simpl.
      split; [intros [?|?]|intros [?|[?|[]]]]; auto.
    - intros s' t. rewrite (dget_dset String.eqb string_eqb_spec). rewrite mine_app.
      assert (M1 : mine s' [(s, (a, r))] = if String.eqb s s' then [(a, r)] else []) by (unfold mine; cbn [filter fst]; destruct (String.eqb s s'); reflexivity).
      rewrite M1.
      destruct (String.eqb s' s) eqn:E.
      + apply String.eqb_eq in E. subst s'. intros H. rewrite String.eqb_refl. congruence.
      + intros H. assert (E' : String.eqb s s' = false) by (rewrite String.eqb_sym; exact E). rewrite E', app_nil_r. apply H3, H.
    - rewrite map_app. apply NoDup_snoc; [exact H4|]. intros Hin. apply in_map_iff in Hin. destruct Hin as ([s' [a' r']] & E & Hin).
      unfold ekey in E. cbn [fst snd] in E. injection E as -> ->. assert (dmem Z.eqb (mine s L) a = true); [|congruence].
      apply dmem_In. apply in_map_iff. exists (a, r'). split; [reflexivity|]. apply mine_In. exact Hin.
  Qed.

  Lemma table_ok : forall L L0 d d', describes d L0 -> foldM tstep L d = Ok d' -> describes d' (L0 ++ L).
  Proof.
    intros L; induction L as [|e L IH]; intros L0 d d' D H; cbn [foldM] in H.
    - apply Ok_inj in H. subst d'. rewrite app_nil_r. exact D.
    - destruct (tstep d e) as [d1|] eqn:E; cbn [bind] in H; [|discriminate].
      apply (tstep_ok _ _ _ _ D) in E. apply (IH _ _ _ E) in H. rewrite <- app_assoc in H. exact H.
  Qed.

  Lemma table_total : forall L L0 d, describes d L0 -> NoDup (map ekey (L0 ++ L)) -> exists d', foldM tstep L d = Ok d'.
  Proof.
    intros L; induction L as [|e L IH]; intros L0 d D ND; cbn [foldM]; [eexists; reflexivity|].
    assert (E : exists d1, tstep d e = Ok d1).
    { unfold tstep. destruct e as [s [a r]]. cbn [fst snd]. rewrite (describes_tbl _ _ _ D).
      destruct (dmem Z.eqb (mine s L0) a) eqn:M; cbn [negb assert_ bind]; [|eexists; reflexivity]. exfalso.
      apply dmem_In in M. apply in_map_iff in M. destruct M as ([a' r'] & Ea & M). cbn [fst] in Ea. subst a'. apply mine_In in M.
      rewrite map_app in ND. cbn [map] in ND. apply NoDup_remove_2 in ND. apply ND. apply in_app_iff. left.
      apply in_map_iff. exists (s, (a, r')). split; [reflexivity|exact M]. }
    destruct E as [d1 E]. rewrite E. cbn [bind]. eapply IH; [apply (tstep_ok _ _ _ _ D E)|]. rewrite <- app_assoc. exact ND.
  Qed.

  Lemma describes_nil : describes [] [].
  Proof. split; [constructor|]. split; [intros; tauto|]. split; [discriminate|constructor]. Qed.

  Lemma subj_assets_spec : forall dvs tbl, dict_style dvs -> subj_assets dvs = Ok tbl -> describes tbl (flat_map votes_of dvs).
  Proof. intros dvs tbl H E. rewrite (subj_assets_flat _ H) in E. apply (table_ok _ [] _ _ describes_nil E). Qed.

  Lemma votes_of_In : forall dvs s a v c, dict_style dvs ->
    (In (s, (a, (v, c))) (flat_map votes_of dvs) <-> exists dv, In dv dvs /\ dv_aid dv = a /\ dv_cid dv = c /\ vote_of dv s v).
  Proof.
    intros dvs s a v c H. rewrite in_flat_map. unfold dict_style in H. rewrite Forall_forall in H. split.
    - intros (dv & Hin & Hv). exists dv. unfold votes_of in Hv. destruct (dv_os dv) as [[| d |]|] eqn:E; try contradiction.
      apply in_map_iff in Hv. destruct Hv as ([s' v'] & Ev & Hv). cbn [fst snd] in Ev. injection Ev as -> <- -> <-.
      repeat split; [exact Hin|]. econstructor; eassumption.
    - intros (dv & Hin & <- & <- & Hv). exists dv. split; [exact Hin|]. destruct (H dv Hin) as (d & E & _).
      inversion Hv as [d' s' v' E' Hd|b l i v' E' Hd]; [|congruence]. subst. unfold votes_of. rewrite E. replace d' with d in Hd by congruence.
      apply in_map_iff. exists (s, v). split; [reflexivity|exact Hd].
  Qed.

  Lemma subj_assets_total : forall dvs : list dv_t, dict_style dvs -> NoDup (map dv_aid dvs) -> exists tbl, subj_assets dvs = Ok tbl.
  Proof.
    intros dvs H ND. rewrite (subj_assets_flat _ H). eapply table_total; [apply describes_nil|]. cbn [app].
    clear - H ND. induction dvs as [|dv dvs IH]; cbn [flat_map]; [constructor|].
    inversion H as [|? ? (d & E & Nd) H2]; inversion ND as [|? ? N1 N2]; subst. rewrite map_app.
    assert (A : NoDup (map ekey (votes_of dv))).
    { unfold votes_of. rewrite E. rewrite map_map. unfold ekey. cbn [fst snd]. clear - Nd. induction d as [|[s v] d IH]; cbn [map]; [constructor|].
      inversion Nd; subst. constructor; [|auto]. rewrite in_map_iff. intros ([s' v'] & X & Hin). cbn [fst] in X. injection X as ->.
      apply H1. apply in_map_iff. exists (s, v'). split; [reflexivity|exact Hin]. }
    assert (B : forall k, In k (map ekey (votes_of dv)) -> ~ In k (map ekey (flat_map votes_of dvs))).
    { intros k H1 H3. apply in_map_iff in H1. destruct H1 as ([s1 [a1 [v1 c1]]] & X1 & Y1). apply in_map_iff in H3. destruct H3 as ([s3 [a3 [v3 c3]]] & X3 & Y3).
      apply votes_of_In in Y3; [|exact H2]. destruct Y3 as (dv' & I & <- & _ & _).
      unfold votes_of in Y1. rewrite E in Y1. apply in_map_iff in Y1. destruct Y1 as ([s' v'] & Z1 & _). cbn [fst snd] in Z1.
      unfold ekey in *. cbn [fst snd] in *. apply N1. apply in_map_iff. exists dv'. split; [congruence|exact I]. }
    specialize (IH H2 N2). revert A B. generalize (map ekey (votes_of dv)). intros l A B. induction l as [|k l IHl]; cbn [app]; [exact IH|].
    inversion A; subst. constructor; [|apply IHl; [assumption|intros; apply B; right; assumption]].
    rewrite in_app_iff. intros [?|?]; [contradiction|]. apply (B k); [left; reflexivity|assumption].
  Qed.
End Table.

(** ** The pairs *)
Section Pairs.
  Context {T : Type} {N : Num T}.
  Notation dv_t := (dvideo T string).

  Definition sorted_entries (t : list (Z * rating T)) : list (Z * rating T) := isort (fun e e' => Z.leb (fst e) (fst e')) t.

  Lemma sorted_entries_perm : forall t, Permutation t (sorted_entries t).
  Proof. intros. apply isort_Permutation. Qed.

  Lemma SS_nth : forall A (R : A -> A -> Prop) l, StronglySorted R l -> forall i j x y, nth_error l i = Some x -> nth_error l j = Some y -> i < j -> R x y.
  Proof.
    intros A R l S; induction S as [|a l S IH F]; intros i j x y Hi Hj L; [destruct i; discriminate|].
    destruct j as [|j]; [lia|]. cbn [nth_error] in Hj. destruct i as [|i]; cbn [nth_error] in Hi.
    - rewrite Forall_forall in F. replace x with a by congruence. apply F. eapply nth_error_In, Hj.
    - eapply IH; [exact Hi|exact Hj|lia].
  Qed.

  Lemma sorted_entries_lt : forall t, NoDup (map fst t) -> forall i j a b x y,
    nth_error (sorted_entries t) i = Some (a, x) -> nth_error (sorted_entries t) j = Some (b, y) -> (j < i <-> (b < a)%Z).
  Proof.
    intros t ND i j a b x y Hi Hj.
    assert (S : StronglySorted (fun e e' => Z.leb (fst e) (fst e') = true) (sorted_entries t)).
    { apply isort_Sorted; intros; rewrite ?Z.leb_le in *; lia. }
    assert (ND' : NoDup (map fst (sorted_entries t))) by (eapply Permutation_NoDup; [apply Permutation_map, sorted_entries_perm|exact ND]).
    assert (D : i <> j -> a <> b).
    { intros X ->. apply X. eapply (proj1 (NoDup_nth_error _) ND').
      - rewrite map_length. apply nth_error_Some. congruence.
      - rewrite !nth_error_map, Hi, Hj. reflexivity. }
    split; intros L.
    - pose proof (SS_nth _ _ _ S _ _ _ _ Hj Hi L) as G. cbn [fst] in G. apply Z.leb_le in G. assert (a <> b) by (apply D; lia). lia.
    - destruct (lt_eq_lt_dec i j) as [[G|G]|G]; [|subst j; assert (a = b) by congruence; lia|exact G].
      pose proof (SS_nth _ _ _ S _ _ _ _ Hi Hj G) as G'. cbn [fst] in G'. apply Z.leb_le in G'. lia.
  Qed.

  Lemma sorted_entries_rank : forall t, NoDup (map fst t) -> forall i a x, nth_error (sorted_entries t) i = Some (a, x) ->
    exists l, NoDup l /\ length l = i /\ forall b, In b l <-> (b < a)%Z /\ In b (map fst t).
  Proof.
    intros t ND i a x Hi. exists (map fst (firstn i (sorted_entries t))).
    assert (ND' : NoDup (map fst (sorted_entries t))) by (eapply Permutation_NoDup; [apply Permutation_map, sorted_entries_perm|exact ND]).
    assert (Li : i < length (sorted_entries t)) by (apply nth_error_Some; congruence).
    split; [|split].
    - rewrite <- (firstn_skipn i (sorted_entries t)), map_app in ND'. revert ND'. generalize (map fst (firstn i (sorted_entries t))). intros l.
      induction l as [|z l IH]; intros H; [constructor|]. cbn [app] in H. inversion H; subst. constructor; [rewrite in_app_iff in *; tauto|auto].
    - rewrite map_length, firstn_length. lia.
    - intros b. rewrite in_map_iff. split.
      + intros ([b' y] & E & Hin). cbn [fst] in E. subst b'. apply In_nth_error in Hin. destruct Hin as [j Hj].
        assert (Lj : j < i). { assert (j < length (firstn i (sorted_entries t))) by (apply nth_error_Some; congruence). rewrite firstn_length in H. lia. }
        assert (Hj' : nth_error (sorted_entries t) j = Some (b, y)).
        { rewrite <- (firstn_skipn i (sorted_entries t)), nth_error_app1; [exact Hj|]. rewrite firstn_length. lia. }
        split; [apply (sorted_entries_lt t ND i j a b x y Hi Hj'), Lj|]. apply in_map_iff. exists (b, y). split; [reflexivity|].
        eapply Permutation_in; [apply Permutation_sym, sorted_entries_perm|]. eapply nth_error_In, Hj'.
      + intros [L Hin]. apply in_map_iff in Hin. destruct Hin as ([b' y] & E & Hin). cbn [fst] in E. subst b'.
        apply (Permutation_in _ (sorted_entries_perm t)) in Hin. apply In_nth_error in Hin. destruct Hin as [j Hj].
        assert (Lj : j < i) by (apply (sorted_entries_lt t ND i j a b x y Hi Hj), L). exists (b, y). split; [reflexivity|].
        rewrite <- (firstn_skipn i (sorted_entries t)), nth_error_app1 in Hj by (rewrite firstn_length; lia). eapply nth_error_In, Hj.
  Qed.

  Definition kept (o : pcopts T) (p : pair T) : bool := String.eqb (the_type o) "within_subject" || Z.eqb (snd (pr_x p)) (snd (pr_y p)).

  Lemma subject_pairs_In : forall o s t p, In p (subject_pairs o (s, t)) <->
    pr_s p = s /\ nth_error (sorted_entries t) (pr_i p) = Some (pr_a p, pr_x p) /\
    nth_error (sorted_entries t) (pr_j p) = Some (pr_b p, pr_y p) /\ pr_j p < pr_i p /\ kept o p = true.
  Proof.
    intros o s t p. unfold subject_pairs. rewrite filter_In, in_map_iff. cbn [fst snd]. fold (sorted_entries t). split.
    - intros [([[i [a x]] [j [b y]]] & E & Hin) K]. apply upper_enumerate in Hin. subst p. cbn [pr_s pr_i pr_j pr_a pr_b pr_x pr_y].
      destruct Hin as (H1 & H2 & H3). repeat split; assumption.
    - intros (H1 & H2 & H3 & H4 & H5). split; [|exact H5]. exists ((pr_i p, (pr_a p, pr_x p)), (pr_j p, (pr_b p, pr_y p))). split.
      + destruct p. cbn in *. subst. reflexivity.
      + apply upper_enumerate. repeat split; assumption.
  Qed.

  Definition pkey (p : pair T) : string * Z * Z := (pr_s p, pr_a p, pr_b p).

  Lemma NoDup_map_inj : forall A B (f : A -> B) l, NoDup l -> (forall x y, In x l -> In y l -> f x = f y -> x = y) -> NoDup (map f l).
  Proof.
    intros A B f l H I. induction H as [|x l Hx H IH]; cbn [map]; [constructor|]. constructor.
    - rewrite in_map_iff. intros (y & E & Hy). apply Hx. rewrite <- (I y x); [exact Hy|right; exact Hy|left; reflexivity|exact E].
    - apply IH. intros; apply I; [right|right|]; assumption.
  Qed.

  Lemma subject_pairs_NoDup : forall o s t, NoDup (map fst t) -> NoDup (map pkey (subject_pairs o (s, t))).
  Proof.
    intros o s t ND.
    assert (ND' : NoDup (map fst (sorted_entries t))) by (eapply Permutation_NoDup; [apply Permutation_map, sorted_entries_perm|exact ND]).
    assert (ND2 : NoDup (sorted_entries t)) by (eapply NoDup_map_inv, ND').
    assert (U : forall i j a x y, nth_error (sorted_entries t) i = Some (a, x) -> nth_error (sorted_entries t) j = Some (a, y) -> i = j).
    { intros i j a x y H1 H2. eapply (proj1 (NoDup_nth_error _) ND').
      - rewrite map_length. apply nth_error_Some. congruence.
      - rewrite !nth_error_map, H1, H2. reflexivity. }
    apply NoDup_map_inj.
    - unfold subject_pairs. apply NoDup_filter. apply NoDup_map_inj.
      + apply NoDup_upper. cbn [app]. eapply NoDup_map_inv with (f := fst). rewrite enumerate_fst. apply seq_NoDup.
      + intros [[i [a x]] [j [b y]]] [[i' [a' x']] [j' [b' y']]] _ _ E. injection E. intros. subst. reflexivity.
    - intros p p' H H' E. apply subject_pairs_In in H. apply subject_pairs_In in H'.
      destruct H as (H1 & H2 & H3 & H4 & H5), H' as (G1 & G2 & G3 & G4 & G5).
      unfold pkey in E. destruct p as [ps pi pj pa pb px py], p' as [qs qi qj qa qb qx qy]. cbn in *. injection E as E1 E2 E3. subst.
      assert (pi = qi) by (eapply U; eassumption). assert (pj = qj) by (eapply U; eassumption). subst. congruence.
  Qed.

  Lemma all_pairs_NoDup : forall o tbl, NoDup (map fst tbl) -> (forall s t, In (s, t) tbl -> NoDup (map fst t)) ->
    NoDup (map pkey (flat_map (subject_pairs o) tbl)).
  Proof.
    intros o tbl; induction tbl as [|[s t] tbl IH]; intros ND H; cbn [flat_map]; [constructor|].
    rewrite map_app. inversion ND as [|? ? N1 N2]; subst. cbn [fst] in *.
    assert (A : NoDup (map pkey (subject_pairs o (s, t)))) by (apply subject_pairs_NoDup, (H s t), or_introl, eq_refl).
    assert (B : forall k, In k (map pkey (subject_pairs o (s, t))) -> ~ In k (map pkey (flat_map (subject_pairs o) tbl))).
    { intros k H1 H2. apply in_map_iff in H1. destruct H1 as (p1 & K1 & H1). apply in_map_iff in H2. destruct H2 as (p2 & K2 & H2).
      apply subject_pairs_In in H1. apply in_flat_map in H2. destruct H2 as ([s' t'] & Hin & H2). apply subject_pairs_In in H2.
      destruct H1 as [H1 _], H2 as [H2 _]. unfold pkey in *. apply N1. apply in_map_iff. exists (s', t'). split; [cbn [fst]; congruence|exact Hin]. }
    specialize (IH N2 (fun s' t' h => H s' t' (or_intror h))).
    revert A B. generalize (map pkey (subject_pairs o (s, t))). intros l A B. induction l as [|k l IHl]; cbn [app]; [exact IH|].
    inversion A; subst. constructor; [|apply IHl; [assumption|intros; apply B; right; assumption]].
    rewrite in_app_iff. intros [?|?]; [contradiction|]. apply (B k); [left; reflexivity|assumption].
  Qed.

  (** ** The stored entries *)
  Definition hit (a : Z) (s : string) (b : Z) (x : assign T) : bool := Z.eqb (as_a x) a && String.eqb (as_s x) s && Z.eqb (as_b x) b.
  Definition pick (L : list (assign T)) (a : Z) (s : string) (b : Z) (acc : option T) : option T :=
    fold_left (fun acc x => if hit a s b x then Some (as_v x) else acc) L acc.

  Lemma pick_app : forall L L' a s b acc, pick (L ++ L') a s b acc = pick L' a s b (pick L a s b acc).
  Proof. intros. unfold pick. apply fold_left_app. Qed.
  Lemma pick_miss : forall L a s b acc, (forall x, In x L -> hit a s b x = false) -> pick L a s b acc = acc.
  Proof.
    intros L a s b. induction L as [|x L IH]; intros acc H; [reflexivity|]. unfold pick. cbn [fold_left].
    rewrite (H x (or_introl eq_refl)). apply IH. intros; apply H; right; assumption.
  Qed.
  Lemma hit_spec : forall a s b x, hit a s b x = true <-> as_a x = a /\ as_s x = s /\ as_b x = b.
  Proof. intros. unfold hit. rewrite !andb_true_iff, !Z.eqb_eq, String.eqb_eq. tauto. Qed.

  Lemma pckey_spec : forall a b : string * Z, pckey_eqb a b = true <-> a = b.
  Proof. intros [s a] [s' a']. unfold pckey_eqb. cbn [fst snd]. rewrite andb_true_iff, String.eqb_eq, Z.eqb_eq. split; [intros [-> ->]; reflexivity|intros E; injection E; auto]. Qed.

  Lemma fold_dset_get : forall (l : list (Z * nat)) d k, NoDup (map fst l) ->
    dget Z.eqb (fold_left (fun d kv => dset Z.eqb d (fst kv) (snd kv)) l d) k = match dget Z.eqb l k with Some v => Some v | None => dget Z.eqb d k end.
  Proof.
    intros l; induction l as [|[k' v'] l IH]; intros d k ND; cbn [fold_left dget fst snd]; [reflexivity|].
    inversion ND; subst. rewrite IH by assumption. cbn [fst] in *. rewrite (dget_dset Z.eqb Z_eqb_spec). destruct (Z.eqb k k') eqn:E; [|reflexivity].
    apply Z.eqb_eq in E. subst k'. replace (dget Z.eqb l k) with (@None nat); [reflexivity|]. symmetry. apply (dget_None Z.eqb Z_eqb_spec). assumption.
  Qed.

  Lemma assetid_index_get : forall (dvs : list dv_t) a i, NoDup (map dv_aid dvs) ->
    (dget Z.eqb (assetid_index dvs) a = Some i <-> nth_error (map dv_aid dvs) i = Some a).
  Proof.
    intros dvs a i ND.
    assert (E : assetid_index dvs = fold_left (fun d kv => dset Z.eqb d (fst kv) (snd kv)) (map (fun iv => (dv_aid (snd iv), fst iv)) (enumerate dvs)) []).
    { unfold assetid_index. generalize (@nil (Z * nat)). generalize (enumerate dvs). intros l; induction l as [|x l IH]; intros d; cbn [fold_left map]; [reflexivity|]. apply IH. }
    assert (K : map fst (map (fun iv => (dv_aid (snd iv), fst iv)) (enumerate dvs)) = map dv_aid dvs).
    { rewrite map_map. cbn [fst]. rewrite <- (map_map snd dv_aid), enumerate_snd. reflexivity. }
    rewrite E, fold_dset_get by (rewrite K; exact ND).
    assert (I : In (a, i) (map (fun iv => (dv_aid (snd iv), fst iv)) (enumerate dvs)) <-> nth_error (map dv_aid dvs) i = Some a).
    { rewrite in_map_iff. split.
      - intros ([k dv] & X & Hin). cbn [fst snd] in X. injection X as <- <-. apply In_nth_error in Hin. destruct Hin as [m Hm]. rewrite enumerate_nth in Hm.
        destruct (nth_error dvs m) as [dv'|] eqn:Em; cbn [option_map] in Hm; [|discriminate]. assert (m = k) by congruence. assert (dv' = dv) by congruence. subst.
        rewrite nth_error_map, Em. reflexivity.
      - rewrite nth_error_map. destruct (nth_error dvs i) as [dv|] eqn:Em; cbn [option_map]; [|discriminate]. intros X. exists (i, dv). split; [cbn [fst snd]; congruence|].
        apply nth_error_In with (n := i). rewrite enumerate_nth, Em. reflexivity. }
    rewrite <- I. split.
    - destruct (dget Z.eqb _ a) as [v|] eqn:X; [|discriminate]. intros Y. apply (dget_In Z.eqb Z_eqb_spec) in X. congruence.
    - intros Hin. rewrite (In_dget Z.eqb Z_eqb_spec _ a i); [reflexivity| |exact Hin]. rewrite K. exact ND.
  Qed.

  Notation pcdict := (list ((string * Z) * pyv T)).
  Definition good_dict (d : pcdict) : Prop := NoDup (map fst d) /\ forall k v, In (k, v) d -> exists x, v = PNum x.

  Lemma nth_error_list_set : forall A (l : list A) i v j, i < length l -> nth_error (list_set l i v) j = if Nat.eqb i j then Some v else nth_error l j.
  Proof.
    intros A l; induction l as [|x l IH]; intros i v j H; [simpl in H; lia|]. destruct i as [|i], j as [|j]; cbn [list_set nth_error Nat.eqb]; try reflexivity.
    apply IH. simpl in H. lia.
  Qed.

  Lemma store_spec : forall (dvs : list dv_t) L dicts dicts', NoDup (map dv_aid dvs) -> length dicts = length dvs ->
    foldM (pc_store (assetid_index dvs)) L dicts = Ok dicts' ->
    length dicts' = length dvs /\
    forall i a d, nth_error (map dv_aid dvs) i = Some a -> nth_error dicts i = Some d ->
      exists d', nth_error dicts' i = Some d' /\ (good_dict d -> good_dict d') /\
        forall s b acc, dget pckey_eqb d (s, b) = option_map PNum acc -> dget pckey_eqb d' (s, b) = option_map PNum (pick L a s b acc).
  Proof.
    intros dvs L; induction L as [|x L IH]; intros dicts dicts' ND Ln H; cbn [foldM] in H.
    - apply Ok_inj in H. subst dicts'. split; [exact Ln|]. intros i a d Ha Hd. exists d. split; [exact Hd|]. split; [auto|]. intros s b acc E. exact E.
    - unfold pc_store in H at 1. unfold dget_res in H. destruct (dget Z.eqb (assetid_index dvs) (as_a x)) as [k|] eqn:Ek; cbn [bind] in H; [|discriminate].
      unfold py_index in H. destruct (nth_error dicts k) as [dk|] eqn:Edk; cbn [bind] in H; [|discriminate].
      apply assetid_index_get in Ek; [|exact ND].
      assert (Lk : k < length dicts) by (apply nth_error_Some; congruence).
      apply IH in H; [|exact ND|rewrite list_set_length; exact Ln]. destruct H as [L' H]. split; [exact L'|].
      intros i a d Ha Hd. destruct (Nat.eq_dec k i) as [->|Hne].
      + assert (a = as_a x) by congruence. assert (d = dk) by congruence. subst a dk.
        destruct (H i (as_a x) (dset pckey_eqb d (as_s x, as_b x) (PNum (as_v x))) Ek) as (d' & H1 & H2 & H3).
        { rewrite nth_error_list_set, Nat.eqb_refl by exact Lk. reflexivity. }
        exists d'. split; [exact H1|]. split.
        * intros [G1 G2]. apply H2. split; [apply (dset_NoDup pckey_eqb pckey_spec), G1|].
          intros k v Hin. apply (In_dget pckey_eqb pckey_spec) in Hin; [|apply (dset_NoDup pckey_eqb pckey_spec), G1].
          rewrite (dget_dset pckey_eqb pckey_spec) in Hin. destruct (pckey_eqb k (as_s x, as_b x)); [exists (as_v x); congruence|].
          apply (dget_In pckey_eqb pckey_spec) in Hin. eapply G2, Hin.
        * intros s b acc E. unfold pick. cbn [fold_left]. apply H3. rewrite (dget_dset pckey_eqb pckey_spec).
          unfold hit, pckey_eqb. cbn [fst snd]. rewrite Z.eqb_refl, (String.eqb_sym s), (Z.eqb_sym b). cbn [andb].
          destruct (String.eqb (as_s x) s && Z.eqb (as_b x) b)%bool; [reflexivity|exact E].
      + destruct (H i a d Ha) as (d' & H1 & H2 & H3).
        { rewrite nth_error_list_set by exact Lk. rewrite (proj2 (Nat.eqb_neq k i) Hne). exact Hd. }
        exists d'. split; [exact H1|]. split; [exact H2|]. intros s b acc E. unfold pick. cbn [fold_left].
        assert (M : hit a s b x = false).
        { destruct (hit a s b x) eqn:M; [|reflexivity]. apply hit_spec in M. destruct M as [<- _]. exfalso. apply Hne.
          eapply (proj1 (NoDup_nth_error _) ND); [apply nth_error_Some; congruence|congruence]. }
        rewrite M. apply H3, E.
  Qed.

  Lemma store_total : forall (dvs : list dv_t) (L : list (assign T)) (dicts : list pcdict), NoDup (map dv_aid dvs) -> length dicts = length dvs ->
    (forall x, In x L -> In (as_a x) (map dv_aid dvs)) -> exists dicts', foldM (pc_store (assetid_index dvs)) L dicts = Ok dicts'.
  Proof.
    intros dvs L; induction L as [|x L IH]; intros dicts ND Ln H; cbn [foldM]; [eexists; reflexivity|].
    destruct (In_nth_error _ _ (H x (or_introl eq_refl))) as [k Hk].
    assert (Lk : k < length dicts) by (rewrite Ln, <- (map_length dv_aid); apply nth_error_Some; congruence).
    destruct (nth_error dicts k) as [d|] eqn:Ed; [|apply nth_error_None in Ed; lia].
    unfold pc_store at 1. unfold dget_res. rewrite (proj2 (assetid_index_get dvs (as_a x) k ND) Hk). cbn [bind]. unfold py_index. rewrite Ed. cbn [bind].
    apply IH; [exact ND|rewrite list_set_length; exact Ln|]. intros; apply H; right; assumption.
  Qed.
End Pairs.

(** ** One pair *)
Section OnePair.
  Variables (o : pcopts ef) (g : rng ef) (p : pair ef).

  Definition asg (w : verdict) : list (assign ef) :=
    match w with
    | First => [a_wins p] | Second => [b_wins p]
    | Split => [Assign (pr_a p) (pr_s p) (pr_b p) half; Assign (pr_b p) (pr_s p) (pr_a p) half]
    end.
  Lemma half_ef : (half : ef) = Fin (1/2).
  Proof. unfold half. rewrite ndec_ef by lia. reflexivity. Qed.

  (** The parameters the code uses for p. *)
  Definition model_deciding (q : deciding) : Prop :=
    pc_rate o p = Ok (q_rate q) /\ pc_coin o p = Ok (q_coin q) /\ pc_scores o p = Ok (q_score1 q, q_score2 q) /\
    pair_own (po_noise o) (po_noises o) (pr_i p) (q_noise1 q) /\ pair_own (po_noise o) (po_noises o) (pr_j p) (q_noise2 q) /\
    q_even q = String.eqb (the_tie o) "even_split".

  Lemma coin_asg : forall u, (if (half <? u)%num then a_wins p else b_wins p) = (match coin u with First => a_wins p | _ => b_wins p end).
  Proof. intros u. rewrite half_ef. unfold coin. change ((Fin (1 / 2) <? u)%num) with (ef_ltb (Fin (1/2)) u). destruct (ef_ltb _ u); reflexivity. Qed.
  Lemma coin_asg_list : forall u, [if (half <? u)%num then a_wins p else b_wins p] = asg (coin u).
  Proof. intros u. rewrite coin_asg. unfold coin. destruct (ef_ltb _ u); reflexivity. Qed.

  Lemma judge_spec : forall q n r n', model_deciding q -> pc_judge o g p n = Ok (r, n') ->
    exists w n1 x y,
    (q_noise1 q = None /\ q_noise2 q = None /\ x = q_score1 q /\ y = q_score2 q /\ n1 = n \/
     exists s1 s2, q_noise1 q = Some s1 /\ q_noise2 q = Some s2 /\ n1 = S (S n) /\
       x = ef_add (q_score1 q) (rg g n s1) /\ y = ef_add (q_score2 q) (rg g (S n) s2)) /\
    by_scores g (q_even q) x y n1 w n' /\ r = asg w.
  Proof.
    intros q n r n' (Q1 & Q2 & Q3 & Q4 & Q5 & Q6) H. unfold pc_judge in H. rewrite Q3 in H. cbn [bind] in H.
    unfold pc_noisy in H. unfold pair_own in Q4, Q5. cbn [fst snd] in H.
    assert (G : exists x y n1, (q_noise1 q = None /\ q_noise2 q = None /\ x = q_score1 q /\ y = q_score2 q /\ n1 = n \/
     exists s1 s2, q_noise1 q = Some s1 /\ q_noise2 q = Some s2 /\ n1 = S (S n) /\
       x = ef_add (q_score1 q) (rg g n s1) /\ y = ef_add (q_score2 q) (rg g (S n) s2)) /\
      (if (y <? x)%num then Ok ([a_wins p], n1) else if (x <? y)%num then Ok ([b_wins p], n1)
       else if String.eqb (the_tie o) "even_split" then
        Ok ([Assign (pr_a p) (pr_s p) (pr_b p) half; Assign (pr_b p) (pr_s p) (pr_a p) half], n1)
       else Ok ([if (half <? ru g n1)%num then a_wins p else b_wins p], S n1)) = Ok (r, n')).
    { destruct (po_noise o) as [s|].
      - cbn [bind] in H. do 3 eexists. split; [|exact H]. right. exists s, s. repeat split; assumption.
      - destruct (po_noises o) as [l|].
        + destruct Q4 as (s1 & E1 & Q4), Q5 as (s2 & E2 & Q5). unfold py_index in H. rewrite E1, E2 in H. cbn [bind] in H.
          do 3 eexists. split; [|exact H]. right. exists s1, s2. repeat split; assumption.
        + cbn [bind] in H. do 3 eexists. split; [|exact H]. left. repeat split; assumption. }
    destruct G as (x & y & n1 & G1 & G2). rewrite <- Q6 in G2. change (y <? x)%num with (ef_ltb y x) in G2. change (x <? y)%num with (ef_ltb x y) in G2.
    destruct (ef_ltb y x) eqn:E1; [|destruct (ef_ltb x y) eqn:E2; [|destruct (q_even q) eqn:E3]]; apply Ok_inj in G2.
    - exists First, n1, x, y. split; [exact G1|]. assert (n' = n1) by congruence. subst n'. split; [constructor; exact E1|]. cbn [asg]. congruence.
    - exists Second, n1, x, y. split; [exact G1|]. assert (n' = n1) by congruence. subst n'. split; [constructor; exact E2|]. cbn [asg]. congruence.
    - exists Split, n1, x, y. split; [exact G1|]. assert (n' = n1) by congruence. subst n'. split; [constructor; first [assumption|reflexivity]|]. cbn [asg]. congruence.
    - rewrite coin_asg_list in G2. exists (coin (ru g n1)), n1, x, y. split; [exact G1|]. assert (n' = S n1) by congruence. subst n'.
      split; [constructor; first [assumption|reflexivity]|]. congruence.
  Qed.

  Lemma pass_spec : forall q n r n', model_deciding q -> pc_pass o g p n = Ok (r, n') ->
    exists w, one_comparison g q n w n' /\ r = asg w.
  Proof.
    intros q n r n' Q H. pose proof Q as (Q1 & Q2 & Q3 & Q4 & Q5 & Q6). unfold pc_pass in H. rewrite Q2 in H. cbn [bind] in H.
    destruct (q_coin q) as [c|] eqn:Ec.
    - change (ru g n <? c)%num with (ef_ltb (ru g n) c) in H. destruct (ef_ltb (ru g n) c) eqn:E.
      + rewrite coin_asg_list in H. apply Ok_inj in H. exists (coin (ru g (S n))). assert (n' = S (S n)) by congruence. subst n'.
        split; [apply (oc_toss g q n c Ec E)|congruence].
      + destruct (judge_spec q _ _ _ Q H) as (w & n1 & x & y & G1 & G2 & G3). exists w. split; [|exact G3].
        eapply (oc_scores g q n (S n) n1 n' x y w); [right; exists c; repeat split; assumption|exact G1|exact G2].
    - destruct (judge_spec q _ _ _ Q H) as (w & n1 & x & y & G1 & G2 & G3). exists w. split; [|exact G3].
      eapply (oc_scores g q n n n1 n' x y w); [left; split; [exact Ec|reflexivity]|exact G1|exact G2].
  Qed.

  Lemma ltb00 : ef_ltb (Fin 0) (Fin 0) = false.
  Proof. cbn [ef_ltb]. apply Rltb_false. lra. Qed.
  Lemma leb1_ltb0 : forall r, ef_leb (Fin 1) r = true -> ef_ltb (Fin 0) r = true.
  Proof. intros [r| | |]; cbn [ef_leb ef_ltb]; try reflexivity; try discriminate. rewrite Rleb_true, Rltb_true. lra. Qed.

  Lemma while_spec : forall fuel q r n L n', model_deciding q -> pc_while fuel o g p r n = Ok (L, n') ->
    exists ws, comparisons g q r n ws n' /\ L = flat_map asg ws.
  Proof.
    intros fuel q; induction fuel as [|f IH]; intros r n L n' Q H; cbn [pc_while] in H; [discriminate|].
    change (nzero <? r)%num with (ef_ltb (Fin 0) r) in H. change (none_ <=? r)%num with (ef_leb (Fin 1) r) in H. change (r <? ru g n)%num with (ef_ltb r (ru g n)) in H.
    destruct (ef_ltb (Fin 0) r) eqn:E0.
    - destruct (ef_leb (Fin 1) r) eqn:E1.
      + destruct (pc_pass o g p n) as [[r1 n1]|] eqn:Ep; cbn [bind fst snd] in H; [|discriminate].
        destruct (pc_while f o g p (r - none_)%num n1) as [[L2 n2]|] eqn:Ew; cbn [bind fst snd] in H; [|discriminate].
        apply Ok_inj in H. assert (n2 = n') by congruence. subst n2. destruct (pass_spec _ _ _ _ Q Ep) as (w & G1 & G2). apply IH in Ew; [|exact Q].
        destruct Ew as (ws & W1 & W2). exists (w :: ws). split; [econstructor; eassumption|]. cbn [flat_map]. congruence.
      + destruct (ef_ltb r (ru g n)) eqn:E2.
        * apply IH in H; [|exact Q]. destruct H as (ws & W1 & W2). inversion W1; subst.
          -- exists []. split; [apply cs_skip; assumption|reflexivity].
          -- apply leb1_ltb0 in H. change nzero with (Fin 0) in H. rewrite ltb00 in H. discriminate.
          -- change nzero with (Fin 0) in H. rewrite ltb00 in H. discriminate.
          -- change nzero with (Fin 0) in H. rewrite ltb00 in H. discriminate.
        * destruct (pc_pass o g p (S n)) as [[r1 n1]|] eqn:Ep; cbn [bind fst snd] in H; [|discriminate].
          destruct (pc_while f o g p nzero n1) as [[L2 n2]|] eqn:Ew; cbn [bind fst snd] in H; [|discriminate].
          apply Ok_inj in H. assert (n2 = n') by congruence. subst n2. destruct (pass_spec _ _ _ _ Q Ep) as (w & G1 & G2). apply IH in Ew; [|exact Q].
          destruct Ew as (ws & W1 & W2). inversion W1; subst.
          -- exists [w]. split; [apply cs_keep; assumption|]. cbn [flat_map] in *. congruence.
          -- apply leb1_ltb0 in H0. change nzero with (Fin 0) in H0. rewrite ltb00 in H0. discriminate.
          -- change nzero with (Fin 0) in H0. rewrite ltb00 in H0. discriminate.
          -- change nzero with (Fin 0) in H0. rewrite ltb00 in H0. discriminate.
    - apply Ok_inj in H. exists []. assert (n' = n) by congruence. subst n'. split; [apply cs_none, E0|cbn; congruence].
  Qed.

  Lemma asg_pair : forall ws x, In x (flat_map asg ws) -> as_s x = pr_s p /\ (as_a x = pr_a p /\ as_b x = pr_b p \/ as_a x = pr_b p /\ as_b x = pr_a p).
  Proof.
    intros ws x H. apply in_flat_map in H. destruct H as (w & _ & H). destruct w; cbn [asg] in H; simpl in H;
    repeat (destruct H as [<-|H]; [cbn; tauto|]); contradiction.
  Qed.

  Lemma pick_ab : forall ws acc, (pr_b p < pr_a p)%Z ->
    pick (flat_map asg ws) (pr_a p) (pr_s p) (pr_b p) acc = fold_left (fun acc w => match gain1 w with Some x => Some x | None => acc end) ws acc.
  Proof.
    intros ws; induction ws as [|w ws IH]; intros acc L; cbn [flat_map fold_left]; [reflexivity|]. rewrite pick_app, IH by exact L. f_equal.
    assert (E : Z.eqb (pr_b p) (pr_a p) = false) by (apply Z.eqb_neq; lia).
    destruct w; cbn [asg gain1]; unfold pick; cbn [fold_left]; unfold hit, a_wins, b_wins; cbn [as_a as_s as_b as_v];
      rewrite ?Z.eqb_refl, ?String.eqb_refl, ?E; cbn [andb]; rewrite ?half_ef; reflexivity.
  Qed.
  Lemma pick_ba : forall ws acc, (pr_b p < pr_a p)%Z ->
    pick (flat_map asg ws) (pr_b p) (pr_s p) (pr_a p) acc = fold_left (fun acc w => match gain2 w with Some x => Some x | None => acc end) ws acc.
  Proof.
    intros ws; induction ws as [|w ws IH]; intros acc L; cbn [flat_map fold_left]; [reflexivity|]. rewrite pick_app, IH by exact L. f_equal.
    assert (E : Z.eqb (pr_a p) (pr_b p) = false) by (apply Z.eqb_neq; lia).
    destruct w; cbn [asg gain2]; unfold pick; cbn [fold_left]; unfold hit, a_wins, b_wins; cbn [as_a as_s as_b as_v];
      rewrite ?Z.eqb_refl, ?String.eqb_refl, ?E; cbn [andb]; rewrite ?half_ef; reflexivity.
  Qed.
End OnePair.

(** ** The whole conversion *)
Section Whole.
  Context {T : Type} {N : Num T}.
  Notation dv_t := (dvideo T string).

  (** A video before and after the in-place conversion. *)
  Definition same_content (dv dv' : dv_t) : Prop :=
    same_video dv dv' /\ dv_gt dv' = dv_gt dv /\ dv_gtstd dv' = dv_gtstd dv /\ forall s v, vote_of dv s v <-> vote_of dv' s v.

  Lemma same_content_refl : forall dv, same_content dv dv.
  Proof. intros dv. repeat split; auto. Qed.

  Definition idx_dict (l : list (pyv T)) : list (string * pyv T) := map (fun iv => (str_of_nat (fst iv), snd iv)) (enumerate l).
  Lemma idx_dict_keys : forall l, map fst (idx_dict l) = map str_of_nat (seq 0 (length l)).
  Proof. intros. unfold idx_dict. rewrite map_map. cbn [fst]. rewrite <- (map_map fst str_of_nat), enumerate_fst. reflexivity. Qed.
  Lemma idx_dict_NoDup : forall l, NoDup (map fst (idx_dict l)).
  Proof. intros. rewrite idx_dict_keys. apply NoDup_map_inj; [apply seq_NoDup|]. intros x y _ _. apply str_of_nat_inj. Qed.
  Lemma idx_dict_In : forall l s v, In (s, v) (idx_dict l) <-> exists i, s = str_of_nat i /\ nth_error l i = Some v.
  Proof.
    intros l s v. unfold idx_dict. rewrite in_map_iff. split.
    - intros ([i v'] & E & H). cbn [fst snd] in E. apply In_nth_error in H. destruct H as [k H]. rewrite enumerate_nth in H.
      destruct (nth_error l k) as [w|] eqn:Ew; cbn [option_map] in H; [|discriminate]. exists i. split; [congruence|]. assert (k = i) by congruence. subst k. congruence.
    - intros (i & -> & H). exists (i, v). split; [reflexivity|]. apply nth_error_In with (n := i). rewrite enumerate_nth, H. reflexivity.
  Qed.

  Lemma convert_list : forall (dvs : list dv_t) S, dvs <> [] -> list_style dvs S -> exists dvs', pc_convert dvs = Ok dvs' /\ dict_style dvs' /\
    Forall2 same_content dvs dvs' /\
    Forall2 (fun dv dv' => exists b l, dv_os dv = Some (OSeq b l) /\ dv' = with_os dv (ODict (idx_dict l))) dvs dvs'.
  Proof.
    intros dvs S Hne H.
    assert (G : exists dvs', mapM (fun dv => do o <- get_os dv;
                match o with
                | OSeq _ l => Ok (with_os dv (ODict (dict_of (map (fun iv => (str_of_nat (fst iv), snd iv)) (enumerate l)))))
                | _ => Err TypeError
                end) dvs = Ok dvs' /\ dict_style dvs' /\ Forall2 same_content dvs dvs' /\
       Forall2 (fun dv dv' => exists b l, dv_os dv = Some (OSeq b l) /\ dv' = with_os dv (ODict (idx_dict l))) dvs dvs').
    { clear Hne. induction dvs as [|dv dvs IH]; cbn [mapM]; [exists []; repeat constructor|].
      inversion H as [|? ? (b & l & E & _) H2]; subst. unfold get_os. rewrite E. cbn [bind]. fold (idx_dict l).
      rewrite (dict_of_fresh _ _ (idx_dict_NoDup l)). destruct (IH H2) as (dvs' & E2 & D & F & F'). unfold get_os in E2. rewrite E2. cbn [bind].
      eexists. split; [reflexivity|]. split; [|split].
      - constructor; [|exact D]. exists (idx_dict l). split; [reflexivity|apply idx_dict_NoDup].
      - constructor; [|exact F]. repeat split; intros Hv.
        + inversion Hv as [d s' v' E' Hd|b' l' i v' E' Hd]; [congruence|]. subst. econstructor; [reflexivity|]. apply idx_dict_In. exists i. split; [reflexivity|congruence].
        + inversion Hv as [d s' v' E' Hd|b' l' i v' E' Hd]; [|cbn in E'; congruence]. subst. cbn [with_os dv_os] in E'. replace d with (idx_dict l) in Hd by congruence.
          apply idx_dict_In in Hd. destruct Hd as (i & -> & Hd). eapply vo_list; eassumption.
      - constructor; [|exact F']. exists b, l. split; [exact E|reflexivity]. }
    destruct G as (dvs' & G1 & G2). exists dvs'. split; [|exact G2]. unfold pc_convert, first_os, py_index.
    destruct dvs as [|dv0 dvs]; [contradiction|]. cbn [nth_error bind]. inversion H as [|? ? (b & l & E & _) H2]; subst. unfold get_os at 1. rewrite E. cbn [bind]. exact G1.
  Qed.

  Lemma convert_dict : forall (dvs : list dv_t), dvs <> [] -> dict_style dvs -> pc_convert dvs = Ok dvs.
  Proof.
    intros [|dv dvs] Hne H; [contradiction|]. inversion H as [|? ? (d & E & _) H2]; subst. unfold pc_convert, first_os, py_index. cbn [nth_error bind].
    unfold get_os. rewrite E. reflexivity.
  Qed.

  Lemma Forall2_refl_in : forall A (P : A -> A -> Prop) l, (forall x, P x x) -> Forall2 P l l.
  Proof. intros A P l H. induction l; constructor; auto. Qed.

  Lemma convert_spec : forall (dvs : list dv_t), pc_source dvs -> exists dvs', pc_convert dvs = Ok dvs' /\ dict_style dvs' /\ Forall2 same_content dvs dvs'.
  Proof.
    intros dvs (H1 & H2 & [[S H3]|H3]).
    - destruct (convert_list dvs S H1 H3) as (dvs' & G1 & G2 & G3 & _). exists dvs'. auto.
    - exists dvs. split; [apply convert_dict; assumption|]. split; [exact H3|]. apply Forall2_refl_in, same_content_refl.
  Qed.

  Lemma same_content_aids : forall dvs dvs', Forall2 same_content dvs dvs' -> map dv_aid dvs' = map dv_aid dvs.
  Proof. intros dvs dvs' F. induction F as [|x y l l' E F IH]; cbn [map]; [reflexivity|]. destruct E as ((_ & E & _) & _). congruence. Qed.

  Lemma Forall2_In_l : forall A B (P : A -> B -> Prop) l l' x, Forall2 P l l' -> In x l -> exists y, In y l' /\ P x y.
  Proof. intros A B P l l' x F. induction F; intros []; [subst; eexists; split; [left; reflexivity|assumption]|]. destruct (IHF H0) as (z & ? & ?). exists z. split; [right; assumption|assumption]. Qed.
  Lemma Forall2_In_r : forall A B (P : A -> B -> Prop) l l' y, Forall2 P l l' -> In y l' -> exists x, In x l /\ P x y.
  Proof. intros A B P l l' x F. induction F; intros []; [subst; eexists; split; [left; reflexivity|assumption]|]. destruct (IHF H0) as (z & ? & ?). exists z. split; [right; assumption|assumption]. Qed.

  Lemma table_entries : forall dvs dvs' s a v c, Forall2 same_content dvs dvs' -> dict_style dvs' ->
    (In (s, (a, (v, c))) (flat_map votes_of dvs') <-> exists dv, In dv dvs /\ dv_aid dv = a /\ dv_cid dv = c /\ vote_of dv s v).
  Proof.
    intros dvs dvs' s a v c F D. rewrite (votes_of_In _ _ _ _ _ D). split.
    - intros (dv' & Hin & E1 & E2 & Hv). destruct (Forall2_In_r _ _ _ _ _ _ F Hin) as (dv & Hd & (S1 & S2 & S3 & S4) & _ & _ & S5).
      exists dv. repeat split; [exact Hd|congruence|congruence|]. apply S5, Hv.
    - intros (dv & Hin & E1 & E2 & Hv). destruct (Forall2_In_l _ _ _ _ _ _ F Hin) as (dv' & Hd & (S1 & S2 & S3 & S4) & _ & _ & S5).
      exists dv'. repeat split; [exact Hd|congruence|congruence|]. apply S5, Hv.
  Qed.

  Lemma any_content_spec : forall o : pcopts T, String.eqb (the_type o) "within_subject" = any_content o.
  Proof. intros o. unfold the_type, any_content. destruct (po_type o); reflexivity. Qed.

  Lemma aid_unique : forall (dvs : list dv_t) va vb, NoDup (map dv_aid dvs) -> In va dvs -> In vb dvs -> dv_aid va = dv_aid vb -> va = vb.
  Proof.
    intros dvs va vb ND Ha Hb E. apply In_nth_error in Ha. destruct Ha as [i Hi]. apply In_nth_error in Hb. destruct Hb as [j Hj].
    assert (i = j). { eapply (proj1 (NoDup_nth_error _) ND); [rewrite map_length; apply nth_error_Some; congruence|]. rewrite !nth_error_map, Hi, Hj. cbn. congruence. }
    subst j. congruence.
  Qed.

  Lemma mine_keys : forall L s, NoDup (map ekey L) -> NoDup (map fst (mine (T := T) s L)).
  Proof.
    intros L s H. unfold mine. induction L as [|[s' [a r]] L IH]; cbn [filter map]; [constructor|]. inversion H; subst. cbn [fst].
    destruct (String.eqb s' s) eqn:E; [|auto]. cbn [map fst snd]. constructor; [|auto]. apply String.eqb_eq in E. subst s'.
    intros Hin. apply in_map_iff in Hin. destruct Hin as ([a' r'] & X & Hin). cbn [fst] in X. subst a'. apply (mine_In s L a r') in Hin.
    apply H2. apply in_map_iff. exists (s, (a, r')). split; [reflexivity|exact Hin].
  Qed.

  (** All pairs of the conversion in terms of the videos. *)
  Lemma all_pairs_spec : forall dvs dvs' o tbl, NoDup (map dv_aid dvs) -> Forall2 same_content dvs dvs' -> dict_style dvs' -> subj_assets dvs' = Ok tbl ->
    let ps := flat_map (subject_pairs o) tbl in
    NoDup (map pkey ps) /\
    (forall p, In p ps -> exists va vb, compared dvs (any_content o) (pr_s p) va vb /\ dv_aid va = pr_a p /\ dv_aid vb = pr_b p /\
       vote_of va (pr_s p) (fst (pr_x p)) /\ vote_of vb (pr_s p) (fst (pr_y p)) /\ rank dvs (pr_s p) va (pr_i p) /\ rank dvs (pr_s p) vb (pr_j p)) /\
    (forall s va vb, compared dvs (any_content o) s va vb -> exists p, In p ps /\ pkey p = (s, dv_aid va, dv_aid vb)).
  Proof.
    intros dvs dvs' o tbl ND F D H ps. destruct (subj_assets_spec _ _ D H) as (T1 & T2 & T3 & T4).
    assert (Tin : forall s t, In (s, t) tbl -> t = mine s (flat_map votes_of dvs')).
    { intros s t Hin. apply T3. apply (In_dget String.eqb string_eqb_spec); assumption. }
    assert (K : forall s t, In (s, t) tbl -> NoDup (map fst t)) by (intros s t Hin; rewrite (Tin s t Hin); apply mine_keys, T4).
    assert (M : forall s t a v c, In (s, t) tbl -> (In (a, (v, c)) t <-> exists dv, In dv dvs /\ dv_aid dv = a /\ dv_cid dv = c /\ vote_of dv s v)).
    { intros s t a v c Hin. rewrite (Tin s t Hin). etransitivity; [apply (mine_In s _ a (v, c))|]. apply table_entries; assumption. }
    assert (Rk : forall s t i a r dv, In (s, t) tbl -> nth_error (sorted_entries t) i = Some (a, r) -> dv_aid dv = a -> rank dvs s dv i).
    { intros s t i a r dv Hin Hi Ea. destruct (sorted_entries_rank t (K s t Hin) i a r Hi) as (l & L1 & L2 & L3). exists l. split; [exact L1|]. split; [exact L2|].
      intros b. rewrite L3, Ea. apply and_iff_compat_l. rewrite in_map_iff. split.
      - intros ([b' [v c]] & X & Hb). cbn [fst] in X. subst b'. apply (M s t b v c Hin) in Hb. destruct Hb as (dv' & ? & ? & ? & ?). exists dv', v. auto.
      - intros (dv' & v & ? & ? & ?). exists (b, (v, dv_cid dv')). split; [reflexivity|]. apply (M s t _ _ _ Hin). exists dv'. auto. }
    split; [apply all_pairs_NoDup; assumption|]. split.
    - intros p Hp. apply in_flat_map in Hp. destruct Hp as ([s t] & Hin & Hp). apply subject_pairs_In in Hp. destruct Hp as (P1 & P2 & P3 & P4 & P5).
      pose proof (proj1 (sorted_entries_lt t (K s t Hin) _ _ _ _ _ _ P2 P3) P4) as Lt.
      subst s.
      destruct (pr_x p) as [v c] eqn:Ex. destruct (pr_y p) as [v2 c2] eqn:Ey.
      pose proof (Permutation_in _ (Permutation_sym (sorted_entries_perm t)) (nth_error_In _ _ P2)) as I1. apply (M _ _ _ _ _ Hin) in I1. destruct I1 as (va & A1 & A2 & A3 & A4).
      pose proof (Permutation_in _ (Permutation_sym (sorted_entries_perm t)) (nth_error_In _ _ P3)) as I2. apply (M _ _ _ _ _ Hin) in I2. destruct I2 as (vb & B1 & B2 & B3 & B4).
      exists va, vb. cbn [fst]. repeat split; try assumption; try (eexists; eassumption); try lia.
      + unfold kept in P5. rewrite any_content_spec, Ex, Ey in P5. cbn [snd] in P5. apply orb_true_iff in P5. destruct P5 as [P5|P5]; [left; exact P5|right]. apply Z.eqb_eq in P5. congruence.
      + eapply Rk; eassumption.
      + eapply Rk; eassumption.
    - intros s va vb (C1 & C2 & (v1 & C3) & (v2 & C4) & C5 & C6).
      assert (S1 : In (s, (dv_aid va, (v1, dv_cid va))) (flat_map votes_of dvs')) by (apply (table_entries dvs dvs'); [assumption..|exists va; auto]).
      assert (Hs : In s (map fst tbl)) by (apply T2; apply in_map_iff; eexists; split; [|exact S1]; reflexivity).
      apply in_map_iff in Hs. destruct Hs as ([s' t] & X & Hin). cbn [fst] in X. subst s'.
      assert (I1 : In (dv_aid va, (v1, dv_cid va)) t) by (apply (M s t _ _ _ Hin); exists va; auto).
      assert (I2 : In (dv_aid vb, (v2, dv_cid vb)) t) by (apply (M s t _ _ _ Hin); exists vb; auto).
      apply (Permutation_in _ (sorted_entries_perm t)) in I1, I2. apply In_nth_error in I1, I2. destruct I1 as [i I1], I2 as [j I2].
      exists (Pair s i j (dv_aid va) (dv_aid vb) (v1, dv_cid va) (v2, dv_cid vb)). split; [|reflexivity].
      apply in_flat_map. exists (s, t). split; [exact Hin|]. apply subject_pairs_In. cbn [pr_s pr_i pr_j pr_a pr_b pr_x pr_y]. repeat split; try assumption.
      + apply (sorted_entries_lt t (K s t Hin) _ _ _ _ _ _ I1 I2), C5.
      + unfold kept. cbn [pr_x pr_y snd]. rewrite any_content_spec. apply orb_true_iff. rewrite Z.eqb_eq. exact C6.
  Qed.

  Lemma rank_fun : forall (dvs : list dv_t) s dv i j, rank dvs s dv i -> rank dvs s dv j -> i = j.
  Proof.
    intros dvs s dv i j (l & L1 & L2 & L3) (m & M1 & M2 & M3). subst. apply Permutation_length. apply NoDup_Permutation; try assumption.
    intros b. rewrite L3, M3. reflexivity.
  Qed.
  Lemma rank_lt : forall (dvs : list dv_t) s dv i, NoDup (map dv_aid dvs) -> In dv dvs -> rank dvs s dv i -> i < length dvs.
  Proof.
    intros dvs s dv i ND Hin (l & L1 & L2 & L3). subst i. change (length (dv_aid dv :: l) <= length dvs). rewrite <- (map_length dv_aid dvs). apply NoDup_incl_length.
    - constructor; [|exact L1]. rewrite L3. lia.
    - intros b [<-|Hb]; [apply in_map; exact Hin|]. apply L3 in Hb. destruct Hb as (_ & dv' & v & I & E & _). apply in_map_iff. exists dv'. auto.
  Qed.
End Whole.
