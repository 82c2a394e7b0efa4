(** Proofs about synthetic data and written datasets. *)
From Coq Require Import String.
From Coq Require Import List ZArith Bool Arith Lia Reals Lra.
From Verif Require Import PyBase Num ExtReal NumPy Dataset Mocked BaseProofs ExtRealProofs SpecDataset SpecMos SpecPc SpecMocked
  DatasetProofs ArrayProofs ConvProofs MockedProofs Mocked2Proofs.
Import ListNotations.
Local Open Scope list_scope.

Lemma vat_Fin : forall l i, i < length l -> vat (map Fin l) i = Fin (nth i l 0%R).
Proof.
  intros l i H. unfold vat. rewrite (nth_indep _ nnan (Fin 0)) by (rewrite map_length; exact H). apply map_nth.
Qed.

Section Synth.
  Variables (ds : dataset ef string) (i : synth_in ef) (q ob oi cb ca : list R) (phi : option (list R)).
  Hypotheses (Hok : raw_dataset_ok ds) (Hpar : synth_params ds i q ob oi cb ca phi) (Hc : contents_numbered ds).

  Lemma per_content_ok : forall c, length c = length (ds_refs ds) ->
    per_content (map Fin c) (ds_dis ds) = Ok (map (fun dv => Fin (nth (Z.to_nat (dv_cid dv)) c 0%R)) (ds_dis ds)).
  Proof.
    intros c Hl. unfold per_content. apply mapM_map_in. intros dv Hd. assert (H := Hc dv Hd).
    rewrite norm_index_valid by (rewrite map_length, Hl; exact H). rewrite vat_Fin by (rewrite Hl; lia). reflexivity.
  Qed.

  Lemma synth_assert_ok : synth_assert ds i = Ok tt.
  Proof.
    destruct Hpar as (E1 & E2 & E3 & E4 & E5 & E6 & L1 & L2 & L3 & L4 & L5).
    unfold synth_assert. rewrite (proj1 (raw_ok_assert ds) Hok), E1, E2, E3, E4, E5. cbn [bind get_key].
    rewrite !map_length, L1, L2, L3, L4, !Nat.eqb_refl. reflexivity.
  Qed.

  Lemma synth_spec : forall (scale : ef -> ef) (sc : R -> R) refuse (g1 g2 g3 : nat -> nat -> ef) (h1 h2 h3 : nat -> nat -> R),
    (forall x, scale (Fin x) = Fin (sc x)) -> (refuse = true -> phi = None) ->
    (forall e s, g1 e s = Fin (h1 e s)) -> (forall e s, g2 e s = Fin (h2 e s)) -> (forall e s, g3 e s = Fin (h3 e s)) ->
    exists a, synth_array scale refuse ds i g1 g2 g3 = Ok a /\
      dE a = length (ds_dis ds) /\ dS a = length ob /\ dR a = 1 /\
      forall e s dv, nth_error (ds_dis ds) e = Some dv -> s < length ob ->
        at3 a e s 0 = Fin (nth e q 0 + (nth s ob 0 + h1 e s * sc (nth s oi 0)) +
           (nth (Z.to_nat (dv_cid dv)) cb 0 + h2 e s * sc (nth (Z.to_nat (dv_cid dv)) ca 0)) +
           match phi with Some l => h3 e s * nth e l 0 | None => 0 end)%R.
  Proof.
    intros scale sc refuse g1 g2 g3 h1 h2 h3 Hsc Href Hg1 Hg2 Hg3.
    assert (HA := synth_assert_ok). destruct Hpar as (E1 & E2 & E3 & E4 & E5 & E6 & L1 & L2 & L3 & L4 & L5).
    unfold synth_array. rewrite HA, E1, E2, E3, E4, E5. cbn [bind get_key].
    rewrite (per_content_ok cb L4), (per_content_ok ca) by congruence. cbn [bind].
    assert (Hz : forall e s dv, nth_error (ds_dis ds) e = Some dv -> s < length ob ->
      nadd (nadd (vat (map Fin q) e) (nadd (vat (map Fin ob) s) (nmul (g1 e s) (scale (vat (map Fin oi) s)))))
           (nadd (vat (map (fun dv => Fin (nth (Z.to_nat (dv_cid dv)) cb 0%R)) (ds_dis ds)) e)
                 (nmul (g2 e s) (scale (vat (map (fun dv => Fin (nth (Z.to_nat (dv_cid dv)) ca 0%R)) (ds_dis ds)) e)))) =
      Fin (nth e q 0 + (nth s ob 0 + h1 e s * sc (nth s oi 0)) +
           (nth (Z.to_nat (dv_cid dv)) cb 0 + h2 e s * sc (nth (Z.to_nat (dv_cid dv)) ca 0)))%R).
    { intros e s dv He Hs. assert (e < length (ds_dis ds)) by (apply nth_error_Some; congruence).
      rewrite !vat_Fin by lia. unfold vat.
      rewrite (nth_error_nth_d _ (map (fun dv => Fin (nth (Z.to_nat (dv_cid dv)) cb 0%R)) (ds_dis ds)) e (Fin (nth (Z.to_nat (dv_cid dv)) cb 0%R)))
        by (rewrite nth_error_map, He; reflexivity).
      rewrite (nth_error_nth_d _ (map (fun dv => Fin (nth (Z.to_nat (dv_cid dv)) ca 0%R)) (ds_dis ds)) e (Fin (nth (Z.to_nat (dv_cid dv)) ca 0%R)))
        by (rewrite nth_error_map, He; reflexivity).
      rewrite Hg1, Hg2, !Hsc. reflexivity. }
    rewrite E6. destruct phi as [l|]; cbn [option_map].
    - destruct refuse; [discriminate (Href eq_refl)|]. cbn [negb assert_ bind]. rewrite map_length, (L5 l eq_refl), Nat.eqb_refl. cbn [assert_ bind].
      eexists. split; [reflexivity|]. cbn [dE dS dR at3]. rewrite map_length. repeat split.
      intros e s dv He Hs. assert (e < length (ds_dis ds)) by (apply nth_error_Some; congruence).
      rewrite (Hz e s dv He Hs), Hg3, (vat_Fin l) by (rewrite (L5 l eq_refl); assumption). reflexivity.
    - cbn [bind]. eexists. split; [reflexivity|]. cbn [dE dS dR at3]. rewrite map_length. repeat split.
      intros e s dv He Hs. rewrite (Hz e s dv He Hs). f_equal. lra.
  Qed.
End Synth.

Lemma logistic_scale : forall x, ndiv (Fin x) (ndiv npi (nsqrt (nofZ 3))) = Fin (x / (PI / sqrt 3))%R.
Proof.
  intro x. cbn [npi nsqrt nofZ ndiv Num_ef]. assert (0 < sqrt 3)%R by (apply sqrt_lt_R0; lra). assert (HP := PI_RGT_0).
  rewrite ef_sqrt_Fin by lra. rewrite ef_div_Fin by lra. apply ef_div_Fin.
  apply Rmult_integral_contrapositive_currified; [lra|apply Rinv_neq_0_compat; lra].
Qed.

Lemma c66_noiseless : forall ds i q ob oi cb ca phi (g1 g2 g3 : nat -> nat -> ef),
  raw_dataset_ok ds -> synth_params ds i q ob oi cb ca phi -> contents_numbered ds ->
  (forall e s, isfin (g1 e s)) -> (forall e s, isfin (g2 e s)) -> (forall e s, isfin (g3 e s)) ->
  (forall x, In x oi -> x = 0%R) -> (forall x, In x ca -> x = 0%R) -> (forall l x, phi = Some l -> In x l -> x = 0%R) ->
  exists a, synthetic_3darray ds i g1 g2 g3 = Ok a /\
    dE a = length (ds_dis ds) /\ dS a = length ob /\ dR a = 1 /\
    forall e s dv, nth_error (ds_dis ds) e = Some dv -> s < length ob ->
      at3 a e s 0 = Fin (nth e q 0 + nth s ob 0 + nth (Z.to_nat (dv_cid dv)) cb 0)%R.
Proof.
  intros ds i q ob oi cb ca phi g1 g2 g3 Hok Hpar Hc G1 G2 G3 Z1 Z2 Z3.
  assert (F : forall g : nat -> nat -> ef, (forall e s, isfin (g e s)) -> forall e s, g e s = Fin (toR (g e s))).
  { intros g H e s. specialize (H e s). destruct (g e s); try contradiction. reflexivity. }
  assert (Z : forall l k, (forall x, In x l -> x = 0%R) -> nth k l 0%R = 0%R).
  { intros l k H. destruct (Nat.lt_ge_cases k (length l)); [apply H; apply nth_In; assumption|apply nth_overflow; assumption]. }
  destruct (synth_spec ds i q ob oi cb ca phi Hok Hpar Hc (fun x => x) (fun x => x) false g1 g2 g3 _ _ _
    (fun x => eq_refl) (fun H => False_ind _ (diff_false_true H)) (F g1 G1) (F g2 G2) (F g3 G3)) as (a & Ha & D1 & D2 & D3 & HA).
  exists a. repeat (split; [assumption|]). intros e s dv He Hs. rewrite (HA e s dv He Hs). f_equal.
  rewrite (Z oi s Z1), (Z ca _ Z2). destruct phi as [l|]; [rewrite (Z l e (fun x => Z3 l x eq_refl))|]; lra.
Qed.

(** ** C22 *)
Section Write.
  Context {V : Type} (repr pformat : V -> string) (eval : string -> option V).
  Notation keqs := String.eqb.

  Definition exec (acc : option (list (string * V))) (st : string * string) :=
    match acc, eval (snd st) with Some d, Some v => Some (dset keqs d (fst st) v) | _, _ => None end.

  (** Executing statements whose texts have the values given. *)
  Lemma exec_all : forall (l : list (string * string * V)) d0, (forall x, In x l -> eval (snd (fst x)) = Some (snd x)) ->
    NoDup (map fst d0) ->
    exists d, fold_left exec (map fst l) (Some d0) = Some d /\ NoDup (map fst d) /\
      forall k, (forall v, (exists l1 l2 t, l = l1 ++ (k, t, v) :: l2 /\ forall x, In x l2 -> fst (fst x) <> k) -> dget keqs d k = Some v) /\
                ((forall x, In x l -> fst (fst x) <> k) -> dget keqs d k = dget keqs d0 k).
  Proof.
    intros l. induction l as [|((k0, t0), v0) l IH] using rev_ind; intros d0 He Hd0.
    - exists d0. repeat split; auto. intros v ([|? ?] & l2 & t & E & _); discriminate.
    - destruct (IH d0) as (d & Hd & Hnd & Hk); [intros x Hx; apply He; apply in_or_app; left; exact Hx|exact Hd0|].
      exists (dset keqs d k0 v0). rewrite map_app, fold_left_app, Hd. cbn [map fold_left]. unfold exec at 1. cbn [fst snd].
      assert (E0 : eval t0 = Some v0) by (apply (He (k0, t0, v0)); apply in_or_app; right; left; reflexivity). rewrite E0.
      split; [reflexivity|]. split; [apply (dset_NoDup keqs string_eqb_spec); exact Hnd|].
      intro k. rewrite (dget_dset keqs string_eqb_spec). split.
      + intros v (l1 & l2 & t & E & Hl). destruct (String.eqb_spec k k0) as [->|Hne].
        * f_equal. destruct l2 as [|x l2] using rev_ind; [apply app_inj_tail in E as [_ E]; congruence|].
          exfalso. clear IHl2. rewrite app_comm_cons, app_assoc in E. apply app_inj_tail in E as [_ <-].
          apply (Hl (k0, t0, v0)); [apply in_or_app; right; left; reflexivity|reflexivity].
        * apply (proj1 (Hk k)). destruct l2 as [|x l2] using rev_ind; [apply app_inj_tail in E as [_ E]; congruence|].
          clear IHl2. rewrite app_comm_cons, app_assoc in E. apply app_inj_tail in E as [-> _].
          exists l1, l2, t. split; [reflexivity|]. intros y Hy. apply Hl. apply in_or_app. left. exact Hy.
      + intro Hn. destruct (String.eqb_spec k k0) as [->|Hne].
        * exfalso. apply (Hn (k0, t0, v0)); [apply in_or_app; right; left; reflexivity|reflexivity].
        * apply (proj2 (Hk k)). intros x Hx. apply Hn. apply in_or_app. left. exact Hx.
  Qed.

  Lemma dunder_spec : forall k, dunder k = false <-> public k.
  Proof.
    intro k. unfold dunder, public. split.
    - intros H r ->. revert H. cbn. destruct r; discriminate.
    - intro H. destruct (String.prefix "__" k) eqn:E; [|reflexivity]. exfalso.
      destruct k as [|c1 [|c2 r]]; cbn [String.prefix] in E; try discriminate.
      + match type of E with (if ?b then _ else _) = _ => destruct b end; discriminate.
      + match type of E with (if ?b then _ else _) = _ => destruct b as [<-|] end; [|discriminate].
        match type of E with (if ?b then _ else _) = _ => destruct b as [<-|] end; [|discriminate].
        exact (H r eq_refl).
  Qed.

  Lemma In_split_last : forall A (f : A -> string) (l : list A) x, In x l -> exists l1 y l2, l = l1 ++ y :: l2 /\ f y = f x /\ forall z, In z l2 -> f z <> f x.
  Proof.
    intros A f l. induction l as [|a l IH] using rev_ind; intros x H; [contradiction|].
    destruct (string_dec (f a) (f x)) as [E|Hne].
    - exists l, a, []. repeat split; [exact E|]. intros ? [].
    - apply in_app_or in H as [H|[<-|[]]]; [|congruence]. destruct (IH x H) as (l1 & y & l2 & -> & E & Hn).
      exists l1, y, (l2 ++ [a]). rewrite <- app_assoc. repeat split; [exact E|].
      intros z Hz. apply in_app_or in Hz as [Hz|[<-|[]]]; [apply Hn; exact Hz|exact Hne].
  Qed.

  Lemma c22 : forall d, NoDup (map fst d) -> In "ref_videos"%string (map fst d) -> In "dis_videos"%string (map fst d) ->
    (forall k v, In (k, v) d -> eval (repr v) = Some v /\ eval (pformat v) = Some v) ->
    exists stmts d', write_out_dataset repr pformat d = Ok stmts /\ import_file eval stmts = Some d' /\ NoDup (map fst d') /\
      forall k v, In (k, v) d' <-> public k /\ In (k, v) d.
  Proof.
    intros d Hnd Hr Hv Hev.
    destruct (dget_In_key keqs string_eqb_spec d _ Hr) as (r & Er). destruct (dget_In_key keqs string_eqb_spec d _ Hv) as (v & Ev).
    assert (Hdg : forall k x, dget keqs d k = Some x -> In (k, x) d) by (intros k x H; apply (dget_In keqs string_eqb_spec); exact H).
    set (keep := fun kv : string * V => (negb (String.eqb (fst kv) "ref_videos") && negb (String.eqb (fst kv) "dis_videos") &&
                                   negb (String.eqb (fst kv) "subjects") && negb (dunder (fst kv)))%bool).
    set (opt := fun k => match dget keqs d k with Some x => [(k, pformat x, x)] | None => [] end : list (string * string * V)).
    set (L := map (fun kv => (fst kv, repr (snd kv), snd kv)) (filter keep d)
        ++ [("ref_videos", pformat r, r); ("dis_videos", pformat v, v)]%string ++ opt "subjects"%string ++ opt "license"%string).
    assert (HL : forall x, In x L -> In (fst (fst x), snd x) d /\ public (fst (fst x)) /\ eval (snd (fst x)) = Some (snd x)).
    { assert (Hopt : forall k x, public k -> In x (opt k) -> In (fst (fst x), snd x) d /\ public (fst (fst x)) /\ eval (snd (fst x)) = Some (snd x)).
      { intros k x Hk H. unfold opt in H. destruct (dget keqs d k) as [y|] eqn:E; [|contradiction]. destruct H as [<-|[]]. cbn [fst snd].
        apply Hdg in E. split; [exact E|]. split; [exact Hk|apply (Hev k); exact E]. }
      intros x Hx. unfold L in Hx. apply in_app_or in Hx as [Hx|Hx].
      - apply in_map_iff in Hx as ((k & y) & <- & Hx). apply filter_In in Hx as [Hx Hk]. cbn [fst snd]. unfold keep in Hk. cbn [fst] in Hk.
        apply andb_true_iff in Hk as [_ Hk]. apply negb_true_iff in Hk. split; [exact Hx|]. split; [apply dunder_spec; exact Hk|apply (Hev k); exact Hx].
      - destruct Hx as [<-|[<-|Hx]]; cbn [fst snd].
        + split; [apply Hdg; exact Er|]. split; [intros q; discriminate|apply (Hev "ref_videos"%string); apply Hdg; exact Er].
        + split; [apply Hdg; exact Ev|]. split; [intros q; discriminate|apply (Hev "dis_videos"%string); apply Hdg; exact Ev].
        + change (In x (opt "subjects"%string ++ opt "license"%string)) in Hx. apply in_app_or in Hx as [Hx|Hx]; apply Hopt in Hx; auto; intros q; discriminate. }
    assert (HW : write_out_dataset repr pformat d = Ok (map fst L)).
    { unfold write_out_dataset, dmem, dget_res. rewrite Er, Ev. cbn [assert_ bind]. unfold L, opt. rewrite !map_app, map_map. destruct (dget keqs d "subjects"%string); destruct (dget keqs d "license"%string); reflexivity. }
    destruct (exec_all L [] (fun x Hx => proj2 (proj2 (HL x Hx))) (NoDup_nil _)) as (d' & Hd' & Hnd' & Hk').
    exists (map fst L), d'. split; [exact HW|]. split; [exact Hd'|]. split; [exact Hnd'|].
    assert (Hcov : forall k x, public k -> In (k, x) d -> exists t, In (k, t, x) L).
    { intros k x Hk Hx. assert (Hdx : dget keqs d k = Some x) by (apply (In_dget keqs string_eqb_spec); assumption).
      assert (Hd0 := proj2 (dunder_spec k) Hk).
      destruct (String.eqb_spec k "ref_videos") as [->|N1].
      { exists (pformat r). rewrite Er in Hdx. injection Hdx as <-. unfold L. apply in_or_app. right. left. reflexivity. }
      destruct (String.eqb_spec k "dis_videos") as [->|N2].
      { exists (pformat v). rewrite Ev in Hdx. injection Hdx as <-. unfold L. apply in_or_app. right. right. left. reflexivity. }
      destruct (String.eqb_spec k "subjects") as [->|N3].
      { exists (pformat x). unfold L. apply in_or_app. right. apply in_or_app. right. apply in_or_app. left. unfold opt. rewrite Hdx. left. reflexivity. }
      exists (repr x). unfold L. apply in_or_app. left. apply in_map_iff. exists (k, x). split; [reflexivity|]. apply filter_In. split; [exact Hx|].
      unfold keep. cbn [fst]. rewrite (proj2 (String.eqb_neq k _) N1), (proj2 (String.eqb_neq k _) N2), (proj2 (String.eqb_neq k _) N3), Hd0. reflexivity. }
    intros k x. split.
    - intro Hin. assert (Hdx : dget keqs d' k = Some x) by (apply (In_dget keqs string_eqb_spec); assumption).
      destruct (in_dec string_dec k (map (fun x => fst (fst x)) L)) as [Hi|Hi].
      + apply in_map_iff in Hi as (y & Ek & Hy). destruct (In_split_last _ (fun x => fst (fst x)) L y Hy) as (l1 & z & l2 & EL & Ez & Hz).
        destruct z as ((kz, tz), vz). cbn [fst] in Ez. rewrite Ek in Ez, Hz. subst kz.
        assert (HH := proj1 (Hk' k) vz (ex_intro _ l1 (ex_intro _ l2 (ex_intro _ tz (conj EL Hz))))). rewrite Hdx in HH. injection HH as ->.
        assert (HLx := HL (k, tz, vz)). cbn [fst snd] in HLx. destruct HLx as (A1 & A2 & _); [rewrite EL; apply in_or_app; right; left; reflexivity|]. auto.
      + assert (HH := proj2 (Hk' k)). rewrite HH in Hdx; [discriminate|]. intros y Hy E. apply Hi. apply in_map_iff. exists y. auto.
    - intros [Hk Hx]. destruct (Hcov k x Hk Hx) as (t & Ht).
      destruct (In_split_last _ (fun x => fst (fst x)) L _ Ht) as (l1 & z & l2 & EL & Ez & Hz). destruct z as ((kz, tz), vz). cbn [fst] in Ez, Hz. subst kz.
      assert (HH := proj1 (Hk' k) vz (ex_intro _ l1 (ex_intro _ l2 (ex_intro _ tz (conj EL Hz))))).
      assert (HLx := HL (k, tz, vz)). cbn [fst snd] in HLx. destruct HLx as (A1 & _); [rewrite EL; apply in_or_app; right; left; reflexivity|].
      assert (E1 : dget keqs d k = Some x) by (apply (In_dget keqs string_eqb_spec); assumption).
      assert (E2 : dget keqs d k = Some vz) by (apply (In_dget keqs string_eqb_spec); assumption).
      rewrite E1 in E2. injection E2 as <-. apply (dget_In keqs string_eqb_spec). exact HH.
  Qed.

  Lemma c22_missing : forall d, ~ In "ref_videos"%string (map fst d) \/ ~ In "dis_videos"%string (map fst d) ->
    write_out_dataset repr pformat d = Err AssertionError.
  Proof.
    intros d H. unfold write_out_dataset, dmem.
    destruct (dget keqs d "ref_videos"%string) eqn:E1; cbn [assert_ bind]; [|reflexivity].
    destruct (dget keqs d "dis_videos"%string) eqn:E2; cbn [assert_ bind]; [|reflexivity].
    exfalso. apply (dget_In keqs string_eqb_spec) in E1, E2. destruct H as [H|H]; apply H; apply in_map_iff; [exists ("ref_videos"%string, v)|exists ("dis_videos"%string, v0)]; auto.
  Qed.
End Write.
