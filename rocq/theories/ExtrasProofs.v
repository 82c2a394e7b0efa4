(** Proofs for claims C110-C115. *)
From Coq Require Import Ascii String.
From Coq Require Import List ZArith Bool Arith Reals Lra Lia.
From Verif Require Import PyBase Num ExtReal Dataset Combine PcDataset Tools Names Commands Converter SpecDataset SpecMocked SpecTools
  Extras SpecExtras ConvProofs ConverterProofs Mocked3Proofs ToolsProofs Tools2Proofs PcWitness.
Import ListNotations.
Local Open Scope list_scope.

(** ** Files *)
Section Files.
  Context {T : Type} {N : Num T}.
  Lemma put_same : forall (f : files T) p d, put f p d p = Some d.
  Proof. intros. unfold put. rewrite String.eqb_refl. reflexivity. Qed.
  Lemma put_other : forall (f : files T) p d, others_kept p f (put f p d).
  Proof. intros f p d q H. unfold put. apply String.eqb_neq in H. rewrite H. reflexivity. Qed.
  Lemma written_public : forall K (d : dataset T K), public_part d (written d).
  Proof.
    intros K d. unfold public_part, written. cbn [ds_refs ds_dis ds_name ds_ref_score ds_attrs]. repeat (split; [reflexivity|]).
    intros k v. rewrite filter_In. cbn [fst]. split; intros [H1 H2]; (split; [exact H1|]).
    - apply dunder_spec. apply negb_true_iff. exact H2.
    - apply negb_true_iff. apply dunder_spec. exact H2.
  Qed.
  Lemma holds_put : forall (f : files T) p (d : dataset T string), holds (put f p (inl (written d))) p d.
  Proof. intros. exists (written d). split; [apply put_same|apply written_public]. Qed.
  Lemma holds_pc_put : forall (f : files T) p (d : dataset T (string * Z)), holds_pc (put f p (inr (written d))) p d.
  Proof. intros. exists (written d). split; [apply put_same|apply written_public]. Qed.

  Lemma aggregated_file : forall ds dvs scores kw path (f f' : files T) r, to_aggregated_dataset_file ds dvs scores kw path f = (f', r) ->
    match to_aggregated_dataset ds dvs scores kw with
    | Ok d => r = Ok tt /\ holds f' path d /\ others_kept path f f'
    | Err e => r = Err e /\ f' = f
    end.
  Proof.
    intros ds dvs scores kw path f f' r. unfold to_aggregated_dataset_file. destruct (to_aggregated_dataset _ _ _ _) as [d|e]; intros H; inversion H; subst.
    - split; [reflexivity|]. split; [apply holds_put|apply put_other].
    - split; reflexivity.
  Qed.
  Lemma persubject_file : forall ds dvs qss kw path (f f' : files T) r, to_persubject_dataset_file ds dvs qss kw path f = (f', r) ->
    match to_persubject_dataset ds dvs qss kw with
    | Ok d => r = Ok tt /\ holds f' path d /\ others_kept path f f'
    | Err e => r = Err e /\ f' = f
    end.
  Proof.
    intros ds dvs scores kw path f f' r. unfold to_persubject_dataset_file. destruct (to_persubject_dataset _ _ _ _) as [d|e]; intros H; inversion H; subst.
    - split; [reflexivity|]. split; [apply holds_put|apply put_other].
    - split; reflexivity.
  Qed.
  Lemma pc_file : forall fuel ds kw o g path (f f' : files T) r, to_pc_dataset_file fuel ds kw o g path f = (f', r) ->
    match to_pc_dataset fuel ds kw o g with
    | Ok (d, ds', n) => r = Ok (ds', n) /\ holds_pc f' path d /\ others_kept path f f'
    | Err e => r = Err e /\ f' = f
    end.
  Proof.
    intros fuel ds kw o g path f f' r. unfold to_pc_dataset_file. destruct (to_pc_dataset _ _ _ _ _) as [[[d ds'] n]|e]; intros H; inversion H; subst.
    - split; [reflexivity|]. split; [apply holds_pc_put|apply put_other].
    - split; reflexivity.
  Qed.
  Lemma combined_file : forall ds ds2 kw path (f f' : files T) r, to_combined_overlap_dataset_file ds ds2 kw path f = (f', r) ->
    match to_combined_overlap_dataset ds ds2 kw with
    | Ok (d, ds') => r = Ok ds' /\ holds f' path d /\ others_kept path f f'
    | Err e => r = Err e /\ f' = f
    end.
  Proof.
    intros ds ds2 kw path f f' r. unfold to_combined_overlap_dataset_file. destruct (to_combined_overlap_dataset _ _ _) as [[d ds']|e]; intros H; inversion H; subst.
    - split; [reflexivity|]. split; [apply holds_put|apply put_other].
    - split; reflexivity.
  Qed.

  (** The conversion to votes by name ends the same way whatever the options, and
      they do not matter for votes already stored by name. *)
  Lemma dictionary_kw : forall (ds : dataset T string) dvs kw,
    match to_dictionary_style_dataset ds dvs kw, to_dictionary_style_dataset ds dvs no_kw with
    | Ok d, Ok d' => ds_refs d = ds_refs d' /\ ds_dis d = ds_dis d' /\ ds_name d = ds_name d' /\ ds_ref_score d = ds_ref_score d'
    | Err e, Err e' => e = e'
    | _, _ => False
    end.
  Proof.
    intros ds dvs kw. unfold to_dictionary_style_dataset. destruct (first_os dvs) as [o|e]; cbn [bind]; [|reflexivity].
    destruct (os_is_dict o).
    - destruct (forM_ _ dvs); cbn [bind]; [repeat split|reflexivity].
    - destruct (mapM _ dvs); cbn [bind]; [repeat split|reflexivity].
  Qed.
  Lemma dictionary_file : forall ds dvs kw path (f f' : files T) r, to_dictionary_style_dataset_file ds dvs kw path f = (f', r) ->
    (kw_quality_width kw = None /\ kw_quality_height kw = None /\ kw_resampling_type kw = None \/ exists d0, first_os dvs = Ok (ODict d0)) ->
    match to_dictionary_style_dataset ds dvs kw with
    | Ok d => r = Ok tt /\ holds f' path d /\ others_kept path f f'
    | Err e => r = Err e /\ f' = f
    end.
  Proof.
    intros ds dvs kw path f f' r. unfold to_dictionary_style_dataset_file. intros H Hk.
    assert (E : to_dictionary_style_dataset ds dvs kw = to_dictionary_style_dataset ds dvs no_kw).
    { destruct Hk as [(K1 & K2 & K3)|Hk].
      - unfold to_dictionary_style_dataset, prepare_new_dataset. rewrite K1, K2, K3. reflexivity.
      - destruct Hk as [d0 Hd]. unfold to_dictionary_style_dataset. rewrite Hd. reflexivity. }
    rewrite E. destruct (to_dictionary_style_dataset ds dvs no_kw) as [d|e]; inversion H; subst.
    - split; [reflexivity|]. split; [apply holds_put|apply put_other].
    - split; reflexivity.
  Qed.
End Files.

(** ** Paths *)
Lemma app_str_nil : forall s, (s ++ "")%string = s.
Proof. induction s as [|a s IH]; [reflexivity|]. cbn [append]. rewrite IH. reflexivity. Qed.
Lemma app_str_assoc : forall a b c, ((a ++ b) ++ c)%string = (a ++ b ++ c)%string.
Proof. induction a as [|x a IH]; intros b c; [reflexivity|]. cbn [append]. rewrite IH. reflexivity. Qed.
Lemma app_str_length : forall a b, String.length (a ++ b)%string = String.length a + String.length b.
Proof. induction a as [|x a IH]; intros b; [reflexivity|]. cbn [append String.length]. rewrite IH. reflexivity. Qed.
(** A slash is the last character iff rfind says so. *)
Lemma rfind_last : forall c s, (exists i, rfind c s = Some i /\ S i = String.length s) <-> exists d, s = (d ++ String c "")%string.
Proof.
  intros c s. split.
  - induction s as [|a s IH]; intros (i & H & L); [discriminate H|]. cbn [rfind] in H. destruct (rfind c s) as [j|] eqn:E.
    + assert (i = S j) by congruence. subst i. destruct IH as [d ->]; [exists j; split; [reflexivity|cbn [String.length] in L; lia]|]. exists (String a d). reflexivity.
    + destruct (Ascii.eqb a c) eqn:Ea; [|discriminate H]. assert (i = 0) by congruence. subst i. destruct s as [|b s]; [|cbn [String.length] in L; lia].
      apply Ascii.eqb_eq in Ea. subst a. exists EmptyString. reflexivity.
  - intros [d ->]. exists (String.length d). split; [|rewrite app_str_length; cbn [String.length]; lia].
    induction d as [|a d IH]; [cbn [append rfind]; rewrite Ascii.eqb_refl; reflexivity|]. cbn [append rfind String.length]. rewrite IH. reflexivity.
Qed.
Lemma path_join_in : forall dir file, in_dir dir file (path_join dir file).
Proof.
  intros dir file. unfold in_dir, path_join. destruct (rfind "/" dir) as [i|] eqn:E.
  - destruct (Nat.eqb_spec (S i) (String.length dir)) as [H|H].
    + left. split; [|reflexivity]. right. apply rfind_last. exists i. split; assumption.
    + right. split; [intros ->; discriminate E|]. split; [|reflexivity]. intros d Hd.
      destruct (proj2 (rfind_last "/" dir) (ex_intro _ d Hd)) as (j & H1 & H2). congruence.
  - destruct (String.eqb_spec dir "") as [->|H]; [left; split; [left|]; reflexivity|]. right. split; [exact H|]. split; [|reflexivity]. intros d Hd.
    destruct (proj2 (rfind_last "/" dir) (ex_intro _ d Hd)) as (j & H1 & H2). congruence.
Qed.
Lemma in_dir_inj : forall dir x y p, in_dir dir x p -> in_dir dir y p -> x = y.
Proof.
  intros dir x y p [[[Hd|[d Hd]] ->]|(H1 & H2 & ->)] [[[Hd'|[d' Hd']] H]|(H3 & H4 & H)];
    try (apply append_inj in H; exact H); try congruence; try (exfalso; eapply H4; eassumption); try (exfalso; eapply H2; eassumption).
  apply append_inj in H. apply (append_inj "/") in H. exact H.
Qed.

(** The text of a number starts with a digit. *)
Lemma digit_range : forall d, d < 10 -> 48 <= nat_of_ascii (PyBase.digit d) <= 57.
Proof. intros d H. do 10 (destruct d as [|d]; [vm_compute; lia|]). lia. Qed.
Definition digit_first (s : string) : Prop := exists a r, s = String a r /\ 48 <= nat_of_ascii a <= 57.
Lemma str_nat_aux_digit : forall fuel n acc, digit_first acc \/ 0 < fuel -> digit_first (str_nat_aux fuel n acc).
Proof.
  induction fuel as [|f IH]; intros n acc H; [cbn [str_nat_aux]; destruct H as [H|H]; [exact H|lia]|]. cbn [str_nat_aux].
  assert (D : digit_first (String (PyBase.digit (n mod 10)) acc)).
  { exists (PyBase.digit (n mod 10)), acc. split; [reflexivity|]. apply digit_range. apply Nat.mod_upper_bound. lia. }
  destruct (Nat.ltb n 10); [exact D|]. apply IH. left. exact D.
Qed.
Lemma str_of_nat_digit : forall n, digit_first (str_of_nat n).
Proof. intros n. apply str_nat_aux_digit. right. lia. Qed.
Lemma digit_first_app : forall s t, digit_first s -> digit_first (s ++ t)%string.
Proof. intros s t (a & r & -> & H). exists a, (r ++ t)%string. split; [reflexivity|exact H]. Qed.
Lemma digit_first_relative : forall s, digit_first s -> String.prefix "/" s = false.
Proof.
  intros s (a & r & -> & H). cbn [String.prefix]. destruct (ascii_dec "/" a) as [<-|]; [|reflexivity].
  exfalso. vm_compute in H. lia.
Qed.
Lemma app_str_cancel : forall s a b, (a ++ s)%string = (b ++ s)%string -> a = b.
Proof.
  intros s a. induction a as [|x a IH]; intros [|y b] H; [reflexivity| | |].
  - exfalso. apply (f_equal String.length) in H. cbn [append String.length] in H. rewrite app_str_length in H. lia.
  - exfalso. apply (f_equal String.length) in H. cbn [append String.length] in H. rewrite app_str_length in H. lia.
  - cbn [append] in H. injection H as -> H. f_equal. apply IH. exact H.
Qed.
Lemma figure_path : forall dir n fmt, in_dir dir (str_of_nat n ++ "." ++ fmt)%string (os_join dir (str_of_nat n ++ "." ++ fmt)%string).
Proof.
  intros dir n fmt. unfold os_join. rewrite digit_first_relative by (apply digit_first_app; apply str_of_nat_digit). apply path_join_in.
Qed.
Lemma figure_path_inj : forall dir fmt n m, os_join dir (str_of_nat n ++ "." ++ fmt)%string = os_join dir (str_of_nat m ++ "." ++ fmt)%string -> n = m.
Proof.
  intros dir fmt n m H. assert (Hn := figure_path dir n fmt). rewrite H in Hn. assert (E := in_dir_inj _ _ _ _ Hn (figure_path dir m fmt)).
  apply app_str_cancel in E. apply str_of_nat_inj. exact E.
Qed.

Section Show.
  Variable root : string.
  (** The directory and the format asked for. *)
  Definition shown_dir (d : option string) : string := match d with Some x => x | None => workspace_path root ["output"%string] end.

  Lemma show_saved : forall d fmt figs, fmt <> Some None \/ figs = [] ->
    let f := match fmt with Some (Some x) => x | _ => "png"%string end in
    show root (Some d) fmt figs = (MadeDir (shown_dir d) :: map (fun n => SavedFigure n (os_join (shown_dir d) (str_of_nat n ++ "." ++ f)%string) f) figs, Ok tt).
  Proof. intros d fmt figs H f. subst f. unfold show. destruct fmt as [[x|]|]; destruct figs as [|n l]; try reflexivity. destruct H; congruence. Qed.
  Lemma saved_numbers_map : forall (p q : nat -> string) l, saved_numbers (map (fun n => SavedFigure n (p n) (q n)) l) = l.
  Proof. intros p q l. induction l as [|n l IH]; [reflexivity|]. cbn. f_equal. exact IH. Qed.
  Lemma saved_paths_map : forall (p q : nat -> string) l, saved_paths (map (fun n => SavedFigure n (p n) (q n)) l) = map p l.
  Proof. intros p q l. induction l as [|n l IH]; [reflexivity|]. cbn. f_equal. exact IH. Qed.

  Lemma c111 : forall d fmt figs ev r, show root (Some d) fmt figs = (ev, r) -> fmt <> Some None \/ figs = [] -> NoDup figs ->
    let dir := match d with Some x => x | None => path_join (path_join root "workspace") "output" end in
    let f := match fmt with Some (Some x) => x | _ => "png"%string end in
    r = Ok tt /\ nth_error ev 0 = Some (MadeDir dir) /\ saved_numbers ev = figs /\ length ev = S (length figs) /\ NoDup (saved_paths ev) /\
    forall n p m, In (SavedFigure n p m) ev -> m = f /\ in_dir dir (str_of_nat n ++ "." ++ f) p /\
      p <> path_join dir "output.json" /\ p <> path_join dir "sureal.json".
  Proof.
    intros d fmt figs ev r H Hf Hn dir f. rewrite (show_saved d fmt figs Hf) in H.
    assert (Hd : dir = shown_dir d) by (destruct d; reflexivity). rewrite <- Hd in H. injection H as <- <-. fold f.
    split; [reflexivity|]. split; [reflexivity|]. split; [cbn [saved_numbers flat_map app]; apply saved_numbers_map|].
    split; [cbn [length]; rewrite map_length; reflexivity|]. split.
    { cbn [saved_paths flat_map app]. change (NoDup (saved_paths (map (fun n => SavedFigure n (os_join dir (str_of_nat n ++ "." ++ f)%string) f) figs))).
      rewrite (saved_paths_map (fun n => os_join dir (str_of_nat n ++ "." ++ f)%string) (fun _ => f)).
      clear - Hn. induction Hn as [|n l Hx Hn IH]; [constructor|]. cbn [map]. constructor; [|exact IH].
      intros Hi. apply in_map_iff in Hi as (m & Hm & Hi). apply figure_path_inj in Hm. subst m. contradiction. }
    intros n p m [Hi|Hi]; [discriminate Hi|]. apply in_map_iff in Hi as (k & Hk & _). injection Hk as <- <- <-.
    split; [reflexivity|]. split; [apply figure_path|].
    assert (A : forall w, ~ digit_first w -> os_join dir (str_of_nat k ++ "." ++ f)%string <> path_join dir w).
    { intros w Hw E. assert (P := figure_path dir k f). rewrite E in P. apply Hw. rewrite <- (in_dir_inj _ _ _ _ P (path_join_in dir w)).
      apply digit_first_app. apply str_of_nat_digit. }
    split; apply A; intros (a & r & E & B); injection E as <- <-; vm_compute in B; lia.
  Qed.
  Lemma c111_none : forall d figs, figs <> [] -> exists dir, show root (Some d) (Some None) figs = ([MadeDir dir], Err TypeError).
  Proof. intros d [|n l] H; [congruence|]. eexists. reflexivity. Qed.
  Lemma c111_window : forall fmt figs, show root None fmt figs = ([Window], Ok tt).
  Proof. reflexivity. Qed.
End Show.

(** ** Paths of the package *)
Lemma os_join_below : forall dir file, String.prefix "/" file = false -> exists x, os_join dir file = (dir ++ x)%string.
Proof.
  intros dir file H. unfold os_join. rewrite H. destruct (path_join_in dir file) as [[_ ->]|(_ & _ & ->)]; eexists; reflexivity.
Qed.
Lemma os_joins_below : forall comps dir, Forall (fun c => String.prefix "/" c = false) comps -> exists x, os_joins dir comps = (dir ++ x)%string.
Proof.
  unfold os_joins. induction comps as [|c l IH]; intros dir H; [exists ""%string; symmetry; apply app_str_nil|]. inversion H as [|? ? Hc Hl]; subst.
  cbn [fold_left]. destruct (IH (os_join dir c) Hl) as [x ->]. destruct (os_join_below dir c Hc) as [y ->]. exists (y ++ x)%string. apply app_str_assoc.
Qed.
Lemma os_joins_app : forall dir a b, os_joins dir (a ++ b) = os_joins (os_joins dir a) b.
Proof. intros. apply fold_left_app. Qed.

(** ** Warnings *)
Lemma action_eqb_eq : forall a b, action_eqb a b = true <-> a = b.
Proof. intros [] []; cbn; split; congruence. Qed.
Lemma category_eqb_eq : forall a b, category_eqb a b = true <-> a = b.
Proof. intros [] []; cbn; split; congruence. Qed.
Lemma filter_eqb_eq : forall x y, filter_eqb x y = true <-> x = y.
Proof.
  intros [a c] [b d]. unfold filter_eqb. cbn [fst snd]. rewrite andb_true_iff, action_eqb_eq, category_eqb_eq. split; [intros [-> ->]; reflexivity|intros H; injection H as -> ->; split; reflexivity].
Qed.
Lemma action_for_meets : forall fs, meets fs (action_for fs).
Proof.
  induction fs as [|[a c] fs IH]; [right; split; [reflexivity|constructor]|]. cbn [action_for].
  destruct c.
  - left. exists [], Deprecation, fs. split; [reflexivity|]. split; [left; reflexivity|constructor].
  - assert (Hc : ~ concerns (snd (a, OtherWarning))) by (intros [H|H]; discriminate H).
    destruct IH as [(l1 & c' & l2 & E & H1 & H2)|[H1 H2]].
    + left. exists ((a, OtherWarning) :: l1), c', l2. split; [cbn [app]; rewrite <- E; reflexivity|]. split; [exact H1|constructor; assumption].
    + right. split; [exact H1|constructor; assumption].
  - left. exists [], AnyWarning, fs. split; [reflexivity|]. split; [right; reflexivity|constructor].
Qed.
Lemma deprecated_filters : forall A V (func : A -> res V) fs args, exists rest,
  fst (fst (deprecated_call func fs args)) = (Default, Deprecation) :: (Always, Deprecation) :: rest /\
  rest = remove_first (Default, Deprecation) (remove_first (Always, Deprecation) fs).
Proof. intros. eexists. split; reflexivity. Qed.
Lemma deprecated_again : forall A V (func : A -> res V) fs args args',
  let fs1 := fst (fst (deprecated_call func fs args)) in fst (fst (deprecated_call func fs1 args')) = fs1.
Proof. intros. reflexivity. Qed.
Lemma remove_first_length : forall x fs, length (remove_first x fs) <= length fs.
Proof. intros x fs. induction fs as [|y fs IH]; [reflexivity|]. cbn [remove_first]. destruct (filter_eqb y x); cbn [length]; lia. Qed.

(** ** memoized on methods *)
Section Methods.
  Context {O A V : Type}.
  Variables (same_o : O -> O -> bool) (same_a : A -> A -> bool) (hashable : O * A -> bool) (f : O * A -> res V).
  Definition both_same (x y : O * A) : bool := same_o (fst x) (fst y) && same_a (snd x) (snd y).
  Lemma both_equivalence : equivalence same_o -> equivalence same_a -> equivalence both_same.
  Proof.
    intros (R1 & S1 & T1) (R2 & S2 & T2). unfold both_same. split; [|split].
    - intros a. rewrite R1, R2. reflexivity.
    - intros a b. rewrite S1, S2. reflexivity.
    - intros a b c H1 H2. apply andb_true_iff in H1 as [H1 H1']. apply andb_true_iff in H2 as [H2 H2']. rewrite (T1 _ _ _ H1 H2), (T2 _ _ _ H1' H2'). reflexivity.
  Qed.
  Lemma method_calls_memo : forall l m, method_calls same_o same_a hashable f m l = memo_calls both_same hashable f m l.
  Proof.
    induction l as [|[o a] l IH]; intros m; [reflexivity|]. cbn [method_calls memo_calls]. unfold method_call.
    change (fun x y : O * A => same_o (fst x) (fst y) && same_a (snd x) (snd y)) with both_same.
    destruct (memo_call both_same hashable f m (o, a)) as [m1 r]. rewrite IH. reflexivity.
  Qed.
  Lemma c114 : equivalence same_o -> equivalence same_a ->
    (forall o o' a a', hashable (o, a) = true -> hashable (o', a') = true -> same_o o o' = true -> same_a a a' = true -> f (o, a) = f (o', a')) ->
    forall l m rs, Forall (fun x => hashable x = true) l -> method_calls same_o same_a hashable f memo_new l = (m, rs) ->
    rs = map f l /\ evaluated_once (fun x y => same_o (fst x) (fst y) && same_a (snd x) (snd y)) (m_evals m) (fun x => exists v, f x = Ok v).
  Proof.
    intros Ho Ha Hf l m rs Hl H. rewrite method_calls_memo in H. change (rs = map f l /\ evaluated_once both_same (m_evals m) (fun x => exists v, f x = Ok v)).
    apply (c54 both_same hashable f (both_equivalence Ho Ha)) with (l := l); [|exact Hl|exact H].
    intros [o a] [o' a'] H1 H2 H3. apply andb_true_iff in H3 as [H3 H4]. apply Hf; assumption.
  Qed.
End Methods.

(** Objects equal by their identifier: the second one gets the first one's value. *)
Definition w_obj : Type := nat * Z.
Definition w_obj_same (x y : w_obj) : bool := Nat.eqb (fst x) (fst y).
Definition w_method (x : w_obj * nat) : res Z := Ok (snd (fst x) + Z.of_nat (snd x))%Z.
Lemma w_obj_equivalence : equivalence w_obj_same.
Proof.
  unfold w_obj_same. split; [intros; apply Nat.eqb_refl|]. split; [intros; apply Nat.eqb_sym|].
  intros a b c H1 H2. apply Nat.eqb_eq in H1. apply Nat.eqb_eq in H2. apply Nat.eqb_eq. congruence.
Qed.

(** ** Tests *)
Local Open Scope R_scope.
Lemma ten_to_pow : forall p, ten_to p = Fin (10 ^ p).
Proof. induction p as [|p IH]; [reflexivity|]. cbn [ten_to]. rewrite IH. reflexivity. Qed.
Lemma pow_pos10 : forall p, 0 < 10 ^ p.
Proof. intros. apply pow_lt. lra. Qed.
Lemma infmul_pos : forall b r, 0 < r -> ef_infmul b r = if b then PInf else NInf.
Proof.
  intros b r H. unfold ef_infmul, Rltb. destruct (Req_EM_T r 0); [lra|]. destruct (Rlt_dec 0 r); [|contradiction]. destruct b; reflexivity.
Qed.
Lemma scaled_inf : forall p, nleb (nmul (nofZ 2) (nmul PInf (ten_to p))) (nofZ 1) = false.
Proof.
  intros p. rewrite ten_to_pow. change (nmul PInf (Fin (10 ^ p))) with (ef_infmul true (10 ^ p)). rewrite infmul_pos by apply pow_pos10.
  change (nmul (nofZ 2) PInf) with (ef_infmul true 2). rewrite infmul_pos by lra. reflexivity.
Qed.
Lemma scaled_nan : forall p, nleb (nmul (nofZ 2) (nmul NaN (ten_to p))) (nofZ 1) = false.
Proof. intros p. rewrite ten_to_pow. reflexivity. Qed.
Lemma scaled_fin : forall p d, nleb (nmul (nofZ 2) (nmul (Fin d) (ten_to p))) (nofZ 1) = true <-> d <= / 2 * / 10 ^ p.
Proof.
  intros p d. rewrite ten_to_pow. change (Rleb (2 * (d * 10 ^ p)) 1 = true <-> d <= / 2 * / 10 ^ p). unfold Rleb.
  assert (Hp := pow_pos10 p). assert (E : d = / 2 * (2 * (d * 10 ^ p)) * / 10 ^ p) by (field; lra).
  assert (Hi : 0 < / 10 ^ p) by (apply Rinv_0_lt_compat; exact Hp).
  destruct (Rle_dec (2 * (d * 10 ^ p)) 1) as [H|H]; split; intros G; try reflexivity; try discriminate G.
  - rewrite E. apply Rmult_le_compat_r; lra.
  - exfalso. apply H. apply Rmult_le_compat_r with (r := 10 ^ p) in G; [|lra]. rewrite Rmult_assoc, Rinv_l in G by lra. lra.
Qed.
(** A comparison passes, fails, or is refused. *)
Lemma assert_true : forall b, assert_ b = Ok tt <-> b = true.
Proof. intros []; cbn; split; congruence. Qed.
Lemma assert_cases : forall b, assert_ b = Ok tt \/ assert_ b = Err AssertionError.
Proof. intros []; [left|right]; reflexivity. Qed.
Lemma compare_type : forall x : almost ef, unittest_almost (al_first x) (al_second x) (al_places x) (al_delta x) = Err TypeError <-> confused x.
Proof.
  intros x. unfold unittest_almost, confused. destruct (neqb (al_first x) (al_second x)).
  - split; [discriminate|]. intros (_ & _ & H). discriminate H.
  - destruct (al_delta x) as [d|]; destruct (al_places x) as [p|].
    + split; [intros _; repeat split; discriminate|reflexivity].
    + split; [|intros (_ & H & _); congruence]. destruct (assert_cases (nleb (nabs (nsub (al_first x) (al_second x))) d)) as [->| ->]; discriminate.
    + split; [|intros (H & _); congruence]. cbv zeta. destruct (assert_ _) as [[]|[]] eqn:E; try discriminate.
      destruct (assert_cases (nleb (nmul (nofZ 2) (nmul (nabs (nsub (al_first x) (al_second x))) (ten_to p))) (nofZ 1))) as [E2|E2]; congruence.
    + split; [|intros (H & _); congruence]. cbv zeta. destruct (assert_ _) as [[]|[]] eqn:E; try discriminate.
      destruct (assert_cases (nleb (nmul (nofZ 2) (nmul (nabs (nsub (al_first x) (al_second x))) (ten_to 7))) (nofZ 1))) as [E2|E2]; congruence.
Qed.
Lemma compare_cases : forall x : almost ef, let r := unittest_almost (al_first x) (al_second x) (al_places x) (al_delta x) in
  r = Ok tt \/ r = Err AssertionError \/ r = Err TypeError.
Proof.
  intros x r. subst r. unfold unittest_almost. destruct (neqb _ _); [left; reflexivity|]. destruct (al_delta x) as [d|], (al_places x) as [p|]; cbv zeta; try (right; right; reflexivity);
    match goal with |- assert_ ?b = _ \/ _ => destruct (assert_cases b) as [E|E]; [left; exact E|right; left; exact E] end.
Qed.
Lemma compare_close : forall x : almost ef, proper x -> (unittest_almost (al_first x) (al_second x) (al_places x) (al_delta x) = Ok tt <-> close x).
Proof.
  intros [a b pl de]. unfold proper, close, tolerance, unittest_almost. cbn [al_first al_second al_places al_delta]. intros H.
  assert (K : forall d : ef, (match de, pl with
    | Some _, Some _ => Err TypeError
    | Some d0, None => assert_ (nleb d d0)
    | None, _ => assert_ (nleb (nmul (nofZ 2) (nmul d (ten_to (match pl with Some p => p | None => 7%nat end)))) (nofZ 1)) end = Ok tt <->
    match d with Fin r => r <= match de with Some d0 => toR d0 | None => / 2 * / 10 ^ (match pl with Some p => p | None => 7%nat end) end | PInf | NaN => False | NInf => True end) \/ d = NInf).
  { intros d. destruct de as [d0|].
    - destruct H as [H ->]. destruct d0 as [r0| | |]; try contradiction. rewrite assert_true. destruct d as [r| | |]; [|left; split; [discriminate|contradiction]|right; reflexivity|left; split; [discriminate|contradiction]].
      left. cbn [toR]. change (nleb (Fin r) (Fin r0)) with (Rleb r r0). unfold Rleb. destruct (Rle_dec r r0); split; congruence || contradiction.
    - rewrite assert_true. destruct d as [r| | |]; [left; apply scaled_fin|left; rewrite scaled_inf; split; [discriminate|contradiction]|right; reflexivity|left; rewrite scaled_nan; split; [discriminate|contradiction]]. }
  assert (K' := K (nabs (nsub a b))). clear K.
  assert (Hn : nabs (nsub a b) <> NInf) by (destruct a, b; discriminate).
  destruct K' as [K'|K']; [|contradiction].
  destruct a as [ra| | |], b as [rb| | |]; cbn [neqb Num_ef ef_eqb] in *; try (rewrite K'; cbn; split; intros; contradiction); try (split; [intros _; exact I|reflexivity]).
  unfold Reqbb. destruct (Req_EM_T ra rb) as [E|E]; [split; [intros _; left; exact E|reflexivity]|].
  rewrite K'. cbn. split; [intros G; right; exact G|intros [G|G]; [contradiction|exact G]].
Qed.

Definition step (n : nat) (x : almost ef) : res nat := my_almost n (al_first x) (al_second x) (al_places x) (al_delta x).
Lemma step_cases : forall n x, (step n x = Ok n /\ unittest_almost (al_first x) (al_second x) (al_places x) (al_delta x) = Ok tt) \/
  (step n x = Ok (S n) /\ unittest_almost (al_first x) (al_second x) (al_places x) (al_delta x) = Err AssertionError) \/ (step n x = Err TypeError /\ confused x).
Proof.
  intros n x. unfold step, my_almost. destruct (compare_cases x) as [E|[E|E]]; rewrite E; [left; split; reflexivity|right; left; split; reflexivity|].
  right; right. split; [reflexivity|]. apply compare_type. exact E.
Qed.
Lemma proper_not_confused : forall x, proper x -> ~ confused x.
Proof. intros x H (H1 & H2 & _). unfold proper in H. destruct (al_delta x); [destruct H; contradiction|congruence]. Qed.
Lemma fold_count : forall l n, Forall proper l -> exists flags, Forall2 (fun x b => b = true <-> close x) l flags /\
  foldM step l n = Ok (n + count_occ Bool.bool_dec flags false)%nat.
Proof.
  induction l as [|x l IH]; intros n H; [exists []; split; [constructor|cbn; f_equal; lia]|]. inversion H as [|? ? Hx Hl]; subst. cbn [foldM].
  destruct (step_cases n x) as [[-> E]|[[-> E]|[_ E]]].
  - destruct (IH n Hl) as (fl & H1 & H2). exists (true :: fl). split; [constructor; [|exact H1]; split; [intros _; apply (compare_close x Hx); exact E|reflexivity]|].
    cbn [bind count_occ]. rewrite H2. destruct (Bool.bool_dec true false); [discriminate|]. reflexivity.
  - destruct (IH (S n) Hl) as (fl & H1 & H2). exists (false :: fl). split; [constructor; [|exact H1]; split; [discriminate|intros G; apply (compare_close x Hx) in G; congruence]|].
    cbn [bind count_occ]. rewrite H2. destruct (Bool.bool_dec false false); [|congruence]. f_equal. lia.
  - exfalso. exact (proper_not_confused x Hx E).
Qed.
Lemma flags_all : forall l flags, Forall2 (fun x b => b = true <-> close x) l flags -> (count_occ Bool.bool_dec flags false = 0%nat <-> Forall close l).
Proof.
  intros l flags H. induction H as [|x b l fl Hb H IH]; [split; [constructor|reflexivity]|]. cbn [count_occ]. destruct b.
  - destruct (Bool.bool_dec true false); [discriminate|]. rewrite IH. split; [intros G; constructor; [apply Hb; reflexivity|exact G]|intros G; inversion G; assumption].
  - destruct (Bool.bool_dec false false); [|congruence]. split; [discriminate|]. intros G. inversion G as [|? ? G1 _]; subst. apply Hb in G1. discriminate G1.
Qed.
Lemma c115_collects : forall l, Forall proper l -> exists flags, Forall2 (fun x b => b = true <-> close x) l flags /\
  my_comparisons l = Ok (count_occ Bool.bool_dec flags false).
Proof. intros l H. exact (fold_count l 0%nat H). Qed.
Lemma c115 : forall l, Forall proper l -> (my_test l = Ok tt <-> Forall close l) /\ (my_test l = Err AssertionError <-> ~ Forall close l).
Proof.
  intros l H. destruct (c115_collects l H) as (fl & H1 & H2). unfold my_test. rewrite H2. cbn [bind]. rewrite <- (flags_all l fl H1).
  destruct (count_occ Bool.bool_dec fl false) as [|n]; cbn; split; split; intros; congruence.
Qed.
Lemma c115_type : forall l, my_test l = Err TypeError <-> Exists confused l.
Proof.
  intros l. unfold my_test, my_comparisons. change (fun (n : nat) (x : almost ef) => my_almost n (al_first x) (al_second x) (al_places x) (al_delta x)) with step.
  assert (A : forall k, (do n <- foldM step l k; assert_ (Nat.eqb n 0)) = Err TypeError <-> Exists confused l); [|apply A].
  induction l as [|x l IH]; intros n.
  - split; intros G; [|inversion G]. destruct n; discriminate G.
  - cbn [foldM]. destruct (step_cases n x) as [[-> E]|[[-> E]|[-> E]]]; cbn [bind].
    + rewrite IH. split; [intros G; right; exact G|]. intros G. inversion G as [? ? C|]; subst; [apply compare_type in C; congruence|assumption].
    + rewrite IH. split; [intros G; right; exact G|]. intros G. inversion G as [? ? C|]; subst; [apply compare_type in C; congruence|assumption].
    + split; [intros _; left; exact E|reflexivity].
Qed.

(** ** What a warning meets is one thing *)
Lemma meets_action : forall fs a, meets fs a -> a = action_for fs.
Proof.
  induction fs as [|[b c] fs IH]; intros a H.
  - destruct H as [(l1 & c & l2 & E & _)|[H _]]; [destruct l1; discriminate E|exact H].
  - assert (D : concerns c \/ ~ concerns c) by (destruct c; [left; left; reflexivity|right; intros [H1|H1]; discriminate H1|left; right; reflexivity]).
    destruct D as [D|D].
    + assert (E : action_for ((b, c) :: fs) = b) by (destruct D as [-> | ->]; reflexivity). rewrite E.
      destruct H as [(l1 & c' & l2 & H1 & H2 & H3)|[_ H]].
      * destruct l1 as [|x l1]; [cbn in H1; congruence|]. cbn [app] in H1. injection H1 as <- _. inversion H3; subst. contradiction.
      * inversion H; subst. contradiction.
    + assert (E : action_for ((b, c) :: fs) = action_for fs) by (destruct c; [exfalso; apply D; left; reflexivity|reflexivity|exfalso; apply D; right; reflexivity]). rewrite E.
      apply IH. destruct H as [(l1 & c' & l2 & H1 & H2 & H3)|[H1 H2]].
      * destruct l1 as [|x l1]; [cbn [app] in H1; congruence|]. cbn [app] in H1. injection H1 as <- ->. left. exists l1, c', l2. split; [reflexivity|]. split; [exact H2|]. inversion H3; assumption.
      * right. split; [exact H1|]. inversion H2; assumption.
Qed.
Lemma c113 : forall A V (func : A -> res V) fs args fs' a r, deprecated_call func fs args = (fs', a, r) ->
  r = func args /\ a = Always /\ meets fs' Default /\ (length fs' <= length fs + 2)%nat /\
  forall args', exists a' r', deprecated_call func fs' args' = (fs', a', r').
Proof.
  intros A V func fs args fs' a r H. unfold deprecated_call in H.
  assert (E1 : fs' = simplefilter Default Deprecation (simplefilter Always Deprecation fs)) by congruence.
  assert (E2 : a = Always) by (cbn in H; congruence). assert (E3 : r = func args) by congruence. clear H. split; [exact E3|]. split; [exact E2|].
  split; [rewrite E1; left; exists [], Deprecation; eexists; split; [reflexivity|]; split; [left; reflexivity|constructor]|]. split.
  - rewrite E1. unfold simplefilter. cbn [remove_first filter_eqb action_eqb fst andb length].
    assert (L1 := remove_first_length (Default, Deprecation) (remove_first (Always, Deprecation) fs)). assert (L2 := remove_first_length (Always, Deprecation) fs). lia.
  - intros args'. rewrite E1. do 2 eexists. reflexivity.
Qed.
Lemma c113_refuted : exists (fs fs' : list (action * category)) a b r, deprecated_call (fun n : nat => Ok (S n)) fs 1%nat = (fs', b, r) /\ meets fs a /\ ~ meets fs' a.
Proof.
  exists [(Ignore, AnyWarning)]. do 4 eexists. split; [reflexivity|]. split; [exact (action_for_meets _)|]. intros H. apply meets_action in H. discriminate H.
Qed.

(** ** Files: a conversion whose options are lost *)
Definition y_wide : convkw ef := ConvKw (Some "1920"%string) None None None None None.
Lemma c110_refuted : exists (ds d : dataset ef string) kw path (f f' : files ef), to_dictionary_style_dataset ds (ds_dis ds) kw = Ok d /\
  to_dictionary_style_dataset_file ds (ds_dis ds) kw path f = (f', Ok tt) /\ ~ holds f' path d.
Proof.
  exists y_tie. eexists. exists y_wide, "out.py"%string, (fun _ => None). eexists. split; [vm_compute; reflexivity|]. split; [unfold to_dictionary_style_dataset_file; vm_compute; reflexivity|].
  intros (d' & H1 & _ & _ & _ & _ & H2). cbn in H1. assert (E := proj2 (H2 "quality_width" "1920")%string).
  assert (P : In ("quality_width", "1920")%string (ds_attrs d')).
  { apply E. split; [right; left; reflexivity|]. intros r Hr. discriminate Hr. }
  injection H1 as <-. cbn in P. destruct P as [P|P]; [discriminate P|contradiction].
Qed.

(** ** Paths *)
Lemma c112 : forall root comps, Forall (fun c => String.prefix "/" c = false) comps ->
  (exists x, root_path root comps = root ++ x)%string /\
  (exists x, workspace_path root comps = path_join root "workspace" ++ x)%string /\
  (exists x, workdir_path root comps = path_join (path_join root "workspace") "workdir" ++ x)%string /\
  (exists x, resource_path root comps = path_join root "resource" ++ x)%string /\
  (exists x, test_resource_path root comps = path_join (path_join root "test") "resource" ++ x)%string.
Proof.
  intros root comps H. split; [apply os_joins_below; exact H|]. split; [exact (os_joins_below comps (path_join root "workspace") H)|].
  split; [exact (os_joins_below comps (path_join (path_join root "workspace") "workdir") H)|]. split; [exact (os_joins_below comps (path_join root "resource") H)|].
  exact (os_joins_below comps (path_join (path_join root "test") "resource") H).
Qed.
Lemma c112_refuted : exists root comps, forall x, workspace_path root comps <> (root ++ x)%string.
Proof. exists "/opt/sureal"%string, ["/tmp"%string]. intros x H. discriminate H. Qed.

Lemma c114_refuted : exists l m rs, equivalence w_obj_same /\ equivalence Nat.eqb /\
  method_calls w_obj_same Nat.eqb (fun _ => true) w_method memo_new l = (m, rs) /\ rs <> map w_method l.
Proof.
  exists [((7%nat, 10%Z), 1%nat); ((7%nat, 20%Z), 1%nat)]. do 2 eexists. split; [exact w_obj_equivalence|].
  split; [split; [apply Nat.eqb_refl|]; split; [apply Nat.eqb_sym|]; intros a b c H1 H2; apply Nat.eqb_eq in H1; apply Nat.eqb_eq in H2; apply Nat.eqb_eq; congruence|].
  split; [vm_compute; reflexivity|]. discriminate.
Qed.
