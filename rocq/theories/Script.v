(** Model of resource/script/run_synthetic_validate_ci.py: the parameters of the
    validation with synthetic votes, and the averages over ten seeds. *)
From Coq Require Import String.
From Coq Require Import List ZArith Bool Arith.
From Verif Require Import PyBase Num NumPy Perf Runs Names Converter.
Import ListNotations.
Local Open Scope list_scope.

(** numpy's global generator for vectors: np.random.seed and a number of standard
    uniform or standard normal draws (run_synthetic_validate_ci.py:43, 76-81,
    101-105). *)
Record vrng (T G : Type) := VRng {
  v_seeded : Z -> G;
  v_uniform : nat -> G -> list T * G;
  v_normal : nat -> G -> list T * G }.
Arguments VRng {T G}. Arguments v_seeded {T G}. Arguments v_uniform {T G}. Arguments v_normal {T G}.

Section Script.
  Context {T : Type} {N : Num T} {G : Type} (rg : vrng T G).
  Local Open Scope num_scope.

  (** np.random.uniform(lo, hi, n) and np.random.normal(mu, sd, n). *)
  Definition draw_uniform (lo hi : T) (n : nat) (g : G) : list T * G :=
    let (l, g') := v_uniform rg n g in (map (fun u => lo + (hi - lo) * u) l, g').
  Definition draw_normal (mu sd : T) (n : nat) (g : G) : list T * G :=
    let (l, g') := v_normal rg n g in (map (fun z => mu + sd * z) l, g').

  (** The dictionary of parameters; an absent key is None
      (run_synthetic_validate_ci.py:75-86, 100-106). *)
  Record params := Params {
    p_quality : option (list T); p_bias : option (list T); p_incons : option (list T);
    p_cbias : option (list T); p_camb : option (list T); p_qamb : option (list T); p_qstd : option (list T) }.

  (** run_synthetic_validate_ci.py:74-86; np.abs of the uniform draws. *)
  Definition ambiguity_params (g : G) : params * G :=
    let (q, g1) := draw_uniform (nofZ 1) (nofZ 5) 79 g in
    let (b, g2) := draw_normal nzero nzero 30 g1 in
    let (i, g3) := draw_uniform nzero nzero 30 g2 in
    let (cb, g4) := draw_normal nzero nzero 9 g3 in
    let (ca, g5) := draw_uniform nzero nzero 9 g4 in
    let (qa, g6) := draw_uniform nzero none_ 79 g5 in
    let qa := map nabs qa in
    (Params (Some q) (Some b) (Some (map nabs i)) (Some cb) (Some (map nabs ca)) (Some qa)
            (Some (map (fun x => x / nsqrt (nofnat (length b))) qa)), g6).

  (** run_synthetic_validate_ci.py:99-106 *)
  Definition observer_params (g : G) : params * G :=
    let (q, g1) := draw_uniform (nofZ 1) (nofZ 5) 79 g in
    let (b, g2) := draw_normal nzero none_ 30 g1 in
    let (i, g3) := draw_uniform nzero none_ 30 g2 in
    let (cb, g4) := draw_normal nzero nzero 9 g3 in
    let (ca, g5) := draw_uniform nzero nzero 9 g4 in
    (Params (Some q) (Some b) (Some (map nabs i)) (Some cb) (Some (map nabs ca)) None None, g5).

  (** The option synthetic_result_dict (run_synthetic_validate_ci.py:45-121):
      absent or None, a dictionary, a string, or anything else. *)
  Inductive synth_option := SynNone | SynDict (d : params) | SynStr (s : string) | SynOther.

  (** The parameters and the keys of ax_dict, without ax_dict when [do_plot] is
      false (run_synthetic_validate_ci.py:52-121). *)
  Definition choose_params (o : synth_option) (g : G) : res (params * list string * G) :=
    match o with
    | SynDict d => Ok (d, ["quality_scores"; "quality_scores_std"; "quality_ambiguity"; "observer_bias"; "observer_inconsistency"]%string, g)
    | SynOther => Err AssertionError
    | _ =>
        let s := match o with SynStr s => s | _ => "quality_ambiguity"%string end in
        if String.eqb s "quality_ambiguity" then
          let (d, g') := ambiguity_params g in Ok (d, ["quality_scores"; "quality_scores_std"; "quality_ambiguity"]%string, g')
        else if String.eqb s "observer_only" then
          let (d, g') := observer_params g in Ok (d, ["quality_scores"; "observer_bias"; "observer_inconsistency"]%string, g')
        else Err AssertionError
    end.

  (** run_synthetic_validate_ci.py:123-125: the entry of the dictionary is
      changed in place. *)
  Definition zero_mean (force : bool) (d : params) : res params :=
    if force then
      match p_bias d with
      | Some b => let mu := np_mean b in
                  Ok (Params (p_quality d) (Some (map (fun x => x - mu) b)) (p_incons d) (p_cbias d) (p_camb d) (p_qamb d) (p_qstd d))
      | None => Err KeyError
      end
    else Ok d.

  (** 'bootstrap' in name.lower() (run_synthetic_validate_ci.py:47-50). *)
  Fixpoint contains (p s : string) : bool :=
    String.prefix p s || match s with EmptyString => false | String _ r => contains p r end.

  (** The options of the wrapper, with their defaults
      (run_synthetic_validate_ci.py:30-47). *)
  Record wrap_opts := WrapOpts { w_plot : bool; w_errorbar : bool; w_seed : Z; w_force : bool; w_synth : synth_option; w_bootstrap : option nat }.

  Section Wrapper.
    (** validate_with_synthetic_dataset on the public dataset, for class names, the
        parameters, the keys of ax_dict, do_errorbar and n_bootstrap. *)
    Variable V : Type.
    Variable validate : list string -> params -> option (list string) -> bool -> option nat -> G -> res (V * G).

    (** run_synthetic_validate_ci.py:26-140; returns what 'synthetic_result' is, what
        the validation returned, the caller's dictionary after the call (if there
        was one) and the generator. *)
    Definition validate_wrapper (classes : list string) (o : wrap_opts) (g : G) : res (params * V * option params * G) :=
      do g0 <- (if ((0 <=? w_seed o) && (w_seed o <? 4294967296))%Z then Ok (v_seeded rg (w_seed o)) else Err ValueError);
      do _ <- match w_bootstrap o with
              | Some _ => forM_ (fun c => assert_ (contains "bootstrap" (lower c))) classes
              | None => Ok tt
              end;
      do da <- choose_params (w_synth o) g0;
      let '(d, axes, g1) := da in
      do d' <- zero_mean (w_force o) d;
      do vg <- validate classes d' (if w_plot o then Some axes else None) (w_errorbar o) (w_bootstrap o) g1;
      Ok (d', fst vg, match w_synth o with SynDict _ => Some d' | _ => None end, snd vg).
  End Wrapper.

  Section Averages.
    Variable validate : list string -> params -> option (list string) -> bool -> option nat -> G -> res (vdict T * G).
    (** ret['results'][TYPE][key]: a missing key is a KeyError. *)
    Definition percentage (ty : string) (key : percents T -> option T) (d : vdict T) : res T :=
      do e <- dget_res String.eqb d ty;
      match key (snd e) with Some x => Ok x | None => Err KeyError end.

    (** run_synthetic_validate_ci.py:145-155, 169-179: ten seeds one after the other. *)
    Fixpoint seeds_run (cls : string) (o : string) (seeds : list Z) (g : G) : res (list (vdict T) * G) :=
      match seeds with
      | [] => Ok ([], g)
      | s :: ss =>
          do r <- validate_wrapper _ validate [cls] (WrapOpts true true s true (SynStr o) None) g;
          let '(_, v, _, g1) := r in
          do rest <- seeds_run cls o ss g1;
          Ok (v :: fst rest, snd rest)
      end.
    Definition ten_seeds : list Z := map Z.of_nat (seq 0 10).

    (** run_synthetic_validate_ci.py:143-164: the average printed at the end. *)
    Definition run_synthetic_validate_mos (g : G) : res (T * G) :=
      do r <- seeds_run "MosModel" "quality_ambiguity" ten_seeds g;
      do ps <- mapM (percentage "MOS" pc_quality) (fst r);
      Ok (np_mean ps, snd r).

    (** run_synthetic_validate_ci.py:167-194 *)
    Definition run_synthetic_validate_mleco (g : G) : res (T * T * T * G) :=
      do r <- seeds_run "MaximumLikelihoodEstimationModelContentOblivious" "observer_only" ten_seeds g;
      do ps <- mapM (fun d => do q <- percentage "MLE_CO" pc_quality d; do b <- percentage "MLE_CO" pc_bias d;
                              do i <- percentage "MLE_CO" pc_incons d; Ok (q, b, i)) (fst r);
      Ok (np_mean (map (fun x => fst (fst x)) ps), np_mean (map (fun x => snd (fst x)) ps), np_mean (map snd ps), snd r).
  End Averages.
End Script.
Arguments params : clear implicits. Arguments synth_option : clear implicits. Arguments wrap_opts : clear implicits.
