(** Model of sureal/subjective_model.py:99-351: reference scores, the
    preprocessing steps (differential scoring, z-scoring, bias removal, subject
    rejection) and the final post-processing. *)
From Coq Require Import String.
From Coq Require Import List ZArith Bool Arith.
From Verif Require Import PyBase Num NumPy Dataset.
Import ListNotations.
Local Open Scope list_scope.

(** subject_rejection_type (sureal/subjective_model.py:176-184). *)
Inductive rejtype := Kurtosis | Pearson | Spearman | OtherRej.

(** Keyword arguments of run_modeling.  Flags are booleans; an absent flag is
    False (sureal/subjective_model.py:162-176). *)
Record kwargs (T : Type) := KW {
  kw_dscore : bool; kw_zscore : bool; kw_bias : bool;
  kw_rej : bool; kw_rejtype : option rejtype;
  kw_normalize_final : bool;
  kw_transform_final : option (option T * option T * option T)  (* p2, p1, p0 *)
}.
Arguments KW {T}.
Arguments kw_dscore {T}. Arguments kw_zscore {T}. Arguments kw_bias {T}.
Arguments kw_rej {T}. Arguments kw_rejtype {T}.
Arguments kw_normalize_final {T}. Arguments kw_transform_final {T}.

Section Preproc.
  Context {T : Type} {N : Num T}.
  Local Open Scope num_scope.

  (** sureal/tools/misc.py:80-92 indices. *)
  Definition indices {A} (l : list A) (f : A -> bool) : list nat :=
    map fst (filter (fun iv => f (snd iv)) (enumerate l)).

  (** sureal/subjective_model.py:99-117 _get_ref_mos.  [all_dvs] is
      dataset_reader.dataset.dis_videos, [dvs] the reader's dis_videos. *)
  Definition get_ref_mos (refs : list rvideo) (all_dvs dvs : list (dvideo T string))
             (mos : list T) : res (list T) :=
    mapM (fun dv =>
      do isref <- disvideo_is_refvideo refs dvs;
      let idx := indices (combine (content_id_of_dis_videos dvs) isref)
                         (fun p => snd p && Z.eqb (fst p) (dv_cid dv)) in
      do _ <- assert_ (Nat.eqb (length idx) 1);
      py_index mos (hd 0 idx)) all_dvs.

  (** sureal/subjective_model.py:195-198: s_esr + ref_score - ref_mos[e].
      numpy raises ValueError when the reference vector has another length
      (other than 1) than the array. *)
  Definition dscore (refs : list rvideo) (all_dvs dvs : list (dvideo T string))
             (ref_score : T) (a : arr3 T) : res (arr3 T) :=
    let mos := along1 np_nanmean (stack1 a) in
    do rm <- get_ref_mos refs all_dvs dvs mos;
    if Nat.eqb (length rm) (dE a)
    then Ok (map3 (fun e s r x => x + ref_score - vat rm e) a)
    else Err ValueError.

  (** sureal/subjective_model.py:200-204. *)
  Definition zscore (a : arr3 T) : arr3 T :=
    let mu := along0 np_nanmean (stack0 a) in
    let sd := along0 (np_nanstd 1) (stack0 a) in
    map3 (fun e s r x => (x - vat mu s) / vat sd s) a.

  (** sureal/subjective_model.py:206-215: per-subject bias estimates. *)
  Definition bias_estimate (a : arr3 T) : list T :=
    let mos := along1 np_nanmean (stack1 a) in
    along0 np_nanmean (stack0 (map3 (fun e s r x => x - vat mos e) a)).

  (** sureal/subjective_model.py:217-218. *)
  Definition remove_bias (a : arr3 T) (delta : list T) : arr3 T :=
    map3 (fun e s r x => x - vat delta s) a.

  (** sureal/subjective_model.py:229-248: thresholds of one video. *)
  Definition outlier_bounds (row : list T) : T * T :=
    let l := notnan row in
    let mu := np_mean l in
    let sigma := np_std l in
    let kurt := sp_kurtosis l in
    let c := if (nofZ 2 <=? kurt) && (kurt <=? nofZ 4) then nofZ 2 else nsqrt (nofZ 20) in
    (mu + c * sigma, mu - c * sigma).

  Definition count_if {A} (f : A -> bool) (l : list A) : nat := length (filter f l).

  (** sureal/subjective_model.py:226-248: ps[s] and qs[s].  The loop increments
      ps[idx % S]; written as the count of the positions with idx % S = s. *)
  Definition outlier_counts (a : arr3 T) (s : nat) : nat * nat :=
    let st := stack1 a in
    let rows := map (fun e => (outlier_bounds (row st e), row st e)) (seq 0 (n0 st)) in
    let cnt (test : T * T -> T -> bool) :=
      list_sum (map (fun br : (T * T) * list T =>
        count_if (fun iv => Nat.eqb (fst iv mod dS a) s && negb (nisnan (snd iv))
                            && test (fst br) (snd iv))
                 (enumerate (snd br))) rows) in
    (cnt (fun b x => fst b <=? x), cnt (fun b x => x <=? snd b)).

  (** sureal/subjective_model.py:254-258. *)
  Definition reject_stats (a : arr3 T) (s : nat) : T * T :=
    let '(p, q) := outlier_counts a s in
    ( (nofnat p + nofnat q) / nofnat (dE a * dR a),
      nabs ((nofnat p - nofnat q) / (nofnat p + nofnat q)) ).
  Definition reject_test (st : T * T) : bool :=
    (ndec 5 100 <? fst st) && (snd st <? ndec 3 10).

  (** s_esr[:, idx, :] for a list of column indices. *)
  Definition select_cols (a : arr3 T) (cols : list nat) : arr3 T :=
    Arr3 (dE a) (length cols) (dR a) (fun e s r => at3 a e (nth s cols 0) r).

  (** Subject rejection result: array, flags, first and second statistics. *)
  Definition rejres : Type := (arr3 T * list bool * list T * list T)%type.

  (** sureal/subjective_model.py:223-277. *)
  Definition reject_kurtosis (a : arr3 T) : rejres :=
    let S := dS a in
    let sts := map (reject_stats a) (seq 0 S) in
    let rej0 := filter (fun s => reject_test (nth s sts (nnan, nnan))) (seq 0 S) in
    let acc0 := filter (fun s => negb (reject_test (nth s sts (nnan, nnan)))) (seq 0 S) in
    let '(rej, acc) := if Nat.eqb (length rej0) S then ([], acc0 ++ rej0) else (rej0, acc0) in
    (select_cols a acc,
     map (fun s => memb Nat.eqb s rej) (seq 0 S),
     map fst sts, map snd sts).

  (** scipy.stats.pearsonr statistic: ValueError below two points, NaN when
      one side is constant (0/0).  scipy's final clipping to [-1, 1] and its
      n = 2 shortcut do not change the exact value. *)
  Definition sp_pearsonr (x y : list T) : res T :=
    if Nat.ltb (length x) 2 then Err ValueError else
    let mx := np_mean x in let my := np_mean y in
    let xm := map (fun v => v - mx) x in
    let ym := map (fun v => v - my) y in
    Ok (np_sum (map (fun p => fst p * snd p) (combine xm ym))
        / (nsqrt (np_sum (map nsq xm)) * nsqrt (np_sum (map nsq ym)))).

  (** scipy.stats.rankdata (average ranks). *)
  Definition rankdata (l : list T) : list T :=
    map (fun x => (nofnat (count_if (fun y => y <? x) l)
                   + (nofnat (count_if (fun y => y =? x) l) + none_) / nofZ 2)) l.

  (** scipy.stats.spearmanr statistic: NaN below two points. *)
  Definition sp_spearmanr (x y : list T) : res T :=
    if Nat.ltb (length x) 2 then Ok nnan else sp_pearsonr (rankdata x) (rankdata y).

  (** sureal/subjective_model.py:280-294: correlation of each observer with the
      mean opinion score. *)
  Definition observer_corr (corr : list T -> list T -> res T) (a : arr3 T) : res (list T) :=
    let ses e s := np_nanmean (map (fun r => at3 a e s r) (seq 0 (dR a))) in
    let mos := map (fun e => np_nanmean (map (ses e) (seq 0 (dS a)))) (seq 0 (dE a)) in
    mapM (fun s =>
      let keep := filter (fun e => negb (nisnan (ses e s))) (seq 0 (dE a)) in
      corr (map (fun e => ses e s) keep) (map (fun e => vat mos e) keep))
      (seq 0 (dS a)).

  (** sureal/subjective_model.py:296-306. *)
  Definition corr_threshold (r : list T) : T :=
    if ndec 7 10 <? np_mean r - np_std r then ndec 7 10 else np_mean r - np_std r.
  Definition reject_corr (corr : list T -> list T -> res T) (a : arr3 T) : res rejres :=
    do r <- observer_corr corr a;
    let thr := corr_threshold r in
    Ok (select_cols a (filter (fun s => thr <? vat r s) (seq 0 (dS a))),
        map (fun x => x <=? thr) r,
        r, map (fun _ => nzero) r).

  (** Result of the preprocessing (sureal/subjective_model.py:158, 311-314). *)
  Record ppres := PP {
    pp_arr : arr3 T; pp_orig : arr3 T;
    pp_bias : option (list T);
    pp_rej : option (list bool * list T * list T) }.

  (** A reader as seen by the models: dataset, its dis_videos property and its
      opinion_score_3darray property. *)
  Record reader := Reader {
    rd_ds : dataset T string; rd_dvs : list (dvideo T string); rd_arr : res (arr3 T) }.

  (** sureal/subjective_model.py:151-314. *)
  Definition preprocess (rd : reader) (kw : kwargs T) : res ppres :=
    do a0 <- rd_arr rd;
    do _ <- (if kw_rej kw
             then match kw_rejtype kw with
                  | Some OtherRej => Err AssertionError | _ => Ok tt end
             else match kw_rejtype kw with None => Ok tt | Some _ => Err AssertionError end);
    do _ <- assert_ (negb (kw_zscore kw && kw_bias kw));
    do a1 <- (if kw_dscore kw then
                match ds_ref_score (rd_ds rd) with
                | None => Err AttributeError
                | Some None => Err AssertionError
                | Some (Some rs) => dscore (ds_refs (rd_ds rd)) (ds_dis (rd_ds rd)) (rd_dvs rd) rs a0
                end
              else Ok a0);
    let a2 := if kw_zscore kw then zscore a1 else a1 in
    let delta := bias_estimate a2 in
    let a3 := if kw_bias kw then remove_bias a2 delta else a2 in
    let bias := if kw_bias kw then Some delta else None in
    if kw_rej kw then
      do rr <- match kw_rejtype kw with
               | None | Some Kurtosis => Ok (reject_kurtosis a3)
               | Some Pearson => reject_corr sp_pearsonr a3
               | Some Spearman => reject_corr sp_spearmanr a3
               | Some OtherRej => Err AssertionError
               end;
      let '(a4, flags, st1, st2) := rr in
      Ok (PP a4 a0 bias (Some (flags, st1, st2)))
    else Ok (PP a3 a0 bias None).

  (** sureal/subjective_model.py:316-351 _postprocess_model_result, on the
      quality_scores entry. *)
  Definition postprocess (kw : kwargs T) (q : list T) : list T :=
    let q1 := if kw_normalize_final kw
              then let mu := np_mean q in let sd := np_std q in
                   map (fun x => (x - mu) / sd) q
              else q in
    match kw_transform_final kw with
    | None => q1
    | Some (p2, p1, p0) =>
        map (fun x =>
          let o := nzero in
          let o := match p2 with Some c => o + c * x * x | None => o end in
          let o := match p1 with Some c => o + c * x | None => o end in
          match p0 with Some c => o + c | None => o end) q1
    end.
End Preproc.
Arguments ppres : clear implicits.
Arguments reader : clear implicits.
