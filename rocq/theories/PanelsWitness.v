(** Examples for claims C102 and C103. *)
From Coq Require Import String.
From Coq Require Import List ZArith Bool Arith Reals Lra Lia.
From Verif Require Import PyBase Num ExtReal BaseProofs Perf Runs SpecMos SpecPerf SpecRuns Panels SpecPanels PanelsProofs Panels2Proofs.
Import ListNotations.
Local Open Scope list_scope.
Local Open Scope R_scope.

Definition w_truths : truths ef := Truths (Syn (Some [Fin 1; Fin 3]) (Some [Fin 0; Fin 1; Fin 2]) None) None (Some [Fin 1]).
Definition w_a : vfull ef := VFull (VRes (Est (Some [Fin 2; Fin 3]) (Some [[Fin 1; Fin 1]; [Fin 1; Fin 1]])) (Est (Some [Fin 0; Fin 0; Fin 1]) None) (Est (Some [Fin 1]) None)) None None.
Definition w_b : vfull ef := VFull (VRes (Est (Some [Fin 1; Fin 4]) None) (Est None None) (Est None None)) (Some [Fin 1]) (Some [Fin 2]).
Definition w_runs : list (string * vfull ef) := [("A"%string, w_a); ("B"%string, w_b)].
Definition w_models : list (string * res (vfull ef)) := [("A"%string, Ok w_a); ("B"%string, Ok w_b)].

Lemma w_comparable : forall r e, In r w_runs -> In e (compared w_truths (snd r)) -> comparable e.
Proof.
  intros r e [<-|[<-|[]]]; cbn [snd compared w_truths w_a w_b In tr_syn tr_std tr_ambiguity sy_quality sy_bias sy_incons vf_res vf_std vf_ambiguity v_quality v_bias v_incons];
    intros [<-|[<-|[<-|[<-|[<-|[]]]]]] xs ys X Y; cbn [fst snd es_value es_ci] in *; try discriminate; injection X as <-; injection Y as <-;
    (split; [discriminate|split; [reflexivity|split; [|split]]]); try (intros ci Hc; try discriminate; injection Hc as <-; eexists _, _; repeat split).
  - exists [1; 3]. reflexivity.
  - exists [2; 3]. reflexivity.
  - exists [0; 1; 2]. reflexivity.
  - exists [0; 0; 1]. reflexivity.
  - exists [1; 3]. reflexivity.
  - exists [1; 4]. reflexivity.
  - exists [1]. reflexivity.
  - exists [2]. reflexivity.
Qed.
Lemma w_due : map (fun d => (fst d, fst (fst (snd d)))) (flat_map (due ["observer_bias"; "quality_scores"]%string w_truths) w_runs) =
    [("A", "quality_scores"); ("A", "observer_bias"); ("B", "quality_scores")]%string.
Proof. reflexivity. Qed.
Lemma w_figures : exists d ps, validate_figures ["observer_bias"; "quality_scores"]%string [] [] true None w_models w_truths = Ok (d, ps) /\ length ps = 3%nat.
Proof.
  destruct (figures_all ["observer_bias"; "quality_scores"]%string [] [] true w_truths None w_models w_runs I) as (d & ps & E & _ & F); [repeat constructor|exact w_comparable|].
  exists d, ps. split; [exact E|]. rewrite <- (Forall2_len _ _ _ _ _ F). reflexivity.
Qed.
Definition w_cut : panel ef := Panel "observer_bias" "A" "black" "." [(Fin 1, Fin 4); (Fin 2, Fin 5)] None (Fin (distance [1; 2] [4; 5])) None (Fin 1, Fin 2).
Lemma w_cut_shows : In "observer_bias"%string ["observer_bias"%string] /\ [1; 2; 3] <> [] /\ [4; 5] <> [] /\
  shows_pairs (firstn 2 [1; 2; 3]) (firstn 3 [4; 5]) w_cut.
Proof.
  split; [left; reflexivity|]. split; [discriminate|]. split; [discriminate|]. cbn [firstn]. unfold shows_pairs, w_cut. cbn [pa_points pa_rmse pa_diagonal]. split; [reflexivity|]. split.
  - intros [|[|[|i]]] u v U V; cbn in *; congruence.
  - split; [reflexivity|]. exists 1, 2. split; [|split; [|reflexivity]]; (split; [cbn; auto|]); intros x [<-|[<-|[]]]; lra.
Qed.

Definition w_sample (k : nat) (ds : unit) (f : option ef) (m : string) : res (list (list (option (list ef)))) :=
  Ok [[Some (map Fin (if String.eqb m "B" then [2; 2; 5] else [1; 2; 4]))]].
Lemma w_scatter : exists s, scatter_dataset w_sample ["A"]%string ["B"]%string None (Some (Fin (1/2))) 0 tt = Ok [[s]] /\
  shows_scores [1; 2; 4] [2; 2; 5] s /\ names "A" "B" None (Some (1/2)) s.
Proof.
  destruct (figure_of w_sample ["A"]%string ["B"]%string None (Some (1/2)) ltac:(discriminate) ltac:(intros x E; injection E as <-; lra)
    0 tt (fun _ => [1; 2; 4]) (fun _ => [2; 2; 5]) 3) as (cols & E & L & P); [lia|discriminate| | |].
  - intros [|[|i]] m H; try discriminate. injection H as <-. split; reflexivity.
  - intros [|[|i]] m H; try discriminate. injection H as <-. split; reflexivity.
  - destruct (P 0%nat _ _ eq_refl eq_refl) as (s & N & A & B). exists s. split; [|auto].
    cbn [option_map] in E. rewrite E. destruct cols as [|c [|? ?]]; try discriminate. cbn in N. congruence.
Qed.
Lemma w_left_out : exists (sample : nat -> unit -> option ef -> string -> res (list (list (option (list ef))))) targets compareds cols m,
  In m targets /\ scatter_dataset sample targets compareds None None 0 tt = Ok cols /\
  forall col s, In col cols -> In s col -> fst (sc_target s) <> m /\ fst (sc_compared s) <> m.
Proof.
  destruct (figure_of w_sample ["A"; "C"]%string ["B"]%string None None ltac:(discriminate) ltac:(discriminate)
    0 tt (fun _ => [1; 2; 4]) (fun _ => [2; 2; 5]) 3) as (cols & E & L & P); [lia|discriminate| | |].
  - intros [|[|[|i]]] m H; try discriminate; injection H as <-; split; reflexivity.
  - intros [|[|i]] m H; try discriminate. injection H as <-. split; reflexivity.
  - exists w_sample, ["A"; "C"]%string, ["B"]%string, cols, "C"%string. split; [right; left; reflexivity|]. split; [exact E|].
    destruct (P 0%nat _ _ eq_refl eq_refl) as (s & N & _ & A & B & _). destruct cols as [|c [|? ?]]; try discriminate. cbn in N. injection N as ->.
    intros col s' [<-|[]] [<-|[]]. rewrite A, B. split; discriminate.
Qed.
