(** Concrete schedules, caches and hierarchies. *)
From Coq Require Import String.
From Coq Require Import List ZArith Bool Arith Lia.
From Verif Require Import PyBase Tools Classes SpecTools ClassesProofs.
Import ListNotations.
Local Open Scope list_scope.

(** Three jobs on two processes: jobs 1 and 0 start, 0 ends first, 2 starts. *)
Definition w_sched : list pm_event := [
  Parent 0; Parent 1; Parent 0; Store 1; Parent 1; Parent 0; Parent 0; Parent 0;
  Store 0; Exit 0; Parent 0; Parent 1; Parent 0; Parent 2; Parent 0;
  Exit 1; Store 2; Exit 2; Parent 1; Parent 2; Parent 0; Parent 0; Parent 0].
(** Numbers as Python writes them: 1 and 1.0 are equal keys. *)
Definition w_number := (Z * bool)%type.
Definition w_same (a b : w_number) : bool := Z.eqb (fst a) (fst b).
Definition w_float (a : w_number) : res bool := Ok (snd a).
(** Results 12 and 7, written in decimal. *)
Definition w_fun (a : nat) : res nat := Ok (match a with O => 12 | _ => 7 end).
Definition w_name (a : nat) : string := match a with O => "da39" | _ => "e5e6" end.
Definition w_dump (v : nat) : string * bool := (str_of_nat v, true).
Definition w_load (t : string) : res nat :=
  if String.eqb t "12" then Ok 12 else if String.eqb t "7" then Ok 7 else if String.eqb t "1" then Ok 1 else Err ValueError.
(** A list or a tuple; JSON writes both as an array. *)
Inductive w_seq := WList (n : nat) | WTuple (n : nat).
Definition w_seq_dump (v : w_seq) : string * bool := match v with WList n | WTuple n => (("[" ++ str_of_nat n ++ "]")%string, true) end.
Definition w_seq_load (t : string) : res w_seq := if String.eqb t "[3]" then Ok (WList 3) else Err ValueError.
(** A diamond: class 3 derives from 1 and 2, both from 0. *)
Definition w_diamond : hierarchy := [Klass "A" [] None; Klass "B" [0] (Some "b"); Klass "C" [0] (Some "c"); Klass "D" [1; 2] (Some "d")]%string.
Lemma w_diamond_ordered : defined_in_order w_diamond.
Proof. apply ordered_b_ok. vm_compute. reflexivity. Qed.
(** Two classes share a name. *)
Definition w_clash : hierarchy := [Klass "A" [] None; Klass "B" [0] (Some "b"); Klass "C" [1] (Some "b"); Klass "D" [1] (Some "d")]%string.
Lemma w_clash_ordered : defined_in_order w_clash. Proof. apply ordered_b_ok. vm_compute. reflexivity. Qed.
Lemma w_clash_tree : tree_below w_clash 0. Proof. apply tree_b_ok; vm_compute; reflexivity. Qed.
Definition w_argv : list string := ["sureal"; "--models"; "MOS"; "--dir"; "out"; "--models"; "P910"; "--print"]%string.

Definition f_hash (a : w_number) : bool := true.
Lemma nat_equivalence : equivalence Nat.eqb.
Proof.
  split; [exact Nat.eqb_refl|]. split; [exact Nat.eqb_sym|]. intros a b c H1 H2. apply Nat.eqb_eq in H1, H2. subst. apply Nat.eqb_refl.
Qed.
Lemma c54_equal : exists l m rs, Forall (fun a => f_hash a = true) l /\ memo_calls w_same f_hash w_float memo_new l = (m, rs) /\ rs <> map w_float l.
Proof.
  exists [(1%Z, false); (1%Z, true)]. eexists. eexists. split; [repeat constructor|]. split; [vm_compute; reflexivity|]. cbv. discriminate.
Qed.
Lemma c54_unhashable : exists (A V : Type) (same : A -> A -> bool) (hashable : A -> bool) (f : A -> res V) a v, equivalence same /\ f a = Ok v /\
  snd (memo_call same hashable f memo_new a) = Err TypeError.
Proof.
  exists nat, nat, Nat.eqb, (fun a => Nat.eqb a 0), (fun a => Ok a), 3, 3. split; [exact nat_equivalence|]. split; reflexivity.
Qed.
Lemma w_name_inj : forall a b, w_name a = w_name b -> w_fun a = w_fun b.
Proof. intros [|a] [|b]; cbn; intro H; try reflexivity; discriminate. Qed.
Lemma w_round : forall a v, w_fun a = Ok v -> snd (w_dump v) = true /\ w_load (fst (w_dump v)) = Ok v.
Proof. intros [|a] v H; cbn in H; injection H as <-; split; vm_compute; reflexivity. Qed.
Lemma c55_crash_refuted : exists l, (forall a b, w_name a = w_name b -> w_fun a = w_fun b) /\
  (forall a v, w_fun a = Ok v -> snd (w_dump v) = true /\ w_load (fst (w_dump v)) = Ok v) /\
  snd (persist_history w_name w_fun w_dump w_load [] l) <> answers w_fun l.
Proof. exists [Killed 0 (Some 0); Called 0]. split; [exact w_name_inj|]. split; [exact w_round|]. vm_compute. discriminate. Qed.
Lemma c55_truncated : snd (persist_history w_name w_fun w_dump w_load [] [Killed 0 (Some 1); Called 0]) = [(0, Ok 1)] /\ w_fun 0 = Ok 12.
Proof. split; vm_compute; reflexivity. Qed.
Lemma c55_tuple : exists f : nat -> res w_seq, snd (persist_history w_name f w_seq_dump w_seq_load [] [Called 0; Called 0]) = [(0, Ok (WTuple 3)); (0, Ok (WList 3))].
Proof. exists (fun _ => Ok (WTuple 3)). vm_compute. reflexivity. Qed.
Lemma c55_example : (forall a b, True -> True -> w_name a = w_name b -> w_fun a = w_fun b) /\
  (forall a v, True -> w_fun a = Ok v -> snd (w_dump v) = true /\ w_load (fst (w_dump v)) = Ok v) /\
  Forall (harmless w_fun w_dump) [Killed 0 None; Called 0; Killed 1 (Some 1); Called 1; Called 0].
Proof.
  split; [intros a b _ _; apply w_name_inj|]. split; [intros a v _; apply w_round|]. repeat (apply Forall_cons || apply Forall_nil); try exact I. intros v H. injection H as <-. vm_compute. lia.
Qed.
Lemma c56_diamond : exists h c t d, defined_in_order h /\ only_typed h c t d /\ find_subclass h c t = Err AssertionError.
Proof.
  exists w_diamond, 0, "d"%string, 3. split; [exact w_diamond_ordered|]. split; [|vm_compute; reflexivity]. split; [|split].
  - apply below_step with 1; [apply below_direct|]; eexists; (split; [reflexivity|]); cbn; auto.
  - eexists. split; reflexivity.
  - intros d' _ (k & E & T). destruct d' as [|[|[|[|d']]]]; cbn in E; try (injection E as <-; cbn in T; try discriminate; reflexivity). destruct d'; discriminate.
Qed.
Lemma c58_example : first_at w_argv 0 8 1 "--models" /\ holds_at w_argv 2 "MOS" /\ in_bounds w_argv 0 8 /\
  get_cmd_option w_argv 0 8 "--models" = Ok (Some "MOS"%string) /\ get_cmd_option w_argv 2 8 "--models" = Ok (Some "P910"%string) /\
  get_cmd_option w_argv 0 8 "--print" = Ok None /\ get_cmd_option w_argv 0 9 "--print" = Err IndexError.
Proof.
  split; [|split; [|split; [|repeat split]]].
  - split; [lia|]. split; [left; split; [lia|reflexivity]|]. intros j Hj. assert (j = 0)%Z by lia. subst. intros [[_ H]|(H & _)]; [discriminate|lia].
  - left. split; [lia|reflexivity].
  - intros _. cbn. lia.
Qed.
