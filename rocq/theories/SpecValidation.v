(** Specification of what the models of a validation analyse (C104). *)
From Coq Require Import String.
From Coq Require Import List ZArith Reals.
From Verif Require Import PyBase Num ExtReal NumPy Dataset Mocked Validation SpecMos SpecMocked.
Import ListNotations.

(** Every model's result is what it computes from an array with property [P]. *)
Definition models_see {T A} (P : arr3 T -> Prop) (models : list (arr3 T -> res A)) (rs : list A) : Prop :=
  Forall2 (fun m r => exists a, P a /\ m a = Ok r) models rs.

(** A dataset whose votes, read back, are those of the array. *)
Definition holds_votes {T} {N : Num T} (ds : dataset T string) (a : arr3 T) : Prop :=
  exists a', raw_reader_3darray ds = Ok a' /\ arr3_eq a a'.

(** A dataset is written exactly when asked for, and holds an array with [P]. *)
Definition file_holds {T} {N : Num T} (P : arr3 T -> Prop) (write : bool) (w : option (dataset T string)) : Prop :=
  match w with
  | Some ds => write = true /\ exists a, P a /\ holds_votes ds a
  | None => write = false
  end.

(** Draws are finite numbers, uniform ones in [0, 1). *)
Definition proper_draws {G} (rg : rng ef G) : Prop :=
  (forall n m g e s, isfin (fst (normals rg n m g) e s)) /\
  (forall n m g e s, isfin (fst (logistics rg n m g) e s)) /\
  (forall n m k g e s r, unit_draw (fst (uniforms rg n m k g) e s r)).

(** [a] is [a0] with some votes missing. *)
Definition some_removed (a0 a : arr3 ef) : Prop :=
  dE a = dE a0 /\ dS a = dS a0 /\ dR a = dR a0 /\
  forall e s r, inside a0 e s r -> at3 a e s r = at3 a0 e s r \/ at3 a e s r = NaN.

(** [a] is an array of the synthetic reader of the class for some finite draws. *)
Definition synthetic_votes (c : synth_class) (ds : dataset ef string) (i : synth_in ef) (a : arr3 ef) : Prop :=
  exists g1 g2 g3 : nat -> nat -> ef,
    (forall e s, isfin (g1 e s)) /\ (forall e s, isfin (g2 e s)) /\ (forall e s, isfin (g3 e s)) /\
    match c with
    | SyntheticNormal => synthetic_3darray ds i g1 g2 g3
    | SyntheticLogistic => synthetic_logistic_3darray ds i g1 g2 g3
    end = Ok a.

(** The votes without noise: quality + observer bias + content bias. *)
Definition exact_votes (ds : dataset ef string) (q ob cb : list R) (a : arr3 ef) : Prop :=
  dE a = length (ds_dis ds) /\ dS a = length ob /\ dR a = 1 /\
  forall e s dv, nth_error (ds_dis ds) e = Some dv -> s < length ob ->
    at3 a e s 0 = Fin (nth e q 0 + nth s ob 0 + nth (Z.to_nat (dv_cid dv)) cb 0)%R.

(** The seeds numpy takes. *)
Definition seed_fits (s : seed_entry) : Prop :=
  forall z, s = SeedInt z -> (0 <= z < 4294967296)%Z.

(** A generator that reads the numbers of a tape one after the other; its state
    is the position, which no access moves back. *)
Definition tape {T} (u : nat -> T) : rng T nat :=
  Rng (fun z => Z.to_nat z) (fun g => g)
      (fun n m g => (fun e s => u (g + (e * m + s)), g + n * m))
      (fun n m g => (fun e s => u (g + (e * m + s)), g + n * m))
      (fun n m k g => (fun e s r => u (g + ((e * m + s) * k + r)), g + n * m * k)).

(** The access at position g takes the numbers from g up to g' and no other. *)
Definition takes {T} (read : (nat -> T) -> nat -> res (arr3 T * nat)) (g g' : nat) : Prop :=
  forall u v a, (forall n, g <= n < g' -> v n = u n) -> read u g = Ok (a, g') ->
    exists a', read v g = Ok (a', g') /\ arr3_eq a a'.
