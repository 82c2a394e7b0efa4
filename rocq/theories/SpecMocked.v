(** Specification vocabulary for the simulating and selecting readers and for
    written datasets. *)
From Coq Require Import String.
From Coq Require Import List ZArith Bool Arith Reals.
From Verif Require Import PyBase Num ExtReal NumPy Dataset SpecDataset SpecMos Mocked.
Import ListNotations.
Local Open Scope list_scope.

(** Indices of existing subjects. *)
Definition valid_subjects (n : nat) (sel : list Z) : Prop :=
  forall z, In z sel -> (0 <= z < Z.of_nat n)%Z.

(** [a'] consists of the columns of [a] named by [sel], in that order. *)
Definition columns_of {T} (a : arr3 T) (sel : list Z) (a' : arr3 T) : Prop :=
  dE a' = dE a /\ dS a' = length sel /\ dR a' = dR a /\
  forall e k z r, nth_error sel k = Some z -> e < dE a -> r < dR a ->
    at3 a' e k r = at3 a e (Z.to_nat z) r.

(** The last video listed with asset id [z]. *)
Definition video_with_id {T K} (dvs : list (dvideo T K)) (z : Z) (dv : dvideo T K) : Prop :=
  exists l1 l2, dvs = l1 ++ dv :: l2 /\ dv_aid dv = z /\ forall dv', In dv' l2 -> dv_aid dv' <> z.

(** Smallest and largest vote of the array. *)
Definition smallest_vote (a : arr3 ef) (lo : R) : Prop :=
  (exists e s r, inside a e s r /\ at3 a e s r = Fin lo) /\
  forall e s r x, inside a e s r -> at3 a e s r = Fin x -> (lo <= x)%R.
Definition largest_vote (a : arr3 ef) (hi : R) : Prop :=
  (exists e s r, inside a e s r /\ at3 a e s r = Fin hi) /\
  forall e s r x, inside a e s r -> at3 a e s r = Fin x -> (x <= hi)%R.

(** Video e is hit for the k-th selected subject: always without a
    probability, otherwise when the draw is below it. *)
Definition hit (prob : option ef) (g : corrupt_rng ef) (k e : nat) : Prop :=
  match prob with
  | None => True
  | Some (Fin p) => exists u, cu g k e = Fin u /\ (u < p)%R
  | Some _ => False
  end.

(** Draws are what numpy returns: uniform draws in [0,1), permutations. *)
Definition unit_draw (x : ef) : Prop := exists u, x = Fin u /\ (0 <= u < 1)%R.
Definition proper_rng (g : corrupt_rng ef) : Prop :=
  (forall k e, unit_draw (cu g k e)) /\ (forall k, unit_draw (cconst g k)) /\
  (forall k n, permutes n (cperm g k n)).

(** A finite probability, if any. *)
Definition real_prob (prob : option ef) : Prop :=
  match prob with None => True | Some p => isfin p end.

(** An array produced by one of the simulating readers from the dataset. *)
Inductive simulated {T} {N : Num T} (ds : dataset T string) (a : arr3 T) : Prop :=
| sim_missing : forall p u, missing_3darray ds p u = Ok a -> simulated ds a
| sim_select : forall sel, select_subject_3darray ds sel = Ok a -> simulated ds a
| sim_corrupt : forall sel b p g, corrupt_subject_3darray ds sel b p g = Ok a -> simulated ds a
| sim_corrupt_data : forall p u w, corrupt_data_3darray ds p u w = Ok a -> simulated ds a
| sim_synth : forall i g1 g2 g3, synthetic_3darray ds i g1 g2 g3 = Ok a -> simulated ds a
| sim_logistic : forall i g1 g2 g3, synthetic_logistic_3darray ds i g1 g2 g3 = Ok a -> simulated ds a.

(** Everything about a video except its votes. *)
Definition same_but_votes {T} (dv dv' : dvideo T string) : Prop :=
  dv_cid dv' = dv_cid dv /\ dv_aid dv' = dv_aid dv /\ dv_path dv' = dv_path dv /\
  dv_gt dv' = dv_gt dv /\ dv_gtstd dv' = dv_gtstd dv /\ dv_extra dv' = dv_extra dv.

(** A public attribute name. *)
Definition public (k : string) : Prop := forall r, k <> ("__" ++ r)%string.

(** What corrupting the selected subjects did: shapes kept, other subjects and
    videos not hit untouched, and [P k old new] for the k-th selected subject's
    votes on the videos hit. *)
Definition corrupted (prob : option ef) (g : corrupt_rng ef) (sel : list Z) (a a' : arr3 ef)
           (P : nat -> ef -> ef -> Prop) : Prop :=
  dE a' = dE a /\ dS a' = dS a /\ dR a' = dR a /\
  (forall e s r, inside a e s r -> ~ In (Z.of_nat s) sel -> at3 a' e s r = at3 a e s r) /\
  (forall k z e r, nth_error sel k = Some z -> inside a e (Z.to_nat z) r ->
     (~ hit prob g k e -> at3 a' e (Z.to_nat z) r = at3 a e (Z.to_nat z) r) /\
     (hit prob g k e -> P k (at3 a e (Z.to_nat z) r) (at3 a' e (Z.to_nat z) r))).

(** The parameters of a synthetic dataset, as real vectors of the right sizes. *)
Definition synth_params (ds : dataset ef string) (i : synth_in ef) (q ob oi cb ca : list R) (phi : option (list R)) : Prop :=
  si_quality i = Some (map Fin q) /\ si_obias i = Some (map Fin ob) /\ si_oinc i = Some (map Fin oi) /\
  si_cbias i = Some (map Fin cb) /\ si_camb i = Some (map Fin ca) /\ si_qamb i = option_map (map Fin) phi /\
  length q = length (ds_dis ds) /\ length oi = length ob /\ length ca = length cb /\ length cb = length (ds_refs ds) /\
  (forall l, phi = Some l -> length l = length (ds_dis ds)).
(** Content ids index the reference videos (0 .. number - 1). *)
Definition contents_numbered {T K} (ds : dataset T K) : Prop :=
  forall dv, In dv (ds_dis ds) -> (0 <= dv_cid dv < Z.of_nat (length (ds_refs ds)))%Z.
