(** Validation of PcDataset.v and PairedComp.v against the numbers in
    /repo/test/pc_subjective_model_test.py.  np.linalg.pinv and scipy.linalg.pinv are
    arguments of the model; here they are the pseudo-inverse by Jacobi rotations,
    and SLSQP is replaced by gradient descent. *)
From Coq Require Import String.
From Coq Require Import List ZArith Bool Floats.
From Verif Require Import PyBase Num NumFloat NumPy Dataset PcDataset PairedComp Validate ValidateData ValidateMos.
Import ListNotations.
Set Warnings "-inexact-float".
Local Open Scope float_scope.

Definition fmat : Type := list (list float).
Definition entry (a : fmat) (i j : nat) : float := nth j (nth i a []) 0.
Fixpoint set_nth {A} (i : nat) (x : A) (l : list A) : list A :=
  match l, i with
  | [], _ => []
  | _ :: t, O => x :: t
  | y :: t, S k => y :: set_nth k x t
  end.
(** Columns p and q replaced by c p - s q and s p + c q. *)
Definition rot_cols (c s : float) (p q : nat) (a : fmat) : fmat :=
  map (fun r => let x := nth p r 0 in let y := nth q r 0 in
                set_nth q (s * x + c * y) (set_nth p (c * x - s * y) r)) a.
Definition rot_rows (c s : float) (p q : nat) (a : fmat) : fmat :=
  let rp := nth p a [] in let rq := nth q a [] in
  let z := combine rp rq in
  set_nth q (map (fun t => s * fst t + c * snd t) z) (set_nth p (map (fun t => c * fst t - s * snd t) z) a).
Definition jacobi_at (p q : nat) (av : fmat * fmat) : fmat * fmat :=
  let '(a, v) := av in
  let x := entry a p q in
  if abs x <? 0x1p-200 then av else
  let th := (entry a q q - entry a p p) / (2 * x) in
  let t := (if th <? 0 then -1 else 1) / (abs th + sqrt (th * th + 1)) in
  let c := 1 / sqrt (t * t + 1) in
  let s := t * c in
  (rot_rows c s p q (rot_cols c s p q a), rot_cols c s p q v).
Definition sweep (n : nat) (av : fmat * fmat) : fmat * fmat :=
  fold_left (fun av p => fold_left (fun av q => jacobi_at p q av) (seq (S p) (n - S p)) av) (seq 0 n) av.
Fixpoint sweeps (k n : nat) (av : fmat * fmat) : fmat * fmat :=
  match k with O => av | S k => sweeps k n (sweep n av) end.
Definition fmat_of (a : arr2 float) : fmat :=
  map (fun i => map (fun j => at2 a i j) (seq 0 (n1 a))) (seq 0 (n0 a)).
Definition sym_pinv (a : arr2 float) : res (arr2 float) :=
  let n := n0 a in
  let '(d, v) := sweeps 12 n (fmat_of a, map (fun i => map (fun j => if Nat.eqb i j then 1 else 0) (seq 0 n)) (seq 0 n)) in
  let lam := map (fun i => entry d i i) (seq 0 n) in
  let big := fold_left (fun m l => if m <? abs l then abs l else m) lam 0 in
  let inv := map (fun l => if abs l <? big * 0x1p-42 then 0 else 1 / l) lam in
  let w := map (fun r => map (fun p => fst p * snd p) (combine r inv)) v in
  let res := map (fun r => map (fun r' => fsum (map (fun p => fst p * snd p) (combine r r'))) v) w in
  Ok (Arr2 n n (entry res)).

(** scipy.stats.kurtosis *)
Definition kurtosis (l : list float) : float :=
  let m := fmean l in let d := map (fun x => x - m) l in
  let m2 := fmean (map (fun x => x * x) d) in
  fmean (map (fun x => x * x * (x * x)) d) / (m2 * m2) - 3.
Definition fsum2 (a : arr2 float) : float := fsum (concat (fmat_of a)).

(** Win counts as floats. *)
Definition lukas_alpha : arr2 float :=
  let t := map (map f_ofZ) lukas_wins in Arr2 (length t) (length t) (entry t).

(** The reader's array summed over subjects, first two rows. *)
Definition reader_wins_run : bool := Eval vm_compute in
  (ran (pc_reader_3darray lukas) (fun a =>
  Nat.eqb (dE a) 40 && Nat.eqb (dS a) 40 && Nat.eqb (dR a) 31
  && agree6 (flat_map (fun i => map (fun j => (at2 (win_matrix a) i j, at2 lukas_alpha i j)) (seq 0 40)) [0; 1]%nat))).
Example reader_wins : reader_wins_run = true.
Proof. reflexivity. Qed.

(** pc_subjective_model_test.py:32-50 *)
Definition bt_mle_lukas_run : bool := Eval vm_compute in
  (ran (bt_resolve sym_pinv 2000 lukas_alpha) (fun r => agree_with
  [fsum (bt_v r); fvar (bt_v r); kurtosis (bt_v r); fsum (bt_v_std r); fvar (bt_v_std r); kurtosis (bt_v_std r);
   kurtosis (bt_p r); fsum (bt_p_std r); fsum2 (bt_p_cov r); fsum2 (bt_v_cov r)]
  [-187.18634399309573; 3.1442888768417054; 0.5649254682803901; 11.136592174843651; 0.003890667402965306;
   1.960577186185537; 9.249782166616258; 0.25667807232011897; 6.488285445421619e-16; 2.4459463440137217])).
Example bt_mle_lukas : bt_mle_lukas_run = true.
Proof. reflexivity. Qed.
(** pc_subjective_model_test.py:23-30 *)
Definition bt_nr_lukas_run : bool := Eval vm_compute in
  (ran (nr_resolve sym_pinv 50 true lukas_alpha) (fun r =>
  agree_with [fsum r; fvar r; kurtosis r] [0; 1; -0.05721221160408296])).
Example bt_nr_lukas : bt_nr_lukas_run = true.
Proof. reflexivity. Qed.

(** scipy.stats.norm.cdf by its series at 0. *)
Fixpoint cdf_series (n : nat) (k x2 : float) : float :=
  match n with O => 1 | S m => 1 + x2 / k * cdf_series m (k + 2) x2 end.
Definition f_cdf (x : float) : float := 0.5 + pdf x * x * cdf_series 40 3 (x * x).
(** The pseudo-inverse M^T (M M^T)^+ of a square matrix. *)
Definition mmul (a bt : fmat) : fmat :=
  map (fun r => map (fun c => fsum (map (fun p => fst p * snd p) (combine r c))) bt) a.
Definition gen_pinv (a : arr2 float) : res (arr2 float) :=
  let n := n0 a in
  let m := fmat_of a in
  let mt := map (fun j => map (fun i => at2 a i j) (seq 0 n)) (seq 0 n) in
  let g := mmul m m in
  do h <- sym_pinv (Arr2 n n (entry g));
  let r := mmul mt (fmat_of h) in Ok (Arr2 n n (entry r)).
(** The minimiser of the objective by gradient descent, in place of SLSQP. *)
Definition th_grad (a : fmat) (v : list float) : list float :=
  map (fun p => let '(i, vi) := p in
    fsum (map (fun q => let '(j, vj) := q in
      let n := entry a i j in let m := entry a j i in
      if (n + m =? 0) then 0 else
      let d := vi - vj in
      2 * pdf d * (m / f_cdf (- d) - n / f_cdf d)) (combine (seq 0 (length v)) v)))
    (combine (seq 0 (length v)) v).
Fixpoint descend (k : nat) (a : fmat) (v : list float) : list float :=
  match k with O => v | S k =>
    descend k a (map (fun p => fst p - 0.01 * snd p) (combine v (th_grad a v))) end.
Definition f_slsqp (_ : list float -> float) (v0 : list float) : bool * list float :=
  (true, descend 200 (map (map f_ofZ) lukas_wins) v0).
Definition th_stats (simplified : bool) : res (list float) :=
  do r <- th_resolve f_cdf f_slsqp gen_pinv simplified lukas_alpha;
  let q := PairedComp.zscored (th_v r) in let s := map (fun s => s / np_std (th_v r)) (th_std r) in
  Ok [fsum q; fvar q; kurtosis q; vat q 0; vat q 39; fsum s; fvar s; kurtosis s; vat s 0; vat s 39].
Definition th_expected : list float :=
  [0; 1; -0.3411839039618667; 0.3791409047569019; -0.41006265745757303; 4.893685013444614; 0.0001601422716472649;
   -0.6892814746512612; 0.12571225814158712; 0.11003033360622685].
Definition agree4_with (l e : list float) : bool := Nat.eqb (length l) (length e) && agree4 (combine l e).

(** pc_subjective_model_test.py:52-80: with and without use_simplified_lbda *)
Definition th_lukas_run : bool := Eval vm_compute in
  (ran (th_stats true) (fun l => agree4_with l th_expected)).
Example th_lukas : th_lukas_run = true.
Proof. reflexivity. Qed.
Definition th_lukas_full_run : bool := Eval vm_compute in
  (ran (th_stats false) (fun l => agree4_with l th_expected)).
Example th_lukas_full : th_lukas_full_run = true.
Proof. reflexivity. Qed.
