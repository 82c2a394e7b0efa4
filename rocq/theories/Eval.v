(** Evaluation of closed rational expressions over R, for concrete witnesses. *)
From Coq Require Import List ZArith QArith Qreals Reals Lra Lia Bool.
From Verif Require Import Num ExtReal NumPy ExtRealProofs.
Import ListNotations.
Local Open Scope R_scope.

Inductive gx := GZ (z : Z) | GAdd (a b : gx) | GSub (a b : gx) | GMul (a b : gx) | GDiv (a b : gx) | GOpp (a : gx) | GInv (a : gx).
Fixpoint gR (g : gx) : R :=
  match g with
  | GZ z => IZR z
  | GAdd a b => gR a + gR b | GSub a b => gR a - gR b | GMul a b => gR a * gR b | GDiv a b => gR a / gR b
  | GOpp a => - gR a | GInv a => / gR a
  end.
Definition inv_opt (q : Q) : option Q := if Qeq_bool q 0 then None else Some (Qred (/ q)).
Fixpoint gQ (g : gx) : option Q :=
  let two a b f := match gQ a, gQ b with Some x, Some y => Some (Qred (f x y)) | _, _ => None end in
  match g with
  | GZ z => Some (inject_Z z)
  | GAdd a b => two a b Qplus | GSub a b => two a b Qminus | GMul a b => two a b Qmult
  | GDiv a b => match gQ a, gQ b with
      | Some x, Some y => match inv_opt y with Some z => Some (Qred (x * z)) | None => None end
      | _, _ => None end
  | GOpp a => match gQ a with Some x => Some (- x)%Q | None => None end
  | GInv a => match gQ a with Some x => inv_opt x | None => None end
  end.
Lemma Some_inj : forall (A : Type) (x y : A), Some x = Some y -> x = y.
Proof. intros A x y H. injection H. auto. Qed.
Lemma Qred_R : forall q, Q2R (Qred q) = Q2R q.
Proof. intro q. apply Qeq_eqR, Qred_correct. Qed.
Lemma inv_opt_R : forall q z, inv_opt q = Some z -> Q2R z = / Q2R q.
Proof.
  intros q z H. unfold inv_opt in H. destruct (Qeq_bool q 0) eqn:E; [discriminate|]. apply Some_inj in H; rewrite <- H. rewrite Qred_R. apply Q2R_inv.
  intro K. apply Qeq_bool_iff in K. congruence.
Qed.
Lemma gQ_correct : forall g q, gQ g = Some q -> gR g = Q2R q.
Proof.
  induction g as [z|a IHa b IHb|a IHa b IHb|a IHa b IHb|a IHa b IHb|a IHa|a IHa]; intros q H; cbn [gQ gR] in *.
  - apply Some_inj in H; rewrite <- H. unfold Q2R. cbn. field.
  - destruct (gQ a), (gQ b); try discriminate. apply Some_inj in H; rewrite <- H. rewrite Qred_R, Q2R_plus, (IHa _ eq_refl), (IHb _ eq_refl). reflexivity.
  - destruct (gQ a), (gQ b); try discriminate. apply Some_inj in H; rewrite <- H. rewrite Qred_R, Q2R_minus, (IHa _ eq_refl), (IHb _ eq_refl). reflexivity.
  - destruct (gQ a), (gQ b); try discriminate. apply Some_inj in H; rewrite <- H. rewrite Qred_R, Q2R_mult, (IHa _ eq_refl), (IHb _ eq_refl). reflexivity.
  - destruct (gQ a), (gQ b) as [y|]; try discriminate. destruct (inv_opt y) as [z|] eqn:E; [|discriminate]. apply Some_inj in H; rewrite <- H.
    rewrite Qred_R, Q2R_mult, (inv_opt_R _ _ E), (IHa _ eq_refl), (IHb _ eq_refl). reflexivity.
  - destruct (gQ a); try discriminate. apply Some_inj in H; rewrite <- H. rewrite Q2R_opp, (IHa _ eq_refl). reflexivity.
  - destruct (gQ a) as [y|]; try discriminate. rewrite (inv_opt_R _ _ H), (IHa _ eq_refl). reflexivity.
Qed.
Definition qval (q : Q) : R := match Qden q with xH => IZR (Qnum q) | d => IZR (Qnum q) / IZR (Zpos d) end.
Lemma gQ_qval : forall g q, gQ g = Some q -> gR g = qval q.
Proof.
  intros g q H. rewrite (gQ_correct _ _ H). unfold Q2R, qval. destruct (Qden q); try reflexivity. field.
Qed.
Lemma gQ_lt : forall g h q r, gQ g = Some q -> gQ h = Some r -> Qle_bool r q = false -> gR g < gR h.
Proof.
  intros g h q r H K L. rewrite (gQ_correct _ _ H), (gQ_correct _ _ K). apply Qlt_Rlt.
  destruct (Qlt_le_dec q r) as [A|A]; [exact A|]. apply Qle_bool_iff in A. congruence.
Qed.
Lemma gQ_le : forall g h q r, gQ g = Some q -> gQ h = Some r -> Qle_bool q r = true -> gR g <= gR h.
Proof. intros g h q r H K L. rewrite (gQ_correct _ _ H), (gQ_correct _ _ K). apply Qle_Rle. apply Qle_bool_iff. exact L. Qed.

Ltac greify e :=
  lazymatch e with
  | IZR ?z => constr:(GZ z)
  | ?a + ?b => let x := greify a in let y := greify b in constr:(GAdd x y)
  | ?a - ?b => let x := greify a in let y := greify b in constr:(GSub x y)
  | ?a * ?b => let x := greify a in let y := greify b in constr:(GMul x y)
  | ?a / ?b => let x := greify a in let y := greify b in constr:(GDiv x y)
  | - ?a => let x := greify a in constr:(GOpp x)
  | / ?a => let x := greify a in constr:(GInv x)
  end.
(** Value of a closed expression as a literal. *)
Ltac gval e :=
  let g := greify e in
  let q := eval vm_compute in (gQ g) in
  lazymatch q with Some ?q =>
    let v := eval cbv beta iota delta [qval Qden Qnum] in (qval q) in v end.
Ltac gprove := lazymatch goal with |- ?e = _ => let g := greify e in
  let q := eval vm_compute in (gQ g) in lazymatch q with Some ?q => exact (gQ_qval g q ltac:(vm_compute; reflexivity)) end end.
(** One finite literal brought to lowest terms. *)
Ltac glit e := lazymatch e with IZR _ => fail | _ => idtac end.
Ltac rn1 := match goal with |- context [Fin ?e] => glit e; let v := gval e in
  tryif constr_eq e v then fail else replace (Fin e) with (Fin v) by (f_equal; symmetry; gprove) end.
Ltac rn := repeat rn1.
(** Closed comparisons. *)
Ltac glt := lazymatch goal with |- ?a < ?b => let g := greify a in let h := greify b in
  let q := eval vm_compute in (gQ g) in let r := eval vm_compute in (gQ h) in
  lazymatch q with Some ?q => lazymatch r with Some ?r => exact (gQ_lt g h q r ltac:(vm_compute; reflexivity) ltac:(vm_compute; reflexivity) ltac:(vm_compute; reflexivity)) end end end.
Ltac gle := lazymatch goal with |- ?a <= ?b => let g := greify a in let h := greify b in
  let q := eval vm_compute in (gQ g) in let r := eval vm_compute in (gQ h) in
  lazymatch q with Some ?q => lazymatch r with Some ?r => exact (gQ_le g h q r ltac:(vm_compute; reflexivity) ltac:(vm_compute; reflexivity) ltac:(vm_compute; reflexivity)) end end end.
Ltac gne := first [apply Rlt_not_eq; glt | apply not_eq_sym, Rlt_not_eq; glt].

Lemma Rltb_t : forall a b, a < b -> Rltb a b = true.
Proof. intros. unfold Rltb. destruct (Rlt_dec a b); [reflexivity|contradiction]. Qed.
Lemma Rltb_f : forall a b, b <= a -> Rltb a b = false.
Proof. intros. unfold Rltb. destruct (Rlt_dec a b); [lra|reflexivity]. Qed.
Lemma Rleb_t : forall a b, a <= b -> Rleb a b = true.
Proof. intros. unfold Rleb. destruct (Rle_dec a b); [reflexivity|contradiction]. Qed.
Lemma Rleb_f : forall a b, b < a -> Rleb a b = false.
Proof. intros. unfold Rleb. destruct (Rle_dec a b); [lra|reflexivity]. Qed.
Lemma div0_nan : ef_div (Fin 0) (Fin 0) = NaN.
Proof. cbn. destruct (Req_EM_T 0 0); [reflexivity|contradiction]. Qed.
Lemma div0_pos : forall a, 0 < a -> ef_div (Fin a) (Fin 0) = PInf.
Proof. intros a H. cbn. destruct (Req_EM_T 0 0); [|contradiction]. destruct (Req_EM_T a 0); [lra|]. rewrite Rltb_t by exact H. reflexivity. Qed.
Lemma div0_neg : forall a, a < 0 -> ef_div (Fin a) (Fin 0) = NInf.
Proof. intros a H. cbn. destruct (Req_EM_T 0 0); [|contradiction]. destruct (Req_EM_T a 0); [lra|]. rewrite Rltb_f by lra. reflexivity. Qed.
Lemma div_ne : forall a b, b <> 0 -> ef_div (Fin a) (Fin b) = Fin (a / b).
Proof. intros a b H. cbn. destruct (Req_EM_T b 0); [contradiction|reflexivity]. Qed.

Lemma add_nan_r : forall x, ef_add x NaN = NaN.
Proof. intros []; reflexivity. Qed.
Lemma mul_nan_r : forall x, ef_mul x NaN = NaN.
Proof. intros []; reflexivity. Qed.
Lemma div_nan_r : forall x, ef_div x NaN = NaN.
Proof. intros []; reflexivity. Qed.
Lemma sub_nan_r : forall x, ef_sub x NaN = NaN.
Proof. intros []; reflexivity. Qed.
(** Replaces the left side, convertible to [Fin e], by the value of e if e is
    closed. *)
Ltac put t e := first
  [ let v := gval e in let H := fresh in assert (H : e = v) by gprove; change t with (Fin e); rewrite H; clear H
  | change t with (Fin e) ].
(** Arithmetic on literals, one step. *)
Ltac ev1 := match goal with
  | |- context [ef_sub (Fin ?a) (Fin ?b)] => put (ef_sub (Fin a) (Fin b)) (a + - b)
  | |- context [ef_add (Fin ?a) (Fin ?b)] => put (ef_add (Fin a) (Fin b)) (a + b)
  | |- context [ef_mul (Fin ?a) (Fin ?b)] => put (ef_mul (Fin a) (Fin b)) (a * b)
  | |- context [ef_neg (Fin ?a)] => put (ef_neg (Fin a)) (- a)
  | |- context [ef_div (Fin 0) (Fin 0)] => rewrite div0_nan
  | |- context [ef_div (Fin ?a) (Fin 0)] => first [rewrite (div0_pos a) by glt|rewrite (div0_neg a) by glt]
  | |- context [ef_div (Fin ?a) (Fin ?b)] => rewrite (div_ne a b) by gne; put (Fin (a / b)) (a / b)
  | |- context [ef_add PInf (Fin ?a)] => change (ef_add PInf (Fin a)) with PInf
  | |- context [ef_add (Fin ?a) PInf] => change (ef_add (Fin a) PInf) with PInf
  | |- context [ef_add NInf (Fin ?a)] => change (ef_add NInf (Fin a)) with NInf
  | |- context [ef_add (Fin ?a) NInf] => change (ef_add (Fin a) NInf) with NInf
  | |- context [ef_div (Fin ?a) PInf] => change (ef_div (Fin a) PInf) with (Fin 0)
  | |- context [ef_div (Fin ?a) NInf] => change (ef_div (Fin a) NInf) with (Fin 0)
  | |- context [ef_neg PInf] => change (ef_neg PInf) with NInf
  | |- context [ef_neg NInf] => change (ef_neg NInf) with PInf
  | |- context [ef_add NaN ?a] => change (ef_add NaN a) with NaN
  | |- context [ef_mul NaN ?a] => change (ef_mul NaN a) with NaN
  | |- context [ef_sub NaN ?a] => change (ef_sub NaN a) with NaN
  | |- context [ef_div NaN ?a] => change (ef_div NaN a) with NaN
  | |- context [ef_neg NaN] => change (ef_neg NaN) with NaN
  | |- context [ef_add ?a NaN] => rewrite (add_nan_r a)
  | |- context [ef_mul ?a NaN] => rewrite (mul_nan_r a)
  | |- context [ef_sub ?a NaN] => rewrite (sub_nan_r a)
  | |- context [ef_div ?a NaN] => rewrite (div_nan_r a)
  | |- context [Rltb ?a ?b] => first [rewrite (Rltb_t a b) by glt|rewrite (Rltb_f a b) by gle]
  | |- context [Rleb ?a ?b] => first [rewrite (Rleb_t a b) by gle|rewrite (Rleb_f a b) by glt]
  end.
Ltac ev := rn; repeat ev1.

(** Unfolds everything but arithmetic, roots and reductions. *)
Ltac efcbv := cbv -[ef_add ef_sub ef_mul ef_div ef_neg ef_abs ef_sqrt ef_exp ef_ln ef_ltb ef_leb ef_eqb ef_isnan ef_isinf
  np_nansum np_sum np_nanstd np_nanmean sp_norm nmaximum IZR Rplus Rmult Rinv Ropp Rminus Rdiv sqrt Rltb Rleb].
(** Unfolds the reductions once their arguments are literals. *)
Ltac efred := cbv -[ef_add ef_sub ef_mul ef_div ef_neg ef_abs ef_sqrt ef_exp ef_ln ef_ltb ef_leb ef_eqb
  IZR Rplus Rmult Rinv Ropp Rminus Rdiv sqrt Rltb Rleb].
