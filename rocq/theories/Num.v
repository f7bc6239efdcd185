(* The numbers of the model.

   The Python code computes with IEEE doubles / complex doubles.  The model
   replaces them by an arbitrary field of characteristic 0 with a conjugation and
   an imaginary unit ("star field"); rounding is NOT modelled.  The Gaussian
   rationals QI are an executable instance without axioms. *)
From Coq Require Import List Bool ZArith QArith Qcanon Field Lia Lqa.
From Verif Require Import PyBase.
Import ListNotations.

Fixpoint gen_pos {A} (one : A) (add : A -> A -> A) (p : positive) : A :=
  match p with
  | xH => one
  | xO p => let x := gen_pos one add p in add x x
  | xI p => let x := gen_pos one add p in add one (add x x)
  end.

Record StarField := {
  car :> Type;
  k0 : car; k1 : car;
  kadd : car -> car -> car;
  kmul : car -> car -> car;
  ksub : car -> car -> car;
  kopp : car -> car;
  kdiv : car -> car -> car;
  kinv : car -> car;
  kconj : car -> car;
  ki : car;
  kdec : car -> car -> bool;
  k_field : field_theory k0 k1 kadd kmul ksub kopp kdiv kinv eq;
  kdec_spec : forall x y, reflect (x = y) (kdec x y);
  kconj_add : forall x y, kconj (kadd x y) = kadd (kconj x) (kconj y);
  kconj_mul : forall x y, kconj (kmul x y) = kmul (kconj x) (kconj y);
  kconj_conj : forall x, kconj (kconj x) = x;
  ki_sq : kmul ki ki = kopp k1;
  kconj_i : kconj ki = kopp ki;
  k_char0 : forall p, gen_pos k1 kadd p <> k0
}.
Arguments k0 {s}.
Arguments k1 {s}.
Arguments kadd {s} _ _.
Arguments kmul {s} _ _.
Arguments ksub {s} _ _.
Arguments kopp {s} _.
Arguments kdiv {s} _ _.
Arguments kinv {s} _.
Arguments kconj {s} _.
Arguments ki {s}.
Arguments kdec {s} _ _.

Declare Scope K_scope.
Delimit Scope K_scope with K.
Bind Scope K_scope with car.
Notation "0" := k0 : K_scope.
Notation "1" := k1 : K_scope.
Infix "+" := kadd : K_scope.
Infix "*" := kmul : K_scope.
Infix "-" := ksub : K_scope.
Infix "/" := kdiv : K_scope.
Notation "- x" := (kopp x) : K_scope.
Notation "x ^*" := (kconj x) (at level 2, format "x ^*") : K_scope.

#[global] Instance EqKey_K (K : StarField) : EqKey K :=
  {| keqb := @kdec K; keqb_spec := kdec_spec K |}.

Section Lemmas.
Context {K : StarField}.
Local Open Scope K_scope.
Add Field KF : (k_field K).

Lemma k_1_neq_0 : (1 : K) <> 0.
Proof. exact (k_char0 K xH). Qed.
Lemma kmul_0_l (x : K) : 0 * x = 0. Proof. ring. Qed.
Lemma kmul_0_r (x : K) : x * 0 = 0. Proof. ring. Qed.
Lemma kadd_0_l (x : K) : 0 + x = x. Proof. ring. Qed.
Lemma kadd_0_r (x : K) : x + 0 = x. Proof. ring. Qed.
Lemma kadd_comm (x y : K) : x + y = y + x. Proof. ring. Qed.
Lemma kadd_assoc (x y z : K) : x + (y + z) = (x + y) + z. Proof. ring. Qed.
Lemma kmul_comm (x y : K) : x * y = y * x. Proof. ring. Qed.
Lemma kmul_assoc (x y z : K) : x * (y * z) = (x * y) * z. Proof. ring. Qed.
Lemma kmul_1_l (x : K) : 1 * x = x. Proof. ring. Qed.
Lemma kmul_1_r (x : K) : x * 1 = x. Proof. ring. Qed.
Lemma kmul_add_l (x y z : K) : (x + y) * z = x * z + y * z. Proof. ring. Qed.
Lemma kmul_add_r (x y z : K) : z * (x + y) = z * x + z * y. Proof. ring. Qed.
Lemma ksub_def (x y : K) : x - y = x + - y. Proof. ring. Qed.

Lemma kadd_cancel_l (x y z : K) : x + y = x + z -> y = z.
Proof. intros E. replace y with (- x + (x + y)) by ring. rewrite E. ring. Qed.

Lemma kinv_r (x : K) : x <> 0 -> x * kinv x = 1.
Proof. intros N. field. exact N. Qed.
Lemma kinv_l (x : K) : x <> 0 -> kinv x * x = 1.
Proof. intros N. field. exact N. Qed.
Lemma kdiv_def (x y : K) : x / y = x * kinv y.
Proof. apply (Fdiv_def (k_field K)). Qed.
Lemma kmul_integral (x y : K) : x * y = 0 -> x = 0 \/ y = 0.
Proof.
  intros E. destruct (kdec_spec K x 0) as [->|N]; [now left|right].
  replace y with (kinv x * (x * y)) by (field; exact N). rewrite E. ring.
Qed.
Lemma kmul_neq_0 (x y : K) : x <> 0 -> y <> 0 -> x * y <> 0.
Proof. intros A B E. apply kmul_integral in E as [?|?]; auto. Qed.
Lemma kopp_neq_0 (x : K) : x <> 0 -> - x <> 0.
Proof. intros N E. apply N. replace x with (- - x) by ring. rewrite E. ring. Qed.
Lemma kinv_neq_0 (x : K) : x <> 0 -> kinv x <> 0.
Proof. intros N E. apply k_1_neq_0. rewrite <- (kinv_r x N), E. ring. Qed.
Lemma kmul_cancel_l (x y z : K) : x <> 0 -> x * y = x * z -> y = z.
Proof.
  intros N E. replace y with (kinv x * (x * y)) by (field; exact N). rewrite E.
  field; exact N.
Qed.

(* --- conjugation --- *)
Lemma kconj_0 : (0 : K)^* = 0.
Proof.
  assert (E : (0 : K)^* = 0^* + 0^*) by (rewrite <- kconj_add; f_equal; ring).
  apply (kadd_cancel_l (0^*)). rewrite <- E. ring.
Qed.
Lemma kconj_1 : (1 : K)^* = 1.
Proof.
  assert (E : (1 : K)^* * 1^* = 1^*) by (rewrite <- kconj_mul; f_equal; ring).
  assert (N : (1 : K)^* <> 0).
  { intros Z. apply k_1_neq_0. rewrite <- (kconj_conj K 1), Z. apply kconj_0. }
  apply (kmul_cancel_l (1^*)); [exact N|]. rewrite E. ring.
Qed.
Lemma kconj_opp (x : K) : (- x)^* = - x^*.
Proof.
  apply (kadd_cancel_l (x^*)). rewrite <- kconj_add.
  replace (x + - x) with (0 : K) by ring. rewrite kconj_0. ring.
Qed.
Lemma kconj_sub (x y : K) : (x - y)^* = x^* - y^*.
Proof. rewrite !ksub_def, kconj_add, kconj_opp. reflexivity. Qed.
Lemma kconj_neq_0 (x : K) : x <> 0 -> x^* <> 0.
Proof. intros N E. apply N. rewrite <- (kconj_conj K x), E. apply kconj_0. Qed.
Lemma kconj_inv (x : K) : x <> 0 -> (kinv x)^* = kinv (x^*).
Proof.
  intros N. apply (kmul_cancel_l (x^*)); [now apply kconj_neq_0|].
  rewrite <- kconj_mul, kinv_r, kinv_r, kconj_1; auto using kconj_neq_0.
Qed.
Lemma kconj_div (x y : K) : y <> 0 -> (x / y)^* = x^* / y^*.
Proof. intros N. rewrite !kdiv_def, kconj_mul, kconj_inv; auto. Qed.
Lemma kconj_inj (x y : K) : x^* = y^* -> x = y.
Proof. intros E. rewrite <- (kconj_conj K x), E. apply kconj_conj. Qed.

(* --- integers and rationals in K --- *)
Definition kpos (p : positive) : K := gen_pos 1 kadd p.
Definition kZ (z : Z) : K :=
  match z with Z0 => 0 | Zpos p => kpos p | Zneg p => - kpos p end.
Definition kQ (q : Q) : K := kZ (Qnum q) / kpos (Qden q).

Lemma kpos_neq_0 p : kpos p <> 0.
Proof. apply k_char0. Qed.
Lemma k_2_neq_0 : (1 + 1 : K) <> 0.
Proof. exact (kpos_neq_0 2). Qed.
Lemma ki_neq_0 : (ki : K) <> 0.
Proof.
  intros E. apply k_1_neq_0. replace (1 : K) with (- - (1 : K)) by ring.
  rewrite <- (ki_sq K), E. ring.
Qed.
Lemma kpos_succ p : kpos (Pos.succ p) = 1 + kpos p.
Proof.
  unfold kpos; induction p as [p IH|p IH|]; simpl; [rewrite IH; ring|ring|ring].
Qed.
Lemma kpos_add p q : kpos (p + q) = kpos p + kpos q.
Proof.
  induction p as [|p IH] using Pos.peano_ind.
  - rewrite Pos.add_1_l, kpos_succ. reflexivity.
  - rewrite Pos.add_succ_l, !kpos_succ, IH. ring.
Qed.
Lemma kpos_mul p q : kpos (p * q) = kpos p * kpos q.
Proof.
  induction p as [|p IH] using Pos.peano_ind.
  - rewrite Pos.mul_1_l. unfold kpos at 2; simpl. ring.
  - rewrite Pos.mul_succ_l, kpos_add, kpos_succ, IH. ring.
Qed.
Lemma kZ_pos_sub p q : kZ (Z.pos_sub p q) = kpos p - kpos q.
Proof.
  rewrite Z.pos_sub_spec. destruct (Pos.compare_spec p q) as [->|L|L]; simpl.
  - ring.
  - assert (E : kpos q = kpos (q - p) + kpos p)
      by (rewrite <- kpos_add; f_equal; now rewrite Pos.sub_add).
    rewrite E. ring.
  - assert (E : kpos p = kpos (p - q) + kpos q)
      by (rewrite <- kpos_add; f_equal; now rewrite Pos.sub_add).
    rewrite E. ring.
Qed.
Lemma kZ_add a b : kZ (a + b) = kZ a + kZ b.
Proof.
  destruct a, b; simpl; rewrite ?kZ_pos_sub, ?kpos_add; try ring.
Qed.
Lemma kZ_opp a : kZ (- a) = - kZ a.
Proof. destruct a; simpl; ring. Qed.
Lemma kZ_mul a b : kZ (a * b) = kZ a * kZ b.
Proof. destruct a, b; simpl; rewrite ?kpos_mul; ring. Qed.
Lemma kZ_sub a b : kZ (a - b) = kZ a - kZ b.
Proof. unfold Z.sub. rewrite kZ_add, kZ_opp. ring. Qed.
Lemma kZ_1 : kZ 1 = 1. Proof. reflexivity. Qed.
Lemma kZ_inj0 a : kZ a = 0 -> a = 0%Z.
Proof.
  destruct a; simpl; intros E; [reflexivity| |]; exfalso.
  - now apply (kpos_neq_0 p).
  - apply (kpos_neq_0 p). replace (kpos p) with (- - kpos p) by ring. rewrite E. ring.
Qed.
Lemma kZ_inj a b : kZ a = kZ b -> a = b.
Proof.
  intros E. assert (F : kZ (a - b) = 0) by (rewrite kZ_sub, E; ring).
  apply kZ_inj0 in F. lia.
Qed.
Lemma kconj_pos p : (kpos p)^* = kpos p.
Proof.
  unfold kpos; induction p as [p IH|p IH|]; simpl; rewrite ?kconj_add, ?IH, ?kconj_1; reflexivity.
Qed.
Lemma kconj_Z a : (kZ a)^* = kZ a.
Proof. destruct a; simpl; rewrite ?kconj_opp, ?kconj_pos, ?kconj_0; reflexivity. Qed.

Lemma kQ_add a b : kQ (a + b) = kQ a + kQ b.
Proof.
  destruct a as [n d], b as [m e]; unfold kQ, Qplus; simpl.
  rewrite kZ_add, !kZ_mul, kpos_mul. simpl. field; repeat split; auto using kpos_neq_0, k_2_neq_0, ki_neq_0.
Qed.
Lemma kQ_mul a b : kQ (a * b) = kQ a * kQ b.
Proof.
  destruct a as [n d], b as [m e]; unfold kQ, Qmult; simpl.
  rewrite kZ_mul, kpos_mul. field; repeat split; auto using kpos_neq_0, k_2_neq_0, ki_neq_0.
Qed.
Lemma kQ_opp a : kQ (- a) = - kQ a.
Proof.
  destruct a as [n d]; unfold kQ, Qopp; simpl. rewrite kZ_opp. field. apply kpos_neq_0.
Qed.
Lemma kQ_Qeq a b : Qeq a b -> kQ a = kQ b.
Proof.
  destruct a as [n d], b as [m e]; unfold Qeq, kQ; simpl; intros E.
  apply (kmul_cancel_l (kpos d * kpos e)); [apply kmul_neq_0; apply kpos_neq_0|].
  transitivity (kZ n * kpos e); [field; repeat split; auto using kpos_neq_0, k_2_neq_0, ki_neq_0|].
  transitivity (kZ m * kpos d); [|field; repeat split; auto using kpos_neq_0, k_2_neq_0, ki_neq_0].
  change (kpos e) with (kZ (Zpos e)). change (kpos d) with (kZ (Zpos d)).
  now rewrite <- !kZ_mul, E.
Qed.
Lemma kQ_0 : kQ 0 = 0.
Proof. unfold kQ; simpl. field. exact (kpos_neq_0 1). Qed.
Lemma kQ_1 : kQ 1 = 1.
Proof. unfold kQ; simpl. field. exact (kpos_neq_0 1). Qed.
Lemma kQ_inj a b : kQ a = kQ b -> Qeq a b.
Proof.
  destruct a as [n d], b as [m e]; unfold Qeq, kQ; simpl; intros E.
  apply kZ_inj. rewrite !kZ_mul; simpl.
  transitivity ((kZ n / kpos d) * kpos d * kpos e); [field; apply kpos_neq_0|].
  rewrite E. field. apply kpos_neq_0.
Qed.
Lemma kconj_Q a : (kQ a)^* = kQ a.
Proof.
  unfold kQ. rewrite kconj_div, kconj_Z, kconj_pos; [reflexivity|apply kpos_neq_0].
Qed.

(* --- real and imaginary part: z.real, z.imag --- *)
Definition k2 : K := 1 + 1.
Lemma k2_neq_0 : k2 <> 0.
Proof. exact (kpos_neq_0 2). Qed.
Definition kre (z : K) : K := (z + z^*) / k2.
Definition kim (z : K) : K := (z - z^*) / (k2 * ki).
Definition kreal (z : K) : Prop := z^* = z.
Definition krealb (z : K) : bool := kdec (z^*) z.
Lemma krealb_spec z : reflect (kreal z) (krealb z).
Proof. apply kdec_spec. Qed.

Lemma kconj_2 : k2^* = k2.
Proof. exact (kconj_pos 2). Qed.
Lemma kre_real z : kreal (kre z).
Proof.
  unfold kreal, kre. rewrite kconj_div, kconj_add, kconj_conj, kconj_2 by apply k2_neq_0.
  f_equal. ring.
Qed.
Lemma kim_real z : kreal (kim z).
Proof.
  unfold kreal, kim. pose proof k2_neq_0 as N2. pose proof ki_neq_0 as Ni.
  rewrite kconj_div, kconj_sub, kconj_conj, kconj_mul, kconj_2, kconj_i
    by (apply kmul_neq_0; assumption).
  unfold k2; field; repeat split; auto using kopp_neq_0, k_2_neq_0.
Qed.
Lemma kre_im z : kre z + ki * kim z = z.
Proof.
  unfold kre, kim. replace z with ((z + z) / k2) at 5.
  - unfold k2. field; repeat split; auto using kpos_neq_0, k_2_neq_0, ki_neq_0.
  - unfold k2. field. apply k2_neq_0.
Qed.
Lemma kim_zero_iff z : kim z = 0 <-> kreal z.
Proof.
  unfold kreal, kim. split; intros E.
  - assert (F : z - z^* = 0).
    { replace (z - z^*) with ((z - z^*) / (k2 * ki) * (k2 * ki)).
      - rewrite E. ring.
      - field; repeat split; auto using kpos_neq_0, k_2_neq_0, ki_neq_0. }
    replace z with (z - z^* + z^*) at 2 by ring. rewrite F. ring.
  - rewrite E. replace (z - z) with (0 : K) by ring.
    field; repeat split; auto using kpos_neq_0, k_2_neq_0, ki_neq_0.
Qed.
Lemma kre_of_real z : kreal z -> kre z = z.
Proof. unfold kreal, kre. intros ->. unfold k2. field. apply k2_neq_0. Qed.
Lemma kre_add x y : kre (x + y) = kre x + kre y.
Proof. unfold kre. rewrite kconj_add. unfold k2. field. apply k2_neq_0. Qed.
Lemma kre_mk a b : kreal a -> kreal b -> kre (a + ki * b) = a.
Proof.
  unfold kreal, kre. intros A B. rewrite kconj_add, kconj_mul, kconj_i, A, B.
  unfold k2. field. apply k2_neq_0.
Qed.
Lemma kim_mk a b : kreal a -> kreal b -> kim (a + ki * b) = b.
Proof.
  unfold kreal, kim. intros A B. rewrite kconj_add, kconj_mul, kconj_i, A, B.
  unfold k2. field; repeat split; auto using kpos_neq_0, k_2_neq_0, ki_neq_0.
Qed.
Lemma kconj_re_im z : z^* = kre z - ki * kim z.
Proof.
  rewrite <- (kre_im z) at 1. rewrite kconj_add, kconj_mul, kconj_i, kre_real, kim_real. ring.
Qed.
Lemma kreal_0 : kreal 0. Proof. exact kconj_0. Qed.
Lemma kreal_1 : kreal 1. Proof. exact kconj_1. Qed.
Lemma kreal_Q q : kreal (kQ q). Proof. exact (kconj_Q q). Qed.
Lemma kreal_Z q : kreal (kZ q). Proof. exact (kconj_Z q). Qed.
Lemma kreal_add x y : kreal x -> kreal y -> kreal (x + y).
Proof. unfold kreal; intros A B. now rewrite kconj_add, A, B. Qed.
Lemma kreal_mul x y : kreal x -> kreal y -> kreal (x * y).
Proof. unfold kreal; intros A B. now rewrite kconj_mul, A, B. Qed.
Lemma kreal_opp x : kreal x -> kreal (- x).
Proof. unfold kreal; intros A. now rewrite kconj_opp, A. Qed.
End Lemmas.
Arguments kreal {K} z.
Arguments kQ {K} q.
Arguments kZ {K} z.

(* ---------- the Gaussian rationals ---------- *)
Definition gq : Type := (Qc * Qc)%type.
Local Open Scope Qc_scope.
Definition gq_add (a b : gq) : gq := (fst a + fst b, snd a + snd b).
Definition gq_mul (a b : gq) : gq := (fst a * fst b - snd a * snd b, fst a * snd b + snd a * fst b).
Definition gq_opp (a : gq) : gq := (- fst a, - snd a).
Definition gq_sub (a b : gq) : gq := (fst a - fst b, snd a - snd b).
Definition gq_norm (a : gq) : Qc := fst a * fst a + snd a * snd a.
Definition gq_inv (a : gq) : gq := (fst a / gq_norm a, - snd a / gq_norm a).
Definition gq_div (a b : gq) : gq := gq_mul a (gq_inv b).
Definition gq_conj (a : gq) : gq := (fst a, - snd a).
Definition gq_i : gq := (0, 1).
Definition gq_eqb (a b : gq) : bool := Qc_eq_bool (fst a) (fst b) && Qc_eq_bool (snd a) (snd b).

Lemma Qc_sq_nonneg (x : Qc) : 0 <= x * x.
Proof.
  unfold Qcle, Qcmult, Q2Qc, this. setoid_rewrite Qred_correct.
  destruct x as [[n d] C]; simpl. unfold Qle, Qmult, Qnum, Qden; simpl. nia.
Qed.
Lemma Qc_sum_sq (x y : Qc) : x * x + y * y = 0 -> x = 0 /\ y = 0.
Proof.
  intros E.
  assert (Hx : x * x = 0).
  { apply Qcle_antisym; [|apply Qc_sq_nonneg].
    replace (x * x) with (0 - y * y) by (rewrite <- E; ring).
    pose proof (Qc_sq_nonneg y) as P.
    apply (Qcplus_le_compat 0 (y * y) (0 - y * y) (0 - y * y)) in P; [|apply Qcle_refl].
    ring_simplify in P. ring_simplify. exact P. }
  assert (Hy : y * y = 0) by (rewrite Hx in E; rewrite <- E; ring).
  split; [destruct (Qcmult_integral _ _ Hx)|destruct (Qcmult_integral _ _ Hy)]; assumption.
Qed.
Lemma gq_norm_neq (a : gq) : a <> (0, 0) -> gq_norm a <> 0.
Proof.
  intros N E. apply N. destruct a as [x y]; unfold gq_norm in E; simpl in E.
  apply Qc_sum_sq in E as [-> ->]. reflexivity.
Qed.
Lemma gq_field : field_theory (0, 0) (1, 0) gq_add gq_mul gq_sub gq_opp gq_div gq_inv eq.
Proof.
  constructor.
  - constructor; intros; unfold gq_add, gq_mul, gq_sub, gq_opp; cbn [fst snd]; try reflexivity;
      try (destruct x as [x1 x2]); cbn [fst snd]; f_equal; ring.
  - intros E. inversion E.
  - reflexivity.
  - intros [x y] N. apply gq_norm_neq in N. unfold gq_mul, gq_inv, gq_norm in *. cbn [fst snd] in *.
    f_equal; field; exact N.
Qed.
Lemma gq_eqb_spec (a b : gq) : reflect (a = b) (gq_eqb a b).
Proof.
  destruct a as [a1 a2], b as [b1 b2]; unfold gq_eqb; cbn [fst snd].
  destruct (Qc_eq_bool a1 b1) eqn:E1; simpl.
  - apply Qc_eq_bool_correct in E1; subst. destruct (Qc_eq_bool a2 b2) eqn:E2; constructor.
    + apply Qc_eq_bool_correct in E2; congruence.
    + intros F; inversion F; subst. unfold Qc_eq_bool in E2.
      destruct (Qc_eq_dec b2 b2); congruence.
  - constructor. intros F; inversion F; subst. unfold Qc_eq_bool in E1.
    destruct (Qc_eq_dec b1 b1); congruence.
Qed.
Lemma Qc_add_pos (a b : Qc) : (0 < this a)%Q -> (0 < this b)%Q -> (0 < this (a + b)%Qc)%Q.
Proof.
  intros A B. assert (E : (this (a + b)%Qc == this a + this b)%Q) by apply Qred_correct.
  rewrite E. lra.
Qed.
Lemma gq_pos (p : positive) :
  exists q : Qc, (0 < this q)%Q /\ @gen_pos gq (1, 0) gq_add p = (q, 0).
Proof.
  assert (Z0 : (0 + 0 : Qc) = 0) by ring.
  induction p as [p (q & P & E)|p (q & P & E)|]; cbn [gen_pos]; cbv zeta; rewrite ?E;
    unfold gq_add; cbn [fst snd]; rewrite ?Z0.
  - exists (1 + (q + q)). split; [|reflexivity]. repeat apply Qc_add_pos; auto. reflexivity.
  - exists (q + q). split; [|reflexivity]. now apply Qc_add_pos.
  - exists 1. split; reflexivity.
Qed.

Definition QI : StarField.
Proof.
  refine {| car := gq; k0 := (0, 0); k1 := (1, 0); kadd := gq_add; kmul := gq_mul; ksub := gq_sub;
            kopp := gq_opp; kdiv := gq_div; kinv := gq_inv; kconj := gq_conj; ki := gq_i;
            kdec := gq_eqb; k_field := gq_field; kdec_spec := gq_eqb_spec |}.
  - intros [a b] [c d]; unfold gq_conj, gq_add; cbn [fst snd]; f_equal; ring.
  - intros [a b] [c d]; unfold gq_conj, gq_mul; cbn [fst snd]; f_equal; ring.
  - intros [a b]; unfold gq_conj; cbn [fst snd]; f_equal; ring.
  - unfold gq_i, gq_mul, gq_opp; cbn [fst snd]; f_equal; ring.
  - unfold gq_i, gq_conj, gq_opp; cbn [fst snd]; f_equal; ring.
  - intros p E. destruct (gq_pos p) as (q & P & F). rewrite F in E.
    apply (f_equal fst) in E. cbn [fst] in E. subst q. now apply Qlt_irrefl in P.
Defined.
(* a literal a/b + i c/d *)
Definition qi (re im : Q) : QI := (Q2Qc re, Q2Qc im).

Lemma kdec_true (K : StarField) (x y : K) : kdec x y = true -> x = y.
Proof. intros E. destruct (kdec_spec K x y); [assumption|discriminate]. Qed.
Lemma kdec_false (K : StarField) (x y : K) : kdec x y = false -> x <> y.
Proof. intros E. destruct (kdec_spec K x y); [discriminate|assumption]. Qed.
