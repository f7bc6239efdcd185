(* 3x3 complex matrices: uniqueness of the singular values and of the left singular vectors. *)
From Coq Require Import List Bool ZArith Arith Lia String Ascii Reals Lra Psatz Setoid Morphisms.
From Verif Require Import PyBase Num SymModel EftModel NpModel RealC SmparModel.
Import ListNotations.
Local Open Scope R_scope.

Record meq (A B : cmat) : Prop := Meq { meq_at : forall i j, (i < 3)%nat -> (j < 3)%nat -> A i j = B i j }.
Coercion meq_at : meq >-> Funclass.
#[global] Instance meq_equiv : Equivalence meq.
Proof.
  split; [intros A; split; intros i j _ _; reflexivity|intros A B E; split; intros i j Hi Hj; symmetry; now apply E|].
  intros A B C E F. split; intros i j Hi Hj. rewrite (E i j), (F i j); auto.
Qed.
#[global] Instance mm_proper : Proper (meq ==> meq ==> meq) mm.
Proof. intros A A' [EA] B B' [EB]. split; intros i j Hi Hj. unfold mm. rewrite !EA, !EB by lia. reflexivity. Qed.
#[global] Instance dagm_proper : Proper (meq ==> meq) dagm.
Proof. intros A A' [E]. split; intros i j Hi Hj. unfold dagm. now rewrite E. Qed.

Definition idm : cmat := diagm (fun _ => 1).
Section Ring.
Local Open Scope K_scope.
Add Field KFcr : (k_field CR).
Lemma mm_assoc A B C : meq (mm A (mm B C)) (mm (mm A B) C).
Proof. split; intros i j _ _. unfold mm. ring. Qed.
Lemma mm_id_l A : meq (mm idm A) A.
Proof. split; intros i j Hi Hj. unfold mm, idm, diagm. change (rc 0) with (k0 : CR). change (rc 1) with (k1 : CR). destruct i as [|[|[|?]]]; try lia; cbn [Nat.eqb]; ring. Qed.
Lemma mm_id_r A : meq (mm A idm) A.
Proof. split; intros i j Hi Hj. unfold mm, idm, diagm. change (rc 0) with (k0 : CR). change (rc 1) with (k1 : CR). destruct j as [|[|[|?]]]; try lia; cbn [Nat.eqb]; ring. Qed.
Lemma dag_mm A B : meq (dagm (mm A B)) (mm (dagm B) (dagm A)).
Proof. split; intros i j _ _. unfold mm, dagm. rewrite !kconj_add, !kconj_mul. ring. Qed.
Lemma dag_dag A : meq (dagm (dagm A)) A.
Proof. split; intros i j _ _. unfold dagm. apply kconj_conj. Qed.
Lemma dag_diag m : meq (dagm (diagm m)) (diagm m).
Proof.
  split; intros i j _ _. unfold dagm, diagm. rewrite Nat.eqb_sym. destruct (Nat.eqb_spec i j) as [->|_]; apply rc_real.
Qed.
Lemma diag_diag a b : meq (mm (diagm a) (diagm b)) (diagm (fun i => a i * b i)%R).
Proof.
  split; intros i j Hi Hj. unfold mm, diagm. change (rc 0) with (k0 : CR).
  destruct i as [|[|[|?]]]; try lia; destruct j as [|[|[|?]]]; try lia; cbn [Nat.eqb]; rewrite ?rc_mul; ring.
Qed.
Lemma mm_diag_r A m i j : (j < 3)%nat -> mm A (diagm m) i j = A i j * rc (m j).
Proof. intros Hj. unfold mm, diagm. change (rc 0) with (k0 : CR). destruct j as [|[|[|?]]]; try lia; cbn [Nat.eqb]; ring. Qed.
Lemma mm_diag_l A m i j : (i < 3)%nat -> mm (diagm m) A i j = rc (m i) * A i j.
Proof. intros Hi. unfold mm, diagm. change (rc 0) with (k0 : CR). destruct i as [|[|[|?]]]; try lia; cbn [Nat.eqb]; ring. Qed.
End Ring.

Definition uni (U : cmat) : Prop := meq (mm (dagm U) U) idm /\ meq (mm U (dagm U)) idm.
Lemma dag_id : meq (dagm idm) idm.
Proof. apply dag_diag. Qed.
Lemma uni_id : uni idm.
Proof. split; rewrite dag_id; apply mm_id_l. Qed.
Lemma uni_dag U : uni U -> uni (dagm U).
Proof. intros [A B]. split; rewrite dag_dag; assumption. Qed.
Lemma uni_mm U V : uni U -> uni V -> uni (mm U V).
Proof.
  intros [A B] [C D]. split; rewrite dag_mm.
  - rewrite <- mm_assoc, (mm_assoc (dagm U)), A, mm_id_l. exact C.
  - rewrite <- mm_assoc, (mm_assoc V), D, mm_id_l. exact B.
Qed.

(* a singular value decomposition with sorted singular values *)
Definition svd (M U : cmat) (m : nat -> R) (V : cmat) : Prop :=
  uni U /\ uni V /\ meq M (mm (mm U (diagm m)) (dagm V)) /\ 0 <= m 0%nat /\ m 0%nat <= m 1%nat /\ m 1%nat <= m 2%nat.

Lemma svd_square M U m V : svd M U m V -> meq (mm M (dagm M)) (mm (mm U (diagm (fun i => m i * m i))) (dagm U)).
Proof.
  intros (HU & [V1 V2] & E & _). rewrite E, !dag_mm, dag_dag, dag_diag.
  rewrite <- (mm_assoc (mm U (diagm m)) (dagm V)), (mm_assoc (dagm V) V), V1, mm_id_l.
  rewrite <- (mm_assoc U (diagm m)), (mm_assoc (diagm m)), diag_diag, mm_assoc. reflexivity.
Qed.
Lemma intertwine M U a V U' b V' : svd M U a V -> svd M U' b V' -> forall i j, (i < 3)%nat -> (j < 3)%nat ->
  (a j * a j <> b i * b i) -> mm (dagm U') U i j = rc 0.
Proof.
  intros S S' i j Hi Hj N. pose proof (svd_square _ _ _ _ S) as A. pose proof (svd_square _ _ _ _ S') as B.
  rewrite A in B. destruct S as ([U1 U2] & _). destruct S' as ([W1 W2] & _).
  set (W := mm (dagm U') U).
  assert (E : meq (mm W (diagm (fun i => a i * a i))) (mm (diagm (fun i => b i * b i)) W)).
  { unfold W. transitivity (mm (mm (dagm U') (mm (mm U (diagm (fun i => a i * a i))) (dagm U))) U).
    - rewrite <- (mm_assoc (dagm U')), <- (mm_assoc (dagm U')), <- (mm_assoc (mm U (diagm _))), U1, mm_id_r. reflexivity.
    - rewrite B. rewrite (mm_assoc (dagm U') (mm U' _)), (mm_assoc (dagm U') U'), W1, mm_id_l, <- mm_assoc. reflexivity. }
  destruct E as [E]; specialize (E i j Hi Hj). rewrite mm_diag_r, mm_diag_l in E by assumption. fold W.
  destruct (W i j) as [x y]. unfold rc in *. cbn in E. unfold cx_mul in E. cbn [fst snd] in E.
  injection E as E1 E2.
  assert (X : x * (a j * a j - b i * b i) = 0) by lra. assert (Y : y * (a j * a j - b i * b i) = 0) by lra.
  apply Rmult_integral in X. apply Rmult_integral in Y. f_equal; lra.
Qed.

Section Vectors.
Add Field KFcr2 : (k_field CR).
Lemma trace_diag (U : cmat) (d : nat -> R) : uni U ->
  let M := mm (mm U (diagm d)) (dagm U) in kadd (kadd (M 0%nat 0%nat) (M 1%nat 1%nat)) (M 2%nat 2%nat) = rc (d 0%nat + d 1%nat + d 2%nat).
Proof.
  intros [E _]. cbn zeta. rewrite !rc_add.
  assert (G : forall i, (i < 3)%nat -> kadd (kadd (kmul (kconj (U 0%nat i)) (U 0%nat i)) (kmul (kconj (U 1%nat i)) (U 1%nat i))) (kmul (kconj (U 2%nat i)) (U 2%nat i)) = (k1 : CR)).
  { intros i Hi. pose proof (E i i Hi Hi) as F. unfold mm, dagm, idm, diagm in F. rewrite Nat.eqb_refl in F. exact F. }
  transitivity (kadd (kadd
     (kmul (rc (d 0%nat)) (kadd (kadd (kmul (kconj (U 0%nat 0%nat)) (U 0%nat 0%nat)) (kmul (kconj (U 1%nat 0%nat)) (U 1%nat 0%nat))) (kmul (kconj (U 2%nat 0%nat)) (U 2%nat 0%nat))))
     (kmul (rc (d 1%nat)) (kadd (kadd (kmul (kconj (U 0%nat 1%nat)) (U 0%nat 1%nat)) (kmul (kconj (U 1%nat 1%nat)) (U 1%nat 1%nat))) (kmul (kconj (U 2%nat 1%nat)) (U 2%nat 1%nat)))))
     (kmul (rc (d 2%nat)) (kadd (kadd (kmul (kconj (U 0%nat 2%nat)) (U 0%nat 2%nat)) (kmul (kconj (U 1%nat 2%nat)) (U 1%nat 2%nat))) (kmul (kconj (U 2%nat 2%nat)) (U 2%nat 2%nat))))).
  - unfold mm, dagm, diagm. cbn [Nat.eqb]. change (rc 0) with (k0 : CR). ring.
  - rewrite !G by lia. ring.
Qed.

Lemma uni_col W j : uni W -> (j < 3)%nat -> ~ (W 0%nat j = rc 0 /\ W 1%nat j = rc 0 /\ W 2%nat j = rc 0).
Proof.
  intros [E _] Hj (A & B & C). destruct E as [E]; specialize (E j j Hj Hj). unfold mm, dagm, idm, diagm in E. rewrite Nat.eqb_refl, A, B, C in E.
  unfold rc in E. cbn in E. unfold cx_add, cx_mul, cx_conj in E. cbn [fst snd] in E. injection E. intros. lra.
Qed.
Lemma uni_row W i : uni W -> (i < 3)%nat -> ~ (W i 0%nat = rc 0 /\ W i 1%nat = rc 0 /\ W i 2%nat = rc 0).
Proof.
  intros [_ E] Hi (A & B & C). destruct E as [E]; specialize (E i i Hi Hi). unfold mm, dagm, idm, diagm in E. rewrite Nat.eqb_refl, A, B, C in E.
  unfold rc in E. cbn in E. unfold cx_add, cx_mul, cx_conj in E. cbn [fst snd] in E. injection E. intros. lra.
Qed.
Lemma sq_inj x y : 0 <= x -> 0 <= y -> x * x = y * y -> x = y.
Proof. intros. nra. Qed.

(* the sorted singular values are determined by the matrix *)
Lemma svd_values M U a V U' b V' : svd M U a V -> svd M U' b V' -> forall i, (i < 3)%nat -> a i = b i.
Proof.
  intros S S'. pose proof (intertwine _ _ _ _ _ _ _ S S') as Z.
  assert (HW : uni (mm (dagm U') U)) by (apply uni_mm; [apply uni_dag; apply S'|apply S]).
  set (W := mm (dagm U') U) in *.
  pose proof S as (HU & _ & _ & A0 & A1 & A2). pose proof S' as (HU' & _ & _ & B0 & B1 & B2).
  assert (E0 : a 0%nat * a 0%nat = b 0%nat * b 0%nat).
  { destruct (Rtotal_order (a 0%nat * a 0%nat) (b 0%nat * b 0%nat)) as [L|[E|G]]; [|exact E|].
    - exfalso. apply (uni_col W 0 HW ltac:(lia)). repeat split; apply Z; try lia; nra.
    - exfalso. apply (uni_row W 0 HW ltac:(lia)). repeat split; apply Z; try lia; nra. }
  assert (E2 : a 2%nat * a 2%nat = b 2%nat * b 2%nat).
  { destruct (Rtotal_order (a 2%nat * a 2%nat) (b 2%nat * b 2%nat)) as [L|[E|G]]; [|exact E|].
    - exfalso. apply (uni_row W 2 HW ltac:(lia)). repeat split; apply Z; try lia; nra.
    - exfalso. apply (uni_col W 2 HW ltac:(lia)). repeat split; apply Z; try lia; nra. }
  assert (E1 : a 1%nat * a 1%nat = b 1%nat * b 1%nat).
  { pose proof (trace_diag U (fun i => a i * a i) HU) as T. pose proof (trace_diag U' (fun i => b i * b i) HU') as T'. cbn zeta in T, T'.
    pose proof (svd_square _ _ _ _ S) as Q. pose proof (svd_square _ _ _ _ S') as Q'. rewrite Q in Q'.
    rewrite !(meq_at _ _ Q') in T by lia. rewrite T' in T. apply rc_inj in T. lra. }
  intros i Hi. destruct i as [|[|[|?]]]; try lia; apply sq_inj; lra.
Qed.
(* distinct singular values: the left singular vectors are determined up to phases *)
Lemma svd_vectors M U a V U' b V' : svd M U a V -> svd M U' b V' -> a 0%nat < a 1%nat -> a 1%nat < a 2%nat ->
  exists w : nat -> CR, (forall i, (i < 3)%nat -> kmul (kconj (w i)) (w i) = k1) /\
    forall i j, (i < 3)%nat -> (j < 3)%nat -> U' i j = kmul (U i j) (w j).
Proof.
  intros S S' L1 L2. pose proof (svd_values _ _ _ _ _ _ _ S S') as E.
  pose proof (intertwine _ _ _ _ _ _ _ S' S) as Z.
  assert (HW : uni (mm (dagm U) U')) by (apply uni_mm; [apply uni_dag; apply S|apply S']).
  set (W := mm (dagm U) U') in *. pose proof S as (HU & _ & _ & A0 & _).
  assert (OFF : forall i j, (i < 3)%nat -> (j < 3)%nat -> i <> j -> W i j = rc 0).
  { intros i j Hi Hj N. apply Z; auto. rewrite <- E by assumption.
    destruct i as [|[|[|?]]]; try lia; destruct j as [|[|[|?]]]; try lia; nra. }
  exists (fun i => W i i). split.
  - intros i Hi. destruct HW as [X _]. destruct X as [X]; specialize (X i i Hi Hi). unfold idm, diagm in X. rewrite Nat.eqb_refl in X.
    change (rc 1) with (k1 : CR) in X. rewrite <- X. unfold mm, dagm.
    destruct i as [|[|[|?]]]; try lia;
    rewrite ?(OFF 0%nat 1%nat), ?(OFF 0%nat 2%nat), ?(OFF 1%nat 0%nat), ?(OFF 1%nat 2%nat), ?(OFF 2%nat 0%nat), ?(OFF 2%nat 1%nat) by lia;
    change (rc 0) with (k0 : CR); ring.
  - intros i j Hi Hj. assert (F : meq U' (mm U W)). { unfold W. rewrite mm_assoc. destruct HU as [_ HU]. rewrite HU, mm_id_l. reflexivity. }
    rewrite (F i j Hi Hj). unfold mm at 1.
    destruct j as [|[|[|?]]]; try lia;
    rewrite ?(OFF 0%nat 1%nat), ?(OFF 0%nat 2%nat), ?(OFF 1%nat 0%nat), ?(OFF 1%nat 2%nat), ?(OFF 2%nat 0%nat), ?(OFF 2%nat 1%nat) by lia;
    change (rc 0) with (k0 : CR); ring.
Qed.
End Vectors.
