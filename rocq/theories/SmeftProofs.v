(* Lemmas for C63: mass matrices under flavour rotations, and how much freedom a basis with
   diagonal masses and a CKM matrix in the standard parametrisation leaves. *)
From Coq Require Import List Bool ZArith Arith Lia String Ascii Reals Lra Psatz Setoid Morphisms.
From Verif Require Import PyBase Num SymModel EftModel NpModel NpProofs RotModel BetaSpec BetaProofs RotProofs RotProps RealC SmparModel SmparProofs SmparProps SmeftModel.
Import ListNotations.
Local Open Scope string_scope.
Local Open Scope list_scope.
Local Open Scope R_scope.

(* ---------- specification ---------- *)
(* the mass matrix  v/sqrt(2) (G - v^2/2 C)  of a parameter point, for v = 246.22 *)
Definition mass (C : cdictR) (G W : string) : cmat := fun i j =>
  kmul (rc (v_default / sqrt 2)) (ksub (coef C G [i; j]) (kdiv (kmul (coef C W [i; j]) (rc (v_default ^ 2))) (rc 2))).
(* the standard parametrisation of the CKM matrix by three angles in the first quadrant and a phase *)
Definition standard_ckm (V : cmat) : Prop := exists (s12 c12 s13 c13 s23 c23 : R) (e : CR),
  0 < s12 /\ 0 < c12 /\ 0 < s13 /\ 0 < c13 /\ 0 < s23 /\ 0 < c23 /\
  s12 ^ 2 + c12 ^ 2 = 1 /\ s13 ^ 2 + c13 ^ 2 = 1 /\ s23 ^ 2 + c23 ^ 2 = 1 /\ kmul (kconj e) e = k1 /\
  V 0%nat 0%nat = rc (c12 * c13) /\ V 0%nat 1%nat = rc (s12 * c13) /\ V 0%nat 2%nat = kmul (rc s13) (kconj e) /\
  V 1%nat 0%nat = ksub (rc (- (s12 * c23))) (kmul (rc (c12 * s23 * s13)) e) /\
  V 1%nat 1%nat = ksub (rc (c12 * c23)) (kmul (rc (s12 * s23 * s13)) e) /\ V 1%nat 2%nat = rc (s23 * c13) /\
  V 2%nat 0%nat = ksub (rc (s12 * s23)) (kmul (rc (c12 * c23 * s13)) e) /\
  V 2%nat 1%nat = ksub (rc (- (c12 * s23))) (kmul (rc (s12 * c23 * s13)) e) /\ V 2%nat 2%nat = rc (c23 * c13).
(* a phase; the matrix A with its columns multiplied by phases *)
Definition unit_phase (a : CR) : Prop := kmul (kconj a) a = k1.
Definition phases (w : nat -> CR) : Prop := forall i, (i < 3)%nat -> unit_phase (w i).
Definition rephased (A : cmat) (w : nat -> CR) (A' : cmat) : Prop := forall i j, (i < 3)%nat -> (j < 3)%nat -> A' i j = kmul (A i j) (w j).

(* ---------- lemmas ---------- *)
Section Rot.
Local Open Scope K_scope.
Add Field KFsm : (k_field CR).
Lemma rot2 (U : field -> cmat) f g F i j : rot U [bar f; pln g] F [i; j] = mm (mm (dagm (U f)) (fun a b => F [a; b])) (U g) i j.
Proof. unfold rot, mm, dagm. cbn [List.length repeat all_indices seq flat_map map app rotprod rotf fst snd bar pln ksum fold_right]. ring. Qed.
Lemma mass_massm C G W g w : getm C G = Ok g -> getm C W = Ok w -> massm v_default g w = mass C G W.
Proof.
  unfold getm, getC, mass, massm, coef. intros E1 E2. destruct (dget C G); [|discriminate]. destruct (dget C W); [|discriminate].
  injection E1 as <-. injection E2 as <-. reflexivity.
Qed.
Lemma mass_rot (U : field -> cmat) C D G W f g : rotated_point U C D -> dget op_fields G = Some [bar f; pln g] -> dget op_fields W = Some [bar f; pln g] ->
  meq (mass D G W) (mm (mm (dagm (U f)) (mass C G W)) (U g)).
Proof.
  intros R FG FW. split. intros i j Hi Hj. unfold mass at 1.
  assert (IX : forall k, dget op_fields k = Some [bar f; pln g] -> In [i; j] (indices_of k)).
  { intros k F. rewrite (indices_of_idxs k _ F). now apply idxs_2_in. }
  assert (N : rc 2 <> (k0 : CR)) by (intros F; apply (rc_inj _ 0) in F; lra).
  rewrite (R G _ FG _ (IX G FG)), (R W _ FW _ (IX W FW)), !rot2. unfold mm, mass. field. exact N.
Qed.
Lemma svd_rot M L m V A B : svd M L m V -> uni A -> uni B -> svd (mm (mm (dagm A) M) B) (mm (dagm A) L) m (mm (dagm B) V).
Proof.
  intros (HL & HV & E & S) HA HB. split; [apply uni_mm; [now apply uni_dag|exact HL]|]. split; [apply uni_mm; [now apply uni_dag|exact HV]|]. split; [|exact S].
  rewrite E, dag_mm, dag_dag, !mm_assoc. reflexivity.
Qed.
(* distinct positive singular values: the right singular vectors have the same phases *)
Lemma svd_both M U a V U' b V' : svd M U a V -> svd M U' b V' -> 0 < a 0%nat -> a 0%nat < a 1%nat -> a 1%nat < a 2%nat ->
  exists w, phases w /\ rephased U w U' /\ rephased V w V'.
Proof.
  intros S S' P0 P1 P2. destruct (svd_vectors _ _ _ _ _ _ _ S S' P1 P2) as (w & W & E). exists w. split; [exact W|]. split; [exact E|].
  pose proof (svd_values _ _ _ _ _ _ _ S S') as VAL.
  destruct S as ([U1 U2] & [V1 V2] & EM & _). destruct S' as ([U1' U2'] & [V1' V2'] & EM' & _).
  (* M^dagger U = V m *)
  assert (X : meq (mm (dagm M) U) (mm V (diagm a))).
  { rewrite EM, !dag_mm, dag_dag, dag_diag. rewrite <- !mm_assoc, U1, mm_id_r. reflexivity. }
  assert (X' : meq (mm (dagm M) U') (mm V' (diagm b))).
  { rewrite EM', !dag_mm, dag_dag, dag_diag. rewrite <- !mm_assoc, U1', mm_id_r. reflexivity. }
  intros i j Hi Hj. assert (NZ : rc (a j) <> (k0 : CR)).
  { intros F. apply (rc_inj _ 0) in F. destruct j as [|[|[|?]]]; try lia; lra. }
  pose proof (X i j Hi Hj) as Y. pose proof (X' i j Hi Hj) as Y'. rewrite mm_diag_r in Y, Y' by exact Hj. rewrite <- (VAL j Hj) in Y'.
  unfold mm at 1 in Y. unfold mm at 1 in Y'. rewrite !E in Y' by lia.
  assert (Z : V' i j * rc (a j) = V i j * w j * rc (a j)).
  { rewrite <- Y'. transitivity (V i j * rc (a j) * w j); [|ring]. rewrite <- Y. ring. }
  assert (Z2 : kdiv (V' i j * rc (a j)) (rc (a j)) = kdiv (V i j * w j * rc (a j)) (rc (a j))) by now rewrite Z.
  assert (K1 : kdiv (V' i j * rc (a j)) (rc (a j)) = V' i j) by (field; exact NZ).
  assert (K2 : kdiv (V i j * w j * rc (a j)) (rc (a j)) = V i j * w j) by (field; exact NZ).
  now rewrite K1, K2 in Z2.
Qed.
Lemma diag_cols (A : cmat) (w : nat -> CR) (A' : cmat) : rephased A w A' -> meq A' (mm A (fun i j => if Nat.eqb i j then w i else k0)).
Proof.
  intros E. split. intros i j Hi Hj. rewrite (E i j Hi Hj). unfold mm. destruct j as [|[|[|?]]]; try lia; cbn [Nat.eqb]; ring.
Qed.
Lemma diag_uni (w : nat -> CR) : phases w -> uni (fun i j => if Nat.eqb i j then w i else k0).
Proof.
  intros W. pose proof (W 0%nat ltac:(lia)) as W0. pose proof (W 1%nat ltac:(lia)) as W1. pose proof (W 2%nat ltac:(lia)) as W2. unfold unit_phase in *.
  split; split; intros i j Hi Hj; unfold mm, dagm, idm, diagm; change (rc 0) with (k0 : CR); change (rc 1) with (k1 : CR);
    destruct i as [|[|[|?]]]; try lia; destruct j as [|[|[|?]]]; try lia; cbn [Nat.eqb]; rewrite ?kconj_0;
    first [ring|transitivity (kconj (w 0%nat) * w 0%nat); [ring|exact W0]|transitivity (kconj (w 1%nat) * w 1%nat); [ring|exact W1]|transitivity (kconj (w 2%nat) * w 2%nat); [ring|exact W2]].
Qed.
Lemma rephased_uni A w A' : uni A -> phases w -> rephased A w A' -> uni A'.
Proof.
  intros HA W E. pose proof (diag_cols _ _ _ E) as X. pose proof (uni_mm _ _ HA (diag_uni w W)) as [Y1 Y2]. split; rewrite X; assumption.
Qed.
(* rephasing both sides of a decomposition *)
Lemma svd_rephase M L m V w L' V' : svd M L m V -> phases w -> rephased L w L' -> rephased V w V' -> svd M L' m V'.
Proof.
  intros (HL & HV & E & S) W EL EV. split; [now apply (rephased_uni L w)|]. split; [now apply (rephased_uni V w)|]. split; [|exact S].
  rewrite E. split. intros i j Hi Hj. unfold mm at 1 3. rewrite !mm_diag_r by lia. unfold dagm. rewrite !EL, !EV by lia. rewrite !kconj_mul.
  pose proof (W 0%nat ltac:(lia)) as W0. pose proof (W 1%nat ltac:(lia)) as W1. pose proof (W 2%nat ltac:(lia)) as W2. unfold unit_phase in *.
  transitivity (L i 0%nat * rc (m 0%nat) * kconj (V j 0%nat) * (kconj (w 0%nat) * w 0%nat) + L i 1%nat * rc (m 1%nat) * kconj (V j 1%nat) * (kconj (w 1%nat) * w 1%nat)
    + L i 2%nat * rc (m 2%nat) * kconj (V j 2%nat) * (kconj (w 2%nat) * w 2%nat)); [|ring]. rewrite W0, W1, W2. ring.
Qed.

(* positive numbers with equal modulus *)
Lemma pos_unit (z : CR) x y : 0 < x -> 0 < y -> kmul (kconj z) z = k1 -> rc x = z * rc y -> z = k1 /\ x = y.
Proof.
  destruct z as [a b]. intros X Y U E. assert (U' := f_equal (@fst Rdefinitions.R Rdefinitions.R) U). cbn in U'. assert (E1 := f_equal (@fst Rdefinitions.R Rdefinitions.R) E). assert (E2 := f_equal (@snd Rdefinitions.R Rdefinitions.R) E). cbn in E1, E2.
  assert (B : (b = 0)%R) by (assert ((b * y = 0)%R) by lra; nra). subst b. assert (A : (a = 1)%R) by nra. subst a. split; [reflexivity|lra].
Qed.
Lemma uconj (a : CR) : unit_phase a -> unit_phase (kconj a).
Proof. unfold unit_phase. intros A. rewrite kconj_conj, <- A. ring. Qed.
Lemma umul (a b : CR) : unit_phase a -> unit_phase b -> unit_phase (a * b).
Proof. unfold unit_phase. intros A B. rewrite kconj_mul. transitivity ((kconj a * a) * (kconj b * b)); [ring|]. rewrite A, B. ring. Qed.
Lemma ratio_1 (a b : CR) : unit_phase a -> kconj a * b = k1 -> b = a.
Proof. unfold unit_phase. intros A E. transitivity (kconj a * b * a); [|rewrite E; ring]. transitivity ((kconj a * a) * b); [rewrite A; ring|ring]. Qed.
(* the standard parametrisation fixes all relative phases of the quarks *)
Lemma ckm_rigid (V V' : cmat) (a b : nat -> CR) : standard_ckm V -> standard_ckm V' -> phases a -> phases b ->
  (forall i j, (i < 3)%nat -> (j < 3)%nat -> V' i j = kconj (a i) * V i j * b j) ->
  exists x, unit_phase x /\ forall i, (i < 3)%nat -> a i = x /\ b i = x.
Proof.
  intros (s12 & c12 & s13 & c13 & s23 & c23 & e & H) (t12 & d12 & t13 & d13 & t23 & d23 & f & H') A B E.
  destruct H as (P1 & P2 & P3 & P4 & P5 & P6 & Q1 & Q2 & Q3 & U & V00 & V01 & V02 & V10 & V11 & V12 & V20 & V21 & V22).
  destruct H' as (P1' & P2' & P3' & P4' & P5' & P6' & Q1' & Q2' & Q3' & U' & V00' & V01' & V02' & V10' & V11' & V12' & V20' & V21' & V22').
  assert (POS : forall i j x y, (i < 3)%nat -> (j < 3)%nat -> V i j = rc x -> V' i j = rc y -> 0 < x -> 0 < y -> b j = a i /\ y = x).
  { intros i j x y Hi Hj X Y X0 Y0. pose proof (E i j Hi Hj) as F. rewrite X, Y in F.
    destruct (pos_unit (kconj (a i) * b j) y x Y0 X0) as [F1 F2]; [apply umul; [apply uconj|]; auto|rewrite F; ring|]. split; [|exact F2]. apply ratio_1; auto. }
  destruct (POS 0 0 _ _ ltac:(lia) ltac:(lia) V00 V00' ltac:(nra) ltac:(nra))%nat as [B0 M00].
  destruct (POS 0 1 _ _ ltac:(lia) ltac:(lia) V01 V01' ltac:(nra) ltac:(nra))%nat as [B1 M01].
  destruct (POS 1 2 _ _ ltac:(lia) ltac:(lia) V12 V12' ltac:(nra) ltac:(nra))%nat as [B2 M12].
  destruct (POS 2 2 _ _ ltac:(lia) ltac:(lia) V22 V22' ltac:(nra) ltac:(nra))%nat as [B2' M22].
  assert (SQ : forall x y, 0 < x -> 0 < y -> x ^ 2 = y ^ 2 -> x = y) by (intros; nra).
  assert (EC13 : d13 = c13). { apply SQ; [lra|lra|]. transitivity ((d12 * d13) ^ 2 + (t12 * d13) ^ 2)%R; [nra|]. rewrite M00, M01. nra. }
  assert (ES13 : t13 = s13) by (apply SQ; [lra|lra|nra]).
  assert (EC12 : d12 = c12) by (subst d13; nra). assert (ES12 : t12 = s12) by (subst d13; nra).
  assert (EC23 : d23 = c23) by (subst d13; nra). assert (ES23 : t23 = s23) by (subst d13; nra). subst d13 t13 d12 t12 d23 t23.
  set (x := a 0%nat) in *. set (y := a 1%nat) in *.
  assert (Ux : unit_phase x) by (apply A; lia). assert (Uy : unit_phase y) by (apply A; lia).
  assert (A2 : a 2%nat = y) by congruence.
  set (z := kconj y * x). assert (Uz : unit_phase z) by (apply umul; [now apply uconj|exact Ux]).
  (* V_ub fixes the phase: f = z e *)
  assert (NR : forall r, 0 < r -> rc r <> (k0 : CR)) by (intros r Hr F; apply (rc_inj _ 0) in F; lra).
  assert (F0 : kconj f = kconj z * kconj e).
  { pose proof (E 0%nat 2%nat ltac:(lia) ltac:(lia)) as F. rewrite V02, V02' in F. fold x in F. rewrite B2 in F.
    assert (G : kdiv (rc s13 * kconj f) (rc s13) = kdiv (kconj x * (rc s13 * kconj e) * y) (rc s13)) by now rewrite F.
    assert (G1 : kdiv (rc s13 * kconj f) (rc s13) = kconj f) by (field; now apply NR).
    assert (G2 : kdiv (kconj x * (rc s13 * kconj e) * y) (rc s13) = kconj x * y * kconj e) by (field; now apply NR).
    rewrite G1, G2 in G. rewrite G. unfold z. rewrite kconj_mul, kconj_conj. ring. }
  assert (F1 : f = z * e) by (rewrite <- (kconj_conj _ f), F0, kconj_mul, !kconj_conj; reflexivity).
  (* V_cd *)
  assert (Z1 : z = k1).
  { pose proof (E 1%nat 0%nat ltac:(lia) ltac:(lia)) as F. rewrite V10, V10', F1 in F. fold y in F. rewrite B0 in F.
    assert (G : rc (s12 * c23) * z = rc (s12 * c23)).
    { rewrite rc_opp in F. transitivity (z * (rc (s12 * c23))); [ring|].
      assert (H : kopp (rc (s12 * c23)) - rc (c12 * s23 * s13) * (z * e) = z * (kopp (rc (s12 * c23)) - rc (c12 * s23 * s13) * e)) by (rewrite F; unfold z; ring).
      transitivity (kopp (z * (kopp (rc (s12 * c23)) - rc (c12 * s23 * s13) * e)) - rc (c12 * s23 * s13) * (z * e)); [ring|]. rewrite <- H. ring. }
    destruct (pos_unit z (s12 * c23) (s12 * c23)) as [Q _]; [nra|nra|exact Uz|rewrite <- G at 1; ring|exact Q]. }
  assert (XY : x = y) by (now apply ratio_1).
  exists x. split; [exact Ux|]. intros i Hi. destruct i as [|[|[|?]]]; try lia; fold x; fold y; split; congruence.
Qed.
End Rot.
