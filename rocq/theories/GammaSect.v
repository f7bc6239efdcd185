(* The matrices of wilson/run/wet/adm.py against the dressed operators. *)
From Coq Require Import List Bool ZArith QArith Qreals Reals Arith Lia String.
From Verif Require Import PyBase Num RealC AdmData WetModel WetUnmix FermiSpec NpModel NpProofs FermiNorm FermiTab FermiProofs ParProofs GammaSpec GammaTab GammaProofs GammaOps GammaCanon.
From Verif Require LoopProps SimProofs.
Import ListNotations.
Local Open Scope string_scope.
Local Open Scope list_scope.

(* ---------- rational entries ---------- *)
Fixpoint aq (e : aexp) : option Q :=
  match e with
  | N n => Some (inject_Z n)
  | Dec n d => Some (n # d)
  | Neg a => option_map Qopp (aq a)
  | Add a b => match aq a, aq b with Some x, Some y => Some (Qred (x + y)) | _, _ => None end
  | Mul a b => match aq a, aq b with Some x, Some y => Some (Qred (x * y)) | _, _ => None end
  | Div a b => match aq a, aq b with Some x, Some y => if Qeq_bool y 0 then None else Some (Qred (x / y)) | _, _ => None end
  | _ => None
  end.
Section Val.
Local Open Scope K_scope.
Add Field KFgs : (k_field CR).
Lemma kQ_rc n d : @kQ CR (n # d) = rc (IZR n / IZR (Zpos d)).
Proof.
  unfold kQ. cbn [Qnum Qden]. rewrite LoopProps.kZ_rc, SimProofs.kpos_rc. rewrite rc_div; [reflexivity|]. apply IZR_neq. discriminate.
Qed.
Lemma kQ_quot x y : Qeq_bool y 0 = false -> @kQ CR (x / y) = kQ x / kQ y.
Proof.
  intros NZ. assert (NY : ~ y == 0) by (intros E; apply Qeq_bool_iff in E; congruence).
  assert (KY : @kQ CR y <> 0). { intros E. apply NY. apply (@kQ_inj CR). now rewrite kQ_0. }
  assert (E : @kQ CR (x / y) * kQ y = kQ x). { rewrite <- kQ_mul. apply kQ_Qeq. now field. }
  rewrite <- E. now field.
Qed.
Lemma aq_ok p f e : forall z q, aeval p f e = Ok z -> aq e = Some q -> z = @kQ CR q.
Proof.
  induction e; intros z q E A; cbn [aq aeval] in *; try discriminate A.
  - injection A as <-. apply Ok_eq in E. subst z. rewrite kQ_Z. symmetry. apply LoopProps.kZ_rc.
  - injection A as <-. apply Ok_eq in E. subst z. symmetry. apply kQ_rc.
  - destruct (aq e) as [x|]; [|discriminate]. injection A as <-. destruct (aeval p f e) as [y|]; [|discriminate]. cbn [rmap] in E. apply Ok_eq in E. subst z. rewrite kQ_opp. f_equal. now apply IHe.
  - destruct (aq e1) as [x|]; [|discriminate]. destruct (aq e2) as [y|]; [|discriminate]. injection A as <-.
    destruct (aeval p f e1) as [u|]; [|discriminate]. cbn [bind] in E. destruct (aeval p f e2) as [v|]; [|discriminate]. cbn [rmap] in E. apply Ok_eq in E. subst z.
    rewrite kQ_Qred, kQ_add. f_equal; [now apply IHe1|now apply IHe2].
  - destruct (aq e1) as [x|]; [|discriminate]. destruct (aq e2) as [y|]; [|discriminate]. injection A as <-.
    destruct (aeval p f e1) as [u|]; [|discriminate]. cbn [bind] in E. destruct (aeval p f e2) as [v|]; [|discriminate]. cbn [rmap] in E. apply Ok_eq in E. subst z.
    rewrite kQ_Qred, kQ_mul. f_equal; [now apply IHe1|now apply IHe2].
  - destruct (aq e1) as [x|]; [|discriminate]. destruct (aq e2) as [y|]; [|discriminate]. destruct (Qeq_bool y 0) eqn:NZ; [discriminate|]. injection A as <-.
    destruct (aeval p f e1) as [u|]; [|discriminate]. cbn [bind] in E. destruct (aeval p f e2) as [v|]; [|discriminate]. cbn [bind] in E.
    destruct (ceqb v 0); [discriminate|]. apply Ok_eq in E. subst z. rewrite kQ_Qred, kQ_quot by exact NZ. f_equal; [now apply IHe1|now apply IHe2].
Qed.
End Val.

(* ---------- the check ---------- *)
Definition dstruct_eqb (a b : dstruct) : bool := match a, b with Vector, Vector | Scalar, Scalar | Tensor, Tensor => true | _, _ => false end.
Definition cstruct_eqb (a b : cstruct) : bool := match a, b with Singlet, Singlet | Octet, Octet => true | _, _ => false end.
Definition four_eqb (o o' : opr) : bool :=
  match o, o' with
  | Four d c x y f1 f2 f3 f4, Four d' c' x' y' f1' f2' f3' f4' =>
      dstruct_eqb d d' && cstruct_eqb c c' && chir_eqb x x' && chir_eqb y y' && ferm_eqb f1 f1' && ferm_eqb f2 f2' && ferm_eqb f3 f3' && ferm_eqb f4 f4'
  | _, _ => false
  end.
Lemma four_eqb_eq o o' : four_eqb o o' = true -> o = o'.
Proof.
  destruct o as [d c x y f1 f2 f3 f4| |], o' as [d' c' x' y' f1' f2' f3' f4'| |]; try discriminate. cbn [four_eqb]. intros H.
  repeat (apply andb_prop in H as [H ?]). repeat match goal with E : ferm_eqb _ _ = true |- _ => apply ferm_eqb_eq in E; subst end.
  repeat match goal with E : chir_eqb _ _ = true |- _ => apply chir_eqb_eq in E; subst end.
  destruct d, d'; try discriminate; destruct c, c'; try discriminate; reflexivity.
Qed.
Definition four_hash (o : opr) : positive :=
  match o with
  | Four d c x y f1 f2 f3 f4 =>
      let h := Pos.add (ferm_code f1) (Pos.mul 32 (Pos.add (ferm_code f2) (Pos.mul 32 (Pos.add (ferm_code f3) (Pos.mul 32 (ferm_code f4)))))) in
      let h := match d with Vector => h | Scalar => h~0 | _ => h~1 end%positive in
      let h := match c with Singlet => h~0 | _ => h~1 end%positive in
      let h := match x with PL => h~0 | _ => h~1 end%positive in
      match y with PL => h~0 | _ => h~1 end%positive
  | _ => 1%positive
  end.
Definition qeq := fleq four_eqb four_hash.
Definition prep (k : string) : option (opr * (fl opr * fl opr)) :=
  match four_op k with Some o => Some (o, (flscale (rq (wq o)) (canon o), flscale (rq (wq o)) (canon (hcop o)))) | None => None end.
Definition rhs (T : list (option (opr * (fl opr * fl opr)))) (sel : fl opr * fl opr -> fl opr) (row : arow) : fl opr :=
  flat_map (fun ie => match nth (fst ie) T None with
    | Some t => match aq (snd ie) with Some q => flscale (rq q) (sel (snd t)) | None => [] end
    | None => [] end) row.
Fixpoint incr (b n : nat) (row : arow) : bool :=
  match row with [] => true | (i, _) :: r => (b <=? i)%nat && (i <? n)%nat && incr (S i) n r end.
Definition row_chk (g : force) (real : bool) (n : nat) (T : list (option (opr * (fl opr * fl opr)))) (row : arow) (o : opr) : bool :=
  let D := dop g o in let D' := dop g (hcop o) in
  flavs o && forallb (fun t => flavs (snd t)) D && forallb (fun t => flavs (snd t)) D' && incr 0 n row &&
  forallb (fun ie => match nth (fst ie) T None with Some t => flavs (fst t) && match aq (snd ie) with Some _ => true | None => false end | None => true end) row &&
  let X := flscale (rq (wq o)) (canonL D) in let Y := flscale (rq (wq o)) (canonL D') in
  let X' := rhs T fst row in let Y' := rhs T snd row in
  if real || self_adjoint o then qeq (X ++ Y) (X' ++ Y') else qeq X X' && qeq Y Y'.
Definition mat_chk (g : force) (real : bool) (ks : list string) (m : amat) : bool :=
  let T := map prep ks in
  (List.length m =? List.length ks)%nat &&
  forallb (fun jk => match four_op (snd jk) with Some o => row_chk g real (List.length ks) T (nth (fst jk) m []) o | None => true end) (numbered ks).
Definition zero_chk (g : force) (ks : list string) : bool := forallb (fun k => match four_op k with Some o => row_chk g false (List.length ks) [] [] o | None => true end) ks.


(* ---------- what the check says ---------- *)
Section Sound.
Local Open Scope K_scope.
Add Field KFgt : (k_field CR).
Lemma delta_sum {X} (k : nat) (x : X -> CR) (a : X) b n : (b <= k < b + n)%nat -> ksum (map (fun i => if Nat.eqb i k then x a else 0) (seq b n)) = x a.
Proof.
  revert b. induction n as [|n IH]; intros b H; [lia|]. cbn [seq map]. rewrite ksum_cons. destruct (Nat.eqb_spec b k) as [->|NE].
  - rewrite ksum_zero; [ring|]. intros j I. apply in_seq in I. destruct (Nat.eqb_spec j k); [lia|reflexivity].
  - rewrite IH by lia. ring.
Qed.
Lemma incr_lt row : forall b n, incr b n row = true -> forall i e, In (i, e) row -> (b <= i < n)%nat.
Proof.
  induction row as [|[j u] r IH]; intros b n H i e I; [destruct I|]. cbn [incr] in H. apply andb_prop in H as [H1 H3]. apply andb_prop in H1 as [H1 H2].
  apply Nat.leb_le in H1. apply Nat.ltb_lt in H2. destruct I as [[= <- <-]|I]; [lia|]. specialize (IH _ _ H3 _ _ I). lia.
Qed.
Lemma row_sum (Gf : nat -> aexp -> CR) n row : forall b, incr b n row = true ->
  ksum (map (fun i => match dget row i with Some e => Gf i e | None => 0 end) (seq 0 n)) = ksum (map (fun ie => Gf (fst ie) (snd ie)) row).
Proof.
  induction row as [|[j u] r IH]; intros b H; cbn [map].
  - cbn [dget]. now apply ksum_zero.
  - pose proof (incr_lt _ _ _ H j u (or_introl eq_refl)) as L. cbn [incr] in H. apply andb_prop in H as [H1 H3]. rewrite ksum_cons, <- (IH _ H3). cbn [fst snd].
    rewrite <- (delta_sum j (Gf j) u 0 n) by lia. rewrite <- ksum_add. apply ksum_ext. intros i _. cbn [dget].
    change (keqb i j) with (Nat.eqb i j). destruct (Nat.eqb_spec i j) as [->|NE]; [|ring].
    assert (N : dget r j = None). { destruct (dget r j) as [e|] eqn:D; [|reflexivity]. apply dget_In in D. pose proof (incr_lt _ _ _ H3 _ _ D). lia. }
    rewrite N. ring.
Qed.

Variables (g : force) (real : bool) (ks : list string) (m : mon).
Hypothesis ND : NoDup (snd m).
Let h : mon -> CR := cfv m.
Lemma AHm : anti h. Proof. destruct m as [b l]. exact (cfv_anti b l ND). Qed.
Definition wval (F : opr -> poly) (k : string) : CR := match four_op k with Some o => weight o * coefficient (F o) m | None => 0 end.
Definition id_poly (o : opr) : poly := poly_of o.
Definition hc_poly (o : opr) : poly := hc (poly_of o).
Lemma four_shape k o : four_op k = Some o -> exists d c x y f1 f2 f3 f4, o = Four d c x y f1 f2 f3 f4.
Proof. unfold four_op. destruct (jms_op k) as [[d c x y f1 f2 f3 f4| |]|]; try discriminate. intros [= <-]. repeat eexists. Qed.
Lemma id_value o : flavs o = true -> weight o * coefficient (id_poly o) m = fvO h (flscale (rq (wq o)) (canon o)).
Proof. intros V. unfold fvO. rewrite fv_scale, gval_rq, kQ_weight, coefficient_pv. f_equal. exact (canon_ok h AHm o V). Qed.
Lemma hc_value' o : flavs o = true -> weight o * coefficient (hc_poly o) m = fvO h (flscale (rq (wq o)) (canon (hcop o))).
Proof.
  intros V. unfold fvO. rewrite fv_scale, gval_rq, kQ_weight, coefficient_pv. f_equal. unfold hc_poly. fold h. rewrite (hc_ok h AHm o V). exact (canon_ok h AHm _ (flavs_hc _ V)).
Qed.
Lemma dressed_four o : flavs o = true -> forallb (fun t => flavs (snd t)) (dop g o) = true -> pv h (dressed g (poly_of o)) = fvO h (canonL (dop g o)).
Proof.
  intros V F. destruct o as [d c x y f1 f2 f3 f4| |]; try discriminate. rewrite (dressed_op h AHm g d c x y f1 f2 f3 f4 V). exact (canonL_ok h AHm _ F).
Qed.
Lemma dressed_id o : flavs o = true -> forallb (fun t => flavs (snd t)) (dop g o) = true ->
  weight o * coefficient (dressed g (id_poly o)) m = fvO h (flscale (rq (wq o)) (canonL (dop g o))).
Proof. intros V F. unfold fvO. rewrite fv_scale, gval_rq, kQ_weight, coefficient_pv. f_equal. exact (dressed_four o V F). Qed.
Lemma dressed_hc o : flavs o = true -> forallb (fun t => flavs (snd t)) (dop g (hcop o)) = true ->
  weight o * coefficient (dressed g (hc_poly o)) m = fvO h (flscale (rq (wq o)) (canonL (dop g (hcop o)))).
Proof.
  intros V F. unfold fvO. rewrite fv_scale, gval_rq, kQ_weight, coefficient_pv. f_equal. fold h. unfold hc_poly.
  rewrite dressed_value, (hc_ok (dv g h) (dv_anti g h AHm) o V), <- dressed_value. exact (dressed_four _ (flavs_hc _ V) F).
Qed.
(* the sums over a row *)
Lemma row_value (row : arow) (B : nat -> CR) : incr 0 (List.length ks) row = true ->
  forallb (fun ie => match nth (fst ie) (map prep ks) None with Some t => flavs (fst t) && match aq (snd ie) with Some _ => true | None => false end | None => true end) row = true ->
  (forall i, match dget row i with Some e => forall q, aq e = Some q -> B i = kQ q | None => B i = 0 end) ->
  ksum (map (fun i => B i * wval id_poly (nth i ks "")) (seq 0 (List.length ks))) = fvO h (rhs (map prep ks) fst row) /\
  ksum (map (fun i => B i * wval hc_poly (nth i ks "")) (seq 0 (List.length ks))) = fvO h (rhs (map prep ks) snd row).
Proof.
  intros HI HF HB. rewrite forallb_forall in HF.
  assert (GEN : forall F sel, (forall o, flavs o = true -> weight o * coefficient (F o) m = fvO h (sel (flscale (rq (wq o)) (canon o), flscale (rq (wq o)) (canon (hcop o))))) ->
    ksum (map (fun i => B i * wval F (nth i ks "")) (seq 0 (List.length ks))) = fvO h (rhs (map prep ks) sel row)).
  { intros F sel HF2. unfold fvO, rhs. rewrite fv_flat_map.
    transitivity (ksum (map (fun i => match dget row i with Some e => (fun i _ => B i * wval F (nth i ks "")) i e | None => 0 end) (seq 0 (List.length ks)))).
    { apply ksum_ext. intros i _. specialize (HB i). destruct (dget row i); [reflexivity|]. rewrite HB. ring. }
    rewrite (row_sum (fun i _ => B i * wval F (nth i ks "")) (List.length ks) row 0 HI). apply ksum_ext. intros [i e] I. cbn [fst snd].
    pose proof (incr_lt _ _ _ HI _ _ I) as L. specialize (HF _ I). cbn [fst snd] in HF.
    assert (EN : nth i (map prep ks) None = prep (nth i ks "")).
    { rewrite (nth_indep _ None (prep "")) by (rewrite map_length; lia). apply map_nth. }
    rewrite EN in *. unfold prep, wval in *. destruct (four_op (nth i ks "")) as [o|]; [|rewrite fv_nil; ring]. cbn [fst snd] in HF. apply andb_prop in HF as [V A].
    destruct (aq e) as [q|] eqn:Q; [|discriminate]. rewrite fv_scale, gval_rq. rewrite (HF2 o V). cbn [snd].
    assert (D : dget row i = Some e). { clear - HI I. revert HI. generalize 0%nat. induction row as [|[j u] r IH]; intros b H; [destruct I|].
      cbn [dget]. change (keqb i j) with (Nat.eqb i j). destruct I as [[= -> ->]|I]; [now rewrite Nat.eqb_refl|]. cbn [incr] in H. apply andb_prop in H as [_ H].
      pose proof (incr_lt _ _ _ H _ _ I). destruct (Nat.eqb_spec i j); [lia|]. exact (IH I _ H). }
    specialize (HB i). rewrite D in HB. now rewrite (HB q Q). }
  split; apply GEN; [exact id_value|exact hc_value'].
Qed.
Lemma row_chk_ok row o (B B' : nat -> CR) (c : CR) : row_chk g real (List.length ks) (map prep ks) row o = true ->
  (forall i, match dget row i with Some e => forall q, aq e = Some q -> B i = kQ q | None => B i = 0 end) ->
  (forall i, match dget row i with Some e => forall q, aq e = Some q -> B' i = kQ q | None => B' i = 0 end) ->
  (real = true \/ self_adjoint o = true -> c^* = c) ->
  weight o * (c * coefficient (dressed g (poly_of o)) m + c^* * coefficient (dressed g (hc (poly_of o))) m) =
  c * ksum (map (fun i => B i * wval id_poly (nth i ks "")) (seq 0 (List.length ks))) + c^* * ksum (map (fun i => B' i * wval hc_poly (nth i ks "")) (seq 0 (List.length ks))).
Proof.
  intros H HB HB' HC. unfold row_chk in H. apply andb_prop in H as [H H6]. apply andb_prop in H as [H H5]. apply andb_prop in H as [H H4].
  apply andb_prop in H as [H H3]. apply andb_prop in H as [V H2].
  rewrite (proj1 (row_value row B H4 H5 HB)), (proj2 (row_value row B' H4 H5 HB')).
  transitivity (c * (weight o * coefficient (dressed g (id_poly o)) m) + c^* * (weight o * coefficient (dressed g (hc_poly o)) m)); [unfold id_poly, hc_poly; ring|].
  rewrite (dressed_id o V H2), (dressed_hc o V H3). cbv zeta in H6. destruct (real || self_adjoint o) eqn:R.
  - rewrite (HC (proj1 (orb_true_iff _ _) R)). apply (fleq_sound four_eqb four_hash four_eqb_eq (fun o => pv h (poly_of o))) in H6. rewrite !fv_app in H6.
    assert (A : forall a b b' d d' : CR, b + d = b' + d' -> a * b + a * d = a * b' + a * d') by (intros a b b' d d' E; transitivity (a * (b + d)); [ring|rewrite E; ring]).
    apply A. exact H6.
  - apply andb_prop in H6 as [E1 E2]. apply (fleq_sound four_eqb four_hash four_eqb_eq (fun o => pv h (poly_of o))) in E1, E2. unfold fvO. now rewrite E1, E2.
Qed.
Lemma mat_chk_ok am p f n A (C : nat -> CR) : mat_chk g real ks am = true -> amat_eval p f am = Ok (n, A) -> hermitian_real ks C ->
  (real = true -> forall i, (C i)^* = C i) ->
  four_lagrangian (dressed g) ks C m = four_lagrangian (fun q => q) ks (mixed ks A C) m.
Proof.
  intros H EA HR RR. unfold mat_chk in H. cbv zeta in H. apply andb_prop in H as [_ H]. rewrite forallb_forall in H.
  set (I := seq 0 (List.length ks)).
  transitivity (ksum (map (fun i => mixed ks A C i * wval id_poly (nth i ks "") + (mixed ks A C i)^* * wval hc_poly (nth i ks "")) I)).
  2:{ unfold four_lagrangian. apply ksum_ext. intros i _. unfold wval, id_poly, hc_poly. destruct (four_op (nth i ks "")); ring. }
  rewrite ksum_add.
  set (E := fun j => match four_op (nth j ks "") with Some _ => true | None => false end).
  transitivity (ksum (map (fun j => ksum (map (fun i => (if E j then A j i * C j else 0) * wval id_poly (nth i ks "")) I)) I) +
                ksum (map (fun j => ksum (map (fun i => (if E j then A j i * C j else 0)^* * wval hc_poly (nth i ks "")) I)) I)).
  2:{ f_equal.
    - rewrite (ksum_swap (fun j i => (if E j then A j i * C j else 0) * wval id_poly (nth i ks ""))). apply ksum_ext. intros i _. unfold mixed. rewrite ksum_scale_r. f_equal.
      apply ksum_ext. intros j _. unfold E. destruct (four_op (nth j ks "")); reflexivity.
    - rewrite (ksum_swap (fun j i => (if E j then A j i * C j else 0)^* * wval hc_poly (nth i ks ""))). apply ksum_ext. intros i _. unfold mixed. rewrite ksum_scale_r. f_equal.
      rewrite ksum_conj. apply ksum_ext. intros j _. unfold E. destruct (four_op (nth j ks "")); reflexivity. }
  rewrite <- ksum_add. unfold four_lagrangian. apply ksum_ext. intros j IJ. apply in_seq in IJ. unfold E. destruct (four_op (nth j ks "")) as [o|] eqn:EO.
  - specialize (H _ (numbered_In ks j "" ltac:(lia))). cbn [fst snd] in H. rewrite EO in H.
    assert (HB : forall i, match dget (nth j am []) i with Some e => forall q, aq e = Some q -> A j i = kQ q | None => A j i = 0 end).
    { intros i. pose proof (amat_get p f am n A j i EA) as G. destruct (dget (nth j am []) i) as [e|]; [|exact G]. destruct G as (z & Ez & ->). intros q Q. exact (aq_ok p f e z q Ez Q). }
    assert (HB' : forall i, match dget (nth j am []) i with Some e => forall q, aq e = Some q -> (A j i)^* = kQ q | None => (A j i)^* = 0 end).
    { intros i. specialize (HB i). destruct (dget (nth j am []) i) as [e|]; [intros q Q; rewrite (HB q Q); apply kconj_Q|rewrite HB; apply kconj_0]. }
    rewrite (row_chk_ok _ o _ _ (C j) H HB HB').
    2:{ intros [R|S]; [exact (RR R j)|exact (HR j o ltac:(lia) EO S)]. }
    f_equal; rewrite <- ksum_scale; apply ksum_ext; intros i _; rewrite ?kconj_mul; ring.
  - rewrite !ksum_zero; [ring| |]; intros i _; rewrite ?kconj_0; ring.
Qed.
Lemma zero_chk_ok (C : nat -> CR) : zero_chk g ks = true -> hermitian_real ks C -> real = false -> four_lagrangian (dressed g) ks C m = 0.
Proof.
  intros H HR RF. unfold zero_chk in H. rewrite forallb_forall in H. unfold four_lagrangian. apply ksum_zero. intros j IJ. apply in_seq in IJ.
  destruct (four_op (nth j ks "")) as [o|] eqn:EO; [|reflexivity].
  specialize (H _ (nth_In ks "" (n := j) ltac:(lia))). cbv beta in H. rewrite EO in H.
  assert (H' : row_chk g real (List.length ks) (map prep ks) [] o = true) by (rewrite RF; exact H).
  rewrite (row_chk_ok [] o (fun _ => 0) (fun _ => 0) (C j) H').
  - rewrite !ksum_zero; [ring| |]; intros; ring.
  - intros i. reflexivity.
  - intros i. reflexivity.
  - intros [R|S]; [congruence|exact (HR j o ltac:(lia) EO S)].
Qed.
End Sound.

(* ---------- the tables ---------- *)
Definition mat_name (g : force) (cls : string) : string := (match g with QCD => "adm_s_" | QED => "adm_e_" end ++ cls)%string.
Definition sect_chk (sa : string * list string) : bool :=
  match dget sectors (fst sa) with
  | Some cls => forallb (fun g =>
      if String.eqb cls "inv" then zero_chk g (snd sa)
      else match dget adm_table (mat_name g cls) with Some m => mat_chk g (String.eqb cls "sb") (snd sa) m | None => true end) [QCD; QED]
  | None => false
  end.
Lemma all_sects : forallb sect_chk coeffs = true.
Proof. vm_cast_no_check (eq_refl true). Qed.
Lemma sect_fact s cls ks g : dget sectors s = Some cls -> dget coeffs s = Some ks ->
  (if String.eqb cls "inv" then zero_chk g ks
   else match dget adm_table (mat_name g cls) with Some m => mat_chk g (String.eqb cls "sb") ks m | None => true end) = true.
Proof.
  intros ES EC. pose proof all_sects as T. rewrite forallb_forall in T. specialize (T _ (dget_In _ _ _ EC)). unfold sect_chk in T. cbn [fst snd] in T. rewrite ES in T.
  rewrite forallb_forall in T. exact (T g ltac:(destruct g; cbn; tauto)).
Qed.
