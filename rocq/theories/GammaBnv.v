(* What a gauge boson does to an operator that violates baryon number. *)
From Coq Require Import List Bool ZArith QArith Lia String.
From Verif Require Import PyBase Num AdmData RealC FermiSpec NpModel NpProofs FermiNorm FermiTab GammaSpec GammaTab GammaProofs GammaOps GammaCanon GammaBnvSpec.
Import ListNotations.
Local Open Scope list_scope.

(* ---------- the tensors ---------- *)
Definition mkS (x y : chir) : fl sp4 := nz (map (fun s => (zq (bspin x y s), s)) (quads spins)).
Definition S_LL := Eval vm_compute in mkS PL PL.
Definition S_LR := Eval vm_compute in mkS PL PR.
Definition S_RL := Eval vm_compute in mkS PR PL.
Definition S_RR := Eval vm_compute in mkS PR PR.
Definition S4 (x y : chir) : fl sp4 :=
  match x, y with PL, PL => S_LL | PL, PR => S_LR | PR, PL => S_RL | PR, PR => S_RR | _, _ => mkS x y end.
Lemma S4_table x y : S4 x y = mkS x y.
Proof. destruct x, y; try reflexivity; vm_compute; reflexivity. Qed.
Definition mkE : fl co4 := nz (map (fun t => (rq (Qred (bcol t)), t)) (quads colrs)).
Definition E4 : fl co4 := Eval vm_compute in mkE.
Lemma E4_table : E4 = mkE. Proof. vm_compute; reflexivity. Qed.
Lemma bspin_real x y s : snd (bspin x y s) = 0%Z.
Proof.
  assert (R : forall x a b, snd (ent (cbilin x) a b) = 0%Z) by (intros u a b; destruct u, a, b; vm_compute; reflexivity).
  destruct s as [[a b] [c e]]. unfold bspin, gzmul. cbn [snd]. rewrite !R. ring.
Qed.

Definition spinactB (d : bool) (p q : nat) (L : fl sp4) : fl sp4 :=
  flat_map (fun t => map (fun u => (gqmul (fst t) (fst u), set4 q (set4 p (snd t) (fst (snd u))) (snd (snd u)))) (spair d d (get4 p (snd t)) (get4 q (snd t)))) L.
Definition colactB (d : bool) (p q : nat) (L : fl co4) : fl co4 :=
  flat_map (fun t => map (fun u => (gqmul (fst t) (rq (colour_pair d d (get4 p (snd t)) (get4 q (snd t)) (fst u) (snd u))), set4 q (set4 p (snd t) (fst u)) (snd u))) (pairs colrs)) L.
(* exchanges of the first three fields: 0 none, 1 first and third, 2 second and third, 3 first and second *)
Definition xch {A} (n : nat) (x : (A * A) * (A * A)) : (A * A) * (A * A) :=
  match x with ((a, b), (c, e)) => match n with 0 => ((a, b), (c, e)) | 1 => ((c, b), (a, e)) | 2 => ((a, c), (b, e)) | _ => ((b, a), (c, e)) end%nat end.
Definition xmap {A} (n : nat) (l : fl ((A * A) * (A * A))) := map (fun t => (fst t, xch n (snd t))) l.
Definition tabB (x y : chir) (p q : nat) : list (Q * nat) :=
  match kind p q with
  | O => [(-(12), 0%nat)]
  | S O => if chir_eqb x y then [(8, 1%nat); (-(4), 0%nat)] else []
  | _ => if chir_eqb x y then [(8, 2%nat); (-(4), 0%nat)] else []
  end%Q.
Definition chk_spinB : bool := forallb (fun d => forallb (fun x => forallb (fun y => forallb (fun pq =>
  seq_ (spinactB d (fst pq) (snd pq) (S4 x y)) (flat_map (fun t => flscale (rq (fst t)) (xmap (snd t) (S4 x y))) (tabB x y (fst pq) (snd pq)))) opairs) LR) LR) [true; false].
Definition quark_pairs : list (nat * nat) := [(0, 1); (0, 2); (1, 0); (1, 2); (2, 0); (2, 1)]%nat.
Definition chk_colB : bool := forallb (fun d => forallb (fun pq => ceq_ (colactB d (fst pq) (snd pq) E4) (flscale (rq (-(2 # 3))) E4)) quark_pairs) [true; false].
Definition chk_antiB : bool := forallb (fun x => forallb (fun y => seq_ (xmap 3 (S4 x y)) (flscale (rq (-(1))) (S4 x y))) LR) LR
  && forallb (fun n => ceq_ (xmap n E4) (flscale (rq (-(1))) E4)) [1; 2; 3]%nat
  && forallb (fun x => seq_ (S4 x x) (xmap 1 (S4 x x) ++ xmap 2 (S4 x x))) LR.
Lemma checksB : chk_spinB && chk_colB && chk_antiB = true. Proof. vm_cast_no_check (eq_refl true). Qed.

Definition lr (x : chir) : bool := match x with PL | PR => true | _ => false end.
Lemma lr_In x : lr x = true -> In x LR. Proof. destruct x; try discriminate; cbn; tauto. Qed.
Definition okb (o : bop) : bool := match o with Bop x y _ _ _ f4 => lr x && lr y && negb (quark f4) end.
Definition xop (n : nat) (o : bop) : bop :=
  match o with Bop x y f1 f2 f3 f4 => match n with 0 => o | 1 => Bop x y f3 f2 f1 f4 | 2 => Bop x y f1 f3 f2 f4 | _ => Bop x y f2 f1 f3 f4 end%nat end.
Definition fldB (o : bop) (p : nat) : ferm := match o with Bop _ _ f1 f2 f3 f4 => fld f1 f2 f3 f4 p end.
Definition coefB (g : force) (o : bop) (p q : nat) : Q :=
  match g with QCD => if quark (fldB o p) && quark (fldB o q) then -(2 # 3) else 0 | QED => charge (fldB o p) * charge (fldB o q) end%Q.
Definition dB (g : force) (o : bop) : fl bop :=
  match o with Bop x y _ _ _ _ => flat_map (fun pq => map (fun t => (rq (Qred (-(1 # 4) * coefB g o (fst pq) (snd pq) * fst t)), xop (snd t) o)) (tabB x y (fst pq) (snd pq))) opairs end%Q.

Section G.
Local Open Scope K_scope.
Local Notation K := CR.
Add Field KFgb : (k_field CR).
Variable h : mon -> K.
Hypothesis AH : anti h.
Definition hb (d : bool) f1 f2 f3 f4 (x : sp4) (y : co4) : K :=
  h (NoB, [cp d f1 (get4 0 x) (get4 0 y); cp d f2 (get4 1 x) (get4 1 y); cp d f3 (get4 2 x) (get4 2 y); cp d f4 (get4 3 x) (get4 3 y)]).
End G.
(* the value of the operator (d = false) and of its hermitian conjugate (d = true) *)
Definition bv (h : mon -> CR) (d : bool) (o : bop) : CR := match o with Bop x y f1 f2 f3 f4 => fv2 (hb h d f1 f2 f3 f4) (S4 x y) E4 end.
Section H.
Local Open Scope K_scope.
Add Field KFgb2 : (k_field CR).
Variable h : mon -> CR.
Lemma value_sum (F : sp4 -> co4 -> CR) x y : ksum (map (fun s => ksum (map (fun t => gzval (bspin x y s) * kQ (bcol t) * F s t) (quads colrs))) (quads spins)) = fv2 F (S4 x y) E4.
Proof.
  unfold fv2. rewrite S4_table. unfold mkS, nz. rewrite fv_filter. unfold fv at 1. rewrite map_map. apply ksum_ext. intros s _. cbn [fst snd]. rewrite gval_zq.
  rewrite E4_table. unfold mkE, nz. rewrite fv_filter. unfold fv. rewrite map_map, <- ksum_scale. apply ksum_ext. intros t _. cbn [fst snd]. rewrite gval_rq, kQ_Qred. ring.
Qed.
Lemma bnv_value o : pv h (bnv_poly o) = bv h false o.
Proof.
  destruct o as [x y f1 f2 f3 f4]. unfold pv, bnv_poly, bv. rewrite map_map, sum_prodl, <- value_sum. apply ksum_ext. intros s _. apply ksum_ext. intros t _.
  destruct s as [[a b] [c e]], t as [[i j] [k l]]. cbv zeta. cbn [fst snd]. rewrite gval_scaled. unfold hb. cbn [get4]. reflexivity.
Qed.
Hypothesis AH : anti h.
Lemma rev4 a b c e : h (NoB, [e; c; b; a]) = h (NoB, [a; b; c; e]).
Proof.
  rewrite (a1 h AH c e b a), (a2 h AH c b e a), (a3 h AH c b a e), (a1 h AH b c a e), (a2 h AH b a c e), (a1 h AH a b c e). ring.
Qed.
Lemma bnv_hc_value o : pv h (hc (bnv_poly o)) = bv h true o.
Proof.
  destruct o as [x y f1 f2 f3 f4]. unfold pv, hc, bnv_poly, bv. rewrite !map_map, sum_prodl, <- value_sum. apply ksum_ext. intros s _. apply ksum_ext. intros t _.
  pose proof (bspin_real x y s) as R. destruct s as [[a b] [c e]], t as [[i j] [k l]]. cbv zeta. cbn [fst snd] in *. unfold hb. cbn [get4 hc_bos map rev app hc_comp cp negb].
  rewrite rev4. f_equal. rewrite <- gval_scaled. unfold gval. cbn [fst snd]. rewrite R. rewrite kQ_opp, !kQ_mul, !kQ_Z. change (@kZ CR 0) with (0 : CR). ring.
Qed.

(* ---------- exchange of fields ---------- *)
Lemma fv_xmap {A} n (G : (A * A) * (A * A) -> CR) l : fv G (xmap n l) = fv (fun t => G (xch n t)) l.
Proof. unfold fv, xmap. now rewrite map_map. Qed.
Lemma xch_anti d f1 f2 f3 f4 s t : hb h d f1 f2 f3 f4 (xch 1 s) t = - hb h d f3 f2 f1 f4 s (xch 1 t) /\ hb h d f1 f2 f3 f4 (xch 2 s) t = - hb h d f1 f3 f2 f4 s (xch 2 t)
  /\ hb h d f1 f2 f3 f4 (xch 3 s) t = - hb h d f2 f1 f3 f4 s (xch 3 t).
Proof.
  destruct s as [[a b] [c e]], t as [[i j] [k l]]. unfold hb. cbn [xch get4]. split; [|split].
  - rewrite (a1 h AH (cp d f2 b j) (cp d f3 a k)), (a2 h AH (cp d f2 b j) (cp d f1 c i)), (a1 h AH (cp d f1 c i) (cp d f2 b j)). ring.
  - rewrite (a2 h AH (cp d f1 a i) (cp d f2 c j)). ring.
  - rewrite (a1 h AH (cp d f1 b i) (cp d f2 a j)). ring.
Qed.
Lemma antiB : chk_antiB = true. Proof. pose proof checksB as H. now apply andb_prop in H as [_ H]. Qed.
Lemma E4_anti n (G : co4 -> CR) : In n [1; 2; 3]%nat -> fv (fun t => G (xch n t)) E4 = - fv G E4 :> CR.
Proof.
  intros I. pose proof antiB as H. unfold chk_antiB in H. apply andb_prop in H as [H _]. apply andb_prop in H as [_ H]. rewrite forallb_forall in H. specialize (H _ I).
  refine (eq_trans (eq_sym (fv_xmap n G E4)) _). refine (eq_trans (fleq_sound co4_eqb co4_hash co4_eqb_eq G _ _ H) _). rewrite fv_scale, gval_rq, kQ_opp, kQ_1. ring.
Qed.
Lemma xop_value n d x y f1 f2 f3 f4 : In n [0; 1; 2; 3]%nat -> fv2 (hb h d f1 f2 f3 f4) (xmap n (S4 x y)) E4 = bv h d (xop n (Bop x y f1 f2 f3 f4)).
Proof.
  intros I. unfold fv2. refine (eq_trans (fv_xmap n (fun s => fv (hb h d f1 f2 f3 f4 s) E4) (S4 x y)) _). cbn [xop bv]. destruct I as [<-|I].
  - apply fv_ext. intros [[a b] [c e]]. reflexivity.
  - assert (I' := I). destruct I as [<-|[<-|[<-|[]]]]; cbn [bv]; unfold fv2; apply fv_ext; intros s.
    + rewrite (fv_ext _ (fun t => - (1) * hb h d f3 f2 f1 f4 s (xch 1 t))) by (intros t; rewrite (proj1 (xch_anti d f1 f2 f3 f4 s t)); ring). rewrite fv_mul, (E4_anti 1) by exact I'. ring.
    + rewrite (fv_ext _ (fun t => - (1) * hb h d f1 f3 f2 f4 s (xch 2 t))) by (intros t; rewrite (proj1 (proj2 (xch_anti d f1 f2 f3 f4 s t))); ring). rewrite fv_mul, (E4_anti 2) by exact I'. ring.
    + rewrite (fv_ext _ (fun t => - (1) * hb h d f2 f1 f3 f4 s (xch 3 t))) by (intros t; rewrite (proj2 (proj2 (xch_anti d f1 f2 f3 f4 s t))); ring). rewrite fv_mul, (E4_anti 3) by exact I'. ring.
Qed.
Lemma bv_swap d x y f1 f2 f3 f4 : lr x = true -> lr y = true -> bv h d (Bop x y f2 f1 f3 f4) = - bv h d (Bop x y f1 f2 f3 f4).
Proof.
  intros X Y. change (Bop x y f2 f1 f3 f4) with (xop 3 (Bop x y f1 f2 f3 f4)). rewrite <- xop_value by (cbn; tauto).
  pose proof antiB as H. unfold chk_antiB in H. apply andb_prop in H as [H _]. apply andb_prop in H as [H _]. rewrite forallb_forall in H. specialize (H _ (lr_In _ X)). rewrite forallb_forall in H. specialize (H _ (lr_In _ Y)).
  unfold fv2. refine (eq_trans (fleq_sound sp4_eqb sp4_hash sp4_eqb_eq (fun s => fv (hb h d f1 f2 f3 f4 s) E4) _ _ H) _). rewrite fv_scale, gval_rq, kQ_opp, kQ_1. cbn [bv]. unfold fv2. ring.
Qed.
Lemma schouten d x f1 f2 f3 f4 : lr x = true -> bv h d (Bop x x f1 f2 f3 f4) = bv h d (Bop x x f3 f2 f1 f4) + bv h d (Bop x x f1 f3 f2 f4).
Proof.
  intros X. change (Bop x x f3 f2 f1 f4) with (xop 1 (Bop x x f1 f2 f3 f4)). change (Bop x x f1 f3 f2 f4) with (xop 2 (Bop x x f1 f2 f3 f4)). rewrite <- !xop_value by (cbn; tauto).
  pose proof antiB as H. unfold chk_antiB in H. apply andb_prop in H as [_ H]. rewrite forallb_forall in H. specialize (H _ (lr_In _ X)).
  cbn [bv]. unfold fv2. refine (eq_trans (fleq_sound sp4_eqb sp4_hash sp4_eqb_eq (fun s => fv (hb h d f1 f2 f3 f4 s) E4) _ _ H) _). exact (fv_app _ _ _).
Qed.

(* ---------- dressing ---------- *)
Section D.
Variables (g : force) (d : bool) (x y : chir) (f1 f2 f3 f4 : ferm).
Local Notation fd := (fld f1 f2 f3 f4).
Local Notation H := (hb h d f1 f2 f3 f4).
Definition EXB (p q : nat) (s : sp4) (t : co4) : CR :=
  kQ (-(1 # 4)) * fv (fun u => ksum (map (fun v => kQ (force_pair g d (fd p) d (fd q) (get4 p t) (get4 q t) (fst v) (snd v)) *
    H (set4 q (set4 p s (fst u)) (snd u)) (set4 q (set4 p t (fst v)) (snd v))) (pairs colrs))) (spair d d (get4 p s) (get4 q s)).
Lemma dv_slotsB s t : hb (dv g h) d f1 f2 f3 f4 s t = ksum (map (fun pq => EXB (fst pq) (snd pq) s t) opairs).
Proof.
  destruct s as [[a b] [c e]], t as [[i j] [k l]]. unfold hb at 1. rewrite dv_eq. cbn [get4 fronts map fst snd].
  assert (S1 : @kZ CR 1 = 1) by reflexivity. assert (S2 : @kZ CR (-1) = - (1)) by reflexivity.
  cbn [Z.mul Z.opp Pos.mul]. unfold ksum at 1 2 3 4 5. cbn [fold_right map opairs fst snd]. rewrite ?S1, ?S2.
  set (c1 := cp d f1 a i). set (c2 := cp d f2 b j). set (c3 := cp d f3 c k). set (c4 := cp d f4 e l).
  assert (PZ : forall u v w z u' v' w' r, PN g h (cp d u v w) (cp d z u' v') r = w' -> PN g h (cp d u v w) (cp d z u' v') r = 0) by (intros; unfold PN, cp, lv, penguin; destruct d; reflexivity).
  assert (PZ' : forall f s i f' s' i' r, PN g h (cp d f s i) (cp d f' s' i') r = 0) by (intros; unfold PN, cp, lv, penguin; destruct d; reflexivity). clear PZ.
  set (x0 := ((a, b), (c, e))). set (y0 := ((i, j), (k, l))).
  assert (E12 : 1 * EX g h c1 c2 [c3; c4] = EXB 0 1 x0 y0). { unfold c1, c2, cp. rewrite ex_value. unfold EXB, hb. cbn [fld get4 set4 x0 y0]. apply ex_congr. intros u v. fold c3 c4. ring. }
  assert (E13 : - (1) * EX g h c1 c3 [c2; c4] = EXB 0 2 x0 y0).
  { unfold c1, c3, cp. rewrite ex_value. unfold EXB, hb. cbn [fld get4 set4 x0 y0]. apply ex_congr. intros u v. rewrite (a2 h AH). fold c2 c4. ring. }
  assert (E14 : 1 * EX g h c1 c4 [c2; c3] = EXB 0 3 x0 y0).
  { unfold c1, c4, cp. rewrite ex_value. unfold EXB, hb. cbn [fld get4 set4 x0 y0]. apply ex_congr. intros u v. rewrite (proj1 (proj2 (perms h AH _ c2 c3 _))). fold c2 c3. ring. }
  assert (E21 : - (1) * EX g h c2 c1 [c3; c4] = EXB 1 0 x0 y0).
  { unfold c1, c2, cp. rewrite ex_value. unfold EXB, hb. cbn [fld get4 set4 x0 y0]. apply ex_congr. intros u v. rewrite (a1 h AH). fold c3 c4. ring. }
  assert (E23 : 1 * EX g h c2 c3 [c1; c4] = EXB 1 2 x0 y0).
  { unfold c2, c3, cp. rewrite ex_value. unfold EXB, hb. cbn [fld get4 set4 x0 y0]. apply ex_congr. intros u v. rewrite (proj1 (proj2 (proj2 (proj2 (perms h AH c1 _ _ c4))))). fold c1 c4. ring. }
  assert (E24 : - (1) * EX g h c2 c4 [c1; c3] = EXB 1 3 x0 y0).
  { unfold c2, c4, cp. rewrite ex_value. unfold EXB, hb. cbn [fld get4 set4 x0 y0]. apply ex_congr. intros u v. rewrite (proj1 (proj2 (proj2 (proj2 (proj2 (perms h AH c1 _ c3 _)))))). fold c1 c3. ring. }
  assert (E31 : 1 * EX g h c3 c1 [c2; c4] = EXB 2 0 x0 y0).
  { unfold c3, c1, cp. rewrite ex_value. unfold EXB, hb. cbn [fld get4 set4 x0 y0]. apply ex_congr. intros u v. rewrite (proj1 (proj2 (proj2 (proj2 (proj2 (proj2 (perms h AH _ c2 _ c4))))))). fold c2 c4. ring. }
  assert (E32 : - (1) * EX g h c3 c2 [c1; c4] = EXB 2 1 x0 y0).
  { unfold c3, c2, cp. rewrite ex_value. unfold EXB, hb. cbn [fld get4 set4 x0 y0]. apply ex_congr. intros u v. rewrite (proj1 (proj2 (proj2 (proj2 (proj2 (proj2 (proj2 (perms h AH c1 _ _ c4)))))))). fold c1 c4. ring. }
  assert (E34 : 1 * EX g h c3 c4 [c1; c2] = EXB 2 3 x0 y0).
  { unfold c3, c4, cp. rewrite ex_value. unfold EXB, hb. cbn [fld get4 set4 x0 y0]. apply ex_congr. intros u v. rewrite (proj1 (proj2 (proj2 (proj2 (proj2 (proj2 (proj2 (proj2 (perms h AH c1 c2 _ _))))))))). fold c1 c2. ring. }
  assert (E41 : - (1) * EX g h c4 c1 [c2; c3] = EXB 3 0 x0 y0).
  { unfold c4, c1, cp. rewrite ex_value. unfold EXB, hb. cbn [fld get4 set4 x0 y0]. apply ex_congr. intros u v. rewrite (proj1 (proj2 (proj2 (proj2 (proj2 (proj2 (proj2 (proj2 (proj2 (perms h AH _ c2 c3 _)))))))))). fold c2 c3. ring. }
  assert (E42 : 1 * EX g h c4 c2 [c1; c3] = EXB 3 1 x0 y0).
  { unfold c4, c2, cp. rewrite ex_value. unfold EXB, hb. cbn [fld get4 set4 x0 y0]. apply ex_congr. intros u v. rewrite (proj1 (proj2 (proj2 (proj2 (proj2 (proj2 (proj2 (proj2 (proj2 (proj2 (perms h AH c1 _ c3 _))))))))))). fold c1 c3. ring. }
  assert (E43 : - (1) * EX g h c4 c3 [c1; c2] = EXB 3 2 x0 y0).
  { unfold c4, c3, cp. rewrite ex_value. unfold EXB, hb. cbn [fld get4 set4 x0 y0]. apply ex_congr. intros u v. rewrite (proj2 (proj2 (proj2 (proj2 (proj2 (proj2 (proj2 (proj2 (proj2 (proj2 (perms h AH c1 c2 _ _))))))))))). fold c1 c2. ring. }
  rewrite <- E12, <- E13, <- E14, <- E21, <- E23, <- E24, <- E31, <- E32, <- E34, <- E41, <- E42, <- E43. unfold c1, c2, c3, c4. rewrite !PZ'. unfold ksum. cbn [fold_right]. ring.
Qed.
Hypothesis X : lr x = true.
Hypothesis Y : lr y = true.
Hypothesis LQ : quark f4 = false.
Local Notation o := (Bop x y f1 f2 f3 f4).
Lemma spin_stepB M p q : In (p, q) opairs ->
  fv2 H (spinactB d p q (S4 x y)) M = ksum (map (fun t => kQ (fst t) * fv2 H (xmap (snd t) (S4 x y)) M) (tabB x y p q)).
Proof.
  intros I. pose proof checksB as T. apply andb_prop in T as [T _]. apply andb_prop in T as [T _]. unfold chk_spinB in T. rewrite forallb_forall in T. specialize (T d ltac:(destruct d; cbn; tauto)).
  rewrite forallb_forall in T. specialize (T _ (lr_In _ X)). rewrite forallb_forall in T. specialize (T _ (lr_In _ Y)). rewrite forallb_forall in T. specialize (T _ I). cbn [fst snd] in T. unfold fv2.
  rewrite (fleq_sound sp4_eqb sp4_hash sp4_eqb_eq (fun s => fv (H s) M) _ _ T), fv_flat_map. apply ksum_ext. intros t _. now rewrite fv_scale, gval_rq.
Qed.
Lemma tab_In p q t : In t (tabB x y p q) -> In (snd t) [0; 1; 2; 3]%nat.
Proof. unfold tabB. destruct (kind p q) as [|[|]]; [|destruct (chir_eqb x y)|destruct (chir_eqb x y)]; cbn [In]; intros I; repeat (destruct I as [<-|I]; [cbn; tauto|]); destruct I. Qed.
Lemma spinB M p q : In (p, q) opairs -> M = E4 -> fv2 H (spinactB d p q (S4 x y)) M = ksum (map (fun t => kQ (fst t) * bv h d (xop (snd t) o)) (tabB x y p q)).
Proof. intros I ->. rewrite spin_stepB by exact I. apply ksum_ext. intros t It. now rewrite (xop_value _ d x y f1 f2 f3 f4 (tab_In p q t It)). Qed.
Lemma ex_opB p q : In (p, q) opairs -> fv2 (EXB p q) (S4 x y) E4 = kQ (-(1 # 4)) * (kQ (coefB g o p q) * ksum (map (fun t => kQ (fst t) * bv h d (xop (snd t) o)) (tabB x y p q))).
Proof.
  intros I.
  assert (Z : fv2 (EXB p q) (S4 x y) E4 = kQ (-(1 # 4)) * fv (fun s => fv (fun u => fv (fun t => ksum (map (fun v =>
     kQ (force_pair g d (fd p) d (fd q) (get4 p t) (get4 q t) (fst v) (snd v)) * H (set4 q (set4 p s (fst u)) (snd u)) (set4 q (set4 p t (fst v)) (snd v))) (pairs colrs))) E4)
     (spair d d (get4 p s) (get4 q s))) (S4 x y)).
  { unfold fv2 at 1. rewrite <- fv_mul. apply fv_ext. intros s. unfold EXB. rewrite fv_mul. f_equal.
    exact (fv2_swap (fun t u => ksum (map (fun v => kQ (force_pair g d (fd p) d (fd q) (get4 p t) (get4 q t) (fst v) (snd v)) * H (set4 q (set4 p s (fst u)) (snd u)) (set4 q (set4 p t (fst v)) (snd v))) (pairs colrs))) E4 _). }
  rewrite Z. clear Z. f_equal. rewrite <- (spinB E4 p q I eq_refl).
  assert (SV : forall G : sp4 -> CR, fv G (spinactB d p q (S4 x y)) = fv (fun s => fv (fun u => G (set4 q (set4 p s (fst u)) (snd u))) (spair d d (get4 p s) (get4 q s))) (S4 x y)).
  { intros G. exact (fv_bind G (fun x u => set4 q (set4 p x (fst u)) (snd u)) (fun x => spair d d (get4 p x) (get4 q x)) (S4 x y)). }
  unfold fv2. rewrite SV, <- fv_mul. apply fv_ext. intros s. rewrite <- fv_mul. apply fv_ext. intros u. unfold coefB. cbn [fldB].
  set (s' := set4 q (set4 p s (fst u)) (snd u)). destruct g; unfold force_pair.
  - destruct (quark (fd p) && quark (fd q)) eqn:QQ.
    + assert (IQ : In (p, q) quark_pairs).
      { apply andb_prop in QQ as [Q1 Q2]. cbn [opairs In] in I. repeat (destruct I as [[= <- <-]|I]; [cbn [fld] in Q1, Q2; try congruence; cbn; tauto|]). destruct I. }
      pose proof checksB as T. apply andb_prop in T as [T _]. apply andb_prop in T as [_ T]. unfold chk_colB in T. rewrite forallb_forall in T. specialize (T d ltac:(destruct d; cbn; tauto)).
      rewrite forallb_forall in T. specialize (T _ IQ). cbn [fst snd] in T. apply (fleq_sound co4_eqb co4_hash co4_eqb_eq (H s')) in T. rewrite fv_scale, gval_rq in T. rewrite <- T.
      unfold colactB. rewrite fv_flat_map. unfold fv at 1. apply ksum_ext. intros t _. unfold fv. rewrite map_map, <- ksum_scale. apply ksum_ext. intros v _. cbn [fst snd]. rewrite gval_gqmul, gval_rq. ring.
    + rewrite kQ_0. transitivity (0 : CR); [|ring]. rewrite <- (fv_zero E4) at 1. apply fv_ext. intros t. apply ksum_zero. intros v _. ring.
  - rewrite <- fv_mul. apply fv_ext. intros t. rewrite eqb_reflx.
    rewrite (GammaOps.delta_sum (charge (fd p) * charge (fd q)) (get4 p t) (get4 q t) (fun v => H s' (set4 q (set4 p t (fst v)) (snd v)))). cbn [fst snd]. now rewrite set_get.
Qed.
Lemma dressedB : bv (dv g h) d o = fv (bv h d) (dB g o).
Proof.
  cbn [bv dB]. rewrite (fv2_ext _ (fun s t => ksum (map (fun pq => EXB (fst pq) (snd pq) s t) opairs))) by exact dv_slotsB.
  unfold fv2. rewrite (fv_ext _ (fun s => ksum (map (fun pq => fv (EXB (fst pq) (snd pq) s) E4) opairs))) by (intros s; exact (fv_sum (fun pq t => EXB (fst pq) (snd pq) s t) opairs E4)).
  rewrite (fv_sum (fun pq s => fv (EXB (fst pq) (snd pq) s) E4)), fv_flat_map. apply ksum_ext. intros [p q] I. cbn [fst snd].
  refine (eq_trans (ex_opB p q I) _). rewrite fv_map_rq, <- !ksum_scale. apply ksum_ext. intros t _. rewrite kQ_Qred, !kQ_mul. ring.
Qed.
End D.
(* ---------- a basis ---------- *)
Definition cnB (o : bop) : fl bop :=
  match o with Bop x y f1 f2 f3 f4 =>
    if ferm_eqb f1 f2 then [] else
    let '(s, (a, b)) := if flt f1 f2 then (1, (f1, f2)) else (-(1), (f2, f1)) in
    if chir_eqb x y && flt f3 a then [(rq s, Bop x y f3 b a f4); (rq (-s), Bop x y f3 a b f4)] else [(rq s, Bop x y a b f3 f4)]
  end%Q.
Lemma cnB_ok d o : okb o = true -> bv h d o = fv (bv h d) (cnB o).
Proof.
  destruct o as [x y f1 f2 f3 f4]. cbn [okb]. intros V. apply andb_prop in V as [V _]. apply andb_prop in V as [X Y]. unfold cnB.
  destruct (ferm_eqb f1 f2) eqn:E.
  - apply GammaOps.ferm_eqb_eq in E. subst f2. rewrite fv_nil. pose proof (bv_swap d x y f1 f1 f3 f4 X Y) as S.
    assert (T : (1 + 1 : CR) <> 0) by exact (kpos_neq_0 2). set (z := bv h d (Bop x y f1 f1 f3 f4)) in *.
    transitivity ((z - - z) / (1 + 1)); [now field|]. rewrite <- S. now field.
  - assert (G : forall s a b, bv h d (Bop x y f1 f2 f3 f4) = kQ s * bv h d (Bop x y a b f3 f4) ->
      bv h d (Bop x y f1 f2 f3 f4) = fv (bv h d) (if chir_eqb x y && flt f3 a then [(rq s, Bop x y f3 b a f4); (rq (- s), Bop x y f3 a b f4)] else [(rq s, Bop x y a b f3 f4)])).
    { intros s a b ->. destruct (chir_eqb x y && flt f3 a) eqn:C; rewrite !fv_cons, fv_nil, !gval_rq; [|ring].
      apply andb_prop in C as [C _]. apply GammaCanon.chir_eqb_eq in C. subst y. rewrite kQ_opp, (schouten d x a b f3 f4 X), (bv_swap d x x f3 a b f4 X X). ring. }
    destruct (flt f1 f2); apply G; [rewrite kQ_1; ring|]. rewrite kQ_opp, kQ_1, (bv_swap d x y f1 f2 f3 f4 X Y). ring.
Qed.
Definition cnL (l : fl bop) : fl bop := flat_map (fun t => flscale (fst t) (cnB (snd t))) l.
Lemma cnL_ok d l : forallb (fun t => okb (snd t)) l = true -> fv (bv h d) l = fv (bv h d) (cnL l).
Proof.
  intros V. rewrite forallb_forall in V. unfold cnL. rewrite fv_flat_map. unfold fv at 1. apply ksum_ext. intros t I. now rewrite fv_scale, <- (cnB_ok d _ (V t I)).
Qed.
Lemma dB_ok g o : okb o = true -> forallb (fun t => okb (snd t)) (dB g o) = true.
Proof.
  intros V. apply forallb_forall. intros t I. destruct o as [x y f1 f2 f3 f4]. cbn [dB] in I. apply in_flat_map in I as (pq & _ & I). apply in_map_iff in I as (u & <- & _). cbn [snd].
  destruct (snd u) as [|[|[|]]]; exact V.
Qed.
End H.
(* the dressed operators *)
Section Dr.
Local Open Scope K_scope.
Variable h : mon -> CR.
Hypothesis AH : anti h.
Lemma dressed_bnv g o : okb o = true -> pv h (dressed g (bnv_poly o)) = fv (bv h false) (cnL (dB g o)) /\ pv h (dressed g (hc (bnv_poly o))) = fv (bv h true) (cnL (dB g o)).
Proof.
  intros V. assert (V' := V). destruct o as [x y f1 f2 f3 f4]. cbn [okb] in V. apply andb_prop in V as [V Q]. apply andb_prop in V as [X Y]. apply negb_true_iff in Q.
  rewrite !dressed_value, bnv_value, (bnv_hc_value _ (dv_anti g h AH)), <- !(cnL_ok h AH) by (now apply dB_ok). split; now apply dressedB.
Qed.
End Dr.
