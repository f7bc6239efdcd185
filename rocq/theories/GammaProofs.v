(* What a gauge boson does to a four-fermion operator, as a linear combination of four-fermion operators. *)
From Coq Require Import List Bool ZArith QArith Lia.
From Verif Require Import PyBase Num AdmData FermiSpec NpModel NpProofs FermiNorm FermiTab GammaSpec GammaTab.
Import ListNotations.
Local Open Scope list_scope.

Section G.
Context {K : StarField}.
Local Open Scope K_scope.
Add Ring KRgp : (F_R (k_field K)).

Lemma gval_zq z : @gval K (zq z) = gzval z.
Proof. unfold gval, zq, gzval. cbn [fst snd]. now rewrite !kQ_Z. Qed.
Definition fv2 {X Y} (H : X -> Y -> K) (L : fl X) (M : fl Y) : K := fv (fun x => fv (H x) M) L.
Lemma fv2_ext {X Y} (H H' : X -> Y -> K) L M : (forall x y, H x y = H' x y) -> fv2 H L M = fv2 H' L M.
Proof. intros E. apply fv_ext. intros x. apply fv_ext. intros y. apply E. Qed.
Lemma fv2_swap {X Y} (H : X -> Y -> K) L M : fv2 H L M = fv (fun y => fv (fun x => H x y) L) M.
Proof.
  unfold fv2, fv. transitivity (ksum (map (fun t => ksum (map (fun u => gval (fst t) * (gval (fst u) * H (snd t) (snd u))) M)) L)).
  - apply ksum_ext. intros t _. now rewrite ksum_scale.
  - rewrite ksum_swap. apply ksum_ext. intros u _. rewrite <- ksum_scale. apply ksum_ext. intros t _. ring.
Qed.
Lemma fv_lin {X Y} (H : X -> Y -> K) (L : fl X) (l : list Y) (c : Y -> K) :
  fv (fun x => ksum (map (fun y => c y * H x y) l)) L = ksum (map (fun y => c y * fv (fun x => H x y) L) l).
Proof.
  unfold fv. transitivity (ksum (map (fun t => ksum (map (fun y => gval (fst t) * (c y * H (snd t) y)) l)) L)).
  - apply ksum_ext. intros t _. now rewrite ksum_scale.
  - rewrite ksum_swap. apply ksum_ext. intros y _. rewrite <- ksum_scale. apply ksum_ext. intros t _. ring.
Qed.
Lemma fv_mul {X} c (G : X -> K) L : fv (fun x => c * G x) L = c * fv G L.
Proof. unfold fv. rewrite <- ksum_scale. apply ksum_ext. intros t _. ring. Qed.
Lemma fv_plus {X} (G G' : X -> K) L : fv (fun x => G x + G' x) L = fv G L + fv G' L.
Proof. unfold fv. rewrite <- ksum_add. apply ksum_ext. intros t _. ring. Qed.
Lemma fv_zero {X} (L : fl X) : fv (fun _ => 0) L = (0 : K).
Proof. unfold fv. apply ksum_zero. intros t _. ring. Qed.
Lemma fv_sum {X Y} (G : Y -> X -> K) (l : list Y) L : fv (fun x => ksum (map (fun y => G y x) l)) L = ksum (map (fun y => fv (G y) L) l).
Proof.
  pose proof (fv_lin (fun x y => G y x) L l (fun _ => 1)) as E.
  transitivity (fv (fun x => ksum (map (fun y => 1 * G y x) l)) L).
  - apply fv_ext. intros x. apply ksum_ext. intros y _. ring.
  - rewrite E. apply ksum_ext. intros y _. assert (U : forall z : K, 1 * z = z) by (intros; ring). exact (U _).
Qed.

(* ---------- the operators ---------- *)
Definition slots (f1 f2 f3 f4 : ferm) (x : sp4) (y : co4) : list comp :=
  [cp true f1 (get4 0 x) (get4 0 y); cp false f2 (get4 1 x) (get4 1 y); cp true f3 (get4 2 x) (get4 2 y); cp false f4 (get4 3 x) (get4 3 y)].
Definition hs (h : mon -> K) f1 f2 f3 f4 (x : sp4) (y : co4) : K := h (NoB, slots f1 f2 f3 f4 x y).
Lemma four_value h d c x y f1 f2 f3 f4 : dok d x y = true -> cok c (quark f1) (quark f3) = true ->
  pv h (poly_of (Four d c x y f1 f2 f3 f4)) = fv2 (hs h f1 f2 f3 f4) (D4 d x y) (C4 c (quark f1) (quark f3)).
Proof.
  intros HD HC. unfold pv. cbn [poly_of]. unfold four_poly. rewrite map_map, sum_prodl.
  transitivity (ksum (map (fun s => gzval (q4 (dirac4 d x y) s) * fv (hs h f1 f2 f3 f4 s) (C4 c (quark f1) (quark f3))) (quads spins))).
  - apply ksum_ext. intros [[a b] [c0 e]] _. rewrite (C4_table _ _ _ HC). unfold mk_C4, nz. rewrite fv_filter. unfold fv at 1. rewrite map_map, <- ksum_scale.
    apply ksum_ext. intros [[i j] [k l]] _. cbv zeta. cbn [fst snd c4 q4]. rewrite gval_scaled, gval_rq, kQ_Qred.
    change (colour4 c f1 f3 i j k l) with (colq c (quark f1) (quark f3) i j k l). unfold hs, slots. cbn [get4]. ring.
  - rewrite sum_sparse. unfold fv2. rewrite (D4_table _ _ _ HD). unfold fv at 2. rewrite map_map.
    unfold mk_dirac. cbn [fst snd]. cbv zeta. apply ksum_ext. intros t _. cbn [fst snd]. now rewrite gval_zq.
Qed.

(* ---------- dressing ---------- *)
Definition dv (g : force) (h : mon -> K) (m : mon) : K := ksum (map (fun u => gval (fst u) * h (fst m, snd u)) (dressed_mon g (snd m))).
Lemma dressed_value g h p : pv h (dressed g p) = pv (dv g h) p.
Proof.
  unfold pv, dressed. rewrite ksum_flat_map. apply ksum_ext. intros t _. rewrite map_map. unfold dv. rewrite <- ksum_scale. apply ksum_ext. intros u _.
  cbn [fst snd]. rewrite gval_gqmul. assert (A : forall x y z : K, x * y * z = x * (y * z)) by (intros; ring). exact (A _ _ _).
Qed.
Lemma gval_sz s c : @gval K (sz_gq s c) = kZ s * gval c.
Proof. unfold gval, sz_gq. cbn [fst snd]. rewrite !kQ_mul, !kQ_Z. ring. Qed.
Definition lv (h : mon -> K) (r : list comp) (l : list (gq * list comp)) : K := ksum (map (fun v => gval (fst v) * h (NoB, snd v ++ r)) l).
Definition EX g h c c' r : K := lv h r (exchange g c c').
Definition PN g h c c' r : K := lv h r (penguin g c c').
Lemma dv_eq g h l : dv g h (NoB, l) = ksum (map (fun t => ksum (map (fun u =>
  kZ (fst t * fst u) * (EX g h (fst (snd t)) (fst (snd u)) (snd (snd u)) + PN g h (fst (snd t)) (fst (snd u)) (snd (snd u)))) (fronts (snd (snd t))))) (fronts l)).
Proof.
  unfold dv, dressed_mon. cbn [fst snd]. rewrite ksum_flat_map. apply ksum_ext. intros t _. rewrite ksum_flat_map. apply ksum_ext. intros u _.
  rewrite map_map, map_app, ksum_app. unfold EX, PN, lv.
  transitivity (kZ (fst t * fst u) * ksum (map (fun v => gval (fst v) * h (NoB, snd v ++ snd (snd u))) (exchange g (fst (snd t)) (fst (snd u))))
    + kZ (fst t * fst u) * ksum (map (fun v => gval (fst v) * h (NoB, snd v ++ snd (snd u))) (penguin g (fst (snd t)) (fst (snd u))))); [|ring].
  f_equal; rewrite <- ksum_scale; apply ksum_ext; intros v _; cbn [fst snd]; rewrite gval_sz; ring.
Qed.
Lemma nth_pairs {T} (F : spin * spin -> T) a b (d0 : T) : nth (4 * sn a + sn b) (map F (pairs spins)) d0 = F (a, b).
Proof. destruct a, b; reflexivity. Qed.
Lemma spair_value d d' a b (G : spin * spin -> K) :
  ksum (map (fun u => gzval (spin_pair d d' a b (fst u) (snd u)) * G u) (pairs spins)) = fv G (spair d d' a b).
Proof.
  unfold spair. rewrite <- spair_tables. unfold mk_spair. cbv zeta.
  rewrite (nth_indep _ [] (nz (map (fun ab' => (zq (spin_pair d d' S0 S0 (fst ab') (snd ab')), ab')) (pairs spins)))) by (rewrite map_length; destruct a, b; cbn; lia).
  rewrite nth_pairs. unfold nz. rewrite fv_filter. unfold fv. rewrite map_map. apply ksum_ext. intros u _. cbn [fst snd]. now rewrite gval_zq.
Qed.
Lemma loop_value a b (G : spin * spin -> K) :
  ksum (map (fun u => gzval (loop_spin a b (fst u) (snd u)) * G u) (pairs spins)) = fv G (loop_of a b).
Proof.
  unfold loop_of. rewrite <- loop_table. unfold mk_loop. cbv zeta.
  rewrite (nth_indep _ [] (nz (map (fun xy => (zq (loop_spin S0 S0 (fst xy) (snd xy)), xy)) (pairs spins)))) by (rewrite map_length; destruct a, b; cbn; lia).
  rewrite nth_pairs. unfold nz. rewrite fv_filter. unfold fv. rewrite map_map. apply ksum_ext. intros u _. cbn [fst snd]. rewrite gval_zq.
  unfold loop_spin. now rewrite map_map.
Qed.
Lemma ex_value g h d f a i d' f' b j r : EX g h (d, f, a, i) (d', f', b, j) r =
  kQ (-(1 # 4)) * fv (fun u => ksum (map (fun v => kQ (force_pair g d f d' f' i j (fst v) (snd v)) * h (NoB, cp d f (fst u) (fst v) :: cp d' f' (snd u) (snd v) :: r)) (pairs colrs))) (spair d d' a b).
Proof.
  unfold EX, lv, exchange. rewrite map_map, sum_prodl. rewrite <- spair_value, <- ksum_scale. apply ksum_ext. intros [a' b'] _. cbn [fst snd].
  rewrite <- !ksum_scale. apply ksum_ext. intros [i' j'] _. cbv zeta. cbn [fst snd app]. rewrite gval_scaled, kQ_mul. ring.
Qed.
Lemma pn_value g h f a i f' b j r : PN g h (false, f, a, i) (true, f', b, j) r =
  if ferm_eqb f f' then kQ (-(2 # 3)) * ksum (map (fun k => fv (fun u => ksum (map (fun v => kQ (loop_colour g f k i j (fst v) (snd v)) *
    h (NoB, cp true k (fst u) (fst v) :: cp false k (snd u) (snd v) :: r)) (pairs colrs))) (loop_of a b)) charged) else 0.
Proof.
  unfold PN, lv, penguin. destruct (ferm_eqb f f'); [|reflexivity]. rewrite ksum_flat_map, <- ksum_scale. apply ksum_ext. intros k _.
  rewrite map_map, sum_prodl. rewrite <- loop_value, <- ksum_scale. apply ksum_ext. intros [a' b'] _. cbn [fst snd].
  rewrite <- !ksum_scale. apply ksum_ext. intros [i' j'] _. cbv zeta. cbn [fst snd app]. rewrite gval_scaled, kQ_mul. ring.
Qed.

(* ---------- anticommuting valuations ---------- *)
Record anti (h : mon -> K) : Prop := {
  a1 : forall a b c e, h (NoB, [b; a; c; e]) = - h (NoB, [a; b; c; e]);
  a2 : forall a b c e, h (NoB, [a; c; b; e]) = - h (NoB, [a; b; c; e]);
  a3 : forall a b c e, h (NoB, [a; b; e; c]) = - h (NoB, [a; b; c; e]) }.
Variable h : mon -> K.
Hypothesis AH : anti h.
Lemma perms a b c e : h (NoB, [a; c; b; e]) = - h (NoB, [a; b; c; e]) /\ h (NoB, [a; e; b; c]) = h (NoB, [a; b; c; e]) /\
  h (NoB, [b; a; c; e]) = - h (NoB, [a; b; c; e]) /\ h (NoB, [b; c; a; e]) = h (NoB, [a; b; c; e]) /\ h (NoB, [b; e; a; c]) = - h (NoB, [a; b; c; e]) /\
  h (NoB, [c; a; b; e]) = h (NoB, [a; b; c; e]) /\ h (NoB, [c; b; a; e]) = - h (NoB, [a; b; c; e]) /\ h (NoB, [c; e; a; b]) = h (NoB, [a; b; c; e]) /\
  h (NoB, [e; a; b; c]) = - h (NoB, [a; b; c; e]) /\ h (NoB, [e; b; a; c]) = h (NoB, [a; b; c; e]) /\ h (NoB, [e; c; a; b]) = - h (NoB, [a; b; c; e]).
Proof.
  assert (P1 : h (NoB, [a; c; b; e]) = - h (NoB, [a; b; c; e])) by apply (a2 h AH).
  assert (P2 : h (NoB, [a; e; b; c]) = h (NoB, [a; b; c; e])) by (rewrite (a2 h AH), (a3 h AH); ring).
  assert (P3 : h (NoB, [b; a; c; e]) = - h (NoB, [a; b; c; e])) by apply (a1 h AH).
  assert (P4 : h (NoB, [b; c; a; e]) = h (NoB, [a; b; c; e])) by (rewrite (a2 h AH), P3; ring).
  assert (P5 : h (NoB, [b; e; a; c]) = - h (NoB, [a; b; c; e])) by (rewrite (a2 h AH), (a3 h AH), P3; ring).
  assert (P6 : h (NoB, [c; a; b; e]) = h (NoB, [a; b; c; e])) by (rewrite (a1 h AH), P1; ring).
  assert (P7 : h (NoB, [c; b; a; e]) = - h (NoB, [a; b; c; e])) by (rewrite (a1 h AH), P4; ring).
  assert (P8 : h (NoB, [c; e; a; b]) = h (NoB, [a; b; c; e])) by (rewrite (a2 h AH), (a3 h AH), P6; ring).
  assert (P9 : h (NoB, [e; a; b; c]) = - h (NoB, [a; b; c; e])) by (rewrite (a1 h AH), P2; ring).
  assert (P10 : h (NoB, [e; b; a; c]) = h (NoB, [a; b; c; e])) by (rewrite (a1 h AH), P5; ring).
  assert (P11 : h (NoB, [e; c; a; b]) = - h (NoB, [a; b; c; e])) by (rewrite (a1 h AH), P8; ring).
  tauto.
Qed.
Definition fld (f1 f2 f3 f4 : ferm) (p : nat) : ferm := match p with 0 => f1 | 1 => f2 | 2 => f3 | _ => f4 end%nat.
Section F.
Variables (g : force) (f1 f2 f3 f4 : ferm).
Local Notation fd := (fld f1 f2 f3 f4).
Definition EXV (p q : nat) (x : sp4) (y : co4) : K :=
  kQ (-(1 # 4)) * fv (fun u => ksum (map (fun v => kQ (force_pair g (dag p) (fd p) (dag q) (fd q) (get4 p y) (get4 q y) (fst v) (snd v)) *
    hs h f1 f2 f3 f4 (set4 q (set4 p x (fst u)) (snd u)) (set4 q (set4 p y (fst v)) (snd v))) (pairs colrs))) (spair (dag p) (dag q) (get4 p x) (get4 q x)).
Definition PNV (p q : nat) (x : sp4) (y : co4) : K :=
  if ferm_eqb (fd p) (fd q) then kQ (-(2 # 3)) * ksum (map (fun k => kQ (lsign p q) * fv (fun u => ksum (map (fun v => kQ (loop_colour g (fd p) k (get4 p y) (get4 q y) (fst v) (snd v)) *
    hs h (fd (fst (rest p q))) (fd (snd (rest p q))) k k (looped p q x u) (looped p q y v)) (pairs colrs))) (loop_of (get4 p x) (get4 q x))) charged) else 0.
Lemma ex_congr (s : K) q1 L (P Q : (spin * spin) -> (colr * colr) -> K) (F : colr * colr -> QArith_base.Q) :
  (forall u v, s * P u v = Q u v) ->
  s * (q1 * fv (fun u => ksum (map (fun v => kQ (F v) * P u v) (pairs colrs))) L) = q1 * fv (fun u => ksum (map (fun v => kQ (F v) * Q u v) (pairs colrs))) L.
Proof.
  intros E. transitivity (q1 * (s * fv (fun u => ksum (map (fun v => kQ (F v) * P u v) (pairs colrs))) L)); [ring|]. f_equal. rewrite <- fv_mul. apply fv_ext. intros u.
  rewrite <- ksum_scale. apply ksum_ext. intros v _. rewrite <- E. ring.
Qed.
Lemma dv_slots x y : dv g h (NoB, slots f1 f2 f3 f4 x y) = ksum (map (fun pq => EXV (fst pq) (snd pq) x y) opairs) + ksum (map (fun pq => PNV (fst pq) (snd pq) x y) loops).
Proof.
  destruct x as [[a b] [c e]], y as [[i j] [k l]]. rewrite dv_eq. unfold slots. cbn [get4 fronts map fst snd].
  assert (S1 : @kZ K 1 = 1) by reflexivity. assert (S2 : @kZ K (-1) = - (1)) by reflexivity.
  cbn [Z.mul Z.opp Pos.mul]. unfold ksum at 1 2 3 4 5. cbn [fold_right map opairs loops fst snd]. rewrite ?S1, ?S2.
  set (c1 := cp true f1 a i). set (c2 := cp false f2 b j). set (c3 := cp true f3 c k). set (c4 := cp false f4 e l).
  assert (N12 : PN g h c1 c2 [c3; c4] = 0) by reflexivity. assert (N13 : PN g h c1 c3 [c2; c4] = 0) by reflexivity.
  assert (N14 : PN g h c1 c4 [c2; c3] = 0) by reflexivity. assert (N24 : PN g h c2 c4 [c1; c3] = 0) by reflexivity.
  assert (N31 : PN g h c3 c1 [c2; c4] = 0) by reflexivity. assert (N32 : PN g h c3 c2 [c1; c4] = 0) by reflexivity.
  assert (N34 : PN g h c3 c4 [c1; c2] = 0) by reflexivity. assert (N42 : PN g h c4 c2 [c1; c3] = 0) by reflexivity.
  set (x := ((a, b), (c, e))). set (y := ((i, j), (k, l))).
  assert (E12 : 1 * EX g h c1 c2 [c3; c4] = EXV 0 1 x y). { unfold c1, c2, cp. rewrite ex_value. unfold EXV, hs, slots. cbn [fld dag get4 set4 x y]. apply ex_congr. intros u v. fold c3 c4. ring. }
  assert (E13 : - (1) * EX g h c1 c3 [c2; c4] = EXV 0 2 x y).
  { unfold c1, c3, cp. rewrite ex_value. unfold EXV, hs, slots. cbn [fld dag get4 set4 x y]. apply ex_congr. intros u v. rewrite (a2 h AH). fold c2 c4. ring. }
  assert (E14 : 1 * EX g h c1 c4 [c2; c3] = EXV 0 3 x y).
  { unfold c1, c4, cp. rewrite ex_value. unfold EXV, hs, slots. cbn [fld dag get4 set4 x y]. apply ex_congr. intros u v. rewrite (proj1 (proj2 (perms _ c2 c3 _))). fold c2 c3. ring. }
  assert (E21 : - (1) * EX g h c2 c1 [c3; c4] = EXV 1 0 x y).
  { unfold c1, c2, cp. rewrite ex_value. unfold EXV, hs, slots. cbn [fld dag get4 set4 x y]. apply ex_congr. intros u v. rewrite (a1 h AH). fold c3 c4. ring. }
  assert (E23 : 1 * EX g h c2 c3 [c1; c4] = EXV 1 2 x y).
  { unfold c2, c3, cp. rewrite ex_value. unfold EXV, hs, slots. cbn [fld dag get4 set4 x y]. apply ex_congr. intros u v. rewrite (proj1 (proj2 (proj2 (proj2 (perms c1 _ _ c4))))). fold c1 c4. ring. }
  assert (E24 : - (1) * EX g h c2 c4 [c1; c3] = EXV 1 3 x y).
  { unfold c2, c4, cp. rewrite ex_value. unfold EXV, hs, slots. cbn [fld dag get4 set4 x y]. apply ex_congr. intros u v. rewrite (proj1 (proj2 (proj2 (proj2 (proj2 (perms c1 _ c3 _)))))). fold c1 c3. ring. }
  assert (E31 : 1 * EX g h c3 c1 [c2; c4] = EXV 2 0 x y).
  { unfold c3, c1, cp. rewrite ex_value. unfold EXV, hs, slots. cbn [fld dag get4 set4 x y]. apply ex_congr. intros u v. rewrite (proj1 (proj2 (proj2 (proj2 (proj2 (proj2 (perms _ c2 _ c4))))))). fold c2 c4. ring. }
  assert (E32 : - (1) * EX g h c3 c2 [c1; c4] = EXV 2 1 x y).
  { unfold c3, c2, cp. rewrite ex_value. unfold EXV, hs, slots. cbn [fld dag get4 set4 x y]. apply ex_congr. intros u v. rewrite (proj1 (proj2 (proj2 (proj2 (proj2 (proj2 (proj2 (perms c1 _ _ c4)))))))). fold c1 c4. ring. }
  assert (E34 : 1 * EX g h c3 c4 [c1; c2] = EXV 2 3 x y).
  { unfold c3, c4, cp. rewrite ex_value. unfold EXV, hs, slots. cbn [fld dag get4 set4 x y]. apply ex_congr. intros u v. rewrite (proj1 (proj2 (proj2 (proj2 (proj2 (proj2 (proj2 (proj2 (perms c1 c2 _ _))))))))). fold c1 c2. ring. }
  assert (E41 : - (1) * EX g h c4 c1 [c2; c3] = EXV 3 0 x y).
  { unfold c4, c1, cp. rewrite ex_value. unfold EXV, hs, slots. cbn [fld dag get4 set4 x y]. apply ex_congr. intros u v. rewrite (proj1 (proj2 (proj2 (proj2 (proj2 (proj2 (proj2 (proj2 (proj2 (perms _ c2 c3 _)))))))))). fold c2 c3. ring. }
  assert (E42 : 1 * EX g h c4 c2 [c1; c3] = EXV 3 1 x y).
  { unfold c4, c2, cp. rewrite ex_value. unfold EXV, hs, slots. cbn [fld dag get4 set4 x y]. apply ex_congr. intros u v. rewrite (proj1 (proj2 (proj2 (proj2 (proj2 (proj2 (proj2 (proj2 (proj2 (proj2 (perms c1 _ c3 _))))))))))). fold c1 c3. ring. }
  assert (E43 : - (1) * EX g h c4 c3 [c1; c2] = EXV 3 2 x y).
  { unfold c4, c3, cp. rewrite ex_value. unfold EXV, hs, slots. cbn [fld dag get4 set4 x y]. apply ex_congr. intros u v. rewrite (proj2 (proj2 (proj2 (proj2 (proj2 (proj2 (proj2 (proj2 (proj2 (proj2 (perms c1 c2 _ _))))))))))). fold c1 c2. ring. }
  assert (LC : forall (s s' q1 : K) (B : bool) (LL : fl (spin * spin)) (P Q : ferm -> (spin * spin) -> (colr * colr) -> K) (F : ferm -> colr * colr -> QArith_base.Q),
    (forall k u v, s * P k u v = s' * Q k u v) ->
    s * (if B then q1 * ksum (map (fun k => fv (fun u => ksum (map (fun v => kQ (F k v) * P k u v) (pairs colrs))) LL) charged) else 0) =
    (if B then q1 * ksum (map (fun k => s' * fv (fun u => ksum (map (fun v => kQ (F k v) * Q k u v) (pairs colrs))) LL) charged) else 0)).
  { intros s s' q1 B LL P Q F HE. destruct B; [|ring].
    transitivity (q1 * (s * ksum (map (fun k => fv (fun u => ksum (map (fun v => kQ (F k v) * P k u v) (pairs colrs))) LL) charged))); [ring|]. f_equal.
    rewrite <- ksum_scale. apply ksum_ext. intros k0 _. rewrite <- !fv_mul. apply fv_ext. intros u. rewrite <- !ksum_scale. apply ksum_ext. intros v _.
    transitivity (kQ (F k0 v) * (s * P k0 u v)); [ring|]. rewrite HE. ring. }
  assert (L1 : @kQ K 1 = 1) by apply kQ_1. assert (L2 : @kQ K (-(1))%Q = - (1)) by (rewrite kQ_opp, kQ_1; reflexivity).
  assert (P21 : - (1) * PN g h c2 c1 [c3; c4] = PNV 1 0 x y).
  { unfold c1, c2, cp. rewrite pn_value. unfold PNV, hs, slots. cbn [fld dag get4 rest looped fst snd x y]. apply LC. intros k0 [u1 u2] [v1 v2]. cbn [get4 fst snd]. unfold lsign, closed. rewrite L2.
    rewrite (proj1 (proj2 (proj2 (proj2 (proj2 (proj2 (proj2 (proj2 (perms c3 c4 _ _))))))))). fold c3 c4. ring. }
  assert (P23 : 1 * PN g h c2 c3 [c1; c4] = PNV 1 2 x y).
  { unfold c2, c3, cp. rewrite pn_value. unfold PNV, hs, slots. cbn [fld dag get4 rest looped fst snd x y]. apply LC. intros k0 [u1 u2] [v1 v2]. cbn [get4 fst snd]. unfold lsign, closed. rewrite L1.
    rewrite (proj1 (proj2 (proj2 (proj2 (proj2 (proj2 (proj2 (proj2 (perms c1 c4 _ _))))))))). fold c1 c4. ring. }
  assert (P41 : - (1) * PN g h c4 c1 [c2; c3] = PNV 3 0 x y).
  { unfold c4, c1, cp. rewrite pn_value. unfold PNV, hs, slots. cbn [fld dag get4 rest looped fst snd x y]. apply LC. intros k0 [u1 u2] [v1 v2]. cbn [get4 fst snd]. unfold lsign, closed. rewrite L1.
    rewrite (proj1 (proj2 (proj2 (proj2 (proj2 (proj2 (proj2 (proj2 (perms c2 c3 _ _))))))))), (a1 h AH c3 c2). fold c2 c3. ring. }
  assert (P43 : - (1) * PN g h c4 c3 [c1; c2] = PNV 3 2 x y).
  { unfold c4, c3, cp. rewrite pn_value. unfold PNV, hs, slots. cbn [fld dag get4 rest looped fst snd x y]. apply LC. intros k0 [u1 u2] [v1 v2]. cbn [get4 fst snd]. unfold lsign, closed. rewrite L2.
    rewrite (proj1 (proj2 (proj2 (proj2 (proj2 (proj2 (proj2 (proj2 (perms c1 c2 _ _))))))))). fold c1 c2. ring. }
  rewrite <- E12, <- E13, <- E14, <- E21, <- E23, <- E24, <- E31, <- E32, <- E34, <- E41, <- E42, <- E43, <- P21, <- P23, <- P41, <- P43.
  rewrite N12, N13, N14, N24, N31, N32, N34, N42. unfold ksum. cbn [fold_right]. ring.
Qed.
End F.
End G.
