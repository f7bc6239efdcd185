(* The dressed four-fermion operators in terms of four-fermion operators, and relations between the operators. *)
From Coq Require Import List Bool ZArith QArith Lia.
From Verif Require Import PyBase Num AdmData FermiSpec NpModel NpProofs FermiNorm FermiTab GammaSpec GammaTab GammaProofs.
Import ListNotations.
Local Open Scope list_scope.

Definition flavs (o : opr) : bool :=
  match o with
  | Four d c x y f1 f2 f3 f4 => dok d x y && cok c (quark f1) (quark f3) && Bool.eqb (quark f1) (quark f2) && Bool.eqb (quark f3) (quark f4)
  | _ => false
  end.
Definition ecoef (f1 f2 f3 f4 : ferm) (p q : nat) : Q :=
  let z := (charge (fld f1 f2 f3 f4 p) * charge (fld f1 f2 f3 f4 q))%Q in if Bool.eqb (dag p) (dag q) then z else (- z)%Q.
Definition dex1 (g : force) (d : dstruct) (c : cstruct) (x y : chir) (f1 f2 f3 f4 : ferm) (p q : nat) : fl opr :=
  match g with
  | QED => map (fun t => (rq (-(1 # 4) * (ecoef f1 f2 f3 f4 p q * fst t)), Four (snd t) c x y f1 f2 f3 f4)) (spin_tab d x y p q)
  | QCD => if quark (fld f1 f2 f3 f4 p) && quark (fld f1 f2 f3 f4 q) then
      flat_map (fun t => map (fun u => (rq (-(1 # 4) * (fst t * fst u)), Four (snd t) (snd u) x y f1 f2 f3 f4)) (col_tab c p q)) (spin_tab d x y p q) else []
  end%Q.
Definition lcoef (g : force) (f k : ferm) : Q := match g with QED => charge f * charge k | QCD => if quark f && quark k then 1 else 0 end%Q.
Definition dpen1 (g : force) (d : dstruct) (c : cstruct) (x y : chir) (f1 f2 f3 f4 : ferm) (p q : nat) : fl opr :=
  let fd := fld f1 f2 f3 f4 in
  if ferm_eqb (fd p) (fd q) then
    flat_map (fun k => if match g with QCD => negb (quark (fd p) && quark k) | QED => false end then [] else
      flat_map (fun t => flat_map (fun u =>
        let z := rq (-(2 # 3) * (lcoef g (fd p) k * (fst t * fst u)))%Q in
        [(z, Four Vector (snd u) (snd t) PL (fd (fst (rest p q))) (fd (snd (rest p q))) k k); (z, Four Vector (snd u) (snd t) PR (fd (fst (rest p q))) (fd (snd (rest p q))) k k)])
        (loopcol_tab g c (quark (fd p)) p q)) (loopspin_tab d x y p q)) charged
  else [].
Definition dop (g : force) (o : opr) : fl opr :=
  match o with
  | Four d c x y f1 f2 f3 f4 => flat_map (fun pq => dex1 g d c x y f1 f2 f3 f4 (fst pq) (snd pq)) opairs ++ flat_map (fun pq => dpen1 g d c x y f1 f2 f3 f4 (fst pq) (snd pq)) loops
  | _ => []
  end.

Lemma spin_tab_ok d x y p q t : dok d x y = true -> In t (spin_tab d x y p q) -> dok (snd t) x y = true.
Proof.
  unfold spin_tab. destruct d, x, y; intros H; try discriminate H; cbn [chir_eqb]; destruct (kind p q) as [|[|[|]]]; cbn [In]; intros I;
    repeat match type of I with _ \/ _ => destruct I as [<-|I]; [reflexivity|] end; destruct I.
Qed.
Lemma col_tab_ok c q q' p r t : cok c q q' = true -> sbit q q' p && sbit q q' r = true -> In (p, r) opairs -> In t (col_tab c p r) -> cok (snd t) q q' = true.
Proof.
  intros HC HS HO HT. assert (B : forallb (fun k => match k with (c, (q, q')) => forallb (fun pq => negb (sbit q q' (fst pq) && sbit q q' (snd pq)) ||
    forallb (fun t => cok (snd t) q q') (col_tab c (fst pq) (snd pq))) opairs end) cqq = true) by (vm_compute; reflexivity).
  rewrite forallb_forall in B. specialize (B _ (cok_In _ _ _ HC)). cbn beta iota in B. rewrite forallb_forall in B. specialize (B _ HO). cbn [fst snd] in B.
  rewrite HS in B. cbn [negb orb] in B. rewrite forallb_forall in B. exact (B _ HT).
Qed.
Lemma loopspin_tab_ok d x y p q t : dok d x y = true -> In t (loopspin_tab d x y p q) -> dok Vector (snd t) PL = true /\ dok Vector (snd t) PR = true.
Proof.
  unfold loopspin_tab. destruct d, x, y; intros H; try discriminate H; cbn [chir_eqb]; destruct (closed p q); cbn [In]; intros I;
    repeat match type of I with _ \/ _ => destruct I as [<-|I]; [cbn [snd]; try destruct p as [|[|]]; split; reflexivity|] end; destruct I.
Qed.
Lemma loopcol_tab_ok g c q q' p r qk t : cok c q q' = true -> loop_admits g q q' p r qk = true -> In (p, r) loops ->
  In t (loopcol_tab g c (sbit q q' p) p r) -> cok (snd t) (sbit q q' (fst (rest p r))) qk = true.
Proof.
  intros HC HS HO HT. assert (B : forallb (fun k => match k with (c, (q, q')) => forallb (fun g => forallb (fun qk => forallb (fun pq => negb (loop_admits g q q' (fst pq) (snd pq) qk) ||
    forallb (fun t => cok (snd t) (sbit q q' (fst (rest (fst pq) (snd pq)))) qk) (loopcol_tab g c (sbit q q' (fst pq)) (fst pq) (snd pq))) loops) [true; false]) [QCD; QED] end) cqq = true) by (vm_compute; reflexivity).
  rewrite forallb_forall in B. specialize (B _ (cok_In _ _ _ HC)). cbn beta iota in B. rewrite forallb_forall in B. specialize (B g ltac:(destruct g; cbn; tauto)).
  rewrite forallb_forall in B. specialize (B qk ltac:(destruct qk; cbn; tauto)). rewrite forallb_forall in B. specialize (B _ HO). cbn [fst snd] in B.
  rewrite HS in B. cbn [negb orb] in B. rewrite forallb_forall in B. exact (B _ HT).
Qed.
Lemma checks : chk_spin = true /\ chk_col = true /\ chk_loopspin = true /\ chk_loopcol = true /\ chk_swap = true /\ chk_hc = true /\ chk_fierz = true.
Proof. pose proof all_checks as H. repeat (apply andb_prop in H as [H ?]). tauto. Qed.
Lemma set_get {A} (y : (A * A) * (A * A)) p q : In (p, q) opairs -> set4 q (set4 p y (get4 p y)) (get4 q y) = y.
Proof. destruct y as [[a b] [c e]]. cbn [opairs In]. intros H. repeat (destruct H as [[= <- <-]|H]; [reflexivity|]). destruct H. Qed.
Lemma ferm_eqb_eq f f' : ferm_eqb f f' = true -> f = f'.
Proof. destruct f as [[] []], f' as [[] []]; intros H; try discriminate H; reflexivity. Qed.

Section G.
Context {K : StarField}.
Local Open Scope K_scope.
Add Ring KRgo : (F_R (k_field K)).

Lemma fv_bind {X Y Z} (G : Z -> K) (k : X -> Y -> Z) (M : X -> fl Y) (L : fl X) :
  fv G (flat_map (fun t => map (fun u => (gqmul (fst t) (fst u), k (snd t) (snd u))) (M (snd t))) L) = fv (fun x => fv (fun u => G (k x u)) (M x)) L.
Proof.
  rewrite fv_flat_map. unfold fv at 2. apply ksum_ext. intros t _. unfold fv. rewrite map_map, <- ksum_scale. apply ksum_ext. intros u _. cbn [fst snd]. rewrite gval_gqmul. ring.
Qed.
Lemma fv_map_rq {X Y} (G : Y -> K) (c : X -> Q) (o : X -> Y) l : fv G (map (fun t => (rq (c t), o t)) l) = ksum (map (fun t => kQ (c t) * G (o t)) l).
Proof. unfold fv. rewrite map_map. apply ksum_ext. intros t _. cbn [fst snd]. now rewrite gval_rq. Qed.
Lemma spinact_value (G : sp4 -> K) p q L :
  fv G (spinact p q L) = fv (fun x => fv (fun u => G (set4 q (set4 p x (fst u)) (snd u))) (spair (dag p) (dag q) (get4 p x) (get4 q x))) L.
Proof. exact (fv_bind G (fun x u => set4 q (set4 p x (fst u)) (snd u)) (fun x => spair (dag p) (dag q) (get4 p x) (get4 q x)) L). Qed.
Lemma colact_value (G : co4 -> K) p q L :
  fv G (colact p q L) = fv (fun y => ksum (map (fun v => kQ (colour_pair (dag p) (dag q) (get4 p y) (get4 q y) (fst v) (snd v)) * G (set4 q (set4 p y (fst v)) (snd v))) (pairs colrs))) L.
Proof.
  unfold colact. rewrite fv_flat_map. unfold fv at 2. apply ksum_ext. intros t _. unfold fv. rewrite map_map, <- ksum_scale. apply ksum_ext. intros u _. cbn [fst snd].
  rewrite gval_gqmul, gval_rq. ring.
Qed.
Lemma loopspin_value (G : sp4 -> K) p q L :
  fv G (loopspin p q L) = kQ (lsign p q) * fv (fun x => fv (fun u => G (looped p q x u)) (loop_of (get4 p x) (get4 q x))) L.
Proof.
  unfold loopspin. rewrite fv_flat_map. unfold fv at 2. rewrite <- ksum_scale. apply ksum_ext. intros t _. unfold fv. rewrite map_map, <- !ksum_scale. apply ksum_ext. intros u _. cbn [fst snd].
  rewrite !gval_gqmul, gval_rq. ring.
Qed.
Lemma loopcol_value (G : co4 -> K) g qk p q L :
  fv G (loopcol g qk p q L) = fv (fun y => ksum (map (fun v => kQ (lcol g qk (get4 p y) (get4 q y) (fst v) (snd v)) * G (looped p q y v)) (pairs colrs))) L.
Proof.
  unfold loopcol. rewrite fv_flat_map. unfold fv at 2. apply ksum_ext. intros t _. unfold fv. rewrite map_map, <- ksum_scale. apply ksum_ext. intros u _. cbn [fst snd].
  rewrite gval_gqmul, gval_rq. ring.
Qed.
Lemma delta_sum (c : Q) i j (G : colr * colr -> K) : ksum (map (fun v => kQ (c * (delta i (fst v) * delta j (snd v)))%Q * G v) (pairs colrs)) = kQ c * G (i, j).
Proof.
  assert (E : forall a b, @kQ K (c * (delta a (fst b) * delta j (snd b)))%Q = kQ c * (kQ (delta a (fst b)) * kQ (delta j (snd b)))) by (intros; now rewrite !kQ_mul).
  destruct i, j; unfold pairs, prodl, colrs; cbn [flat_map map app fst snd]; unfold ksum; cbn [fold_right]; rewrite !kQ_mul; unfold delta; cbn [colr_eqb]; rewrite !kQ_1, !kQ_0; ring.
Qed.
Variable h : mon -> K.
Hypothesis AH : anti h.
Definition fvO (L : fl opr) : K := fv (fun o => pv h (poly_of o)) L.
Section F.
Variables (g : force) (d : dstruct) (c : cstruct) (x y : chir) (f1 f2 f3 f4 : ferm).
Hypothesis V : flavs (Four d c x y f1 f2 f3 f4) = true.
Local Notation fd := (fld f1 f2 f3 f4).
Local Notation H := (hs h f1 f2 f3 f4).
Lemma V4 : dok d x y = true /\ cok c (quark f1) (quark f3) = true /\ quark f2 = quark f1 /\ quark f4 = quark f3.
Proof. cbn [flavs] in V. apply andb_prop in V as [V1 V3]. apply andb_prop in V1 as [V1 V2]. apply andb_prop in V1 as [V0 V1]. apply eqb_prop in V2, V3. auto. Qed.
Lemma quark_slot p : quark (fd p) = sbit (quark f1) (quark f3) p.
Proof. destruct V4 as (_ & _ & E1 & E2). destruct p as [|[|[|p]]]; cbn [fld sbit]; congruence. Qed.
Lemma spin_step M p q : In (p, q) opairs ->
  fv2 H (spinact p q (D4 d x y)) M = ksum (map (fun t => kQ (fst t) * fv2 H (D4 (snd t) x y) M) (spin_tab d x y p q)).
Proof.
  intros I. destruct V4 as (HD & _). destruct checks as [T _]. unfold chk_spin in T. rewrite forallb_forall in T. specialize (T _ (dok_In _ _ _ HD)). cbn beta iota zeta in T.
  rewrite forallb_forall in T. specialize (T _ I). cbn [fst snd] in T. unfold fv2.
  rewrite (fleq_sound sp4_eqb sp4_hash sp4_eqb_eq (fun s => fv (H s) M) _ _ T), fv_flat_map. apply ksum_ext. intros t _. now rewrite fv_scale, gval_rq.
Qed.
Lemma col_step G p q : In (p, q) opairs -> quark (fd p) && quark (fd q) = true ->
  fv G (colact p q (C4 c (quark f1) (quark f3))) = ksum (map (fun t => kQ (fst t) * fv G (C4 (snd t) (quark f1) (quark f3))) (col_tab c p q)) :> K.
Proof.
  intros I QQ. rewrite !quark_slot in QQ. destruct V4 as (_ & HC & _). destruct checks as (_ & T & _). unfold chk_col in T. rewrite forallb_forall in T. specialize (T _ (cok_In _ _ _ HC)). cbn beta iota zeta in T.
  rewrite forallb_forall in T. specialize (T _ I). cbn [fst snd] in T. rewrite QQ in T. cbn [negb orb] in T.
  rewrite (fleq_sound co4_eqb co4_hash co4_eqb_eq G _ _ T), fv_flat_map. apply ksum_ext. intros t _. now rewrite fv_scale, gval_rq.
Qed.
Lemma ex_op p q : In (p, q) opairs -> fv2 (EXV h g f1 f2 f3 f4 p q) (D4 d x y) (C4 c (quark f1) (quark f3)) = fvO (dex1 g d c x y f1 f2 f3 f4 p q).
Proof.
  intros I. destruct V4 as (HD & HC & _). set (M := C4 c (quark f1) (quark f3)).
  assert (Z : fv2 (EXV h g f1 f2 f3 f4 p q) (D4 d x y) M = kQ (-(1 # 4)) * fv (fun s => fv (fun u => fv (fun t => ksum (map (fun v =>
     kQ (force_pair g (dag p) (fd p) (dag q) (fd q) (get4 p t) (get4 q t) (fst v) (snd v)) * H (set4 q (set4 p s (fst u)) (snd u)) (set4 q (set4 p t (fst v)) (snd v))) (pairs colrs))) M)
     (spair (dag p) (dag q) (get4 p s) (get4 q s))) (D4 d x y)).
  { unfold fv2 at 1. rewrite <- fv_mul. apply fv_ext. intros s. unfold EXV. rewrite fv_mul. f_equal.
    exact (fv2_swap (fun t u => ksum (map (fun v => kQ (force_pair g (dag p) (fd p) (dag q) (fd q) (get4 p t) (get4 q t) (fst v) (snd v)) * H (set4 q (set4 p s (fst u)) (snd u)) (set4 q (set4 p t (fst v)) (snd v))) (pairs colrs))) M _). }
  rewrite Z. clear Z. unfold dex1. destruct g.
  - unfold force_pair. destruct (quark (fd p) && quark (fd q)) eqn:QQ.
    + transitivity (kQ (-(1 # 4)) * fv2 H (spinact p q (D4 d x y)) (colact p q M)).
      { f_equal. unfold fv2. rewrite spinact_value. apply fv_ext. intros s. apply fv_ext. intros u. now rewrite colact_value. }
      transitivity (kQ (-(1 # 4)) * fv2 (fun s t => H s t) (spinact p q (D4 d x y)) (colact p q M)); [reflexivity|].
      rewrite spin_step by exact I. rewrite <- ksum_scale. unfold fvO. rewrite fv_flat_map. apply ksum_ext. intros t It.
      pose proof (spin_tab_ok _ _ _ _ _ _ HD It) as DT. unfold fv2.
      rewrite (fv_ext _ (fun s => ksum (map (fun u => kQ (fst u) * fv (H s) (C4 (snd u) (quark f1) (quark f3))) (col_tab c p q)))) by (intros s; now apply col_step).
      rewrite (fv_lin (fun s u => fv (H s) (C4 (snd u) (quark f1) (quark f3)))). rewrite fv_map_rq, <- !ksum_scale. apply ksum_ext. intros u Iu.
      rewrite !quark_slot in QQ. rewrite four_value by (first [exact DT|exact (col_tab_ok _ _ _ _ _ _ HC QQ I Iu)]). rewrite !kQ_mul. unfold fv2. ring.
    + unfold fvO. rewrite fv_nil. transitivity (kQ (-(1 # 4)) * (0 : K)); [|ring]. f_equal. rewrite <- (fv_zero (D4 d x y)).
      apply fv_ext. intros s. rewrite <- (fv_zero (spair (dag p) (dag q) (get4 p s) (get4 q s))) at 1. apply fv_ext. intros u. rewrite <- (fv_zero M) at 1. apply fv_ext. intros t.
      apply ksum_zero. intros v _. rewrite kQ_0. ring.
  - unfold force_pair. fold (ecoef f1 f2 f3 f4 p q).
    transitivity (kQ (-(1 # 4)) * (kQ (ecoef f1 f2 f3 f4 p q) * fv2 H (spinact p q (D4 d x y)) M)).
    { f_equal. unfold fv2. rewrite spinact_value, <- fv_mul. apply fv_ext. intros s. rewrite <- fv_mul. apply fv_ext. intros u. rewrite <- fv_mul. apply fv_ext. intros t.
      rewrite (delta_sum (ecoef f1 f2 f3 f4 p q) (get4 p t) (get4 q t) (fun v => H (set4 q (set4 p s (fst u)) (snd u)) (set4 q (set4 p t (fst v)) (snd v)))). cbn [fst snd].
      now rewrite set_get. }
    rewrite spin_step by exact I. unfold fvO. rewrite fv_map_rq, <- !ksum_scale. apply ksum_ext. intros t It.
    rewrite four_value by (first [exact (spin_tab_ok _ _ _ _ _ _ HD It)|exact HC]). rewrite !kQ_mul. fold M. ring.
Qed.
Lemma pen_op p q : In (p, q) loops -> fv2 (PNV h g f1 f2 f3 f4 p q) (D4 d x y) (C4 c (quark f1) (quark f3)) = fvO (dpen1 g d c x y f1 f2 f3 f4 p q).
Proof.
  intros I. destruct V4 as (HD & HC & Q2 & Q4). set (M := C4 c (quark f1) (quark f3)). unfold dpen1, PNV. cbv zeta. destruct (ferm_eqb (fd p) (fd q)) eqn:FE.
  2:{ unfold fvO. rewrite fv_nil. transitivity (fv (fun _ : sp4 => (0 : K)) (D4 d x y)); [|apply fv_zero]. unfold fv2. apply fv_ext. intros s. apply fv_zero. }
  apply ferm_eqb_eq in FE.
  set (Hk := fun k => hs h (fd (fst (rest p q))) (fd (snd (rest p q))) k k).
  assert (Z : fv2 (fun s t => kQ (-(2 # 3)) * ksum (map (fun k => kQ (lsign p q) * fv (fun u => ksum (map (fun v => kQ (loop_colour g (fd p) k (get4 p t) (get4 q t) (fst v) (snd v)) *
      Hk k (looped p q s u) (looped p q t v)) (pairs colrs))) (loop_of (get4 p s) (get4 q s))) charged)) (D4 d x y) M
    = ksum (map (fun k => kQ (-(2 # 3)) * (kQ (lcoef g (fd p) k) * fv2 (Hk k) (loopspin p q (D4 d x y)) (loopcol g (quark k) p q M))) charged)).
  { rewrite ksum_scale. unfold fv2 at 1. rewrite (fv_ext _ (fun s => kQ (-(2 # 3)) * fv (fun t => ksum (map (fun k => kQ (lsign p q) * fv (fun u => ksum (map (fun v =>
      kQ (loop_colour g (fd p) k (get4 p t) (get4 q t) (fst v) (snd v)) * Hk k (looped p q s u) (looped p q t v)) (pairs colrs))) (loop_of (get4 p s) (get4 q s))) charged)) M)) by (intros s; apply fv_mul).
    rewrite fv_mul. f_equal. rewrite (fv_ext _ (fun s => ksum (map (fun k => fv (fun t => kQ (lsign p q) * fv (fun u => ksum (map (fun v =>
      kQ (loop_colour g (fd p) k (get4 p t) (get4 q t) (fst v) (snd v)) * Hk k (looped p q s u) (looped p q t v)) (pairs colrs))) (loop_of (get4 p s) (get4 q s))) M) charged))) by (intros s; apply fv_sum).
    rewrite fv_sum. apply ksum_ext. intros k _. unfold fv2. rewrite loopspin_value.
    transitivity (kQ (lsign p q) * fv (fun s => fv (fun u => fv (fun t => ksum (map (fun v => kQ (loop_colour g (fd p) k (get4 p t) (get4 q t) (fst v) (snd v)) *
      Hk k (looped p q s u) (looped p q t v)) (pairs colrs))) M) (loop_of (get4 p s) (get4 q s))) (D4 d x y)).
    - rewrite <- fv_mul. apply fv_ext. intros s. rewrite fv_mul. f_equal.
      exact (fv2_swap (fun t u => ksum (map (fun v => kQ (loop_colour g (fd p) k (get4 p t) (get4 q t) (fst v) (snd v)) * Hk k (looped p q s u) (looped p q t v)) (pairs colrs))) M _).
    - transitivity (kQ (lsign p q) * (kQ (lcoef g (fd p) k) * fv (fun s => fv (fun u => fv (Hk k (looped p q s u)) (loopcol g (quark k) p q M)) (loop_of (get4 p s) (get4 q s))) (D4 d x y))); [|ring].
      f_equal. rewrite <- fv_mul. apply fv_ext. intros s. rewrite <- fv_mul. apply fv_ext. intros u. rewrite loopcol_value, <- fv_mul. apply fv_ext. intros t.
      rewrite <- ksum_scale. apply ksum_ext. intros v _. unfold loop_colour, lcoef, lcol. destruct g.
      + destruct (quark (fd p) && quark k); [rewrite kQ_1|rewrite kQ_0]; ring.
      + rewrite kQ_mul. unfold cfac. ring. }
  refine (eq_trans Z _). clear Z. unfold fvO. rewrite fv_flat_map. apply ksum_ext. intros k _.
  destruct (match g with QCD => negb (quark (fd p) && quark k) | QED => false end) eqn:BB.
  { destruct g; [|discriminate]. unfold lcoef. apply negb_true_iff in BB. rewrite BB, kQ_0, fv_nil. ring. }
  assert (AD : loop_admits g (quark f1) (quark f3) p q (quark k) = true).
  { unfold loop_admits. apply andb_true_intro. split.
    - cbn [loops In] in I. destruct I as [[= <- <-]|[[= <- <-]|[[= <- <-]|[[= <- <-]|[]]]]]; cbn [fld closed] in FE |- *; try reflexivity; cbn [orb];
        rewrite <- ?Q2, <- ?Q4, ?FE, ?Q2, ?Q4; try (rewrite <- Q2, FE); try (rewrite <- Q4, FE); apply eqb_reflx.
    - destruct g; [|reflexivity]. apply negb_false_iff in BB. rewrite <- quark_slot. rewrite andb_comm. exact BB. }
  destruct checks as (_ & _ & T & T' & _). unfold chk_loopspin in T. rewrite forallb_forall in T. specialize (T _ (dok_In _ _ _ HD)). cbn beta iota zeta in T.
  rewrite forallb_forall in T. specialize (T _ I). cbn [fst snd] in T.
  unfold chk_loopcol in T'. rewrite forallb_forall in T'. specialize (T' _ (cok_In _ _ _ HC)). cbn beta iota zeta in T'. rewrite forallb_forall in T'.
  specialize (T' g ltac:(destruct g; cbn; tauto)). rewrite forallb_forall in T'. specialize (T' (quark k) ltac:(destruct (quark k); cbn; tauto)). rewrite forallb_forall in T'.
  specialize (T' _ I). cbn [fst snd] in T'. rewrite AD in T'. cbn [negb orb] in T'.
  unfold fv2 at 1. rewrite (fleq_sound sp4_eqb sp4_hash sp4_eqb_eq (fun s => fv (Hk k s) (loopcol g (quark k) p q M)) _ _ T), !fv_flat_map, <- !ksum_scale.
  apply ksum_ext. intros t It. destruct (loopspin_tab_ok _ _ _ _ _ _ HD It) as [DL DR]. rewrite fv_scale, gval_rq.
  assert (CM : forall s, fv (Hk k s) (loopcol g (quark k) p q M) = ksum (map (fun u => kQ (fst u) * fv (Hk k s) (C4 (snd u) (quark (fd (fst (rest p q)))) (quark k))) (loopcol_tab g c (quark (fd p)) p q))).
  { intros s. unfold M. rewrite (fleq_sound co4_eqb co4_hash co4_eqb_eq (Hk k s) _ _ T'), fv_flat_map, !quark_slot. apply ksum_ext. intros u _. now rewrite fv_scale, gval_rq. }
  rewrite (fv_ext _ _ _ CM), (fv_lin (fun s u => fv (Hk k s) (C4 (snd u) (quark (fd (fst (rest p q)))) (quark k)))), <- !ksum_scale, fv_flat_map.
  apply ksum_ext. intros u Iu.
  assert (CU : cok (snd u) (quark (fd (fst (rest p q)))) (quark k) = true).
  { rewrite quark_slot. apply (loopcol_tab_ok g c _ _ p q _ u HC AD I). now rewrite <- quark_slot. }
  cbv zeta. rewrite !fv_cons, fv_nil, fv_app, gval_rq. rewrite !four_value by assumption. unfold fv2. rewrite !kQ_mul. fold (Hk k). ring.
Qed.
Lemma dressed_op : pv h (dressed g (poly_of (Four d c x y f1 f2 f3 f4))) = fvO (dop g (Four d c x y f1 f2 f3 f4)).
Proof.
  destruct V4 as (HD & HC & _). rewrite dressed_value, (four_value (dv g h)) by assumption.
  rewrite (fv2_ext _ (fun s t => ksum (map (fun pq => EXV h g f1 f2 f3 f4 (fst pq) (snd pq) s t) opairs) + ksum (map (fun pq => PNV h g f1 f2 f3 f4 (fst pq) (snd pq) s t) loops))) by (intros s t; apply (dv_slots h AH g)).
  unfold fv2. rewrite (fv_ext _ (fun s => ksum (map (fun pq => fv (EXV h g f1 f2 f3 f4 (fst pq) (snd pq) s) (C4 c (quark f1) (quark f3))) opairs)
    + ksum (map (fun pq => fv (PNV h g f1 f2 f3 f4 (fst pq) (snd pq) s) (C4 c (quark f1) (quark f3))) loops))).
  2:{ intros s. rewrite fv_plus. f_equal; [exact (fv_sum (fun pq t => EXV h g f1 f2 f3 f4 (fst pq) (snd pq) s t) opairs _)|exact (fv_sum (fun pq t => PNV h g f1 f2 f3 f4 (fst pq) (snd pq) s t) loops _)]. }
  rewrite fv_plus. cbn [dop]. unfold fvO. rewrite fv_app, !fv_flat_map. f_equal.
  - rewrite (fv_sum (fun pq s => fv (EXV h g f1 f2 f3 f4 (fst pq) (snd pq) s) (C4 c (quark f1) (quark f3)))). apply ksum_ext. intros [p q] I. exact (ex_op p q I).
  - rewrite (fv_sum (fun pq s => fv (PNV h g f1 f2 f3 f4 (fst pq) (snd pq) s) (C4 c (quark f1) (quark f3)))). apply ksum_ext. intros [p q] I. exact (pen_op p q I).
Qed.
End F.
End G.
