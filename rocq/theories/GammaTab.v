(* Formal linear combinations, and the action of a gauge boson on the tensors of four-fermion operators (reflection
   tools; nothing here models the code). *)
From Coq Require Import List Bool ZArith QArith Qreduction Lia.
From Verif Require Import PyBase Num AdmData FermiSpec NpModel NpProofs FermiNorm FermiTab GammaSpec.
Import ListNotations.
Local Open Scope list_scope.

(* ---------- formal linear combinations ---------- *)
Definition fl (X : Type) : Type := list (gq * X).
Definition gqz (a : gq) : bool := Z.eqb (Qnum (fst a)) 0 && Z.eqb (Qnum (snd a)) 0.
Definition gqadd (a b : gq) : gq := (Qred (fst a + fst b), Qred (snd a + snd b))%Q.
Definition rq (q : Q) : gq := (q, 0%Q).
Definition flscale {X} (c : gq) (l : fl X) : fl X := map (fun t => (gqmul c (fst t), snd t)) l.
Section Zero.
Context {X : Type} (eqb : X -> X -> bool) (hash : X -> positive).
Hypothesis eqb_eq : forall x y, eqb x y = true -> x = y.
Fixpoint bins (z : gq) (x : X) (l : fl X) : fl X :=
  match l with
  | [] => [(z, x)]
  | (z', x') :: r => if eqb x x' then (gqadd z z', x') :: r else (z', x') :: bins z x r
  end.
Inductive ft := FL | FN (l : ft) (b : fl X) (r : ft).
Fixpoint fins (k : positive) (z : gq) (x : X) (t : ft) : ft :=
  match t with
  | FL => match k with
          | xH => FN FL [(z, x)] FL
          | xO k => FN (fins k z x FL) [] FL
          | xI k => FN FL [] (fins k z x FL)
          end
  | FN l b r => match k with
                | xH => FN l (bins z x b) r
                | xO k => FN (fins k z x l) b r
                | xI k => FN l b (fins k z x r)
                end
  end.
Fixpoint fzero (t : ft) : bool := match t with FL => true | FN l b r => forallb (fun x => gqz (fst x)) b && fzero l && fzero r end.
Definition flz (l : fl X) : bool := fzero (fold_left (fun t u => fins (hash (snd u)) (fst u) (snd u) t) l FL).
Definition fleq (l m : fl X) : bool := flz (l ++ flscale (rq (-(1))) m).
Section V.
Context {K : StarField}.
Local Open Scope K_scope.
Add Ring KRt : (F_R (k_field K)).
Definition fv (G : X -> K) (l : fl X) : K := ksum (map (fun t => gval (fst t) * G (snd t)) l).
Lemma kQ_Qred q : @kQ K (Qred q) = kQ q.
Proof. apply kQ_Qeq, Qred_correct. Qed.
Lemma gval_gqadd a b : @gval K (gqadd a b) = gval a + gval b.
Proof. unfold gval, gqadd. cbn [fst snd]. rewrite !kQ_Qred, !kQ_add. ring. Qed.
Lemma gval_gqmul a b : @gval K (gqmul a b) = gval a * gval b.
Proof.
  unfold gval, gqmul, Qminus. cbn [fst snd]. rewrite !kQ_add, !kQ_opp, !kQ_mul.
  transitivity (@kQ K (fst a) * kQ (fst b) + (ki * ki) * (kQ (snd a) * kQ (snd b)) + ki * (kQ (fst a) * kQ (snd b) + kQ (snd a) * kQ (fst b))); [rewrite ki_sq; ring|ring].
Qed.
Lemma gval_rq q : @gval K (rq q) = kQ q.
Proof. unfold gval, rq. cbn [fst snd]. rewrite kQ_0. ring. Qed.
Lemma gqz_val a : gqz a = true -> @gval K a = 0.
Proof.
  unfold gqz, gval. intros H. apply andb_prop in H as [H1 H2]. apply Z.eqb_eq in H1, H2.
  assert (Z0 : forall q, Qnum q = 0%Z -> @kQ K q = 0). { intros q E. rewrite <- kQ_0. apply kQ_Qeq. unfold Qeq. now rewrite E. }
  rewrite (Z0 _ H1), (Z0 _ H2). ring.
Qed.
Fixpoint fsum (G : X -> K) (t : ft) : K := match t with FL => 0 | FN l b r => fv G b + (fsum G l + fsum G r) end.
Lemma fv_nil G : fv G [] = 0. Proof. reflexivity. Qed.
Lemma fv_cons G z x l : fv G ((z, x) :: l) = gval z * G x + fv G l. Proof. reflexivity. Qed.
Lemma bins_sum G z x l : fv G (bins z x l) = gval z * G x + fv G l.
Proof.
  induction l as [|[z' x'] r IH]; [reflexivity|]. cbn [bins]. destruct (eqb x x') eqn:E.
  - apply eqb_eq in E. subst x'. rewrite !fv_cons, gval_gqadd. ring.
  - rewrite !fv_cons, IH. ring.
Qed.
Lemma fins_sum G k : forall z x t, fsum G (fins k z x t) = gval z * G x + fsum G t.
Proof.
  induction k as [k IH|k IH|]; intros z x [|l b r]; cbn [fins fsum]; rewrite ?IH, ?bins_sum, ?fv_cons, ?fv_nil; cbn [fsum]; ring.
Qed.
Lemma fzero_sound G t : fzero t = true -> fsum G t = 0.
Proof.
  induction t as [|l IHl b r IHr]; intros H; [reflexivity|]. cbn [fzero] in H. apply andb_prop in H as [H H3]. apply andb_prop in H as [H1 H2].
  cbn [fsum]. rewrite (IHl H2), (IHr H3). unfold fv. rewrite ksum_zero; [ring|]. intros t I. rewrite forallb_forall in H1. rewrite (gqz_val _ (H1 _ I)). ring.
Qed.
Lemma flz_sound G l : flz l = true -> fv G l = 0.
Proof.
  intros H. unfold flz in H. apply (fzero_sound G) in H. rewrite <- H. clear H.
  assert (E : forall l t, fsum G (fold_left (fun t u => fins (hash (snd u)) (fst u) (snd u) t) l t) = fv G l + fsum G t).
  { induction l0 as [|[z x] r IH]; intros t; cbn [fold_left]; [rewrite fv_nil; ring|]. rewrite IH, fins_sum, fv_cons. cbn [fst snd]. ring. }
  rewrite E. cbn [fsum]. ring.
Qed.
Lemma fv_app G l m : fv G (l ++ m) = fv G l + fv G m.
Proof. unfold fv. now rewrite map_app, ksum_app. Qed.
Lemma fv_scale G c l : fv G (flscale c l) = gval c * fv G l.
Proof. unfold fv, flscale. rewrite map_map, <- ksum_scale. apply ksum_ext. intros t _. cbn [fst snd]. rewrite gval_gqmul. ring. Qed.
Lemma fleq_sound G l m : fleq l m = true -> fv G l = fv G m.
Proof.
  intros H. apply (flz_sound G) in H. rewrite fv_app, fv_scale, gval_rq, kQ_opp, kQ_1 in H.
  transitivity (fv G l + - (1) * fv G m + fv G m); [ring|rewrite H; ring].
Qed.
Lemma fv_flat_map {Y} G (h : Y -> fl X) l : fv G (flat_map h l) = ksum (map (fun y => fv G (h y)) l).
Proof. unfold fv. exact (ksum_flat_map (fun t => gval (fst t) * G (snd t)) h l). Qed.
Lemma fv_ext G G' l : (forall x, G x = G' x) -> fv G l = fv G' l.
Proof. intros H. apply ksum_ext. intros t _. now rewrite H. Qed.
Lemma fv_filter G (l : fl X) : fv G (filter (fun t => negb (gqz (fst t))) l) = fv G l.
Proof.
  induction l as [|[z x] r IH]; [reflexivity|]. cbn [filter fst]. destruct (gqz z) eqn:E; cbn [negb]; rewrite ?fv_cons, IH; [|reflexivity].
  rewrite (gqz_val _ E). ring.
Qed.
End V.
End Zero.
Definition nz {X} (l : fl X) : fl X := filter (fun t => negb (gqz (fst t))) l.

(* ---------- the tensors ---------- *)
Definition sp4 : Type := ((spin * spin) * (spin * spin))%type.
Definition co4 : Type := ((colr * colr) * (colr * colr))%type.
Definition get4 {A} (p : nat) (x : (A * A) * (A * A)) : A :=
  match x with ((a, b), (c, e)) => match p with 0 => a | 1 => b | 2 => c | _ => e end%nat end.
Definition set4 {A} (p : nat) (x : (A * A) * (A * A)) (v : A) : (A * A) * (A * A) :=
  match x with ((a, b), (c, e)) => match p with 0 => ((v, b), (c, e)) | 1 => ((a, v), (c, e)) | 2 => ((a, b), (v, e)) | _ => ((a, b), (c, v)) end%nat end.
Definition sp4_eqb (x y : sp4) : bool :=
  match x, y with ((a, b), (c, e)), ((a', b'), (c', e')) => spin_eqb a a' && spin_eqb b b' && spin_eqb c c' && spin_eqb e e' end.
Definition co4_eqb (x y : co4) : bool :=
  match x, y with ((a, b), (c, e)), ((a', b'), (c', e')) => colr_eqb a a' && colr_eqb b b' && colr_eqb c c' && colr_eqb e e' end.
Definition sp4_hash (x : sp4) : positive := match x with ((a, b), (c, e)) => spin_code a (spin_code b (spin_code c (spin_code e 1))) end.
Definition co4_hash (x : co4) : positive := match x with ((a, b), (c, e)) => colr_code a (colr_code b (colr_code c (colr_code e 1))) end.
Lemma spin_eqb_eq a b : spin_eqb a b = true -> a = b. Proof. destruct a, b; try discriminate; reflexivity. Qed.
Lemma colr_eqb_eq a b : colr_eqb a b = true -> a = b. Proof. destruct a, b; try discriminate; reflexivity. Qed.
Lemma sp4_eqb_eq x y : sp4_eqb x y = true -> x = y.
Proof.
  destruct x as [[a b] [c e]], y as [[a' b'] [c' e']]. cbn [sp4_eqb]. intros H. apply andb_prop in H as [H H4]. apply andb_prop in H as [H H3]. apply andb_prop in H as [H1 H2].
  now rewrite (spin_eqb_eq _ _ H1), (spin_eqb_eq _ _ H2), (spin_eqb_eq _ _ H3), (spin_eqb_eq _ _ H4).
Qed.
Lemma co4_eqb_eq x y : co4_eqb x y = true -> x = y.
Proof.
  destruct x as [[a b] [c e]], y as [[a' b'] [c' e']]. cbn [co4_eqb]. intros H. apply andb_prop in H as [H H4]. apply andb_prop in H as [H H3]. apply andb_prop in H as [H1 H2].
  now rewrite (colr_eqb_eq _ _ H1), (colr_eqb_eq _ _ H2), (colr_eqb_eq _ _ H3), (colr_eqb_eq _ _ H4).
Qed.
Definition seq_ := fleq sp4_eqb sp4_hash.
Definition ceq_ := fleq co4_eqb co4_hash.

Definition zq (z : gz) : gq := (inject_Z (fst z), inject_Z (snd z)).
(* the chiral structures of the operators *)
Definition D4 (d : dstruct) (x y : chir) : fl sp4 :=
  match find_dirac (d, (x, y)) with Some l => map (fun t => (zq (fst t), snd t)) l | None => [] end.
Definition colq (c : cstruct) (q q' : bool) (i j k l : colr) : Q :=
  match c with
  | Singlet => ((if q then delta i j else delta i C0 * delta j C0) * (if q' then delta k l else delta k C0 * delta l C0))%Q
  | Crossed => (delta i l * delta k j)%Q
  | Octet => ((1 # 2) * (delta i l * delta k j) - (1 # 6) * (delta i j * delta k l))%Q
  end.
Definition mk_C4 (c : cstruct) (q q' : bool) : fl co4 := nz (map (fun y => (rq (Qred (c4 (colq c q q') y)), y)) (quads colrs)).
Definition C1_ll := Eval vm_compute in mk_C4 Singlet false false.
Definition C1_lq := Eval vm_compute in mk_C4 Singlet false true.
Definition C1_ql := Eval vm_compute in mk_C4 Singlet true false.
Definition C1_qq := Eval vm_compute in mk_C4 Singlet true true.
Definition C8_qq := Eval vm_compute in mk_C4 Octet true true.
Definition C4 (c : cstruct) (q q' : bool) : fl co4 :=
  match c with
  | Singlet => match q, q' with false, false => C1_ll | false, true => C1_lq | true, false => C1_ql | true, true => C1_qq end
  | Octet => C8_qq
  | Crossed => []
  end.

(* ---------- exchange ---------- *)
Definition dag (p : nat) : bool := match p with 0 | 2 => true | _ => false end%nat.
Definition mk_spair (d d' : bool) : list (fl (spin * spin)) :=
  let M := dpairs Tensor in
  map (fun ab => nz (map (fun ab' => (zq (gzsum (map (fun sM => gzmul (fst sM, 0%Z) (gzmul (rotated d (snd sM) (fst ab) (fst ab')) (rotated d' (snd sM) (snd ab) (snd ab')))) M)), ab')) (pairs spins))) (pairs spins).
Definition sp_tt := Eval vm_compute in mk_spair true true.
Definition sp_tf := Eval vm_compute in mk_spair true false.
Definition sp_ft := Eval vm_compute in mk_spair false true.
Definition sp_ff := Eval vm_compute in mk_spair false false.
Definition spair_all (d d' : bool) := match d, d' with true, true => sp_tt | true, false => sp_tf | false, true => sp_ft | false, false => sp_ff end.
Definition spair (d d' : bool) (a b : spin) : fl (spin * spin) := nth (4 * sn a + sn b) (spair_all d d') [].
Definition spinact (p q : nat) (L : fl sp4) : fl sp4 :=
  flat_map (fun t => map (fun u => (gqmul (fst t) (fst u), set4 q (set4 p (snd t) (fst (snd u))) (snd (snd u)))) (spair (dag p) (dag q) (get4 p (snd t)) (get4 q (snd t)))) L.
Definition colact (p q : nat) (L : fl co4) : fl co4 :=
  flat_map (fun t => map (fun u => (gqmul (fst t) (rq (colour_pair (dag p) (dag q) (get4 p (snd t)) (get4 q (snd t)) (fst u) (snd u))), set4 q (set4 p (snd t) (fst u)) (snd u))) (pairs colrs)) L.
(* the ordered pairs of different fields *)
Definition opairs : list (nat * nat) := [(0, 1); (0, 2); (0, 3); (1, 0); (1, 2); (1, 3); (2, 0); (2, 1); (2, 3); (3, 0); (3, 1); (3, 2)]%nat.
(* 0: the fields of the same bilinear; 1: both psi or both psi^dagger; 2: psi and psi^dagger of different bilinears *)
Definition kind (p q : nat) : nat :=
  match p, q with
  | 0, 1 | 1, 0 | 2, 3 | 3, 2 => 0
  | 0, 2 | 2, 0 | 1, 3 | 3, 1 => 1
  | _, _ => 2
  end%nat.
Definition spin_tab (d : dstruct) (x y : chir) (p q : nat) : list (Q * dstruct) :=
  match d, chir_eqb x y, kind p q with
  | Vector, true, 1%nat | Vector, false, 2%nat => [(-(12), Vector)]
  | Vector, _, _ => []
  | Scalar, _, O => [(-(12), Scalar)]
  | Scalar, true, 1%nat => [(1, Tensor)]
  | Scalar, true, _ => [(-(1), Tensor)]
  | Tensor, true, O => [(4, Tensor)]
  | Tensor, true, 1%nat => [(48, Scalar); (-(8), Tensor)]
  | Tensor, true, _ => [(-(48), Scalar); (-(8), Tensor)]
  | _, _, _ => []
  end%Q.
Definition col_tab (c : cstruct) (p q : nat) : list (Q * cstruct) :=
  match c, kind p q with
  | Singlet, O => [(-(4 # 3), Singlet)]
  | Singlet, 1%nat => [(1, Octet)]
  | Singlet, _ => [(-(1), Octet)]
  | Octet, O => [(1 # 6, Octet)]
  | Octet, 1%nat => [(2 # 9, Singlet); (-(1 # 3), Octet)]
  | Octet, _ => [(-(2 # 9), Singlet); (-(7 # 6), Octet)]
  | _, _ => []
  end%Q.
Definition LR : list chir := [PL; PR].
Definition dxy : list (dstruct * (chir * chir)) :=
  flat_map (fun x => flat_map (fun y => (Vector, (x, y)) :: (Scalar, (x, y)) :: if chir_eqb x y then [(Tensor, (x, y))] else []) LR) LR.
Definition cqq : list (cstruct * (bool * bool)) :=
  [(Singlet, (false, false)); (Singlet, (false, true)); (Singlet, (true, false)); (Singlet, (true, true)); (Octet, (true, true))].
Definition sbit (q q' : bool) (p : nat) : bool := match p with 0 | 1 => q | _ => q' end%nat.
Definition chk_spin : bool := forallb (fun k => match k with (d, (x, y)) => let L := D4 d x y in
  forallb (fun pq => seq_ (spinact (fst pq) (snd pq) L) (flat_map (fun t => flscale (rq (fst t)) (D4 (snd t) x y)) (spin_tab d x y (fst pq) (snd pq)))) opairs end) dxy.
Definition chk_col : bool := forallb (fun k => match k with (c, (q, q')) => let L := C4 c q q' in
  forallb (fun pq => negb (sbit q q' (fst pq) && sbit q q' (snd pq)) ||
    ceq_ (colact (fst pq) (snd pq) L) (flat_map (fun t => flscale (rq (fst t)) (C4 (snd t) q q')) (col_tab c (fst pq) (snd pq)))) opairs end) cqq.

(* ---------- penguins ---------- *)
Definition mk_loop : list (fl (spin * spin)) :=
  let M := map (fun m => (metric m, (mmulM (gam m) (gam 0), mmulM (gam 0) (gam m)))) lor in
  map (fun ab => nz (map (fun xy => (zq (gzsum (map (fun t => gzmul (fst t, 0%Z) (gzmul (ent (fst (snd t)) (fst ab) (snd ab)) (ent (snd (snd t)) (fst xy) (snd xy)))) M)), xy)) (pairs spins))) (pairs spins).
Definition loop_all := Eval vm_compute in mk_loop.
Definition loop_of (a b : spin) : fl (spin * spin) := nth (4 * sn a + sn b) loop_all [].
(* the contractions (psi, psi^dagger); the remaining fields (psi^dagger, psi); the sign *)
Definition loops : list (nat * nat) := [(1, 0); (1, 2); (3, 0); (3, 2)]%nat.
Definition rest (p q : nat) : nat * nat := match p, q with 1, 0 => (2, 3) | 1, _ => (0, 3) | _, 0 => (2, 1) | _, _ => (0, 1) end%nat.
Definition closed (p q : nat) : bool := match p, q with 1, 0 | 3, 2 => true | _, _ => false end%nat.
Definition lsign (p q : nat) : Q := if closed p q then -(1) else 1.
Definition looped {A} (p q : nat) (x : (A * A) * (A * A)) (u : A * A) : (A * A) * (A * A) := ((get4 (fst (rest p q)) x, get4 (snd (rest p q)) x), u).
Definition loopspin (p q : nat) (L : fl sp4) : fl sp4 :=
  flat_map (fun t => map (fun u => (gqmul (rq (lsign p q)) (gqmul (fst t) (fst u)), looped p q (snd t) (snd u))) (loop_of (get4 p (snd t)) (get4 q (snd t)))) L.
Definition lcol (g : force) (qk : bool) (i j k l : colr) : Q :=
  match g with
  | QCD => (1 # 2) * (delta i l * delta k j) - (1 # 6) * (delta i j * delta k l)
  | QED => delta i j * (if qk then delta k l else delta k C0 * delta l C0)
  end%Q.
Definition loopcol (g : force) (qk : bool) (p q : nat) (L : fl co4) : fl co4 :=
  flat_map (fun t => map (fun u => (gqmul (fst t) (rq (lcol g qk (get4 p (snd t)) (get4 q (snd t)) (fst u) (snd u))), looped p q (snd t) u)) (pairs colrs)) L.
Definition loopspin_tab (d : dstruct) (x y : chir) (p q : nat) : list (Q * chir) :=
  match d, chir_eqb x y, closed p q with
  | Vector, true, _ => [(-(2), x)]
  | Vector, false, true => [(-(2), match p with 1%nat => y | _ => x end)]
  | Scalar, false, false => [(1, match p with 1%nat => y | _ => x end)]
  | _, _, _ => []
  end%Q.
Definition loopcol_tab (g : force) (c : cstruct) (qc : bool) (p q : nat) : list (Q * cstruct) :=
  match g, c, closed p q with
  | QED, Singlet, true => [(if qc then 3 else 1, Singlet)]
  | QED, Singlet, false => [(1, Singlet)]
  | QED, Octet, false => [(4 # 3, Singlet)]
  | QCD, Singlet, false => [(1, Octet)]
  | QCD, Octet, true => [(1 # 2, Octet)]
  | QCD, Octet, false => [(-(1 # 6), Octet)]
  | _, _, _ => []
  end%Q.
Definition chk_loopspin : bool := forallb (fun k => match k with (d, (x, y)) => let L := D4 d x y in
  forallb (fun pq => seq_ (loopspin (fst pq) (snd pq) L)
    (flat_map (fun t => flscale (rq (fst t)) (D4 Vector (snd t) PL ++ D4 Vector (snd t) PR)) (loopspin_tab d x y (fst pq) (snd pq)))) loops end) dxy.
(* qk: the fermion of the current is a quark.  In QCD it is, as well as the contracted field. *)
Definition loop_admits (g : force) (q q' : bool) (p q0 : nat) (qk : bool) : bool :=
  (closed p q0 || Bool.eqb q q') && match g with QCD => qk && sbit q q' p | QED => true end.
Definition chk_loopcol : bool := forallb (fun k => match k with (c, (q, q')) => let L := C4 c q q' in
  forallb (fun g => forallb (fun qk => forallb (fun pq => negb (loop_admits g q q' (fst pq) (snd pq) qk) ||
    ceq_ (loopcol g qk (fst pq) (snd pq) L)
      (flat_map (fun t => flscale (rq (fst t)) (C4 (snd t) (sbit q q' (fst (rest (fst pq) (snd pq)))) qk)) (loopcol_tab g c (sbit q q' (fst pq)) (fst pq) (snd pq)))) loops) [true; false]) [QCD; QED] end) cqq.

(* ---------- Fierz identities, exchange of the bilinears, hermitian conjugation ---------- *)
Definition scq : Type := (sp4 * co4)%type.
Definition sc_eqb (x y : scq) : bool := sp4_eqb (fst x) (fst y) && co4_eqb (snd x) (snd y).
Definition sc_hash (x : scq) : positive := match snd x with ((a, b), (c, e)) => colr_code a (colr_code b (colr_code c (colr_code e (sp4_hash (fst x))))) end.
Definition tens (d : dstruct) (c : cstruct) (x y : chir) (q q' : bool) : fl scq :=
  flat_map (fun t => map (fun u => (gqmul (fst t) (fst u), (snd t, snd u))) (C4 c q q')) (D4 d x y).
Definition fperm {A} (x : (A * A) * (A * A)) : (A * A) * (A * A) := match x with ((a, b), (c, e)) => ((a, e), (c, b)) end.
Definition sperm {A} (x : (A * A) * (A * A)) : (A * A) * (A * A) := match x with ((a, b), (c, e)) => ((c, e), (a, b)) end.
Definition hperm {A} (x : (A * A) * (A * A)) : (A * A) * (A * A) := match x with ((a, b), (c, e)) => ((b, a), (e, c)) end.
Definition permute (f : sp4 -> sp4) (g : co4 -> co4) (l : fl scq) : fl scq := map (fun t => (fst t, (f (fst (snd t)), g (snd (snd t))))) l.
Definition conjl (l : fl scq) : fl scq := map (fun t => ((fst (fst t), - snd (fst t))%Q, snd t)) l.
Definition teq := fleq sc_eqb sc_hash.
Definition opp_chir (x : chir) : chir := match x with PL => PR | PR => PL | _ => x end.
Definition hchir (d : dstruct) (x : chir) : chir := match d with Vector => x | _ => opp_chir x end.
Definition chk_swap : bool := forallb (fun k => match k with (d, (x, y)) => forallb (fun k => match k with (c, (q, q')) =>
  teq (tens d c x y q q') (permute sperm sperm (tens d c y x q' q)) end) cqq end) dxy.
Definition chk_hc : bool := forallb (fun k => match k with (d, (x, y)) => forallb (fun k => match k with (c, (q, q')) =>
  teq (conjl (tens d c x y q q')) (permute hperm hperm (tens d c (hchir d x) (hchir d y) q q')) end) cqq end) dxy.
(* (coefficient, exchange f2 and f4?, structure, colour) *)
Definition fierz (d : dstruct) (c : cstruct) (q : bool) : list (Q * (bool * (dstruct * cstruct))) :=
  match d, c, q with
  | Vector, Octet, true => [(-(1 # 6), (false, (Vector, Singlet))); (1 # 2, (true, (Vector, Singlet)))]
  | Vector, Singlet, false => [(1, (true, (Vector, Singlet)))]
  | Tensor, Singlet, true => [(-(4), (false, (Scalar, Singlet))); (-(16), (true, (Scalar, Octet))); (-(8 # 3), (true, (Scalar, Singlet)))]
  | Tensor, Octet, true => [(-(4), (false, (Scalar, Octet))); (-(32 # 9), (true, (Scalar, Singlet))); (8 # 3, (true, (Scalar, Octet)))]
  | Tensor, Singlet, false => [(-(4), (false, (Scalar, Singlet))); (-(8), (true, (Scalar, Singlet)))]
  | _, _, _ => [(1, (false, (d, c)))]
  end%Q.
Definition fz_list : list (dstruct * (cstruct * bool)) :=
  [(Vector, (Octet, true)); (Vector, (Singlet, false)); (Tensor, (Singlet, true)); (Tensor, (Octet, true)); (Tensor, (Singlet, false))].
Definition chk_fierz : bool := forallb (fun k => match k with (d, (c, q)) => forallb (fun x =>
  teq (tens d c x x q q) (flat_map (fun t : Q * (bool * (dstruct * cstruct)) => match t with (z, (b, (d', c'))) =>
    if b then flscale (rq (- z)) (permute fperm fperm (tens d' c' x x q q)) else flscale (rq z) (tens d' c' x x q q) end) (fierz d c q))) LR end) fz_list.

Definition dok (d : dstruct) (x y : chir) : bool :=
  match d, x, y with
  | Vector, (PL | PR), (PL | PR) | Scalar, (PL | PR), (PL | PR) => true
  | Tensor, PL, PL | Tensor, PR, PR => true
  | _, _, _ => false
  end.
Definition cok (c : cstruct) (q q' : bool) : bool := match c with Singlet => true | Octet => q && q' | Crossed => false end.
Lemma dok_In d x y : dok d x y = true -> In (d, (x, y)) dxy.
Proof. destruct d, x, y; intros H; try discriminate H; cbn; tauto. Qed.
Lemma cok_In c q q' : cok c q q' = true -> In (c, (q, q')) cqq.
Proof. destruct c, q, q'; intros H; try discriminate H; cbn; tauto. Qed.
Lemma all_checks : chk_spin && chk_col && chk_loopspin && chk_loopcol && chk_swap && chk_hc && chk_fierz = true.
Proof. vm_cast_no_check (eq_refl true). Qed.
Lemma spair_tables d d' : mk_spair d d' = spair_all d d'.
Proof. destruct d, d'; vm_compute; reflexivity. Qed.
Lemma loop_table : mk_loop = loop_all.
Proof. vm_compute. reflexivity. Qed.
Lemma C4_table c q q' : cok c q q' = true -> C4 c q q' = mk_C4 c q q'.
Proof. destruct c, q, q'; intros H; try discriminate H; vm_compute; reflexivity. Qed.
Lemma D4_table d x y : dok d x y = true -> D4 d x y = map (fun t => (zq (fst t), snd t)) (mk_dirac (d, (x, y))).
Proof.
  intros H. unfold D4. destruct (find_dirac (d, (x, y))) as [l|] eqn:E; [now rewrite (find_dirac_ok _ _ E)|]. exfalso.
  assert (T : forallb (fun k => match find_dirac k with Some _ => true | None => false end) dxy = true) by (vm_compute; reflexivity).
  rewrite forallb_forall in T. specialize (T _ (dok_In _ _ _ H)). cbn beta in T. rewrite E in T. discriminate T.
Qed.
