(* The operators as sparse polynomials (reflection tool; nothing here models the code). *)
From Coq Require Import List Bool ZArith QArith Lia String Ascii.
From Verif Require Import PyBase Num TrLang AdmData TreeSpec TrSpec FermiSpec NpModel NpProofs FermiNorm.
Import ListNotations.
Local Open Scope list_scope.

Definition gz0 (z : gz) : bool := Z.eqb (fst z) 0 && Z.eqb (snd z) 0.
Definition sparse {X : Type} (z : X -> gz) (l : list X) : list (gz * X) := filter (fun t => negb (gz0 (fst t))) (map (fun x => (z x, x)) l).
Definition q4 {X} (f : spin -> spin -> spin -> spin -> X) (x : (spin * spin) * (spin * spin)) : X := match x with ((a, b), (c, e)) => f a b c e end.
Definition c4 {X} (f : colr -> colr -> colr -> colr -> X) (x : (colr * colr) * (colr * colr)) : X := match x with ((a, b), (c, e)) => f a b c e end.
(* six times the colour factors *)
Definition dz (i j : colr) : Z := if colr_eqb i j then 1%Z else 0%Z.
Definition cfz (q : bool) (i j : colr) : Z := if q then dz i j else (dz i C0 * dz j C0)%Z.
Definition colz (c : cstruct) (q q' : bool) (i j k l : colr) : Z :=
  match c with
  | Singlet => (6 * (cfz q i j * cfz q' k l))%Z
  | Crossed => (6 * (dz i l * dz k j))%Z
  | Octet => (3 * (dz i l * dz k j) - dz i j * dz k l)%Z
  end.
Definition dkey : Type := (dstruct * (chir * chir))%type.
Definition dstruct_eqb (a b : dstruct) : bool :=
  match a, b with Scalar, Scalar | Vector, Vector | Tensor, Tensor | Gamma3, Gamma3 | Gamma4, Gamma4 => true | _, _ => false end.
Definition dkey_eqb (a b : dkey) : bool := dstruct_eqb (fst a) (fst b) && chir_eqb (fst (snd a)) (fst (snd b)) && chir_eqb (snd (snd a)) (snd (snd b)).
Definition dkeys_used : list dkey :=
  flat_map (fun d => flat_map (fun x => map (fun y => (d, (x, y))) (match d with Tensor => [PL; PR; P1] | Gamma3 | Gamma4 => [P1] | _ => [PL; PR; P1; P5] end)) [PL; PR])
    [Vector; Scalar; Tensor; Gamma3; Gamma4].
Definition mk_dirac (k : dkey) : list (gz * ((spin * spin) * (spin * spin))) :=
  let l := dbilin (fst k) (fst (snd k)) (snd (snd k)) in sparse (q4 (contract l)) (quads spins).
Definition mk_dip (x : chir) : list (gz * ((nat * nat) * (spin * spin))) :=
  sparse (fun t : (nat * nat) * (spin * spin) => match t with ((m, n), (a, b)) => let z := dip x m n a b in if Nat.ltb n m then gzopp z else z end) (prodl (pairs lor) (pairs spins)).
Definition ckey : Type := (cstruct * (bool * bool))%type.
Definition mk_col (k : ckey) : list (gz * ((colr * colr) * (colr * colr))) := sparse (fun t => (c4 (colz (fst k) (fst (snd k)) (snd (snd k))) t, 0%Z)) (quads colrs).
Definition the_dirac : list (dkey * list (gz * ((spin * spin) * (spin * spin)))) := Eval vm_compute in map (fun k => (k, mk_dirac k)) dkeys_used.
Definition the_dipL : list (gz * ((nat * nat) * (spin * spin))) := Eval vm_compute in mk_dip PL.
Definition the_dipR : list (gz * ((nat * nat) * (spin * spin))) := Eval vm_compute in mk_dip PR.
Definition col_ll := Eval vm_compute in mk_col (Singlet, (false, false)).
Definition col_lq := Eval vm_compute in mk_col (Singlet, (false, true)).
Definition col_ql := Eval vm_compute in mk_col (Singlet, (true, false)).
Definition col_qq := Eval vm_compute in mk_col (Singlet, (true, true)).
Definition col_x := Eval vm_compute in mk_col (Crossed, (true, true)).
Definition col_8 := Eval vm_compute in mk_col (Octet, (true, true)).
Definition the_col (k : ckey) : list (gz * ((colr * colr) * (colr * colr))) :=
  match k with
  | (Singlet, (false, false)) => col_ll | (Singlet, (false, true)) => col_lq | (Singlet, (true, false)) => col_ql | (Singlet, _) => col_qq
  | (Crossed, _) => col_x | (Octet, _) => col_8
  end.

Lemma the_dirac_ok : map (fun k => (k, mk_dirac k)) dkeys_used = the_dirac.
Proof. vm_cast_no_check (eq_refl the_dirac). Qed.
Lemma the_dip_ok : mk_dip PL = the_dipL /\ mk_dip PR = the_dipR.
Proof. split; vm_compute; reflexivity. Qed.
Definition find_dirac (k : dkey) : option (list (gz * ((spin * spin) * (spin * spin)))) :=
  match find (fun t => dkey_eqb (fst t) k) the_dirac with Some t => Some (snd t) | None => None end.
Lemma dkey_eqb_eq a b : dkey_eqb a b = true -> a = b.
Proof. destruct a as [d [x y]], b as [d' [x' y']]. destruct d, d'; try discriminate; destruct x, x'; try discriminate; destruct y, y'; try discriminate; reflexivity. Qed.
Lemma find_dirac_ok k l : find_dirac k = Some l -> l = mk_dirac k.
Proof.
  unfold find_dirac. destruct (find _ the_dirac) as [[k' l']|] eqn:E; [|discriminate]. intros [= <-]. apply find_some in E as [E1 E2].
  cbn [fst] in E2. apply dkey_eqb_eq in E2. rewrite <- the_dirac_ok in E1. apply in_map_iff in E1 as (k2 & E1 & _). cbn [snd]. congruence.
Qed.
Definition ckey_ok (k : ckey) : bool := match k with (Singlet, _) => true | (_, (a, b)) => a && b end.
Lemma the_col_ok k : ckey_ok k = true -> the_col k = mk_col k.
Proof. destruct k as [[] [[] []]]; intros H; try discriminate; vm_compute; reflexivity. Qed.

(* ---------- sparse polynomials ---------- *)
Definition spoly : Type := list (gz * mon).
Definition gzscale (n : Z) (z : gz) : gz := (n * fst z, n * snd z)%Z.
Definition sfour (D : list (gz * ((spin * spin) * (spin * spin)))) (Cl : list (gz * ((colr * colr) * (colr * colr)))) (f1 f2 f3 f4 : ferm) : spoly :=
  flat_map (fun x => match x with (z, ((a, b), (c, e))) =>
    map (fun y => match y with (w, ((i, j), (k, l))) => (gzscale (fst w) z, (NoB, [cp true f1 a i; cp false f2 b j; cp true f3 c k; cp false f4 e l])) end) Cl end) D.
Definition sdip (D : list (gz * ((nat * nat) * (spin * spin)))) (gluon qk : bool) (f1 f2 : ferm) : spoly :=
  flat_map (fun x => match x with (z, ((m, n), (a, b))) =>
    map (fun ij => (gzscale 6 z, (if gluon then Gluon (Nat.min m n) (Nat.max m n) (fst ij) (snd ij) else Photon (Nat.min m n) (Nat.max m n), [cp true f1 a (fst ij); cp false f2 b (snd ij)])))
      (if gluon then pairs colrs else if qk then [(C0, C0); (C1, C1); (C2, C2)] else [(C0, C0)]) end) D.
Definition sdipole D (gluon : bool) (f1 f2 : ferm) : spoly := sdip D gluon (quark f1) f1 f2.
(* six times the operator *)
Definition spoly_of (o : opr) : option spoly :=
  match o with
  | Four d c x y f1 f2 f3 f4 =>
      let ck := (c, (quark f1, quark f3)) in
      if ckey_ok ck then match find_dirac (d, (x, y)) with Some D => Some (sfour D (the_col ck) f1 f2 f3 f4) | None => None end else None
  | Dipole g PL f1 f2 => Some (sdipole the_dipL g f1 f2)
  | Dipole g PR f1 f2 => Some (sdipole the_dipR g f1 f2)
  | Dipole _ _ _ _ => None
  | ThreeGluon dual => Some [((6, 0)%Z, (if dual then GGGtilde else GGG, []))]
  end.
Definition shc (p : spoly) : spoly := map (fun t => ((fst (fst t), - snd (fst t))%Z, (hc_bos (fst (snd t)), rev (map hc_comp (snd (snd t)))))) p.
Definition to_i (p : spoly) : ipoly := map (fun t => (fst t, (fst (snd t), map code (snd (snd t))))) p.

Section Val.
Context {K : StarField}.
Local Open Scope K_scope.
Add Ring KRg : (F_R (k_field K)).
(* the value of a polynomial for any valuation h of the monomials *)
Definition pv (h : mon -> K) (p : poly) : K := ksum (map (fun t => gval (fst t) * h (snd t)) p).
Definition spv (h : mon -> K) (p : spoly) : K := ksum (map (fun t => gzval (fst t) * h (snd t)) p).
Lemma kQ_Z z : @kQ K (inject_Z z) = kZ z.
Proof. unfold kQ, inject_Z. cbn [Qnum Qden]. change (@kpos K 1) with (1 : K). rewrite kdiv_def. replace (kinv (1 : K)) with (1 * kinv (1 : K)) by ring. rewrite kinv_r by apply k_1_neq_0. ring. Qed.
Lemma sum_prodl {X Y} (g : X * Y -> K) l m : ksum (map g (prodl l m)) = ksum (map (fun x => ksum (map (fun y => g (x, y)) m)) l).
Proof. unfold prodl. rewrite ksum_flat_map. apply ksum_ext. intros x _. now rewrite map_map. Qed.
Lemma gz0_val z : gz0 z = true -> @gzval K z = 0.
Proof. unfold gz0, gzval. intros H. apply andb_prop in H as [A B]. apply Z.eqb_eq in A, B. rewrite A, B. cbn [kZ]. ring. Qed.
Lemma sum_sparse {X} (z : X -> gz) (G : X -> K) l : ksum (map (fun x => gzval (z x) * G x) l) = ksum (map (fun t => gzval (fst t) * G (snd t)) (sparse z l)).
Proof.
  unfold sparse. induction l as [|x l IH]; [reflexivity|]. cbn [map filter fst]. rewrite ksum_cons, IH. destruct (gz0 (z x)) eqn:E; cbn [negb].
  - rewrite (gz0_val _ E). ring.
  - cbn [map fst snd]. now rewrite ksum_cons.
Qed.
Lemma gval_scaled (z : gz) (q : Q) : @gval K (inject_Z (fst z) * q, inject_Z (snd z) * q)%Q = gzval z * kQ q.
Proof. unfold gval, gzval. cbn [fst snd]. rewrite !kQ_mul, !kQ_Z. ring. Qed.
Lemma gzval_scale n z : @gzval K (gzscale n z) = kZ n * gzval z.
Proof. unfold gzval, gzscale. cbn [fst snd]. rewrite !kZ_mul. ring. Qed.
Lemma colour_z c f f' i j k l : ckey_ok (c, (quark f, quark f')) = true -> @kQ K (colour4 c f f' i j k l) = kQ (1 # 6) * kZ (colz c (quark f) (quark f') i j k l).
Proof.
  intros H. rewrite <- kQ_Z, <- kQ_mul. apply kQ_Qeq. unfold colour4, colz, cfac, cfz.
  destruct c; destruct (quark f), (quark f'); try discriminate H; destruct i, j, k, l; reflexivity.
Qed.
Lemma four_sparse h D c f1 f2 f3 f4 Dl : Dl = sparse (q4 D) (quads spins) -> ckey_ok (c, (quark f1, quark f3)) = true ->
  pv h (four_poly D (colour4 c f1 f3) f1 f2 f3 f4) = kQ (1 # 6) * spv h (sfour Dl (the_col (c, (quark f1, quark f3))) f1 f2 f3 f4).
Proof.
  intros -> CO. rewrite (the_col_ok _ CO). unfold pv, four_poly. rewrite map_map, sum_prodl.
  set (mk := fun (x : (spin * spin) * (spin * spin)) (y : (colr * colr) * (colr * colr)) =>
    match x, y with ((a, b), (c, e)), ((i, j), (k, l)) => (NoB, [cp true f1 a i; cp false f2 b j; cp true f3 c k; cp false f4 e l]) end : mon).
  transitivity (ksum (map (fun x => gzval (q4 D x) * ksum (map (fun y => kQ (1 # 6) * (kZ (c4 (colz c (quark f1) (quark f3)) y) * h (mk x y))) (quads colrs))) (quads spins))).
  { apply ksum_ext. intros [[a b] [cc e]] _. cbv beta. rewrite <- ksum_scale. apply ksum_ext. intros [[i j] [k l]] _. cbv zeta. cbn [fst snd].
    rewrite gval_scaled, (colour_z c f1 f3 i j k l CO). cbn [q4 c4 mk]. ring. }
  rewrite (sum_sparse (q4 D)). unfold spv, sfour. rewrite ksum_flat_map. rewrite <- ksum_scale. apply ksum_ext.
  intros [z [[a b] [cc e]]] _. cbn [fst snd]. rewrite map_map. rewrite ksum_scale. unfold mk_col. cbn [fst snd].
  replace (ksum (map (fun y => kZ (c4 (colz c (quark f1) (quark f3)) y) * h (mk ((a, b), (cc, e)) y)) (quads colrs)))
    with (ksum (map (fun y => gzval (c4 (colz c (quark f1) (quark f3)) y, 0%Z) * h (mk ((a, b), (cc, e)) y)) (quads colrs))).
  2:{ apply ksum_ext. intros y _. unfold gzval. cbn [fst snd kZ]. ring. }
  rewrite (sum_sparse (fun y => (c4 (colz c (quark f1) (quark f3)) y, 0%Z)) (fun y => h (mk ((a, b), (cc, e)) y))).
  rewrite <- !ksum_scale. apply ksum_ext. intros [w [[i j] [k l]]] X. cbn [fst snd mk]. rewrite gzval_scale.
  unfold sparse in X. apply filter_In in X as [X _]. apply in_map_iff in X as (y & E & _). injection E as <- E. unfold gzval. cbn [fst snd kZ]. ring.
Qed.
Lemma kQ6 : @kQ K (1 # 6) * kZ 6 = 1.
Proof. rewrite <- kQ_Z, <- kQ_mul. rewrite <- kQ_1. apply kQ_Qeq. reflexivity. Qed.
Lemma cfac_sum f (G : colr -> colr -> K) :
  ksum (map (fun ij => kQ (cfac f (fst ij) (snd ij)) * G (fst ij) (snd ij)) (pairs colrs)) =
  ksum (map (fun ij => G (fst ij) (snd ij)) (if quark f then [(C0, C0); (C1, C1); (C2, C2)] else [(C0, C0)])).
Proof.
  assert (E0 : @kQ K 0 = 0) by apply kQ_0. assert (E1 : @kQ K 1 = 1) by apply kQ_1.
  assert (F0 : @kQ K (0 * 0) = 0) by (rewrite <- E0; apply kQ_Qeq; reflexivity). assert (F1 : @kQ K (1 * 0) = 0) by (rewrite <- E0; apply kQ_Qeq; reflexivity).
  assert (F2 : @kQ K (0 * 1) = 0) by (rewrite <- E0; apply kQ_Qeq; reflexivity). assert (F3 : @kQ K (1 * 1) = 1) by (rewrite <- E1; apply kQ_Qeq; reflexivity).
  unfold cfac. destruct (quark f); unfold pairs, prodl, colrs; cbn [flat_map map app fst snd delta colr_eqb]; unfold delta; cbn [colr_eqb]; unfold ksum; cbn [fold_right]; rewrite ?F0, ?F1, ?F2, ?F3, ?E0, ?E1; ring.
Qed.
Lemma dip_sparse h g x f1 f2 : pv h (dipole_poly g x f1 f2) = kQ (1 # 6) * spv h (sdipole (mk_dip x) g f1 f2).
Proof.
  unfold pv, dipole_poly, spv, sdipole, sdip, mk_dip. rewrite map_map, !sum_prodl, ksum_flat_map.
  set (mk := fun (t : (nat * nat) * (spin * spin)) (i j : colr) => match t with ((m, n), (a, b)) =>
    (if g then Gluon (Nat.min m n) (Nat.max m n) i j else Photon (Nat.min m n) (Nat.max m n), [cp true f1 a i; cp false f2 b j]) end : mon).
  set (Cs := if g then pairs colrs else if quark f1 then [(C0, C0); (C1, C1); (C2, C2)] else [(C0, C0)]).
  set (Z0 := fun t : (nat * nat) * (spin * spin) => match t with ((m, n), (a, b)) => let z := dip x m n a b in if Nat.ltb n m then gzopp z else z end).
  transitivity (ksum (map (fun t => gzval (Z0 t) * ksum (map (fun ij => h (mk t (fst ij) (snd ij))) Cs)) (prodl (pairs lor) (pairs spins)))).
  - rewrite sum_prodl. apply ksum_ext. intros [m n] _. rewrite sum_prodl. apply ksum_ext. intros [a b] _. cbv beta.
    transitivity (gzval (Z0 (m, n, (a, b))) * ksum (map (fun ij => kQ (if g then 1 else cfac f1 (fst ij) (snd ij)) * h (mk (m, n, (a, b)) (fst ij) (snd ij))) (pairs colrs))).
    + rewrite <- ksum_scale. apply ksum_ext. intros [i j] _. cbv zeta. cbn [fst snd]. rewrite gval_scaled, kQ_mul, kQ_Z. unfold Z0, mk. cbv zeta.
      destruct (Nat.ltb n m); rewrite ?gzval_opp; [assert (E : @kZ K (-1) = - (1)) by reflexivity|assert (E : @kZ K 1 = 1) by reflexivity]; rewrite E; ring.
    + f_equal. unfold Cs. destruct g; [apply ksum_ext; intros [i j] _; rewrite kQ_1; ring|]. apply (cfac_sum f1 (fun i j => h (mk (m, n, (a, b)) i j))).
  - rewrite (sum_sparse Z0). rewrite <- ksum_scale. apply ksum_ext. intros [z [[m n] [a b]]] _. cbn [fst snd]. rewrite map_map. rewrite <- !ksum_scale.
    apply ksum_ext. intros [i j] _. cbn [fst snd mk]. rewrite gzval_scale. transitivity ((kQ (1 # 6) * kZ 6) * (gzval z * h (mk (m, n, (a, b)) i j))); [rewrite kQ6; unfold mk; cbv beta iota; ring|unfold mk; cbv beta iota; ring].
Qed.
Lemma spoly_of_ok h o s : spoly_of o = Some s -> pv h (poly_of o) = kQ (1 # 6) * spv h s.
Proof.
  destruct o as [d c x y f1 f2 f3 f4|g x f1 f2|dual]; cbn [spoly_of poly_of].
  - cbv zeta. destruct (ckey_ok _) eqn:CO; [|discriminate]. destruct (find_dirac _) as [D|] eqn:E; [|discriminate]. intros [= <-].
    apply four_sparse; [|exact CO]. apply find_dirac_ok in E. exact E.
  - destruct the_dip_ok as [EL ER]. assert (SI : forall a b : spoly, Some a = Some b -> a = b) by congruence.
    destruct x; [| |discriminate|discriminate]; intros H.
    + apply SI in H. pose proof (dip_sparse h g PL f1 f2) as X. rewrite EL, H in X. exact X.
    + apply SI in H. pose proof (dip_sparse h g PR f1 f2) as X. rewrite ER, H in X. exact X.
  - intros [= <-]. unfold pv, spv. cbn [map fst snd]. rewrite !ksum_cons. unfold ksum. cbn [fold_right]. unfold gval, gzval. cbn [fst snd]. rewrite kQ_1, kQ_0.
    cbn [kZ]. transitivity ((kQ (1 # 6) * kZ 6) * h (if dual then GGGtilde else GGG, [])); [rewrite kQ6; ring|cbn [kZ]; ring].
Qed.
Definition hcm (x : mon) : mon := (hc_bos (fst x), rev (map hc_comp (snd x))).
Lemma gval_conj (a b : Q) : @gval K (a, - b)%Q = (gval (a, b))^*.
Proof. unfold gval. cbn [fst snd]. rewrite kQ_opp, kconj_add, kconj_mul, !kconj_Q, kconj_i. ring. Qed.
Lemma gzval_conj (a b : Z) : @gzval K (a, - b)%Z = (gzval (a, b))^*.
Proof. unfold gzval. cbn [fst snd]. rewrite kZ_opp, kconj_add, kconj_mul, !kconj_Z, kconj_i. ring. Qed.
Lemma pv_hc h p : pv h (hc p) = (pv (fun x => (h (hcm x))^*) p)^*.
Proof.
  unfold pv, hc. rewrite map_map, ksum_conj. apply ksum_ext. intros [[a b] x] _. cbn [fst snd]. rewrite gval_conj, kconj_mul, kconj_conj. reflexivity.
Qed.
Lemma spv_hc h p : spv h (shc p) = (spv (fun x => (h (hcm x))^*) p)^*.
Proof.
  unfold spv, shc. rewrite map_map, ksum_conj. apply ksum_ext. intros [[a b] x] _. cbn [fst snd]. rewrite gzval_conj, kconj_mul, kconj_conj. reflexivity.
Qed.
Lemma spoly_of_hc h o s : spoly_of o = Some s -> pv h (hc (poly_of o)) = kQ (1 # 6) * spv h (shc s).
Proof. intros H. rewrite pv_hc, spv_hc, (spoly_of_ok _ o s H), kconj_mul, kconj_Q. reflexivity. Qed.
Definition hm (m x : mon) : K := if bos_eqb (fst x) (fst m) then kZ (sgn comp_eqb (snd x) (snd m)) else 0.
Lemma coefficient_pv p m : coefficient p m = pv (hm m) p.
Proof. unfold coefficient, pv, hm. apply ksum_ext. intros [c [b l]] _. cbn [fst snd]. destruct (bos_eqb b (fst m)); ring. Qed.
Lemma coefP_spv p b l : coefP (to_i p) (b, map code l) = spv (hm (b, l)) p.
Proof.
  unfold coefP, spv, hm, to_i. rewrite map_map. apply ksum_ext. intros [z [b' l']] _. unfold tv. cbn [fst snd].
  destruct (bos_eqb b' b); [|ring]. unfold psgn. now rewrite (sgn_map comp_eqb Pos.eqb code code_eqb).
Qed.
Lemma coefficient_of o s b l : spoly_of o = Some s -> @coefficient K (poly_of o) (b, l) = kQ (1 # 6) * coefP (to_i s) (b, map code l).
Proof. intros H. now rewrite coefficient_pv, coefP_spv, (spoly_of_ok _ o s H). Qed.
Lemma coefficient_of_hc o s b l : spoly_of o = Some s -> @coefficient K (hc (poly_of o)) (b, l) = kQ (1 # 6) * coefP (to_i (shc s)) (b, map code l).
Proof. intros H. now rewrite coefficient_pv, coefP_spv, (spoly_of_hc _ o s H). Qed.
End Val.
