(* The sector sb, whose list of coefficients contains two that belong to the opposite flavour quantum numbers. *)
From Coq Require Import List Bool ZArith QArith Reals Arith Lia String.
From Verif Require Import PyBase Num RealC AdmData WetModel FermiSpec NpModel NpProofs FermiNorm FermiTab FermiProofs ParProofs GammaSpec GammaTab GammaProofs GammaOps GammaCanon GammaSect.
Import ListNotations.
Local Open Scope string_scope.
Local Open Scope list_scope.
Local Open Scope K_scope.
Add Field KFgr : (k_field CR).

Definition gqsum (l : list gq) : gq := fold_right gqadd (0, 0)%Q l.
Definition cq (m : mon) (p : poly) : gq :=
  gqsum (map (fun t => if bos_eqb (fst (snd t)) (fst m) then gqmul (fst t) (rq (inject_Z (FermiSpec.sgn comp_eqb (snd (snd t)) (snd m)))) else (0, 0)%Q) p).
Definition cqL (m : mon) (L : fl opr) : gq := gqsum (map (fun t => gqmul (fst t) (cq m (poly_of (snd t)))) L).
Lemma gval_00 : @gval CR (0, 0)%Q = 0. Proof. unfold gval. cbn [fst snd]. rewrite kQ_0. ring. Qed.
Lemma gqsum_val {X} (F : X -> gq) l : @gval CR (gqsum (map F l)) = ksum (map (fun x => gval (F x)) l).
Proof. induction l as [|x l IH]; [exact gval_00|]. cbn [map gqsum fold_right]. rewrite gval_gqadd, ksum_cons. f_equal. exact IH. Qed.
Lemma cq_val m p : @gval CR (cq m p) = pv (cfv m) p.
Proof.
  unfold cq, pv. rewrite gqsum_val. apply ksum_ext. intros t _. unfold cfv. destruct (bos_eqb _ _); [|rewrite gval_00; ring]. now rewrite gval_gqmul, gval_rq, kQ_Z.
Qed.
Lemma cqL_val m L : @gval CR (cqL m L) = fvO (cfv m) L.
Proof. unfold cqL, fvO, fv. rewrite gqsum_val. apply ksum_ext. intros t _. now rewrite gval_gqmul, cq_val. Qed.

(* one coefficient, equal to i *)
Definition only (j : nat) (z : CR) (i : nat) : CR := if Nat.eqb i j then z else 0.
Lemma only_zero j z i : i <> j -> only j z i = 0. Proof. intros N. unfold only. now destruct (Nat.eqb_spec i j). Qed.
Lemma only_same j z : only j z j = z. Proof. unfold only. now rewrite Nat.eqb_refl. Qed.
Lemma ksum_single (F : nat -> CR) j n : (j < n)%nat -> (forall i, i <> j -> F i = 0) -> ksum (map F (seq 0 n)) = F j.
Proof.
  intros L H. rewrite <- (delta_sum j F j 0 n) by lia. apply ksum_ext. intros i _. destruct (Nat.eqb_spec i j) as [->|N]; [reflexivity|now apply H].
Qed.
Lemma single_diff g ks am p f n A j o (m : mon) z : NoDup (snd m) -> mat_chk g true ks am = true -> amat_eval p f am = Ok (n, A) ->
  (j < List.length ks)%nat -> four_op (nth j ks "") = Some o ->
  four_lagrangian (dressed g) ks (only j z) m = z * gval (cqL m (flscale (rq (wq o)) (canonL (dop g o)))) + z^* * gval (cqL m (flscale (rq (wq o)) (canonL (dop g (hcop o))))) /\
  four_lagrangian (fun q => q) ks (mixed ks A (only j z)) m = z * gval (cqL m (rhs (map prep ks) fst (nth j am []))) + z^* * gval (cqL m (rhs (map prep ks) snd (nth j am []))).
Proof.
  intros ND H EA L EO. unfold mat_chk in H. cbv zeta in H. apply andb_prop in H as [_ H]. rewrite forallb_forall in H. specialize (H _ (numbered_In ks j "" L)). cbn [fst snd] in H. rewrite EO in H.
  unfold row_chk in H. apply andb_prop in H as [H _]. apply andb_prop in H as [H H5]. apply andb_prop in H as [H H4]. apply andb_prop in H as [H H3]. apply andb_prop in H as [V H2].
  rewrite !cqL_val. split.
  - unfold four_lagrangian. rewrite (ksum_single _ j) by (try exact L; intros i N; destruct (four_op (nth i ks "")); rewrite ?only_zero, ?kconj_0 by exact N; ring). rewrite EO, only_same.
    rewrite <- (dressed_id g m ND o V H2), <- (dressed_hc g m ND o V H3). unfold id_poly, hc_poly. ring.
  - assert (HB : forall i, match dget (nth j am []) i with Some e => forall q, aq e = Some q -> A j i = kQ q | None => A j i = 0 end).
    { intros i. pose proof (WetUnmix.amat_get p f am n A j i EA) as G. destruct (dget (nth j am []) i) as [e|]; [|exact G]. destruct G as (w & Ez & ->). intros q Q. exact (aq_ok p f e w q Ez Q). }
    assert (HB' : forall i, match dget (nth j am []) i with Some e => forall q, aq e = Some q -> (A j i)^* = kQ q | None => (A j i)^* = 0 end).
    { intros i. specialize (HB i). destruct (dget (nth j am []) i) as [e|]; [intros q Q; rewrite (HB q Q); apply kconj_Q|rewrite HB; apply kconj_0]. }
    rewrite <- (proj1 (row_value ks m ND (nth j am []) (fun i => A j i) H4 H5 HB)), <- (proj2 (row_value ks m ND (nth j am []) (fun i => (A j i)^*) H4 H5 HB')).
    rewrite <- !ksum_scale, <- ksum_add. unfold four_lagrangian. apply ksum_ext. intros i _.
    assert (M : mixed ks A (only j z) i = A j i * z).
    { unfold mixed. rewrite (ksum_single _ j _ L).
      - now rewrite EO, only_same.
      - intros k N. destruct (four_op (nth k ks "")); [rewrite only_zero by exact N; ring|reflexivity]. }
    rewrite M. unfold wval, id_poly, hc_poly. destruct (four_op (nth i ks "")); rewrite ?kconj_mul; ring.
Qed.
Definition gq_neq (a b : gq) : bool := negb (Qeq_bool (fst a) (fst b) && Qeq_bool (snd a) (snd b)).
Definition gqi (a b : gq) : gq := gqmul (0, 1)%Q (gqadd a (gqmul (-(1), 0)%Q b)).
Lemma gqi_val a b : @gval CR (gqi a b) = ki * gval a + ki^* * gval b.
Proof.
  unfold gqi. rewrite gval_gqmul, gval_gqadd, gval_gqmul, kconj_i.
  assert (E1 : @gval CR (0, 1)%Q = ki) by (unfold gval; cbn [fst snd]; rewrite kQ_0, kQ_1; ring).
  assert (E2 : @gval CR (-(1), 0)%Q = - (1)) by (unfold gval; cbn [fst snd]; rewrite kQ_opp, kQ_0, kQ_1; ring). rewrite E1, E2. ring.
Qed.
Lemma gq_neq_val a b : gq_neq a b = true -> @gval CR a <> gval b.
Proof.
  intros H E. unfold gq_neq in H. apply negb_true_iff in H. apply Bool.not_true_iff_false in H. apply H.
  assert (C : (@gval CR a)^* = (gval b)^*) by now rewrite E. rewrite !gval_conj in C. unfold gval in E, C. cbn [fst snd] in C. rewrite !kQ_opp in C.
  assert (T : (1 + 1 : CR) <> 0) by exact (kpos_neq_0 2).
  assert (R : @kQ CR (fst a) = kQ (fst b)).
  { assert (D : (1 + 1) * @kQ CR (fst a) = (1 + 1) * kQ (fst b)).
    { transitivity ((@kQ CR (fst a) + ki * kQ (snd a)) + (kQ (fst a) + ki * - kQ (snd a))); [ring|]. rewrite E, C. ring. }
    transitivity ((1 + 1) * @kQ CR (fst a) / (1 + 1)); [now field|]. rewrite D. now field. }
  assert (I : @kQ CR (snd a) = kQ (snd b)).
  { assert (D : ki * @kQ CR (snd a) = ki * kQ (snd b)). { transitivity ((@kQ CR (fst a) + ki * kQ (snd a)) - kQ (fst a)); [ring|]. rewrite E, R. ring. }
    transitivity (- (ki * (ki * @kQ CR (snd a)))); [|rewrite D]; (assert (S : forall x : CR, - (ki * (ki * x)) = - (ki * ki) * x) by (intros; ring)); rewrite S, ki_sq; ring. }
  apply andb_true_intro. split; apply Qeq_bool_iff; now apply (@kQ_inj CR).
Qed.
(* s(1) dbar(1) ... : an antifield d of colour 0, s of colour 0, an antifield b of colour 1, d of colour 1, all left-handed *)
Definition m_sb : mon := (NoB, [cp true (Dn, G1) S0 C0; cp false (Dn, G2) S0 C0; cp true (Dn, G3) S1 C1; cp false (Dn, G1) S1 C1]).
Definition ref_row (ks : list string) (am : amat) (j : nat) (m : mon) : bool :=
  mat_chk QCD true ks am && (j <? List.length ks)%nat &&
  match four_op (nth j ks "") with
  | Some o => negb (self_adjoint o) &&
      gq_neq (gqi (cqL m (flscale (rq (wq o)) (canonL (dop QCD o)))) (cqL m (flscale (rq (wq o)) (canonL (dop QCD (hcop o))))))
             (gqi (cqL m (rhs (map prep ks) fst (nth j am []))) (cqL m (rhs (map prep ks) snd (nth j am []))))
  | None => false
  end.
Lemma row_differs ks am j m p f n A : ref_row ks am j m = true -> NoDup (snd m) -> amat_eval p f am = Ok (n, A) ->
  hermitian_real ks (only j ki) /\ four_lagrangian (dressed QCD) ks (only j ki) m <> four_lagrangian (fun q => q) ks (mixed ks A (only j ki)) m.
Proof.
  intros T ND EA. unfold ref_row in T. apply andb_prop in T as [T T3]. apply andb_prop in T as [T1 T2]. apply Nat.ltb_lt in T2.
  destruct (four_op (nth j ks "")) as [o|] eqn:EO; [|discriminate]. apply andb_prop in T3 as [T3 T4]. apply negb_true_iff in T3. split.
  - intros i o' L E S. unfold only. destruct (Nat.eqb_spec i j) as [->|N]; [congruence|apply kconj_0].
  - destruct (single_diff QCD ks am p f n A j o m ki ND T1 EA T2 EO) as [-> ->]. rewrite <- !gqi_val. exact (gq_neq_val _ _ T4).
Qed.
Definition ref_opt (a : option (list string)) (b : option amat) (j : nat) (m : mon) : bool := match a, b with Some ks, Some am => ref_row ks am j m | _, _ => false end.
Lemma ref_opt_ok ks am a b j m : a = Some ks -> b = Some am -> ref_opt a b j m = true -> ref_row ks am j m = true.
Proof. intros -> ->. exact (fun H => H). Qed.
Lemma ref_ok : ref_opt (dget coeffs "sb") (dget adm_table "adm_s_sb") 90 m_sb = true. Proof. vm_cast_no_check (eq_refl true). Qed.
Lemma ref_fact ks am : dget coeffs "sb" = Some ks -> dget adm_table "adm_s_sb" = Some am -> ref_row ks am 90 m_sb = true.
Proof. intros EC ET. exact (ref_opt_ok ks am _ _ 90 m_sb EC ET ref_ok). Qed.
Lemma m_sb_nodup : NoDup (snd m_sb). Proof. cbn; repeat constructor; cbn; intuition discriminate. Qed.
Lemma sb_differs ks am p f n A : dget coeffs "sb" = Some ks -> dget adm_table "adm_s_sb" = Some am -> amat_eval p f am = Ok (n, A) ->
  hermitian_real ks (only 90 ki) /\ four_lagrangian (dressed QCD) ks (only 90 ki) m_sb <> four_lagrangian (fun q => q) ks (mixed ks A (only 90 ki)) m_sb.
Proof. intros EC ET EA. exact (row_differs ks am 90 m_sb p f n A (ref_fact ks am EC ET) m_sb_nodup EA). Qed.
Lemma adm_five bases pre cls p n A am : dget adm_table (pre ++ cls)%string = Some am -> adm_reduced bases pre cls 5 p = Ok (n, A) -> amat_eval p 5 am = Ok (n, A).
Proof.
  intros E R. unfold adm_reduced in R. rewrite E in R. destruct (amat_eval p 5 am) as [F|]; [|discriminate]. cbn [bind] in R. unfold get_permissible_wcs in R.
  rewrite !orb_true_r in R. cbn [bind reduce] in R. exact R.
Qed.
Lemma ref_hermitian ks am j m : ref_row ks am j m = true -> hermitian_real ks (only j ki).
Proof.
  intros T. unfold ref_row in T. apply andb_prop in T as [_ T]. intros i o' L E S. unfold only. destruct (Nat.eqb_spec i j) as [->|N]; [|apply kconj_0].
  rewrite E in T. apply andb_prop in T as [T _]. rewrite S in T. discriminate.
Qed.
Lemma sb_hermitian ks am : dget coeffs "sb" = Some ks -> dget adm_table "adm_s_sb" = Some am -> hermitian_real ks (only 90 ki).
Proof. intros EC ET. exact (ref_hermitian ks am 90 m_sb (ref_fact ks am EC ET)). Qed.
(* matrices of rational numbers can be evaluated *)
Lemma aq_total p f e : aq e <> None -> exists z, aeval p f e = Ok z.
Proof.
  induction e; cbn [aq aeval]; intros H; try (eexists; reflexivity); try (exfalso; apply H; reflexivity).
  - destruct (aq e); [|now elim H]. destruct IHe as [z ->]; [discriminate|]. now eexists.
  - destruct (aq e1); [|now elim H]. destruct (aq e2); [|now elim H]. destruct IHe1 as [z ->]; [discriminate|]. destruct IHe2 as [y ->]; [discriminate|]. now eexists.
  - destruct (aq e1); [|now elim H]. destruct (aq e2); [|now elim H]. destruct IHe1 as [z ->]; [discriminate|]. destruct IHe2 as [y ->]; [discriminate|]. now eexists.
  - destruct (aq e1) as [q1|]; [|now elim H]. destruct (aq e2) as [q|] eqn:Q; [|now elim H]. destruct (Qeq_bool q 0) eqn:NZ; [now elim H|].
    destruct IHe1 as [z ->]; [discriminate|]. destruct IHe2 as [y Ey]; [discriminate|]. rewrite Ey. cbn [bind]. destruct (ceqb_spec y 0) as [E|_]; [|now eexists].
    exfalso. rewrite (aq_ok p f e2 y q Ey Q) in E. apply Bool.not_true_iff_false in NZ. apply NZ, Qeq_bool_iff. apply (@kQ_inj CR). now rewrite kQ_0.
Qed.
Definition rational (m : amat) : bool := forallb (forallb (fun ie => match aq (snd ie) with Some _ => true | None => false end)) m.
Lemma rational_eval p f m : rational m = true -> exists A, amat_eval p f m = Ok (List.length m, A).
Proof.
  intros H. assert (G : exists rows, res_map (arow_eval p f) m = Ok rows /\ List.length rows = List.length m).
  { induction m as [|r m IH]; [now exists []|]. cbn [rational forallb] in H. apply andb_prop in H as [H1 H2]. destruct (IH H2) as (rows & E & L).
    assert (R : exists r', arow_eval p f r = Ok r').
    { clear - H1. unfold arow_eval. induction r as [|[i e] r IHr]; [now eexists|]. cbn [forallb snd] in H1. apply andb_prop in H1 as [H1 H2]. destruct (IHr H2) as [r' E].
      destruct (aq_total p f e) as [z Z]; [now destruct (aq e)|]. cbn [res_map fst snd]. rewrite Z. cbn [rmap bind]. rewrite E. now eexists. }
    destruct R as [r' R]. exists (r' :: rows). cbn [res_map]. rewrite R. cbn [bind]. rewrite E. cbn [rmap]. split; [reflexivity|]. cbn [List.length]. now rewrite L. }
  destruct G as (rows & E & L). unfold amat_eval. rewrite E, <- L. eexists. reflexivity.
Qed.
(* an operator that is renormalised *)
Definition m_ex : mon := (NoB, [cp true (Dn, G2) S0 C0; cp false (Dn, G3) S0 C0; cp true (Dn, G2) S1 C1; cp false (Dn, G3) S1 C1]).
Lemma m_ex_nodup : NoDup (snd m_ex). Proof. cbn; repeat constructor; cbn; intuition discriminate. Qed.
Definition ex_row (ks : list string) (am : amat) (j : nat) (m : mon) : bool :=
  mat_chk QCD true ks am && (j <? List.length ks)%nat &&
  match four_op (nth j ks "") with
  | Some o => negb (self_adjoint o) &&
      gq_neq (gqi (cqL m (flscale (rq (wq o)) (canonL (dop QCD o)))) (cqL m (flscale (rq (wq o)) (canonL (dop QCD (hcop o)))))) (0, 0)%Q
  | None => false
  end.
Lemma ex_row_ok ks am j m p f n A : ex_row ks am j m = true -> NoDup (snd m) -> amat_eval p f am = Ok (n, A) ->
  hermitian_real ks (only j ki) /\ four_lagrangian (dressed QCD) ks (only j ki) m <> 0.
Proof.
  intros T ND EA. unfold ex_row in T. apply andb_prop in T as [T T3]. apply andb_prop in T as [T1 T2]. apply Nat.ltb_lt in T2.
  destruct (four_op (nth j ks "")) as [o|] eqn:EO; [|discriminate]. apply andb_prop in T3 as [T3 T4]. apply negb_true_iff in T3. split.
  - intros i o' L E S. unfold only. destruct (Nat.eqb_spec i j) as [->|N]; [congruence|apply kconj_0].
  - destruct (single_diff QCD ks am p f n A j o m ki ND T1 EA T2 EO) as [-> _]. rewrite <- gqi_val, <- gval_00. exact (gq_neq_val _ _ T4).
Qed.
Definition ex_opt (a : option (list string)) (am : amat) (j : nat) (m : mon) : bool := match a with Some ks => ex_row ks am j m | _ => false end.
Lemma ex_opt_ok ks am a j m : a = Some ks -> ex_opt a am j m = true -> ex_row ks am j m = true.
Proof. intros ->. exact (fun H => H). Qed.
Lemma ex_ok : ex_opt (dget coeffs "sbsb") adm_s_I 6 m_ex = true. Proof. vm_cast_no_check (eq_refl true). Qed.
Lemma ex_nonzero ks p A : dget coeffs "sbsb" = Some ks -> amat_eval p 5 adm_s_I = Ok (8%nat, A) ->
  hermitian_real ks (only 6 ki) /\ four_lagrangian (dressed QCD) ks (only 6 ki) m_ex <> 0.
Proof. intros EC EA. exact (ex_row_ok ks adm_s_I 6 m_ex p 5 8 A (ex_opt_ok ks adm_s_I _ 6 m_ex EC ex_ok) m_ex_nodup EA). Qed.
