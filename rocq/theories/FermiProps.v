(* C52: the translators preserve the Lagrangian: translating the coefficients of an effective
   Lagrangian to another WET basis gives the coefficients of the same Lagrangian, as a polynomial
   in the anticommuting components of the fields. *)
From Coq Require Import List Bool ZArith QArith Arith Lia String Ascii.
From Verif Require Import PyBase Num Lin SymModel SymClass SymSpec EftModel EftSpec JmsModel BasisProps TrLang TrData TrBlocks TrModel TrNorm TrFast AdmData
  TreeSpec TrSpec TrProofs TrValues TrRound TrProps FermiSpec NpModel NpProofs FermiNorm FermiTab FermiRen FermiProofs.
Import ListNotations.
Local Open Scope string_scope.
Local Open Scope list_scope.

(* every coefficient of the bases has an operator, and only one *)
Definition same_keys_b (a b : list string) : bool :=
  fnodup TrFast.TL a && fnodup TrFast.TL b && (let ta := tkeys a in forallb (fun k => smem ta k) b) && (let tb := tkeys b in forallb (fun k => smem tb k) a).
Lemma same_keys a b : same_keys_b a b = true -> NoDup a /\ NoDup b /\ forall k, In k a <-> In k b.
Proof.
  unfold same_keys_b. cbv zeta. intros H. ands. split; [exact (proj1 (fnodup_NoDup _ _ H))|]. split; [exact (proj1 (fnodup_NoDup _ _ H2))|].
  rewrite forallb_forall in H0, H1. intros k. split; intros X; apply kmem_In; rewrite <- smem_keys; [apply H0|apply H1]; exact X.
Qed.
Theorem C52_every_coefficient_has_one_operator :
  (NoDup (map fst bern_basis) /\ NoDup bern_keys /\ forall k, In k (map fst bern_basis) <-> In k bern_keys) /\
  (NoDup (map fst flavio_basis) /\ NoDup flavio_keys /\ forall k, In k (map fst flavio_basis) <-> In k flavio_keys) /\
  (NoDup (map fst (jms_basis (of_sectors bern_sectors))) /\ NoDup (of_sectors bern_sectors) /\
    forall k, In k (map fst (jms_basis (of_sectors bern_sectors))) <-> In k (of_sectors bern_sectors)) /\
  (NoDup (map fst (jms_basis (of_sectors flavio_sectors))) /\ NoDup (of_sectors flavio_sectors) /\
    forall k, In k (map fst (jms_basis (of_sectors flavio_sectors))) <-> In k (of_sectors flavio_sectors)).
Proof. repeat match goal with |- (NoDup _ /\ _) /\ _ => split end; apply same_keys; vm_cast_no_check (eq_refl true). Qed.

Lemma bern_key k : In k (map fst bern_basis) -> In k bern_keys.
Proof. exact (proj1 (proj2 (proj2 (proj1 C52_every_coefficient_has_one_operator)) k)). Qed.
Lemma flavio_key k : In k (map fst flavio_basis) -> In k flavio_keys.
Proof. exact (proj1 (proj2 (proj2 (proj1 (proj2 C52_every_coefficient_has_one_operator))) k)). Qed.
Lemma jms_bern_key k : In k (map fst (jms_basis (of_sectors bern_sectors))) -> kmem k (of_sectors bern_sectors) = true.
Proof. intros X. apply kmem_In. exact (proj1 (proj2 (proj2 (proj1 (proj2 (proj2 C52_every_coefficient_has_one_operator)))) k) X). Qed.
Lemma jms_flavio_key k : In k (map fst (jms_basis (of_sectors flavio_sectors))) -> kmem k (of_sectors flavio_sectors) = true.
Proof. intros X. apply kmem_In. exact (proj1 (proj2 (proj2 (proj2 (proj2 (proj2 C52_every_coefficient_has_one_operator)))) k) X). Qed.
(* p: the parameters (real and non-zero: par_ok; CKM elements non-zero).  all: the coefficients
   of the JMS basis.  bern_wcs, flavio_wcs: those of the Bern and flavio bases. *)
Section C52.
Context {K : StarField}.
Local Open Scope K_scope.
Add Ring KR52 : (F_R (k_field K)).
Variables (p : tpar K) (all : list string) (real : string -> bool) (js : dict string (list string)) (bern_wcs flavio_wcs : list string).
Hypotheses (PO : par_ok p) (D : describes jms_ops all real) (HB : incl bern_keys bern_wcs) (HF : incl flavio_keys flavio_wcs).
Definition value (C : dict string K) (k : string) : K := dgetd C k 0.

Lemma lagrangian_ext B (C C' : string -> K) m : (forall k, In k (map fst B) -> C k = C' k) -> lagrangian p B C m = lagrangian p B C' m.
Proof.
  intros H. unfold lagrangian. apply ksum_ext. intros [k [o s]] X. cbn [fst snd]. rewrite (H k); [reflexivity|]. change k with (fst (k, (o, s))). now apply in_map.
Qed.
Lemma dval_value rho d k : value (dval p rho d) k = lval p rho (look d k).
Proof. unfold value, look, dgetd. rewrite dget_dval. destruct (dget d k); reflexivity. Qed.

Theorem C52_Bern_to_JMS (C : dict string K) :
  exists J, Bern_to_JMS p all bern_wcs C = Ok J /\
    (forall k, dmem J k = kmem k (of_sectors bern_sectors)) /\
    same_lagrangian p (jms_basis (of_sectors bern_sectors)) bern_basis (value J) (value C).
Proof.
  destruct get_forms as (? & b2j & ? & ? & ? & ? & F). pose proof (f_b2j _ _ _ _ _ _ F) as E.
  exists (dval p (wview bern_wcs C) b2j). split; [exact (val_b2j p PO all real D bern_wcs HB C b2j E)|]. split.
  { intros k. rewrite dmem_dget, dget_dval, (keys_ok_dget _ _ k (k_b2j _ _ _ _ _ _ F)). destruct (dget b2j k); reflexivity. }
  intros b l ND.
  pose proof check_B as H. rewrite B2J_f, E in H.
  rewrite (lagrangian_ext _ _ (fun k => lval p (wview bern_wcs C) (look b2j k))) by (intros; apply dval_value).
  rewrite (check_sound p PO (wview bern_wcs C) b2j _ _ b l H ND). apply lagrangian_ext. intros k X.
  exact (bern_in bern_wcs HB C k (bern_key k X)).
Qed.
Theorem C52_flavio_to_JMS (C : dict string K) :
  exists J, flavio_to_JMS p all flavio_wcs C None = Ok J /\
    (forall k, dmem J k = kmem k (of_sectors flavio_sectors)) /\
    same_lagrangian p (jms_basis (of_sectors flavio_sectors)) flavio_basis (value J) (value C).
Proof.
  destruct get_forms as (? & ? & ? & f2j & ? & ? & F). pose proof (f_f2j _ _ _ _ _ _ F) as E.
  exists (dval p (wview flavio_wcs C) f2j). split; [exact (val_f2j p PO all real D flavio_wcs HF C f2j E)|]. split.
  { intros k. rewrite dmem_dget, dget_dval, (keys_ok_dget _ _ k (k_f2j _ _ _ _ _ _ F)). destruct (dget f2j k); reflexivity. }
  intros b l ND.
  pose proof check_F as H. rewrite F2J_f, E in H.
  rewrite (lagrangian_ext _ _ (fun k => lval p (wview flavio_wcs C) (look f2j k))) by (intros; apply dval_value).
  rewrite (check_sound p PO (wview flavio_wcs C) f2j _ _ b l H ND). apply lagrangian_ext. intros k X.
  exact (flavio_in flavio_wcs HF C k (flavio_key k X)).
Qed.
(* C: any coefficients of the JMS basis; those of the sectors that the Bern basis has are translated *)
Theorem C52_JMS_to_Bern (C : dict string K) :
  exists B, JMS_to_Bern p all js C None = Ok B /\
    same_lagrangian p bern_basis (jms_basis (of_sectors bern_sectors)) (value B) (value C).
Proof.
  destruct (C26_JMS_Bern_JMS p all real js bern_wcs PO D HB C) as (B & J & E1 & E2 & H). exists B. split; [exact E1|]. intros b l ND.
  destruct (C52_Bern_to_JMS B) as (J' & E3 & _ & S). rewrite E2 in E3. injection E3 as <-. rewrite <- (S b l ND). apply lagrangian_ext. intros k X.
  unfold value, dgetd at 1. now rewrite (H k), (jms_bern_key k X).
Qed.
(* for flavio: the semileptonic tensor operators of quark-flavour changing transitions are missing *)
Theorem C52_JMS_to_flavio_partial (C : dict string K) :
  exists F, JMS_to_flavio p all js C None = Ok F /\
    same_lagrangian p flavio_basis (jms_basis (of_sectors flavio_sectors)) (value F) (fun k => if kmem k semileptonic_tensors then 0 else value C k).
Proof.
  destruct (C26_JMS_flavio_JMS_partial p all real js flavio_wcs PO D HF C) as (B & J & E1 & E2 & H). exists B. split; [exact E1|]. intros b l ND.
  destruct (C52_flavio_to_JMS B) as (J' & E3 & _ & S). rewrite E2 in E3. injection E3 as <-. rewrite <- (S b l ND). apply lagrangian_ext. intros k X.
  unfold value, dgetd at 1. now rewrite (H k), (jms_flavio_key k X).
Qed.

(* the index symmetries that the code imposes on the JMS coefficients (C11 ff.) are identities of the operators *)
Definition same_operator (n : string) (I I' : idx) : Prop := exists o o', jms_op (label n I) = Some o /\ jms_op (label n I') = Some o' /\
  forall b l, NoDup l -> @coefficient K (poly_of o') (b, l) = coefficient (poly_of o) (b, l).
Definition conjugate_operator (n : string) (I I' : idx) : Prop := exists o o', jms_op (label n I) = Some o /\ jms_op (label n I') = Some o' /\
  forall b l, NoDup l -> @coefficient K (poly_of o') (b, l) = coefficient (hc (poly_of o)) (b, l).
Theorem C52_symmetry_classes_are_operator_identities n c s i j k l :
  In (n, (c, s)) jms_ops -> (i < 3)%nat -> (j < 3)%nat -> (k < 3)%nat -> (l < 3)%nat -> in_shape s [i; j; k; l] = true ->
  match c with
  | Cl4 => same_operator n [i; j; k; l] [k; l; i; j] /\ conjugate_operator n [i; j; k; l] [j; i; l; k]
  | Cl41 => same_operator n [i; j; k; l] [k; l; i; j]
  | Cl5 => conjugate_operator n [i; j; k; l] [j; i; l; k]
  | Cl6 => same_operator n [i; j; k; l] [k; l; i; j] /\ conjugate_operator n [i; j; k; l] [j; i; l; k] /\ same_operator n [i; j; k; l] [i; l; k; j]
  | _ => True
  end.
Proof.
  intros IN Hi Hj Hk Hl SH.
  assert (G : forall f h, In (f, h) (perms_of c) -> In [i; j; k; l] (indices c) -> In (label n [i; j; k; l], (label n (f [i; j; k; l]), h)) sym_jobs).
  { intros f h X Y. unfold sym_jobs. apply in_flat_map. exists (n, (c, s)). split; [exact IN|]. apply in_flat_map. exists [i; j; k; l]. split; [apply filter_In; auto|].
    apply in_map_iff. exists (f, h). auto. }
  assert (Y4 : In [i; j; k; l] (indices Cl4)).
  { unfold indices. apply in_flat_map. exists i. split; [cbn; lia|]. apply in_flat_map. exists j. split; [cbn; lia|]. apply in_flat_map. exists k. split; [cbn; lia|].
    apply in_map_iff. exists l. split; [reflexivity|cbn; lia]. }
  pose proof (fun k k' h => @job_sound K sym_jobs k k' h sym_jobs_ok) as J. revert G J. generalize sym_jobs. intros SJ G J.
  destruct c; try exact Logic.I; repeat match goal with |- _ /\ _ => split end.
  - apply (J _ _ false), (G perm_curr false); [cbn; auto|exact Y4].
  - apply (J _ _ true), (G perm_herm true); [cbn; auto|exact Y4].
  - apply (J _ _ false), (G perm_curr false); [cbn; auto|exact Y4].
  - apply (J _ _ true), (G perm_herm true); [cbn; auto|exact Y4].
  - apply (J _ _ false), (G perm_curr false); [cbn; auto|exact Y4].
  - apply (J _ _ true), (G perm_herm true); [cbn; auto|exact Y4].
  - apply (J _ _ false), (G perm_fierz false); [cbn; auto|exact Y4].
Qed.
(* the coefficients that the basis calls real are those of the hermitian operators *)
Theorem C52_real_coefficients k o : In k all -> jms_op k = Some o ->
  real k = self_adjoint o /\
  (real k = true -> forall b l, NoDup l -> @coefficient K (hc (poly_of o)) (b, l) = coefficient (poly_of o) (b, l)).
Proof.
  intros IN E. apply (d_all _ _ _ D) in IN as (sp & H1 & H2). apply in_map_iff in H2 as ([k' r] & Ek & H2). cbn [fst] in Ek. subst k'.
  assert (X : In (k, r) (coeffs_of jms_ops)) by (apply in_flat_map; exists sp; auto).
  pose proof real_self as RS. rewrite forallb_forall in RS. specialize (RS _ X). cbn [fst snd] in RS. rewrite E in RS. apply eqb_prop in RS.
  assert (ER : real k = self_adjoint o) by (rewrite (d_real _ _ _ D _ _ _ H1 H2); exact RS). split; [exact ER|]. intros R b l ND. rewrite ER in R.
  assert (AJ : In k alljms). { change alljms with (all_of jms_ops). unfold all_of. apply in_map_iff. exists (k, r). auto. }
  assert (Y : In (k, (k, true)) self_jobs). { unfold self_jobs. apply in_flat_map. exists k. split; [exact AJ|]. rewrite E, R. now left. }
  destruct (@job_sound K self_jobs k k true self_jobs_ok Y) as (o1 & o2 & E1 & E2 & S). rewrite E in E1, E2. injection E1 as <-. injection E2 as <-. symmetry. now apply S.
Qed.
End C52.

(* ---------- the theorems say something: Lagrangians that do not vanish ---------- *)
(* the coefficient of a monomial by computation *)
Definition icoef (p : ipoly) (m : imon) : gz :=
  gzsum (map (fun t => if bos_eqb (fst (snd t)) (fst m) then gzscale (psgn (snd (snd t)) (snd m)) (fst t) else O_) p).
Definition ccoef (c : cop) (h : bool) (m : mon) : gz := icoef (to_i (if h then shc (cpoly c) else cpoly c)) (fst m, map code (snd m)).
Section Values.
Context {K : StarField}.
Local Open Scope K_scope.
Add Ring KR52v : (F_R (k_field K)).
Lemma icoef_ok p m : @coefP K p m = gzval (icoef p m).
Proof.
  unfold icoef, coefP. induction p as [|[z x] p IH]; [unfold ksum, gzval; cbn; ring|]. cbn [map fst snd]. rewrite ksum_cons, IH. unfold gzsum. cbn [fold_right]. fold (gzsum (map (fun t => if bos_eqb (fst (snd t)) (fst m) then gzscale (psgn (snd (snd t)) (snd m)) (fst t) else O_) p)).
  rewrite gzval_add. f_equal. unfold tv. destruct (bos_eqb (fst x) (fst m)); [rewrite gzval_scale; ring|unfold gzval; cbn; ring].
Qed.
Lemma coefficient_val o c b l : resolve o = Some c ->
  @coefficient K (poly_of o) (b, l) = kQ (1 # 6) * gzval (ccoef c false (b, l)) /\ @coefficient K (hc (poly_of o)) (b, l) = kQ (1 # 6) * gzval (ccoef c true (b, l)).
Proof. intros R. destruct (@coefficient_cop K o c b l R) as [-> ->]. unfold bvalc. rewrite <- !coefP_spv, !icoef_ok. auto. Qed.
Lemma lagrangian_single (p : tpar K) B k0 o s z m : NoDup (map fst B) -> In (k0, (o, s)) B -> lagrangian p B (value [(k0, z)]) m = part m o (sval p s * z).
Proof.
  intros ND IN. unfold lagrangian. induction B as [|[k [o' s']] B IH]; [destruct IN|]. cbn [map fst] in ND. inversion ND as [|? ? N1 N2]; subst.
  cbn [map fst snd]. rewrite ksum_cons. fold (part m o' (sval p s' * value [(k0, z)] k)).
  assert (V : forall k, value [(k0, z)] k = if keqb k k0 then z else 0) by (intros k1; unfold value, dgetd; cbn [dget]; destruct (keqb k1 k0); reflexivity).
  destruct IN as [IN|IN].
  - injection IN as -> -> ->. rewrite V, keqb_refl. rewrite ksum_zero; [ring|]. intros [k [o' s']] X. cbn [fst snd]. rewrite V.
    destruct (keqb_spec k k0) as [->|]; [exfalso; apply N1; change k0 with (fst (k0, (o', s'))); now apply in_map|]. replace (sval p s' * 0) with (0 : K) by ring. exact (part_0 m o').
  - rewrite (IH N2 IN), V. destruct (keqb_spec k k0) as [->|]; [exfalso; apply N1; change k0 with (fst (k0, (o, s))); now apply in_map|].
    replace (sval p s' * 0) with (0 : K) by ring. rewrite part_0. ring.
Qed.
End Values.

(* translating to flavio loses the semileptonic tensor operators: a Lagrangian that is not zero becomes zero *)
Definition tensor_mon : list comp := [(true, (El, G2), S0, C0); (false, (El, G2), S2, C0); (true, (Dn, G2), S0, C0); (false, (Dn, G3), S2, C0)].
Theorem C52_JMS_to_flavio_refuted : forall (K : StarField) (p : tpar K) all real js flavio_wcs (z : K),
  par_ok p -> describes jms_ops all real -> incl flavio_keys flavio_wcs -> z <> 0%K ->
  exists F, JMS_to_flavio p all js [("TedRR_2223", z)] None = Ok F /\
    lagrangian p flavio_basis (value F) (NoB, tensor_mon) = 0%K /\
    lagrangian p (jms_basis (of_sectors flavio_sectors)) (value [("TedRR_2223", z)]) (NoB, tensor_mon) <> 0%K.
Proof.
  intros K p all real js flavio_wcs z PO D HF NZ.
  destruct (C52_JMS_to_flavio_partial p all real js flavio_wcs PO D HF [("TedRR_2223", z)]) as (F & E & S). exists F. split; [exact E|].
  assert (ND : NoDup tensor_mon) by (repeat constructor; cbn; intuition discriminate).
  split.
  - rewrite (S NoB tensor_mon ND). rewrite (lagrangian_ext p _ _ (fun _ => 0%K)).
    + unfold lagrangian. apply ksum_zero. intros x _. cbv zeta. rewrite kmul_0_r, kconj_0. rewrite !kmul_0_l, kadd_0_l. apply kmul_0_r.
    + intros k _. destruct (kmem k semileptonic_tensors) eqn:M; [reflexivity|]. unfold value, dgetd. cbn [dget]. destruct (keqb_spec k "TedRR_2223") as [->|]; [|reflexivity].
      exfalso. assert (X : kmem "TedRR_2223" semileptonic_tensors = true) by (vm_compute; reflexivity). congruence.
  - set (o := Four Tensor Singlet PR PR (El, G2) (El, G2) (Dn, G2) (Dn, G3)).
    rewrite (lagrangian_single p _ "TedRR_2223" o (SZ 1)).
    + destruct (resolve o) as [c|] eqn:R; [|discriminate]. unfold part. destruct (@coefficient_val K o c NoB tensor_mon R) as [-> ->].
      assert (E1 : ccoef c false (NoB, tensor_mon) = (24, 0)%Z) by (vm_compute in R; injection R as <-; vm_compute; reflexivity).
      assert (E2 : ccoef c true (NoB, tensor_mon) = (0, 0)%Z) by (vm_compute in R; injection R as <-; vm_compute; reflexivity).
      rewrite E1, E2. change (weight o) with (1%K : K). cbn [sval]. change (@kZ K 1) with (1%K : K). rewrite kmul_1_l.
      assert (G0 : @gzval K (0, 0)%Z = 0%K) by (unfold gzval; cbn [fst snd kZ]; now rewrite kmul_0_r, kadd_0_l).
      assert (G1 : (kQ (1 # 6) * @gzval K (24, 0)%Z)%K = kZ 4).
      { unfold gzval. cbn [fst snd]. change (@kZ K 0) with (0%K : K). rewrite kmul_0_r, kadd_0_r, <- !kQ_Z, <- kQ_mul. apply kQ_Qeq. reflexivity. }
      rewrite G0, G1, !kmul_0_r, kadd_0_r, !kmul_1_l. apply kmul_neq_0; [exact NZ|]. intros X. apply kZ_inj0 in X. discriminate.
    + exact (proj1 (proj2 (proj2 (proj2 C52_every_coefficient_has_one_operator)))).
    + unfold jms_basis. apply in_flat_map. exists "TedRR_2223". split; [apply kmem_In; vm_compute; reflexivity|]. left. vm_compute. reflexivity.
Qed.
(* 4 G_F / sqrt 2 times 1sbsb: the coefficient of this monomial is 4 times as large *)
Definition vector_mon : list comp := [(true, (Dn, G2), S0, C0); (false, (Dn, G3), S0, C0); (true, (Dn, G2), S1, C1); (false, (Dn, G3), S1, C1)].
Example C52_Bern_nonvacuous : forall (K : StarField) (p : tpar K) (z : K), par_ok p ->
  lagrangian p bern_basis (value [("1sbsb", z)]) (NoB, vector_mon) = (kZ 4 * (sval p n_GF * z))%K /\ NoDup vector_mon.
Proof.
  intros K p z PO. split; [|repeat constructor; cbn; intuition discriminate].
  set (o := Four Vector Singlet PL PL (Dn, G2) (Dn, G3) (Dn, G2) (Dn, G3)). rewrite (lagrangian_single p _ "1sbsb" o n_GF).
  - destruct (resolve o) as [c|] eqn:R; [|discriminate]. unfold part. destruct (@coefficient_val K o c NoB vector_mon R) as [-> ->].
    assert (E1 : ccoef c false (NoB, vector_mon) = (24, 0)%Z) by (vm_compute in R; injection R as <-; vm_compute; reflexivity).
    assert (E2 : ccoef c true (NoB, vector_mon) = (0, 0)%Z) by (vm_compute in R; injection R as <-; vm_compute; reflexivity).
    rewrite E1, E2. change (weight o) with (1%K : K).
    assert (G0 : @gzval K (0, 0)%Z = 0%K) by (unfold gzval; cbn [fst snd kZ]; now rewrite kmul_0_r, kadd_0_l).
    assert (G1 : (kQ (1 # 6) * @gzval K (24, 0)%Z)%K = kZ 4).
    { unfold gzval. cbn [fst snd]. change (@kZ K 0) with (0%K : K). rewrite kmul_0_r, kadd_0_r, <- !kQ_Z, <- kQ_mul. apply kQ_Qeq. reflexivity. }
    rewrite G0, G1, !kmul_0_r, kadd_0_r, !kmul_1_l. apply kmul_comm.
  - exact (proj1 (proj1 C52_every_coefficient_has_one_operator)).
  - unfold bern_basis. apply in_or_app. left. vm_compute. auto.
Qed.

(* the specification: the Dirac matrices satisfy the Clifford algebra; gamma_5 = i gamma^0 gamma^1 gamma^2 gamma^3 *)
Example C52_clifford : forall m n a b, In m lor -> In n lor ->
  gzadd (ent (mmulM (gam m) (gam n)) a b) (ent (mmulM (gam n) (gam m)) a b) = (if Nat.eqb m n && spin_eqb a b then (2 * metric m, 0)%Z else (0, 0)%Z).
Proof. intros m n a b Hm Hn. repeat destruct Hm as [<-|Hm]; try destruct Hm; repeat destruct Hn as [<-|Hn]; try destruct Hn; destruct a, b; vm_compute; reflexivity. Qed.
Example C52_gamma5 : forall a b, ent (cmat P5) a b = gzmul Ii (ent (mmulM (gam 0) (mmulM (gam 1) (mmulM (gam 2) (gam 3)))) a b).
Proof. intros [] []; vm_compute; reflexivity. Qed.
(* exchanging two factors changes the sign *)
Example C52_anticommute : sgn comp_eqb [(true, (Dn, G2), S0, C0); (false, (Dn, G3), S0, C0)] [(false, (Dn, G3), S0, C0); (true, (Dn, G2), S0, C0)] = (-1)%Z.
Proof. reflexivity. Qed.

Print Assumptions C52_Bern_to_JMS.
Print Assumptions C52_flavio_to_JMS.
Print Assumptions C52_JMS_to_Bern.
Print Assumptions C52_JMS_to_flavio_partial.
Print Assumptions C52_JMS_to_flavio_refuted.
Print Assumptions C52_symmetry_classes_are_operator_identities.
Print Assumptions C52_real_coefficients.
Print Assumptions C52_every_coefficient_has_one_operator.
