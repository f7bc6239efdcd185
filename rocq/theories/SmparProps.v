(* C46: smpar inverts smeftpar: the Standard Model parameters extracted from the SMEFT
   parameters are those that were put in, whatever the Wilson coefficients. *)
From Coq Require Import List Bool ZArith Arith Lia String Ascii Reals Lra Psatz Setoid Morphisms.
From Verif Require Import PyBase Num SymModel EftModel NpModel RealC SmparModel PotentialProps SmparProofs.
Import ListNotations.
Local Open Scope string_scope.
Local Open Scope list_scope.
Local Open Scope R_scope.

(* ---------- specification ---------- *)
(* the vacuum expectation value that belongs to GF *)
Definition vev (p : smin) : R := sqrt (1 / sqrt 2 / i_GF p).
Definition physical_input (p : smin) : Prop :=
  0 < i_GF p /\ 0 < i_ae p /\ 0 < i_as p /\ 0 < i_mW p /\ 0 < i_mh p /\
  (forall m, m = i_me p \/ m = i_mu p \/ m = i_md p -> 0 <= m 0%nat /\ m 0%nat < m 1%nat /\ m 1%nat < m 2%nat).
(* the coefficients leave the normalisation of the gauge and Higgs fields nonzero/positive *)
Definition small_wcs (p : smin) (C : cdictR) : Prop :=
  exists Cphi Ckin cG cW cB, higgs_wcs C Cphi Ckin /\ phi_seen Cphi /\ 0 < 1 - 2 * Ckin * vev p ^ 2 /\
    getre C "phiG" = Ok cG /\ 1 - cG * vev p ^ 2 <> 0 /\ getre C "phiW" = Ok cW /\ 1 - cW * vev p ^ 2 <> 0 /\
    getre C "phiB" = Ok cB /\ 1 - cB * vev p ^ 2 <> 0 /\ exists l, getm C "llphiphi" = Ok l.
(* contracts of the external functions *)
Definition brentq_ok (brentq : (R -> R) -> R -> R -> res R) : Prop := forall f a b x, brentq f a b = Ok x -> f x = 0.
Definition msvd_ok (msvd : cmat -> cmat * (nat -> R) * cmat) (M0 : cmat) : Prop :=
  forall M, meq M M0 -> svd M (fst (fst (msvd M))) (snd (fst (msvd M))) (snd (msvd M)).
Definition ckm_ok (phase : CR -> R) (p : smin) (K : cmat) : Prop :=
  uni K /\ cabs (K 0%nat 1%nat) = i_Vus p /\ cabs (K 0%nat 2%nat) = i_Vub p /\ cabs (K 1%nat 2%nat) = i_Vcb p /\
  K 1%nat 0%nat <> k0 /\ K 1%nat 2%nat <> k0 /\
  phase (kdiv (kmul (kopp (K 0%nat 0%nat)) (kconj (K 0%nat 2%nat))) (kmul (K 1%nat 0%nat) (kconj (K 1%nat 2%nat)))) = i_gamma p.
(* the mass matrices in the two bases *)
Definition up_mass (p : smin) (K : cmat) (basis : string) : cmat :=
  if String.eqb basis "Warsaw" then mm (dagm K) (diagm (i_mu p)) else diagm (i_mu p).
Definition down_mass (p : smin) (K : cmat) (basis : string) : cmat :=
  if String.eqb basis "Warsaw" then diagm (i_md p) else mm K (diagm (i_md p)).
(* what smpar should return (m_Z is a prediction, not an input) *)
Definition sm_values (p : smin) : dict string R :=
  [("GF", i_GF p); ("alpha_e", i_ae p); ("alpha_s", i_as p); ("Vub", i_Vub p); ("Vcb", i_Vcb p); ("Vus", i_Vus p);
   ("gamma", i_gamma p); ("m_W", i_mW p); ("m_h", i_mh p);
   ("m_u", i_mu p 0%nat); ("m_c", i_mu p 1%nat); ("m_t", i_mu p 2%nat);
   ("m_d", i_md p 0%nat); ("m_s", i_md p 1%nat); ("m_b", i_md p 2%nat);
   ("m_e", i_me p 0%nat); ("m_mu", i_me p 1%nat); ("m_tau", i_me p 2%nat)].

(* ---------- lemmas ---------- *)
Lemma vev_pos p : 0 < i_GF p -> 0 < vev p.
Proof.
  intros G. unfold vev. apply sqrt_lt_R0. apply Rdiv_lt_0_compat; [|exact G]. apply Rdiv_lt_0_compat; [lra|]. apply sqrt_lt_R0. lra.
Qed.
Lemma vev_sq p : 0 < i_GF p -> vev p ^ 2 = 1 / sqrt 2 / i_GF p.
Proof.
  intros G. unfold vev. apply v2_eq. apply Rdiv_lt_0_compat; [|exact G]. apply Rdiv_lt_0_compat; [lra|]. apply sqrt_lt_R0. lra.
Qed.
Lemma fst_div a d : d <> 0 -> fst (kdiv (rc a) (rc d) : cx) = a / d.
Proof. intros N. rewrite <- rc_div by exact N. reflexivity. Qed.

(* the trivial case of get_gpbar solves the same equation *)
Lemma ebar_trivial e g : 0 < e -> 0 < g -> 0 <= g ^ 2 - e ^ 2 -> sqrt (g ^ 2 - e ^ 2) <> 0 ->
  ebar_calc g (e * g / sqrt (g ^ 2 - e ^ 2)) 0 = e.
Proof.
  intros He Hg P N. set (q := sqrt (g ^ 2 - e ^ 2)) in *.
  assert (Q : q ^ 2 = g ^ 2 - e ^ 2) by (unfold q; rewrite <- (sqrt_sqrt (g ^ 2 - e ^ 2)) at 2 by exact P; ring).
  assert (Hq : 0 < q). { pose proof (sqrt_pos (g ^ 2 - e ^ 2)) as S. fold q in S. lra. }
  unfold ebar_calc. replace (g ^ 2 + (e * g / q) ^ 2) with ((g ^ 2 / q) ^ 2).
  - replace ((g ^ 2 / q) ^ 2) with ((g ^ 2 / q) * (g ^ 2 / q)) by ring. rewrite sqrt_square.
    + field. split; lra.
    + left. apply Rdiv_lt_0_compat; [now apply pow_lt|exact Hq].
  - assert (E : e ^ 2 = g ^ 2 - q ^ 2) by lra.
    replace ((e * g / q) ^ 2) with (e ^ 2 * g ^ 2 / q ^ 2) by (field; lra). rewrite E. field. lra.
Qed.
Lemma get_gpbar_ok brentq ebar gbar v C wb gp cB : brentq_ok brentq -> 0 < ebar -> 0 < gbar ->
  getz C "phiWB" = Ok wb -> getre C "phiB" = Ok cB -> get_gpbar brentq ebar gbar v C = Ok gp ->
  exists gpbar, gp = gpbar * (1 - cB * v ^ 2) /\ ebar_calc gbar gpbar (fst wb * v ^ 2) = ebar.
Proof.
  intros BQ He Hg Ew EB E. unfold get_gpbar in E. rewrite Ew, EB in E. cbn [bind] in E.
  destruct (cx_eqb_spec wb (rc 0)) as [->|N].
  - destruct (Rle_dec 0 (gbar ^ 2 - ebar ^ 2)) as [P|P]; [|discriminate].
    destruct (Req_EM_T (sqrt (gbar ^ 2 - ebar ^ 2)) 0) as [Z|Z]; [discriminate|]. cbn [bind] in E. injection E as <-.
    eexists. split; [reflexivity|]. cbn [rc fst]. rewrite Rmult_0_l. now apply ebar_trivial.
  - destruct (brentq _ 0 3) as [x|] eqn:F; [|discriminate]. cbn [bind] in E. injection E as <-.
    exists x. split; [reflexivity|]. apply BQ in F. cbn beta in F. lra.
Qed.
Section Mat.
Add Field KFcr3 : (k_field CR).
Lemma mass_yuk v (M W : cmat) G : 0 < v -> (forall i j, G i j = yuk v M W i j) -> meq (massm v G W) M.
Proof.
  intros Hv E. split. intros i j _ _. unfold massm. rewrite E. unfold yuk.
  assert (N : rc (v / sqrt 2) <> (k0 : CR)).
  { intros F. apply (rc_inj _ 0) in F. assert (0 < v / sqrt 2); [|lra]. apply Rdiv_lt_0_compat; [exact Hv|]. apply sqrt_lt_R0. lra. }
  assert (N2 : rc 2 <> (k0 : CR)) by (intros F; apply (rc_inj _ 0) in F; lra).
  field. split; assumption.
Qed.
Lemma rephase_abs (a z b : CR) : kmul (kconj a) a = k1 -> kmul (kconj b) b = k1 -> cabs (kmul (kmul (kconj a) z) b) = cabs z.
Proof.
  intros A B. unfold cabs. f_equal.
  assert (G : forall x : CR, rc (cx_n2 x) = kmul (kconj x) x).
  { intros [x y]. unfold rc, cx_n2. cbn. unfold cx_mul, cx_conj. cbn [fst snd]. f_equal; ring. }
  apply rc_inj. rewrite !G, !kconj_mul, kconj_conj.
  transitivity (kmul (kmul (kmul (kconj a) a) (kmul (kconj b) b)) (kmul (kconj z) z)); [ring|]. rewrite A, B. ring.
Qed.
Lemma unit_neq0 (a : CR) : kmul (kconj a) a = k1 -> a <> k0.
Proof. intros A ->. rewrite kmul_0_r in A. symmetry in A. revert A. apply (k_1_neq_0 (K := CR)). Qed.
Lemma rephase_ratio (a0 a1 b0 b2 k00 k02 k10 k12 : CR) :
  kmul (kconj a0) a0 = k1 -> kmul (kconj a1) a1 = k1 -> kmul (kconj b0) b0 = k1 -> kmul (kconj b2) b2 = k1 -> k10 <> k0 -> k12 <> k0 ->
  kdiv (kmul (kopp (kmul (kmul (kconj a0) k00) b0)) (kconj (kmul (kmul (kconj a0) k02) b2)))
       (kmul (kmul (kmul (kconj a1) k10) b0) (kconj (kmul (kmul (kconj a1) k12) b2)))
  = kdiv (kmul (kopp k00) (kconj k02)) (kmul k10 (kconj k12)).
Proof.
  intros A0 A1 B0 B2 N10 N12. rewrite !kconj_mul, !kconj_conj.
  transitivity (kdiv (kmul (kmul (kmul (kconj a0) a0) (kmul b0 (kconj b2))) (kmul (kopp k00) (kconj k02)))
                     (kmul (kmul (kmul (kconj a1) a1) (kmul b0 (kconj b2))) (kmul k10 (kconj k12)))).
  - f_equal; ring.
  - rewrite A0, A1. pose proof (unit_neq0 _ B0) as Nb0. pose proof (kconj_neq_0 _ (unit_neq0 _ B2)) as Nb2.
    pose proof (kconj_neq_0 _ N12) as N12c. field. repeat split; assumption.
Qed.
End Mat.
(* the CKM matrix from the singular vectors *)
Lemma svd_id m : 0 <= m 0%nat -> m 0%nat <= m 1%nat -> m 1%nat <= m 2%nat -> svd (diagm m) idm m idm.
Proof.
  intros A B D. split; [apply uni_id|]. split; [apply uni_id|]. split; [|auto].
  rewrite mm_id_l, dag_id, mm_id_r. reflexivity.
Qed.
Lemma svd_left U m : uni U -> 0 <= m 0%nat -> m 0%nat <= m 1%nat -> m 1%nat <= m 2%nat -> svd (mm U (diagm m)) U m idm.
Proof.
  intros HU A B D. split; [exact HU|]. split; [apply uni_id|]. split; [|auto].
  rewrite dag_id, mm_id_r. reflexivity.
Qed.
Lemma svd_ext M M' U m V : meq M M' -> svd M' U m V -> svd M U m V.
Proof. intros E (A & B & D & F). split; [exact A|split; [exact B|split; [|exact F]]]. rewrite E. exact D. Qed.

Lemma up_svd p K basis : physical_input p -> uni K ->
  svd (up_mass p K basis) (if String.eqb basis "Warsaw" then dagm K else idm) (i_mu p) idm.
Proof.
  intros (_ & _ & _ & _ & _ & M) U. destruct (M (i_mu p)) as (A & B & D); [auto|]. unfold up_mass.
  destruct (String.eqb basis "Warsaw"); [apply svd_left; [now apply uni_dag|lra..]|apply svd_id; lra].
Qed.
Lemma down_svd p K basis : physical_input p -> uni K ->
  svd (down_mass p K basis) (if String.eqb basis "Warsaw" then idm else K) (i_md p) idm.
Proof.
  intros (_ & _ & _ & _ & _ & M) U. destruct (M (i_md p)) as (A & B & D); [auto|]. unfold down_mass.
  destruct (String.eqb basis "Warsaw"); [apply svd_id; lra|apply svd_left; [exact U|lra..]].
Qed.
Section Ckm.
Add Field KFcr4 : (k_field CR).
Lemma ckm_rephased (K Uu Ud : cmat) (warsaw : bool) wu wd :
  (forall i j, (i < 3)%nat -> (j < 3)%nat -> Uu i j = kmul ((if warsaw then dagm K else idm) i j) (wu j)) ->
  (forall i j, (i < 3)%nat -> (j < 3)%nat -> Ud i j = kmul ((if warsaw then idm else K) i j) (wd j)) ->
  forall i j, (i < 3)%nat -> (j < 3)%nat -> mm (dagm Uu) Ud i j = kmul (kmul (kconj (wu i)) (K i j)) (wd j).
Proof.
  intros Eu Ed i j Hi Hj. unfold mm, dagm at 1 2 3. rewrite !Eu, !Ed by lia. rewrite !kconj_mul.
  destruct warsaw; unfold dagm, idm, diagm.
  - rewrite !kconj_conj. change (rc 0) with (k0 : CR). change (rc 1) with (k1 : CR).
    destruct j as [|[|[|?]]]; try lia; cbn [Nat.eqb]; ring.
  - change (rc 0) with (k0 : CR). change (rc 1) with (k1 : CR).
    destruct i as [|[|[|?]]]; try lia; cbn [Nat.eqb]; rewrite ?kconj_0, ?kconj_1; ring.
Qed.
End Ckm.

Lemma getC_upd C c k : wfdict c -> dget c k = None -> getC (dupdate C c) k = getC C k.
Proof. intros W N. unfold getC. rewrite dget_dupdate by exact W. now rewrite N. Qed.
Lemma getC_new C c k v : wfdict c -> dget c k = Some v -> getC (dupdate C c) k = Ok v.
Proof. intros W N. unfold getC. rewrite dget_dupdate by exact W. now rewrite N. Qed.
Definition smkeys : list string := ["m2"; "Lambda"; "g"; "gp"; "gs"; "Gd"; "Gu"; "Ge"].

Lemma bind_inv {A B} (r : res A) (f : A -> res B) b : bind r f = Ok b -> exists a, r = Ok a /\ f a = Ok b.
Proof. destruct r as [a|e]; cbn [bind]; [eauto|discriminate]. Qed.

(* C' contains the parameters of C0, with the fields rotated by unitary matrices: A for the quark
   doublets, Bu, Bd for the quark singlets, L and Be for the leptons *)
Definition scalar_names : list string := ["m2"; "Lambda"; "g"; "gp"; "gs"; "phi"; "phiBox"; "phiD"; "phiG"; "phiW"; "phiB"; "phiWB"].
Definition matrix_rotated (C0 C' : cdictR) (k : string) (A B : cmat) : Prop :=
  exists M M', getm C0 k = Ok M /\ getm C' k = Ok M' /\ meq M' (mm (mm (dagm A) M) B).
Definition sm_rotated (A Bu Bd L Be : cmat) (C0 C' : cdictR) : Prop :=
  (forall k, In k scalar_names -> getz C' k = getz C0 k) /\
  matrix_rotated C0 C' "Gu" A Bu /\ matrix_rotated C0 C' "uphi" A Bu /\ matrix_rotated C0 C' "Gd" A Bd /\ matrix_rotated C0 C' "dphi" A Bd /\
  matrix_rotated C0 C' "Ge" L Be /\ matrix_rotated C0 C' "ephi" L Be /\ (exists l, getm C' "llphiphi" = Ok l).
Section RotM.
Add Field KFcr6 : (k_field CR).
Lemma massm_rot v A B G W G' W' : meq G' (mm (mm (dagm A) G) B) -> meq W' (mm (mm (dagm A) W) B) -> meq (massm v G' W') (mm (mm (dagm A) (massm v G W)) B).
Proof.
  intros EG EW. split. intros i j Hi Hj. unfold massm at 1. rewrite (EG i j Hi Hj), (EW i j Hi Hj). unfold mm, massm.
  assert (N2 : rc 2 <> (k0 : CR)) by (intros F; apply (rc_inj _ 0) in F; lra). field. exact N2.
Qed.
Lemma ckm_rotated (A X Y Uu Ud : cmat) wu wd : uni A ->
  (forall i j, (i < 3)%nat -> (j < 3)%nat -> Uu i j = kmul (mm (dagm A) X i j) (wu j)) ->
  (forall i j, (i < 3)%nat -> (j < 3)%nat -> Ud i j = kmul (mm (dagm A) Y i j) (wd j)) ->
  forall i j, (i < 3)%nat -> (j < 3)%nat -> mm (dagm Uu) Ud i j = kmul (kmul (kconj (wu i)) (mm (dagm X) Y i j)) (wd j).
Proof.
  intros [_ HA] Eu Ed i j Hi Hj.
  assert (R : meq (mm (dagm (mm (dagm A) X)) (mm (dagm A) Y)) (mm (dagm X) Y)).
  { rewrite dag_mm, dag_dag, !mm_assoc. rewrite <- (mm_assoc (dagm X)), HA, mm_id_r. reflexivity. }
  rewrite <- (R i j Hi Hj). unfold mm at 1. unfold dagm at 1 2 3. rewrite !Eu, !Ed by lia. rewrite !kconj_mul. set (P := mm (dagm A) X). set (Q := mm (dagm A) Y).
  unfold mm, dagm. ring.
Qed.
Lemma rot_svd M L m V A B : svd M L m V -> uni A -> uni B -> svd (mm (mm (dagm A) M) B) (mm (dagm A) L) m (mm (dagm B) V).
Proof.
  intros (HL & HV & E & S) HA HB. split; [apply uni_mm; [now apply uni_dag|exact HL]|]. split; [apply uni_mm; [now apply uni_dag|exact HV]|]. split; [|exact S].
  rewrite E, dag_mm, dag_dag, !mm_assoc. reflexivity.
Qed.
End RotM.

(* smpar returns the values that were put in, from any flavour basis *)
Theorem C46_any_flavour_basis brentq ckm_tree msvd phase p C basis c C' A Bu Bd L Be :
  let K := ckm_tree (i_Vus p) (i_Vub p) (i_Vcb p) (i_gamma p) in
  brentq_ok brentq -> physical_input p -> small_wcs p C -> ckm_ok phase p K ->
  uni A -> uni Bu -> uni Bd -> uni L -> uni Be ->
  msvd_ok msvd (mm (mm (dagm A) (up_mass p K basis)) Bu) -> msvd_ok msvd (mm (mm (dagm A) (down_mass p K basis)) Bd) ->
  msvd_ok msvd (mm (mm (dagm L) (diagm (i_me p))) Be) ->
  smeftpar brentq ckm_tree p C basis = Ok c -> sm_rotated A Bu Bd L Be (dupdate C c) C' ->
  exists sm, smpar msvd phase C' = Ok sm /\ forall k x, dget (sm_values p) k = Some x -> dget sm k = Some x.
Proof.
  intros K BQ PH SW CK UA UBu UBd UL UBe SU SD SE E (RS & RGu & Rcu & RGd & Rcd & RGe & Rce & (ll' & Ell')).
  pose proof PH as (HGF & Hae & Has & HmW & Hmh & HM).
  destruct SW as (Cphi & Ckin & cG & cW & cB & HW & PS & KP & EG & NG & EW & NW & EB & NB & (ll & Ell)).
  pose proof (vev_pos p HGF) as Hv. pose proof (vev_sq p HGF) as V2.
  unfold smeftpar in E. cbn zeta in E. fold (vev p) in E. set (v := vev p) in *.
  assert (Hmh2 : 0 < i_mh p ^ 2) by now apply pow_lt.
  destruct (C39_physical_roundtrip v (i_mh p ^ 2) C Cphi Ckin HW PS Hv Hmh2 KP) as (m2 & Lam & F1 & F2).
  rewrite F1, EG, EW in E. cbn [bind fst snd] in E.
  set (gbar := 2 * i_mW p / v) in *. set (ebar := sqrt (4 * PI * i_ae p)) in *. set (gsbar := sqrt (4 * PI * i_as p)) in *.
  pose proof PI_RGT_0 as HPI.
  assert (He : 0 < ebar) by (apply sqrt_lt_R0; nra).
  assert (Hg : 0 < gbar) by (apply Rdiv_lt_0_compat; lra).
  apply bind_inv in E as (gp & Egp & E).
  assert (Ewb : exists wb, getz C "phiWB" = Ok wb).
  { unfold get_gpbar in Egp. apply bind_inv in Egp as (wb & Q & _). eauto. }
  destruct Ewb as (wb & Ewb).
  destruct (get_gpbar_ok brentq ebar gbar v C wb gp cB BQ He Hg Ewb EB Egp) as (gpbar & -> & EE).
  apply bind_inv in E as (M & EM & E). fold K in EM.
  assert (HMM : M = (up_mass p K basis, down_mass p K basis)).
  { unfold up_mass, down_mass. destruct (String.eqb basis "Warsaw"); [now injection EM|].
    destruct (String.eqb basis "Warsaw up"); [now injection EM|discriminate]. }
  subst M. clear EM. cbn [fst snd] in E.
  apply bind_inv in E as (cd & Ecd & E). apply bind_inv in E as (cu & Ecu & E). apply bind_inv in E as (ce & Ece & E).
  assert (Ec := f_equal (fun r => match r with Ok a => a | Err _ => [] end) E). cbn beta iota in Ec. clear E.
  assert (Wc : wfdict c) by (rewrite <- Ec; apply knodup_NoDup; reflexivity).
  assert (OLD : forall k, kmem k smkeys = false -> getC (dupdate C c) k = getC C k).
  { intros k N. apply getC_upd; [exact Wc|]. apply dget_None. apply kmem_nIn. rewrite <- Ec. exact N. }
  assert (OLDre : forall k, kmem k smkeys = false -> getre (dupdate C c) k = getre C k) by (intros k N; unfold getre, getz; now rewrite OLD).
  assert (OLDm : forall k, kmem k smkeys = false -> getm (dupdate C c) k = getm C k) by (intros k N; unfold getm; now rewrite OLD).
  assert (NEW : forall k x, dget c k = Some x -> getC (dupdate C c) k = Ok x) by (intros; now apply getC_new).
  assert (HW' : higgs_wcs (dupdate C c) Cphi Ckin).
  { destruct HW as (b & d & A1 & A2 & A3 & A4). exists b, d. rewrite !OLDre by reflexivity. auto. }
  destruct (C39_physical_roundtrip v (i_mh p ^ 2) (dupdate C c) Cphi Ckin HW' PS Hv Hmh2 KP) as (m2' & Lam' & F1' & F2').
  assert (EQ : m2' = m2 /\ Lam' = Lam).
  { unfold vMh2_to_m2Lambda in F1, F1'. rewrite !OLDre in F1' by reflexivity. rewrite F1 in F1'. now injection F1'. }
  destruct EQ as [-> ->]. clear F1' F2.
  assert (N1 : getre (dupdate C c) "m2" = Ok m2) by (unfold getre, getz; rewrite (NEW _ (CNum (rc m2))) by (rewrite <- Ec; reflexivity); reflexivity).
  assert (N2 : getre (dupdate C c) "Lambda" = Ok Lam) by (unfold getre, getz; rewrite (NEW _ (CNum (rc Lam))) by (rewrite <- Ec; reflexivity); reflexivity).
  assert (N3 : getz (dupdate C c) "g" = Ok (rc (gbar * (1 - cW * v ^ 2)))) by (unfold getz; erewrite NEW by (rewrite <- Ec; reflexivity); reflexivity).
  assert (N4 : getz (dupdate C c) "gp" = Ok (rc (gpbar * (1 - cB * v ^ 2)))) by (unfold getz; erewrite NEW by (rewrite <- Ec; reflexivity); reflexivity).
  assert (N5 : getz (dupdate C c) "gs" = Ok (rc ((1 - cG * v ^ 2) * gsbar))) by (unfold getz; erewrite NEW by (rewrite <- Ec; reflexivity); reflexivity).
  assert (N6 : getm (dupdate C c) "Gd" = Ok (yuk v (down_mass p K basis) cd)) by (unfold getm; erewrite NEW by (rewrite <- Ec; reflexivity); reflexivity).
  assert (N7 : getm (dupdate C c) "Gu" = Ok (yuk v (up_mass p K basis) cu)) by (unfold getm; erewrite NEW by (rewrite <- Ec; reflexivity); reflexivity).
  assert (N8 : getm (dupdate C c) "Ge" = Ok (yuk v (diagm (i_me p)) ce)) by (unfold getm; erewrite NEW by (rewrite <- Ec; reflexivity); reflexivity).
  assert (ED : exists cD, getre C "phiD" = Ok cD) by (destruct HW as (b & d & _ & _ & AD & _); eauto). destruct ED as (cD & ED).
  assert (Ewr : getre C "phiWB" = Ok (fst wb)) by (unfold getre; rewrite Ewb; reflexivity).
  assert (RSr : forall k, In k scalar_names -> getre C' k = getre (dupdate C c) k) by (intros k Hk; unfold getre; now rewrite RS).
  assert (F2'' : m2Lambda_to_vMh2 m2 Lam C' = Ok (v, i_mh p ^ 2)).
  { rewrite <- F2'. unfold m2Lambda_to_vMh2. rewrite !RSr by (cbn; tauto). reflexivity. }
  destruct RGu as (gu0 & gu & G1 & G2 & Qgu). assert (gu0 = yuk v (up_mass p K basis) cu) by congruence. subst gu0.
  destruct RGd as (gd0 & gd & G3 & G4 & Qgd). assert (gd0 = yuk v (down_mass p K basis) cd) by congruence. subst gd0.
  destruct RGe as (ge0 & ge & G5 & G6 & Qge). assert (ge0 = yuk v (diagm (i_me p)) ce) by congruence. subst ge0.
  destruct Rcu as (u0 & wu' & H1 & H2 & Qu). rewrite OLDm in H1 by reflexivity. assert (u0 = cu) by congruence. subst u0.
  destruct Rcd as (d0 & wd' & H3 & H4 & Qd). rewrite OLDm in H3 by reflexivity. assert (d0 = cd) by congruence. subst d0.
  destruct Rce as (e0 & we' & H5 & H6 & Qe). rewrite OLDm in H5 by reflexivity. assert (e0 = ce) by congruence. subst e0.
  unfold smpar. rewrite !RSr, !RS by (cbn; tauto). rewrite N1, N2, N3, N4, N5, G2, G4, G6, H2, H4, H6, Ell'. rewrite !OLDre by reflexivity.
  rewrite Ewr, EW, EB, EG, ED. cbn [bind]. rewrite F2''. cbn [bind fst snd]. cbn zeta.
  rewrite !fst_div by assumption.
  set (ae := msvd (massm v ge we')). set (au := msvd (massm v gu wu')). set (ad := msvd (massm v gd wd')).
  assert (QE : meq (massm v ge we') (mm (mm (dagm L) (diagm (i_me p))) Be)).
  { rewrite (massm_rot v L Be _ _ _ _ Qge Qe), (mass_yuk v (diagm (i_me p)) ce _ Hv (fun i j => eq_refl)). reflexivity. }
  assert (QU : meq (massm v gu wu') (mm (mm (dagm A) (up_mass p K basis)) Bu)).
  { rewrite (massm_rot v A Bu _ _ _ _ Qgu Qu), (mass_yuk v (up_mass p K basis) cu _ Hv (fun i j => eq_refl)). reflexivity. }
  assert (QD : meq (massm v gd wd') (mm (mm (dagm A) (down_mass p K basis)) Bd)).
  { rewrite (massm_rot v A Bd _ _ _ _ Qgd Qd), (mass_yuk v (down_mass p K basis) cd _ Hv (fun i j => eq_refl)). reflexivity. }
  pose proof (SE _ QE) as TE. fold ae in TE. pose proof (SU _ QU) as TU. fold au in TU. pose proof (SD _ QD) as TD. fold ad in TD.
  destruct CK as (UK & Cus & Cub & Ccb & N10 & N12 & Cga).
  assert (RE : svd (massm v ge we') (mm (dagm L) idm) (i_me p) (mm (dagm Be) idm)).
  { apply (svd_ext _ _ _ _ _ QE). apply rot_svd; [|assumption|assumption]. destruct (HM (i_me p)) as (Q1 & Q2 & Q3); [auto|]. apply svd_id; lra. }
  pose proof (svd_ext _ _ _ _ _ QU (rot_svd _ _ _ _ A Bu (up_svd p K basis PH UK) UA UBu)) as RU.
  pose proof (svd_ext _ _ _ _ _ QD (rot_svd _ _ _ _ A Bd (down_svd p K basis PH UK) UA UBd)) as RD.
  pose proof (svd_values _ _ _ _ _ _ _ RE TE) as VE. pose proof (svd_values _ _ _ _ _ _ _ RU TU) as VU. pose proof (svd_values _ _ _ _ _ _ _ RD TD) as VD.
  destruct (HM (i_mu p)) as (_ & U1 & U2); [auto|]. destruct (HM (i_md p)) as (_ & D1 & D2); [auto|].
  destruct (svd_vectors _ _ _ _ _ _ _ RU TU U1 U2) as (wu & Pu & Eu). destruct (svd_vectors _ _ _ _ _ _ _ RD TD D1 D2) as (wd & Pd & Ed).
  assert (KK : forall i j, (i < 3)%nat -> (j < 3)%nat -> mm (dagm (fst (fst au))) (fst (fst ad)) i j = kmul (kmul (kconj (wu i)) (K i j)) (wd j)).
  { intros i j Hi Hj. rewrite (ckm_rotated A _ _ _ _ wu wd UA Eu Ed i j Hi Hj). do 2 f_equal.
    assert (Z : meq (mm (dagm (if String.eqb basis "Warsaw" then dagm K else idm)) (if String.eqb basis "Warsaw" then idm else K)) K).
    { destruct (String.eqb basis "Warsaw"); [rewrite dag_dag; apply mm_id_r|rewrite dag_id; apply mm_id_l]. }
    exact (Z i j Hi Hj). }
  eexists. split; [reflexivity|]. rewrite !KK by lia.
  assert (S2 : sqrt 2 <> 0) by (apply Rgt_not_eq, sqrt_lt_R0; lra).
  assert (X1 : 1 / (sqrt 2 * v ^ 2) = i_GF p) by (rewrite V2; field; split; lra).
  assert (Y1 : gbar * (1 - cW * v ^ 2) / (1 - cW * v ^ 2) = gbar) by (field; exact NW).
  assert (Y2 : gpbar * (1 - cB * v ^ 2) / (1 - cB * v ^ 2) = gpbar) by (field; exact NB).
  assert (Y3 : (1 - cG * v ^ 2) * gsbar / (1 - cG * v ^ 2) = gsbar) by (field; exact NG).
  rewrite X1, Y1, Y2, Y3. unfold ebar_calc in EE. rewrite EE.
  assert (X2 : ebar ^ 2 / (4 * PI) = i_ae p) by (unfold ebar; rewrite v2_eq by nra; field; lra).
  assert (X3 : gsbar ^ 2 / (4 * PI) = i_as p) by (unfold gsbar; rewrite v2_eq by nra; field; lra).
  assert (X4 : gbar * v / 2 = i_mW p) by (unfold gbar; field; lra).
  assert (X5 : sqrt (Rabs (i_mh p ^ 2)) = i_mh p).
  { rewrite Rabs_pos_eq by lra. replace (i_mh p ^ 2) with (i_mh p * i_mh p) by ring. apply sqrt_square. lra. }
  rewrite X2, X3, X4, X5. rewrite !rephase_abs by (first [apply Pu | apply Pd]; lia). rewrite rephase_ratio by (first [apply Pu; lia | apply Pd; lia | assumption]).
  rewrite Cus, Cub, Ccb, Cga. rewrite <- !VE, <- !VU, <- !VD by lia.
  intros k x G. unfold sm_values in G. apply dget_In in G.
  cbn [In] in G. repeat (destruct G as [G|G]; [injection G as <- <-; reflexivity|]). destruct G.
Qed.

Theorem C46_extraction brentq ckm_tree msvd phase p C basis c :
  let K := ckm_tree (i_Vus p) (i_Vub p) (i_Vcb p) (i_gamma p) in
  brentq_ok brentq -> physical_input p -> small_wcs p C -> ckm_ok phase p K ->
  msvd_ok msvd (up_mass p K basis) -> msvd_ok msvd (down_mass p K basis) -> msvd_ok msvd (diagm (i_me p)) ->
  smeftpar brentq ckm_tree p C basis = Ok c ->
  exists sm, smpar msvd phase (dupdate C c) = Ok sm /\ forall k x, dget (sm_values p) k = Some x -> dget sm k = Some x.
Proof.
  intros K BQ PH SW CK SU SD SE E.
  assert (MI : forall M, msvd_ok msvd M -> msvd_ok msvd (mm (mm (dagm idm) M) idm)).
  { intros M H N EN. apply H. rewrite EN, dag_id, mm_id_l, mm_id_r. reflexivity. }
  apply (C46_any_flavour_basis brentq ckm_tree msvd phase p C basis c _ idm idm idm idm idm BQ PH SW CK uni_id uni_id uni_id uni_id uni_id (MI _ SU) (MI _ SD) (MI _ SE) E).
  destruct SW as (_ & _ & _ & _ & _ & _ & _ & _ & _ & _ & _ & _ & _ & _ & (ll & Ell)).
  unfold smeftpar in E. apply bind_inv in E as (d & E0 & E). apply bind_inv in E as (cG & E1 & E). apply bind_inv in E as (cW & E2 & E).
  apply bind_inv in E as (gp & E3 & E). apply bind_inv in E as (M & E4 & E). apply bind_inv in E as (cd & E5 & E). apply bind_inv in E as (cu & E6 & E). apply bind_inv in E as (ce & E7 & E).
  assert (Ec := f_equal (fun r => match r with Ok a => a | Err _ => [] end) E). cbn beta iota in Ec. clear E.
  assert (Wc : wfdict c) by (rewrite <- Ec; apply knodup_NoDup; reflexivity).
  assert (OLDm : forall k, kmem k smkeys = false -> getm (dupdate C c) k = getm C k).
  { intros k N. unfold getm. f_equal. apply getC_upd; [exact Wc|]. apply dget_None. apply kmem_nIn. rewrite <- Ec. exact N. }
  assert (R : forall k M, getm (dupdate C c) k = Ok M -> matrix_rotated (dupdate C c) (dupdate C c) k idm idm).
  { intros k N H. exists N, N. split; [exact H|]. split; [exact H|]. now rewrite dag_id, mm_id_l, mm_id_r. }
  assert (NEW : forall k x, dget c k = Some x -> getm (dupdate C c) k = Ok (fun i j => entry x [i; j])) by (intros k x H; unfold getm; now rewrite (getC_new _ _ _ x Wc H)).
  split; [reflexivity|].
  split; [eapply R, NEW; rewrite <- Ec; reflexivity|]. split; [eapply R; rewrite OLDm by reflexivity; exact E6|].
  split; [eapply R, NEW; rewrite <- Ec; reflexivity|]. split; [eapply R; rewrite OLDm by reflexivity; exact E5|].
  split; [eapply R, NEW; rewrite <- Ec; reflexivity|]. split; [eapply R; rewrite OLDm by reflexivity; exact E7|].
  exists ll. rewrite OLDm by reflexivity. exact Ell.
Qed.

(* The two bases describe the same parameters: if the coefficients in Warsaw up are those in
   Warsaw with the left-handed quarks rotated by the CKM matrix, so are the Yukawa matrices. *)
Definition quark_rotated (K : cmat) (C C' : cdictR) : Prop :=
  (forall k, In k ["phi"; "phiBox"; "phiD"; "phiG"; "phiW"; "phiB"; "phiWB"; "ephi"] -> dget C' k = dget C k) /\
  forall k, In k ["uphi"; "dphi"] -> exists A A', getm C k = Ok A /\ getm C' k = Ok A' /\ meq A' (mm K A).
Section Bases.
Add Field KFcr5 : (k_field CR).
Lemma yuk_rot v K M M' W W' : 0 < v -> meq M' (mm K M) -> meq W' (mm K W) -> meq (yuk v M' W') (mm K (yuk v M W)).
Proof.
  intros Hv EM EW. split. intros i j Hi Hj. unfold yuk. rewrite (EM i j Hi Hj), (EW i j Hi Hj). unfold mm.
  assert (N : rc (v / sqrt 2) <> (k0 : CR)).
  { intros F. apply (rc_inj _ 0) in F. assert (0 < v / sqrt 2); [|lra]. apply Rdiv_lt_0_compat; [exact Hv|]. apply sqrt_lt_R0. lra. }
  assert (N2 : rc 2 <> (k0 : CR)) by (intros F; apply (rc_inj _ 0) in F; lra).
  field. split; assumption.
Qed.
End Bases.
Theorem C46_bases_agree brentq ckm_tree p C C' c :
  let K := ckm_tree (i_Vus p) (i_Vub p) (i_Vcb p) (i_gamma p) in
  0 < i_GF p -> uni K -> quark_rotated K C C' -> smeftpar brentq ckm_tree p C "Warsaw" = Ok c ->
  exists c', smeftpar brentq ckm_tree p C' "Warsaw up" = Ok c' /\
    (forall k, In k ["m2"; "Lambda"; "g"; "gp"; "gs"; "Ge"] -> dget c' k = dget c k) /\
    forall k, In k ["Gu"; "Gd"] -> exists G G', getm c k = Ok G /\ getm c' k = Ok G' /\ meq G' (mm K G).
Proof.
  intros K HGF UK [Q1 Q2] E. pose proof (vev_pos p HGF) as Hv.
  assert (R1 : forall k, In k ["phi"; "phiBox"; "phiD"; "phiG"; "phiW"; "phiB"; "phiWB"; "ephi"] -> getC C' k = getC C k) by (intros k I; unfold getC; now rewrite Q1).
  assert (R2 : forall k, In k ["phi"; "phiBox"; "phiD"; "phiG"; "phiW"; "phiB"; "phiWB"; "ephi"] -> getre C' k = getre C k) by (intros k I; unfold getre, getz; now rewrite R1).
  destruct (Q2 "uphi") as (Au & Au' & U1 & U2 & U3); [cbn; tauto|]. destruct (Q2 "dphi") as (Ad & Ad' & D1 & D2 & D3); [cbn; tauto|].
  unfold smeftpar in *. cbn zeta in *. fold (vev p) in *. set (v := vev p) in *.
  assert (V : vMh2_to_m2Lambda v (i_mh p ^ 2) C' = vMh2_to_m2Lambda v (i_mh p ^ 2) C).
  { unfold vMh2_to_m2Lambda. rewrite !R2 by (cbn; tauto). reflexivity. }
  assert (G : forall e g, get_gpbar brentq e g v C' = get_gpbar brentq e g v C).
  { intros e g. unfold get_gpbar. unfold getz. rewrite R1 by (cbn; tauto). rewrite R2 by (cbn; tauto). reflexivity. }
  rewrite V, G. rewrite !R2 by (cbn; tauto).
  apply bind_inv in E as (d & E0 & E). rewrite E0. cbn [bind].
  apply bind_inv in E as (cG & E1 & E). rewrite E1. cbn [bind].
  apply bind_inv in E as (cW & E2 & E). rewrite E2. cbn [bind].
  apply bind_inv in E as (gp & E3 & E). rewrite E3. cbn [bind].
  fold K in E. fold K. cbn [String.eqb Ascii.eqb Bool.eqb bind fst snd] in E |- *.
  rewrite D1, U1 in E. rewrite D2, U2. cbn [bind] in E |- *.
  apply bind_inv in E as (ce & E4 & E). unfold getm at 1. rewrite R1 by (cbn; tauto). fold (getm C "ephi"). rewrite E4. cbn [bind].
  injection E as <-. eexists. split; [reflexivity|]. split.
  - intros k I. cbn [In] in I. repeat (destruct I as [<-|I]; [reflexivity|]). destruct I.
  - intros k I. cbn [In] in I. destruct I as [<-|[<-|[]]].
    + exists (yuk v (mm (dagm K) (diagm (i_mu p))) Au), (yuk v (diagm (i_mu p)) Au'). split; [reflexivity|]. split; [reflexivity|].
      apply yuk_rot; [exact Hv| |exact U3]. rewrite mm_assoc. destruct UK as [_ UK]. rewrite UK, mm_id_l. reflexivity.
    + exists (yuk v (diagm (i_md p)) Ad), (yuk v (mm K (diagm (i_md p))) Ad'). split; [reflexivity|]. split; [reflexivity|].
      apply yuk_rot; [exact Hv|reflexivity|exact D3].
Qed.
Print Assumptions C46_any_flavour_basis.
Print Assumptions C46_extraction.
Print Assumptions C46_bases_agree.

(* ---------- a case that meets all hypotheses ---------- *)
(* a unitary matrix without zeros: 1 - 2/3 (1 1 1)^T (1 1 1) *)
Definition exK : cmat := fun i j => if (i =? j)%nat then rc (1 / 3) else rc (- 2 / 3).
Lemma exK_uni : uni exK.
Proof.
  split; split; intros i j Hi Hj; unfold mm, dagm, idm, diagm, exK;
    destruct i as [|[|[|?]]]; try lia; destruct j as [|[|[|?]]]; try lia; cbn [Nat.eqb]; rewrite ?rc_real, <- ?rc_mul, <- ?rc_add; f_equal; field.
Qed.
Lemma cabs_rc x : cabs (rc x) = Rabs x.
Proof. unfold cabs, cx_n2, rc. cbn [fst snd]. replace (x * x + 0 * 0) with (Rsqr x) by (unfold Rsqr; ring). apply sqrt_Rsqr_abs. Qed.
Definition ex46_in : smin :=
  {| i_GF := / sqrt 2; i_ae := / (4 * PI) / 4; i_as := / 10; i_Vus := 2 / 3; i_Vub := 2 / 3; i_Vcb := 2 / 3; i_gamma := 1;
     i_me := INR; i_mu := INR; i_md := INR; i_mW := 1; i_mh := 1 |}.
Definition ex46_C : cdictR :=
  map (fun k => (k, CNum (rc (1 / 10)))) ["phi"; "phiBox"; "phiD"; "phiG"; "phiW"; "phiB"] ++ [("phiWB", CNum (rc 0))]
  ++ map (fun k => (k, CArr [3; 3]%nat (fun _ => rc 1))) ["uphi"; "dphi"; "ephi"; "llphiphi"].
Definition ex46_ckm (a b c d : R) : cmat := exK.
Definition ex46_msvd (M : cmat) : cmat * (nat -> R) * cmat :=
  if cx_eqb (M 0%nat 1%nat) (rc 0) then (idm, INR, idm) else (dagm exK, INR, idm).
Lemma ex46_vev : vev ex46_in = 1.
Proof.
  unfold vev. cbn [ex46_in i_GF]. assert (sqrt 2 <> 0) by (apply Rgt_not_eq, sqrt_lt_R0; lra).
  replace (1 / sqrt 2 / / sqrt 2) with 1 by (field; assumption). apply sqrt_1.
Qed.
Example C46_case :
  physical_input ex46_in /\ small_wcs ex46_in ex46_C /\ brentq_ok (fun _ _ _ => Err ValueError) /\
  ckm_ok (fun _ => 1) ex46_in exK /\ msvd_ok ex46_msvd (up_mass ex46_in exK "Warsaw") /\ msvd_ok ex46_msvd (down_mass ex46_in exK "Warsaw") /\
  msvd_ok ex46_msvd (diagm (i_me ex46_in)) /\ exists c, smeftpar (fun _ _ _ => Err ValueError) ex46_ckm ex46_in ex46_C "Warsaw" = Ok c.
Proof.
  pose proof PI_RGT_0 as P. assert (S2 : 0 < sqrt 2) by (apply sqrt_lt_R0; lra).
  assert (SM : forall m, m = i_me ex46_in \/ m = i_mu ex46_in \/ m = i_md ex46_in -> m = INR) by (intros m [-> | [-> | ->]]; reflexivity).
  assert (DG : msvd_ok ex46_msvd (diagm INR)).
  { intros M E. unfold ex46_msvd. rewrite (E 0%nat 1%nat) by lia. cbn [diagm Nat.eqb]. destruct (cx_eqb_spec (rc 0) (rc 0)) as [_|N]; [|congruence].
    cbn [fst snd]. apply (svd_ext _ _ _ _ _ E). apply svd_id; cbn [INR]; lra. }
  split; [|split; [|split; [|split; [|split; [|split; [|split]]]]]].
  - unfold physical_input. cbn [ex46_in i_GF i_ae i_as i_mW i_mh]. 
    split; [now apply Rinv_0_lt_compat|]. split; [apply Rdiv_lt_0_compat; [apply Rinv_0_lt_compat|]; lra|]. split; [lra|]. split; [lra|]. split; [lra|].
    intros m Hm. rewrite (SM m Hm). cbn [INR]. lra.
  - assert (G : forall k, In k ["phi"; "phiBox"; "phiD"; "phiG"; "phiW"; "phiB"] -> getre ex46_C k = Ok (1 / 10)).
    { intros k I. cbn [In] in I. repeat (destruct I as [<-|I]; [reflexivity|]). destruct I. }
    exists (1 / 10), (1 / 10 - 1 / 10 / 4), (1 / 10), (1 / 10), (1 / 10). rewrite ex46_vev.
    split; [exists (1 / 10), (1 / 10); rewrite !G by (cbn; tauto); auto|]. split; [apply C39_case|]. split; [lra|].
    rewrite !G by (cbn; tauto). repeat split; try lra. eexists. reflexivity.
  - intros f a b x E. discriminate.
  - unfold ckm_ok. cbn [ex46_in i_Vus i_Vub i_Vcb i_gamma exK Nat.eqb]. split; [apply exK_uni|]. rewrite !cabs_rc.
    rewrite Rabs_left by lra. repeat split; try lra; try (intros F; apply (rc_inj _ 0) in F; lra).
  - intros M E. unfold ex46_msvd, up_mass in *. cbn [String.eqb Ascii.eqb Bool.eqb] in E. rewrite (E 0%nat 1%nat) by lia.
    assert (N : mm (dagm exK) (diagm (i_mu ex46_in)) 0%nat 1%nat <> rc 0).
    { rewrite mm_diag_r by lia. unfold dagm, exK. cbn [Nat.eqb ex46_in i_mu INR]. rewrite rc_real, <- rc_mul. intros F. apply rc_inj in F. lra. }
    destruct (cx_eqb_spec (mm (dagm exK) (diagm (i_mu ex46_in)) 0%nat 1%nat) (rc 0)) as [F|_]; [contradiction|]. cbn [fst snd].
    apply (svd_ext _ _ _ _ _ E). apply svd_left; [apply uni_dag, exK_uni|cbn [INR]; lra..].
  - exact DG.
  - exact DG.
  - unfold smeftpar. fold (vev ex46_in). cbn zeta. rewrite ex46_vev.
    assert (G : forall k, In k ["phi"; "phiBox"; "phiD"; "phiG"; "phiW"; "phiB"] -> getre ex46_C k = Ok (1 / 10)).
    { intros k I. cbn [In] in I. repeat (destruct I as [<-|I]; [reflexivity|]). destruct I. }
    unfold vMh2_to_m2Lambda. cbn [ex46_in i_mh i_mW i_ae i_as]. destruct (Rlt_dec 0 1) as [_|NL]; [|exfalso; lra]. destruct (Rlt_dec 0 (1 ^ 2)) as [_|NL]; [|exfalso; apply NL; lra]. rewrite !G by (cbn; tauto). cbn [bind].
    unfold get_gpbar. change (getz ex46_C "phiWB") with (Ok (rc 0)). cbn [bind]. destruct (cx_eqb_spec (rc 0) (rc 0)) as [_|N]; [|congruence].
    assert (EE : sqrt (4 * PI * (/ (4 * PI) / 4)) = 1 / 2).
    { replace (4 * PI * (/ (4 * PI) / 4)) with (1 / 2 * (1 / 2)) by (field; lra). apply sqrt_square. lra. }
    rewrite EE. destruct (Rle_dec 0 ((2 * 1 / 1) ^ 2 - (1 / 2) ^ 2)) as [_|N]; [|exfalso; apply N; lra].
    destruct (Req_EM_T (sqrt ((2 * 1 / 1) ^ 2 - (1 / 2) ^ 2)) 0) as [Z|_].
    { exfalso. assert (0 < sqrt ((2 * 1 / 1) ^ 2 - (1 / 2) ^ 2)) by (apply sqrt_lt_R0; lra). lra. }
    cbn [bind]. rewrite !G by (cbn; tauto). cbn [bind]. eexists. reflexivity.
Qed.

(* the same point with the right-handed leptons rotated by exK *)
Definition ex46_msvd' (M : cmat) : cmat * (nat -> R) * cmat :=
  if cx_eqb (M 0%nat 1%nat) (rc 0) then if cx_eqb (M 1%nat 0%nat) (rc 0) then (idm, INR, idm) else (idm, INR, dagm exK) else (dagm exK, INR, idm).
Definition getm0 (C : cdictR) (k : string) : cmat := match getm C k with Ok M => M | Err _ => fun _ _ => rc 0 end.
Example C46_rotated_case : exists c, smeftpar (fun _ _ _ => Err ValueError) ex46_ckm ex46_in ex46_C "Warsaw" = Ok c /\
  let C' := dset (dset (dupdate ex46_C c) "Ge" (arr2 (mm (getm0 c "Ge") exK))) "ephi" (arr2 (mm (getm0 ex46_C "ephi") exK)) in
  sm_rotated idm idm idm idm exK (dupdate ex46_C c) C' /\
  msvd_ok ex46_msvd' (mm (mm (dagm idm) (up_mass ex46_in exK "Warsaw")) idm) /\ msvd_ok ex46_msvd' (mm (mm (dagm idm) (down_mass ex46_in exK "Warsaw")) idm) /\
  msvd_ok ex46_msvd' (mm (mm (dagm idm) (diagm (i_me ex46_in))) exK).
Proof.
  destruct C46_case as (_ & _ & _ & _ & _ & _ & _ & (c & E)). exists c. split; [exact E|]. cbn zeta.
  assert (MI : forall M, meq (mm (mm (dagm idm) M) idm) M) by (intros M; rewrite dag_id, mm_id_l, mm_id_r; reflexivity).
  split; [|split; [|split]].
  - unfold smeftpar in E. apply bind_inv in E as (d & E0 & E). apply bind_inv in E as (cG & E1 & E). apply bind_inv in E as (cW & E2 & E).
    apply bind_inv in E as (gp & E3 & E). apply bind_inv in E as (M & E4 & E). apply bind_inv in E as (cd & E5 & E). apply bind_inv in E as (cu & E6 & E). apply bind_inv in E as (ce & E7 & E).
    assert (Ec := f_equal (fun r => match r with Ok a => a | Err _ => [] end) E). cbn beta iota in Ec. subst c. clear E.
    split; [intros k Hk; cbn [In scalar_names] in Hk; repeat (destruct Hk as [<-|Hk]; [reflexivity|]); destruct Hk|].
    repeat split; try (do 2 eexists; split; [reflexivity|]; split; [reflexivity|]; now rewrite MI).
    + do 2 eexists. split; [reflexivity|]. split; [reflexivity|]. rewrite dag_id, mm_id_l. reflexivity.
    + do 2 eexists. split; [reflexivity|]. split; [reflexivity|]. rewrite dag_id, mm_id_l. reflexivity.
    + eexists. reflexivity.
  - intros M EM. rewrite MI in EM. unfold ex46_msvd', up_mass in *. cbn [String.eqb Ascii.eqb Bool.eqb] in EM. rewrite (EM 0%nat 1%nat) by lia.
    assert (N : mm (dagm exK) (diagm (i_mu ex46_in)) 0%nat 1%nat <> rc 0).
    { rewrite mm_diag_r by lia. unfold dagm, exK. cbn [Nat.eqb ex46_in i_mu INR]. rewrite rc_real, <- rc_mul. intros F. apply rc_inj in F. lra. }
    destruct (cx_eqb_spec (mm (dagm exK) (diagm (i_mu ex46_in)) 0%nat 1%nat) (rc 0)) as [F|_]; [contradiction|]. cbn [fst snd].
    apply (svd_ext _ _ _ _ _ EM). apply svd_left; [apply uni_dag, exK_uni|cbn [INR ex46_in i_mu]; lra..].
  - intros M EM. rewrite MI in EM. unfold down_mass in EM. cbn [String.eqb Ascii.eqb Bool.eqb] in EM. unfold ex46_msvd'. rewrite (EM 0%nat 1%nat), (EM 1%nat 0%nat) by lia.
    cbn [diagm Nat.eqb]. destruct (cx_eqb_spec (rc 0) (rc 0)) as [_|N]; [|congruence]. cbn [fst snd]. apply (svd_ext _ _ _ _ _ EM). apply svd_id; cbn [INR ex46_in i_md]; lra.
  - intros M EM. rewrite dag_id, mm_id_l in EM. unfold ex46_msvd'. rewrite (EM 0%nat 1%nat), (EM 1%nat 0%nat) by lia. rewrite !mm_diag_l by lia.
    cbn [ex46_in i_me INR exK Nat.eqb]. rewrite <- !rc_mul. destruct (cx_eqb_spec (rc (0 * (-2 / 3))) (rc 0)) as [_|N]; [|exfalso; apply N; f_equal; lra].
    destruct (cx_eqb_spec (rc (1 * (-2 / 3))) (rc 0)) as [F|_]; [apply rc_inj in F; lra|]. cbn [fst snd].
    apply (svd_ext _ _ _ _ _ EM). split; [apply uni_id|]. split; [apply uni_dag, exK_uni|]. split; [|cbn [INR]; lra]. rewrite mm_id_l, dag_dag. reflexivity.
Qed.
