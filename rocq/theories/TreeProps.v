(* Tree-level matching from the SMEFT to the WET (match/smeft.py, match/smeft_tree.py).
   C38: without new physics the matching gives zero.
   C56: the matched coefficients are those of the Lagrangian with W and Z integrated out.
   C57: the input parameters GF, alpha_e and m_W keep their meaning in the presence of new physics.
   C58: rotate_down replaces the left-handed down quarks, and only these.
   C59: the matched coefficients have the symmetries of the WET operators. *)
From Coq Require Import List Bool ZArith QArith Reals Arith Lia Lra Psatz String Ascii Field.
From Verif Require Import PyBase Num Lin SymModel SymClass SymSpec EftModel EftSpec EftProofs EftLabels EftInit BasisProps NpModel NpProofs RealC BetaSpec BetaProofs RotModel RotProps JmsModel BetaModel SmparModel WetModel
  JmsProps EftRound EftRound2 UpProofs UpProps TreeProg TreeModel TreeElem TreeSpec TreeProofs TreeValue TreeHerm TreeRot TreeEw TreeZero TreeMatch.
Import ListNotations.
Local Open Scope string_scope.
Local Open Scope list_scope.

(* ---------- C38 ---------- *)
(* For every parameter set and every result of the one-loop formulas (loop) without duplicate
   keys: if all SMEFT coefficients are zero, all matched coefficients are zero. *)
Theorem C38_zero : forall E jms defaults ckm loop (d : dict string CR) scale ps out,
  (forall C p s c, loop C p s = Ok c -> wfdict c) ->
  (forall k v, In (k, v) d -> v = 0%K) ->
  match_all E jms defaults ckm loop d scale ps = Ok out -> forall k v, In (k, v) out -> v = 0%K.
Proof. exact match_zero. Qed.

Lemma zdict_coef (C : cdictR) k I : zdict C -> coef C k I = 0%K.
Proof. intros Z. unfold coef. destruct (dget C k) as [v|] eqn:D; [|reflexivity]. apply zval_entry. exact (zdict_get C k v Z D). Qed.
(* ... and for physical parameters there is a result *)
Theorem C38_zero_total : forall all real E jms (defaults : params) ckm loop (d : dict string CR) scale (ps : option params) (p : params) mW GF alpha,
  smeft_util all real E -> wfdict d -> (forall k, In k (dkeys d) -> In k all) ->
  p = match ps with Some q => dupdate defaults q | None => defaults end ->
  inputs p mW GF alpha -> physical0 mW GF alpha ->
  (forall x, dget p "loop_order" = Some x -> x <> 1%R) ->
  (exists a b c g, dget p "Vus" = Some a /\ dget p "Vub" = Some b /\ dget p "Vcb" = Some c /\ dget p "gamma" = Some g /\ vshape (ckm a b c g) = [3; 3]%nat) ->
  (forall C p s c, loop C p s = Ok c -> wfdict c) ->
  (forall k v, In (k, v) d -> v = 0%K) ->
  exists out, match_all E jms defaults ckm loop d scale ps = Ok out /\ (forall k v, In (k, v) out -> v = 0%K) /\
    forall k ts I, dget jms_fields k = Some ts -> In I (all_indices (repeat 3%nat (List.length ts))) ->
      let key := match ts with [] => k | _ => label k I end in In key jms -> dget out key = Some 0%K.
Proof.
  intros all real E jms defaults ckm loop d scale ps p mW GF alpha SU WF HD EP P P0 LO CK WL Z.
  destruct (match_all_ok all real E jms defaults ckm loop d scale ps p mW GF alpha SU WF HD EP P P0 LO CK) as (C & V & EL & _ & _ & _ & H).
  pose proof (load_zero E d C Z EL) as ZC.
  destruct H as (t & out & T & M & A).
  { apply physical_more; [exact P0|now apply zdict_coef|now apply zdict_coef|]. unfold GF_sm. rewrite !(zdict_coef C) by exact ZC. cbn. lra. }
  assert (Z' : forall k v, In (k, v) out -> v = 0%K).
  { exact (match_zero E jms defaults ckm loop d scale ps out WL Z M). }
  exists out. split; [exact M|]. split; [exact Z'|]. intros k ts I F HI key IK. destruct (A k ts F) as (c & _ & _ & B). specialize (B I HI). cbv zeta in B. fold key in B.
  apply kmem_In in IK. rewrite IK in B. rewrite B. f_equal. exact (Z' key _ (dget_In _ _ _ B)).
Qed.

(* points given by a function; all other entries zero *)
Section Point.
Context {K : StarField}.
Definition point (f : string -> idx -> K) : dict string (cval K) :=
  map (fun kt => (fst kt, match snd kt with [] => CNum (f (fst kt) []) | ts => CArr (repeat 3%nat (List.length ts)) (f (fst kt)) end)) wc_fields.
Lemma dget_point f k : dget (point f) k = option_map (fun ts => match ts with [] => CNum (f k []) | _ => CArr (repeat 3%nat (List.length ts)) (f k) end) (dget wc_fields k).
Proof.
  unfold point. induction wc_fields as [|[j ts] l IH]; [reflexivity|]. cbn [map fst snd dget]. destruct (keqb_spec k j) as [->|]; [now destruct ts|exact IH].
Qed.
Lemma point_wc f : wc_point (point f).
Proof.
  intros k ts D. rewrite dget_point, D. cbn [option_map]. destruct ts; (eexists; split; [reflexivity|]; split; [reflexivity|]); [eauto|discriminate].
Qed.
Lemma coef_point f k I ts : dget wc_fields k = Some ts -> List.length I = List.length ts -> coef (point f) k I = f k I.
Proof. intros D L. unfold coef. rewrite dget_point, D. cbn [option_map]. destruct ts; [|reflexivity]. now destruct I. Qed.
End Point.
(* a point with a dipole coefficient and a real Higgs current of the first generation *)
Definition two_entries (h : R) (k : string) (I : idx) : CR :=
  if keqb k "phil3" && keqb I [0; 0]%nat then rc h else if keqb k "dG" && keqb I [0; 0]%nat then 1%K else 0%K.
Lemma two_coef h k I ts : dget wc_fields k = Some ts -> List.length I = List.length ts -> coef (point (two_entries h)) k I = two_entries h k I.
Proof. apply coef_point. Qed.
Lemma two_symmetric h : wc_symmetric (point (two_entries h)).
Proof.
  intros k gs g S M IG I HI.
  destruct (keqb_spec k "phil3") as [->|N1].
  { cbn in S. injection S as <-. destruct IG as [<-|[]]. cbn [fst snd cj].
    assert (HI' : In I (idxs 2)) by exact HI. apply in_idxs_2 in HI' as (i & j & -> & A & B). cbn [permute map nth].
    rewrite !(two_coef h "phil3" _ (current2 Fl) eq_refl) by reflexivity. unfold two_entries. cbn [keqb EqKey_string String.eqb Ascii.eqb Bool.eqb andb].
    destruct i as [|i], j as [|j]; cbn; unfold cx_conj; cbn; rewrite ?Ropp_0; reflexivity. }
  assert (NG : k <> "dG") by (intros ->; discriminate S).
  assert (Z : forall J, coef (point (two_entries h)) k J = 0%K).
  { intros J. unfold coef. rewrite dget_point. unfold two_entries. destruct (keqb_spec k "phil3") as [|_]; [congruence|]. destruct (keqb_spec k "dG") as [|_]; [congruence|].
    destruct (dget wc_fields k) as [[|]|]; reflexivity. }
  rewrite !Z. destruct (snd g); cbn [cj]; [now rewrite kconj_0|reflexivity].
Qed.
Lemma scaled_symmetric x (C : cdictR) : wc_symmetric C -> wc_symmetric (scaled (rc x) C).
Proof.
  intros S k gs g G M IG I HI. rewrite !coef_scaled. rewrite (S k gs g G M IG I HI). destruct (snd g); cbn [cj]; [|reflexivity]. now rewrite kconj_mul, rc_real.
Qed.
Local Open Scope R_scope.
(* The contribution of new physics is not linear in the coefficients: the vacuum expectation value
   depends on the coefficients that enter muon decay, and is not expanded. *)
Theorem C38_linear_refuted : forall (p : params) mW GF alpha, inputs p mW GF alpha -> physical0 mW GF alpha ->
  exists C t t2, wc_point C /\ wc_symmetric C /\ tree_match C p = Ok t /\ tree_match (scaled (rc 2) C) p = Ok t2 /\
    coef t2 "dG" [0; 0]%nat <> (rc 2 * coef t "dG" [0; 0]%nat)%K.
Proof.
  intros p mW GF alpha P P0. set (C := point (two_entries (- (sqrt 2 * GF)))).
  pose proof (point_wc (two_entries (- (sqrt 2 * GF)))) as W. fold C in W. pose proof (two_symmetric (- (sqrt 2 * GF))) as S. fold C in S.
  assert (CB : coef C "phiWB" [] = 0%K) by reflexivity. assert (CD : coef C "phiD" [] = 0%K) by reflexivity.
  assert (H0 : coef C "phil3" [0; 0]%nat = rc (- (sqrt 2 * GF))) by reflexivity. assert (H1 : coef C "phil3" [1; 1]%nat = 0%K) by reflexivity.
  assert (L1 : coef C "ll" [1; 0; 0; 1]%nat = 0%K) by reflexivity. assert (L2 : coef C "ll" [0; 1; 1; 0]%nat = 0%K) by reflexivity.
  assert (DG : coef C "dG" [0; 0]%nat = 1%K) by reflexivity.
  assert (SQ : sqrt 2 * sqrt 2 = 2) by (apply sqrt_sqrt; lra).
  assert (G1 : GF_sm GF C = 2 * GF). { unfold GF_sm. rewrite H0, H1, L1, L2. cbn [rc fst]. change (fst (0%K : CR)) with 0. transitivity (GF + sqrt 2 * sqrt 2 * GF / 2); [field|]. rewrite SQ. field. }
  assert (G2 : GF_sm GF (scaled (rc 2) C) = 3 * GF). { unfold GF_sm. rewrite !coef_scaled, H0, H1, L1, L2, !kmul_0_r, <- rc_mul. cbn [rc fst]. change (fst (0%K : CR)) with 0. transitivity (GF + sqrt 2 * sqrt 2 * GF); [field|]. rewrite SQ. field. }
  pose proof (p0_F _ _ _ P0) as FP.
  assert (PH1 : physical C mW GF alpha) by (apply physical_more; auto; rewrite G1; lra).
  assert (PH2 : physical (scaled (rc 2) C) mW GF alpha). { apply physical_more; auto; rewrite ?coef_scaled, ?CB, ?CD, ?G2; try lra; apply kmul_0_r. }
  clearbody C.
  assert (DV : forall D, wc_point D -> wc_symmetric D -> physical D mW GF alpha -> exists t, tree_match D p = Ok t /\ coef t "dG" [0; 0]%nat = (rc (vev GF D) / rc (sqrt 2) * coef D "dG" [0; 0]%nat)%K).
  { intros D WD SD PD. destruct (tree_match_ok D p mW GF alpha WD SD P PD P0) as (c & c0 & t & E & E0 & T & J & A). exists t. split; [exact T|].
    assert (I0 : In [0; 0]%nat (idxs 2)) by (apply kmem_In; vm_compute; reflexivity).
    rewrite (A "dG" _ eq_refl [0; 0]%nat I0).
    assert (V : forall D c, wc_point D -> wc_symmetric D -> physical D mW GF alpha -> tree_raw D p = Ok c -> coef c "dG" [0; 0]%nat = (rc (vev GF D) / rc (sqrt 2) * coef D "dG" [0; 0]%nat)%K).
    { clear -P. intros D c WD SD PD E. destruct (tree_raw_ok D p mW GF alpha WD SD P PD) as (c' & E' & _ & _ & _ & _ & A). rewrite E in E'. injection E' as <-.
      destruct (A "dG" _ eq_refl) as (e & DE & V). injection DE as <-. rewrite V by (apply kmem_In; vm_compute; reflexivity).
      apply dipole_dG. apply rc_neq, sqrt2_pos. }
    rewrite (V D c WD SD PD E), (V (zero_of D) c0 (zero_point D WD) (zero_symmetric D) (physical_zero D mW GF alpha P0) E0), coef_zero_of, kmul_0_r. apply ksub_0r. }
  destruct (DV C W S PH1) as (t & T & V). destruct (DV (scaled (rc 2) C) (wc_scaled _ C W) (scaled_symmetric 2 C S) PH2) as (t2 & T2 & V2).
  exists C, t, t2. split; [exact W|]. split; [exact S|]. split; [exact T|]. split; [exact T2|]. rewrite V, V2, coef_scaled, DG.
  assert (NS : sqrt 2 <> 0) by (pose proof sqrt2_pos; lra).
  rewrite <- rc_1, <- !rc_div, <- !rc_mul by exact NS. intros E. apply rc_inj in E.
  assert (EV : vev GF (scaled (rc 2) C) = vev GF C). { apply (Rmult_eq_reg_r (2 / sqrt 2)); [|apply Rgt_not_eq; apply Rdiv_lt_0_compat; [lra|apply sqrt2_pos]]. transitivity (vev GF (scaled (rc 2) C) / sqrt 2 * (2 * 1)); [field; exact NS|]. rewrite E. field. exact NS. }
  assert (E2 : vev GF (scaled (rc 2) C) ^ 2 = vev GF C ^ 2) by now rewrite EV. rewrite !vev_sq in E2 by lra. rewrite G1, G2 in E2.
  assert (X : 3 * GF = 2 * GF).
  { apply (Rmult_eq_reg_l (sqrt 2)); [|exact NS]. unfold Rdiv in E2. rewrite !Rmult_1_l in E2. rewrite <- (Rinv_inv (sqrt 2 * (3 * GF))), <- (Rinv_inv (sqrt 2 * (2 * GF))). now rewrite E2. }
  lra.
Qed.

(* ---------- C56 ---------- *)
(* Every entry of every operator in the table TreeSpec.tree_spec: the matching never fails, and the
   coefficient agrees with the one of the Lagrangian, as a function of a common factor x of all
   SMEFT coefficients, up to terms of order x^2. *)
Theorem C56_first_order : forall (K : StarField) (sqrt2 mW mZ vT g1 : K) (C : dict string (cval K)),
  (sqrt2 <> 0 -> mZ <> 0 -> vT <> 0 -> kreal vT -> wc_point C -> hermitian C "phil3" -> hermitian C "phiq3" ->
  (forall x, exists c, tree_at sqrt2 mW mZ vT g1 (scaled x C) = Ok c /\ jms_point c) /\
  forall k n f I, dget (tree_spec sqrt2 mW mZ vT g1 (coef C)) k = Some (n, f) -> In I (all_indices (repeat 3%nat n)) ->
    upto2 (fun x => spec_value sqrt2 mW mZ vT g1 (coef (scaled x C)) k I)
          (fun x => match tree_at sqrt2 mW mZ vT g1 (scaled x C) with Ok c => coef c k I | Err _ => 0 end))%K.
Proof.
  intros K sqrt2 mW mZ vT g1 C NS NZ NV RV W HL HQ.
  assert (T : forall x, exists c, tree_at sqrt2 mW mZ vT g1 (scaled x C) = Ok c /\ jms_dict c /\
    forall k e r, In (k, e) tree_prog -> rank_ex ck lk nzv e = Some r -> exists v, dget c k = Some v /\ rep v r (value sqrt2 mW mZ vT g1 (scaled x C) e)).
  { intros x. destruct (tree_at_dict sqrt2 mW mZ vT g1 NS NZ NV (scaled x C) (wc_scaled x C W)) as (c & E & J & _).
    destruct (tree_at_ok sqrt2 mW mZ vT g1 NS NZ NV (scaled x C) (wc_scaled x C W)) as (c' & E' & A). rewrite E in E'. injection E' as <-. eauto. }
  split.
  { intros x. destruct (T x) as (c & E & (_ & _ & J) & _). eauto. }
  intros k n f I D HI. destruct (spec_first_order sqrt2 mW mZ vT g1 NS NZ NV RV C HL HQ k n f D) as (e & DE & R & FO). cbn [fst snd] in *.
  destruct (FO I HI) as (r2 & r3 & H). exists r2, r3. intros x X. rewrite (H x X). do 2 f_equal.
  destruct (T x) as (c & -> & _ & A). destruct (A k e n (dget_In _ _ _ DE) R) as (v & DV & (_ & _ & EV)). unfold coef. rewrite DV. symmetry. now apply EV.
Qed.
(* The operators that violate baryon number by left-handed quarks: the Lagrangians of the
   operators qqql and qque in terms of commuting two-component spinors. *)
Lemma idxs_4_in p r s t : (p < 3 -> r < 3 -> s < 3 -> t < 3 -> In [p; r; s; t] (idxs 4))%nat.
Proof. intros. apply in_idxs. split; [reflexivity|]. intros x [<-|[<-|[<-|[<-|[]]]]]; assumption. Qed.
Theorem C56_baryon_number : forall (K : StarField) (sqrt2 mW mZ vT g1 : K) (C c : dict string (cval K)),
  (sqrt2 <> 0 -> mZ <> 0 -> vT <> 0 -> wc_point C -> tree_at sqrt2 mW mZ vT g1 C = Ok c ->
  (forall u d nu e : nat -> spinor, lagr_qqql (coef C) u d nu e =
     sum4 (fun p r s t => coef c "SduuLL" [p; r; s; t] * (dot (d p) (u r) * dot (u s) (e t))) +
     sum4 (fun p r s t => coef c "SuddLL" [p; r; s; t] * (dot (u p) (d r) * dot (d s) (nu t)))) /\
  (forall u d uR eR : nat -> spinor, lagr_qque (coef C) u d uR eR =
     sum4 (fun p r s t => coef c "SduuLR" [p; r; s; t] * (dot (d p) (u r) * dot (uR s) (eR t)))))%K.
Proof.
  intros K sqrt2 mW mZ vT g1 C c NS NZ NV W E. destruct (tree_at_dict sqrt2 mW mZ vT g1 NS NZ NV C W) as (c' & E' & _ & A). rewrite E in E'. injection E' as <-.
  destruct (A "SduuLL" _ eq_refl) as (e1 & D1 & V1). injection D1 as <-. destruct (A "SuddLL" _ eq_refl) as (e2 & D2 & V2). injection D2 as <-.
  destruct (A "SduuLR" _ eq_refl) as (e3 & D3 & V3). injection D3 as <-.
  split.
  - intros u d nu e. rewrite qqql_ok. f_equal; apply sum4_ext; intros p r s t Hp Hr Hs Ht; f_equal.
    + rewrite V1 by (now apply idxs_4_in). symmetry. apply bnv_LL1.
    + rewrite V2 by (now apply idxs_4_in). symmetry. apply bnv_LL2.
  - intros u d uR eR. rewrite qque_ok. apply sum4_ext; intros p r s t Hp Hr Hs Ht; f_equal.
    rewrite V3 by (now apply idxs_4_in). symmetry. apply bnv_LR.
Qed.

(* match_all at tree level: the result is the matching of the coefficients read, in terms of rotated down
   quarks (C58) and with the symmetry factors of C22, restricted to the keys of the basis *)
Theorem C56_match_all : forall all real E jms (defaults : params) ckm loop (d : dict string CR) scale (ps : option params) (p : params) mW GF alpha,
  smeft_util all real E -> wfdict d -> (forall k, In k (dkeys d) -> In k all) ->
  p = match ps with Some q => dupdate defaults q | None => defaults end ->
  inputs p mW GF alpha -> physical0 mW GF alpha ->
  (forall x, dget p "loop_order" = Some x -> x <> 1) ->
  (exists a b c g, dget p "Vus" = Some a /\ dget p "Vub" = Some b /\ dget p "Vcb" = Some c /\ dget p "gamma" = Some g /\ vshape (ckm a b c g) = [3; 3]%nat) ->
  exists C V, wcxf2arrays_symmetrized E d = Ok C /\ wc_point C /\ wc_symmetric C /\ ckm_of ckm p = Ok V /\
  (physical C mW GF alpha -> exists c c0 t out,
    tree_raw C p = Ok c /\ tree_raw (zero_of C) p = Ok c0 /\ tree_match C p = Ok t /\ match_all E jms defaults ckm loop d scale ps = Ok out /\
    forall k ts, dget jms_fields k = Some ts ->
      (forall I, In I (all_indices (repeat 3%nat (List.length ts))) -> coef t k I = (coef c k I - coef c0 k I)%K) /\
      exists cl, In cl classes8 /\ listed k cl /\
      forall I, In I (all_indices (repeat 3%nat (List.length ts))) -> let key := match ts with [] => k | _ => label k I end in
        dget out key = if kmem key jms then Some (kZ (Z.of_nat (factor_of cl I)) * rotD (fun i j => entry V [i; j]) ts (coef t k) I)%K else None).
Proof.
  intros all real E jms defaults ckm loop d scale ps p mW GF alpha SU WF HD EP P P0 LO CK.
  destruct (match_all_ok all real E jms defaults ckm loop d scale ps p mW GF alpha SU WF HD EP P P0 LO CK) as (C & V & EL & WP & WS & EV & H).
  exists C, V. split; [exact EL|]. split; [exact WP|]. split; [exact WS|]. split; [exact EV|]. intros PH.
  destruct (H PH) as (t & out & T & M & A). destruct (tree_match_ok C p mW GF alpha WP WS P PH P0) as (c & c0 & t' & E1 & E2 & T' & _ & B).
  rewrite T in T'. injection T' as <-. exists c, c0, t, out. split; [exact E1|]. split; [exact E2|]. split; [exact T|]. split; [exact M|].
  intros k ts F. split; [exact (B k ts F)|]. exact (A k ts F).
Qed.

(* ---------- C57 ---------- *)
(* The electroweak parameters of the code: m_W as given, mZ, vT, g1 as in TreeEw *)
Theorem C57_inputs : forall (C : cdictR) (p : params) mW GF alpha, wc_point C -> wc_symmetric C -> inputs p mW GF alpha -> physical C mW GF alpha ->
  let v := vev GF C in let g2 := g2_of mW v in let eps := fst (coef C "phiWB" []) * v ^ 2 in
  exists e g1, ew_inputs C p = Ok e /\ e_mW e = mW /\ e_vT e = v /\ e_g1 e = rc g1 /\
    mW = g2 * v / 2 /\ 0 < v /\ GF_sm GF C = 1 / (sqrt 2 * v ^ 2) /\
    0 < e_mZ e /\ (e_mZ e) ^ 2 = mZ2_of v g1 g2 (fst (coef C "phiD" [])) eps /\
    g1 = g1_of (e_of alpha) g2 eps.
Proof.
  intros C p mW GF alpha W S P PH v g2 eps. destruct (ew_ok C p mW GF alpha W S P PH) as (E & Z & V). eexists. exists (g1_of (e_of alpha) g2 eps). split; [exact E|].
  cbn [e_mW e_vT e_g1 e_mZ]. repeat split.
  - unfold g2, g2_of. fold v. field. fold v in V. lra.
  - exact V.
  - unfold v. rewrite vev_sq by exact (ph_F _ _ _ _ PH). field. pose proof sqrt2_pos. pose proof (ph_F _ _ _ _ PH). split; lra.
  - exact Z.
  - apply pow2_sqrt. left. exact (ph_Z _ _ _ _ PH).
Qed.
(* Muon decay is described by the Fermi constant given by the user, exactly: the coefficient of
   (nubar_mu gamma nu_e)(ebar gamma mu) is -4 GF / sqrt(2) for all coefficients, and new physics does
   not contribute to it. *)
Lemma kZ_2 : kZ (K := CR) 2 = rc 2.
Proof. unfold kZ, kpos. cbn. unfold rc, cx_add, cx_mul. cbn [fst snd]. f_equal; ring. Qed.
Theorem C57_fermi_constant : forall (C : cdictR) (p : params) mW GF alpha,
  wc_point C -> wc_symmetric C -> inputs p mW GF alpha -> physical C mW GF alpha -> physical0 mW GF alpha ->
  exists c t, tree_raw C p = Ok c /\ coef c "VnueLL" [1; 0; 0; 1]%nat = rc (- (4 * GF / sqrt 2)) /\
    tree_match C p = Ok t /\ coef t "VnueLL" [1; 0; 0; 1]%nat = 0%K.
Proof.
  intros C p mW GF alpha W S P PH P0. destruct (tree_match_ok C p mW GF alpha W S P PH P0) as (c & c0 & t & E & E0 & T & J & A).
  assert (I0 : In [1; 0; 0; 1]%nat (idxs 4)) by (apply kmem_In; vm_compute; reflexivity).
  assert (V : forall D c, wc_point D -> wc_symmetric D -> physical D mW GF alpha -> tree_raw D p = Ok c -> coef c "VnueLL" [1; 0; 0; 1]%nat = rc (- (4 * GF / sqrt 2))).
  { clear -P I0. intros D c WD SD PD E. destruct (tree_raw_ok D p mW GF alpha WD SD P PD) as (c' & E' & _ & _ & Z & VP & A). rewrite E in E'. injection E' as <-.
    destruct (A "VnueLL" _ eq_refl) as (e & DE & V). injection DE as <-. rewrite V by exact I0. rewrite muon_decay by (apply rc_neq; assumption).
    destruct (ll_r D SD) as [L1 L2]. rewrite L2, L1, (phil3_r D SD 0), (phil3_r D SD 1) by lia. rewrite kZ_2.
    rewrite <- !rc_mul, <- rc_div, <- rc_add, <- !rc_sub. 2:{ apply Rgt_not_eq. apply Rmult_lt_0_compat; exact VP. }
    f_equal. pose proof (vev_sq GF D (ph_F _ _ _ _ PD)) as VS. pose proof sqrt2_pos as SP.
    replace (vev GF D * vev GF D) with (vev GF D ^ 2) by ring. rewrite VS. replace (2 / (1 / (sqrt 2 * GF_sm GF D))) with (2 * sqrt 2 * GF_sm GF D).
    2:{ field. pose proof (ph_F _ _ _ _ PD). split; lra. }
    unfold GF_sm. rewrite L2. assert (SQ : sqrt 2 * sqrt 2 = 2) by (apply sqrt_sqrt; lra).
    set (a := fst (coef D "ll" [1; 0; 0; 1]%nat)). set (b := fst (coef D "phil3" [1; 1]%nat)). set (d := fst (coef D "phil3" [0; 0]%nat)).
    transitivity (a + a - 2 * b - 2 * d - (2 * sqrt 2 * GF - sqrt 2 * sqrt 2 / 2 * (2 * b + 2 * d - a - a))); [field|]. rewrite SQ.
    transitivity (- (2 * sqrt 2 * GF)); [field|]. replace (4 * GF / sqrt 2) with (2 * sqrt 2 * GF); [reflexivity|].
    apply (Rmult_eq_reg_r (sqrt 2)); [|lra]. transitivity (2 * (sqrt 2 * sqrt 2) * GF); [ring|]. rewrite SQ. field. lra. }
  exists c, t. split; [exact E|]. split; [exact (V C c W S PH E)|]. split; [exact T|]. rewrite (A "VnueLL" _ eq_refl _ I0).
  rewrite (V C c W S PH E), (V (zero_of C) c0 (zero_point C W) (zero_symmetric C) (physical_zero C mW GF alpha P0) E0). rewrite <- rc_sub, <- rc_0. f_equal. ring.
Qed.
(* The electric charge is the one given by alpha_e without phiWB, and unchanged to first order in phiWB *)
Theorem C57_electric_charge : forall mW v alpha, 0 < mW -> 0 < v -> 0 <= alpha -> (e_of alpha) ^ 2 < (g2_of mW v) ^ 2 ->
  let g2 := g2_of mW v in
  charge (g1_of (e_of alpha) g2 0) g2 0 = sqrt (4 * PI * alpha) /\
  derivable_pt_lim (fun eps => charge (g1_of (e_of alpha) g2 eps) g2 eps) 0 0.
Proof.
  intros mW v alpha HW HV HA HE g2. pose proof (g2_pos mW v HW HV) as G. assert (E : 0 <= e_of alpha) by apply sqrt_pos.
  split; [apply (charge_0 _ _ E HE G)|apply (charge_derivative _ _ E HE G)].
Qed.

(* ---------- C58 ---------- *)
Theorem C58_rotation : forall (K : StarField) (V : cval K) (C : dict string (cval K)), vshape V = [3; 3]%nat -> jms_point C ->
  exists C', rotate_down V C = Ok C' /\ jms_point C' /\
  (forall k ts, dget jms_fields k = Some ts -> forall I, In I (all_indices (repeat 3%nat (List.length ts))) -> coef C' k I = rotD (fun i j => entry V [i; j]) ts (coef C k) I) /\
  (forall k, dget jms_fields k = None -> dget C' k = dget C k).
Proof. intros K V C MV J. now apply rotate_down_ok. Qed.
(* operators without left-handed down quarks are unchanged *)
Theorem C58_other_fields : forall (K : StarField) (V : cval K) (C C' : dict string (cval K)) k ts I, vshape V = [3; 3]%nat -> jms_point C ->
  rotate_down V C = Ok C' -> dget jms_fields k = Some ts -> ~ In DL (map fst ts) -> In I (all_indices (repeat 3%nat (List.length ts))) -> coef C' k I = coef C k I.
Proof.
  intros K V C C' k ts I MV J E F N HI. destruct (rotate_down_ok V MV C J) as (C1 & E1 & _ & A & _). rewrite E in E1. injection E1 as <-.
  rewrite (A k ts F I HI). apply rotD_id.
  - apply forallb_forall. intros [w b] H. destruct w; try reflexivity. exfalso. apply N. apply in_map_iff. now exists (DL, b).
  - apply in_idxs in HI as [L _]. exact L.
Qed.
(* a unitary rotation is undone by the inverse one *)
Theorem C58_inverse : forall (K : StarField) (V W : cval K) (C C1 C2 : dict string (cval K)) k ts I, vshape V = [3; 3]%nat -> vshape W = [3; 3]%nat -> jms_point C ->
  (forall i j, (i < 3)%nat -> (j < 3)%nat -> ksum (map (fun m => entry V [i; m] * (entry V [j; m])^*)%K (seq 0 3)) = delta i j) ->
  (forall i j, (i < 3)%nat -> (j < 3)%nat -> entry W [i; j] = ((entry V [j; i])^*)%K) ->
  rotate_down V C = Ok C1 -> rotate_down W C1 = Ok C2 -> dget jms_fields k = Some ts -> In I (all_indices (repeat 3%nat (List.length ts))) ->
  coef C2 k I = coef C k I.
Proof.
  intros K V W C C1 C2 k ts I MV MW J U HW E1 E2 F HI.
  destruct (rotate_down_ok V MV C J) as (D1 & X1 & J1 & A1 & _). rewrite E1 in X1. injection X1 as <-.
  destruct (rotate_down_ok W MW C1 J1) as (D2 & X2 & _ & A2 & _). rewrite E2 in X2. injection X2 as <-.
  pose proof HI as HI'. apply in_idxs in HI' as [L B].
  rewrite (A2 k ts F I HI). rewrite (rotD_ext_in (fun i j => entry W [i; j]) ts (coef C1 k) (rotD (fun i j => entry V [i; j]) ts (coef C k)) (A1 k ts F) I HI).
  rewrite rotD_comp. apply rotD_eye; [|exact L|exact B]. intros i j Hi Hj. unfold mprod. rewrite <- (U i j Hi Hj).
  apply ksum_ext. intros m Hm. apply in_seq in Hm. now rewrite HW by lia.
Qed.

(* ---------- C59 ---------- *)
Theorem C59_symmetries : forall (C : cdictR) (p : params) mW GF alpha,
  wc_point C -> wc_symmetric C -> inputs p mW GF alpha -> physical C mW GF alpha -> physical0 mW GF alpha ->
  exists t, tree_match C p = Ok t /\ jms_point t /\
  forall k ts gs g, dget jms_fields k = Some ts -> dget jms_symmetries k = Some gs -> In g gs -> jms_obeys k (List.length ts) g t.
Proof.
  intros C p mW GF alpha W S P PH P0. destruct (tree_match_ok C p mW GF alpha W S P PH P0) as (c & c0 & t & E & E0 & T & J & A).
  exists t. split; [exact T|]. split; [exact (proj2 (proj2 J))|]. intros k ts gs g F G IG I HI.
  assert (V : forall D c, wc_point D -> wc_symmetric D -> physical D mW GF alpha -> tree_raw D p = Ok c -> coef c k I = cj (snd g) (coef c k (permute (fst g) I))).
  { clear -P F G IG HI. intros D c WD SD PD E. destruct (tree_raw_ok D p mW GF alpha WD SD P PD) as (c' & E' & E1 & JD & Z & VP & _). rewrite E in E'. injection E' as <-.
    destruct (symmetric_out (rc (sqrt 2)) (rc mW) (rc (the_mZ D mW GF alpha)) (rc (vev GF D)) (rc (the_g1 D mW GF alpha)) (rc_neq _ sqrt2_pos) (rc_neq _ Z) (rc_neq _ VP)
      (rc_real _) (rc_real _) (rc_real _) (rc_real _) (rc_real _) D SD c WD E1 k gs g G IG) as (n & v & DV & SV & O).
    destruct (proj2 (proj2 JD) k ts F) as (v' & DV' & SV' & _). rewrite DV in DV'. injection DV' as <-. rewrite SV in SV'.
    assert (n = List.length ts) by (rewrite <- (repeat_length 3%nat n), SV', repeat_length; reflexivity). subst n. now apply O. }
  assert (HP : In (permute (fst g) I) (idxs (List.length ts))).
  { assert (Y : forallb (fun kg => match dget jms_fields (fst kg) with Some ts => forallb (fun g => forallb (fun I => in_shape (repeat 3%nat (List.length ts)) (permute (fst g) I)) (idxs (List.length ts))) (snd kg) | None => false end) jms_symmetries = true)
      by (vm_compute; reflexivity).
    rewrite forallb_forall in Y. specialize (Y (k, gs) (dget_In _ _ _ G)). cbn [fst snd] in Y. rewrite F, forallb_forall in Y. specialize (Y g IG). rewrite forallb_forall in Y.
    apply in_all_indices. exact (Y I HI). }
  rewrite (A k ts F I HI), (A k ts F _ HP). rewrite (V C c W S PH E), (V (zero_of C) c0 (zero_point C W) (zero_symmetric C) (physical_zero C mW GF alpha P0) E0).
  destruct (snd g); cbn [cj]; [|reflexivity]. symmetry. apply kconj_sub.
Qed.

(* ---------- the hypotheses are met ---------- *)
Definition ex_p : params := [("m_W", 80); ("GF", 1 / 100000); ("alpha_e", 1 / 128); ("Vus", 22 / 100); ("Vub", 4 / 1000); ("Vcb", 4 / 100); ("gamma", 1)].
Example ex_inputs : inputs ex_p 80 (1 / 100000) (1 / 128) /\ physical0 80 (1 / 100000) (1 / 128).
Proof.
  split; [repeat split|]. assert (S1 : 1 < sqrt 2). { rewrite <- sqrt_1 at 1. apply sqrt_lt_1; lra. }
  split; try lra. unfold e_of, g2_of. rewrite pow2_sqrt by (pose proof PI_RGT_0; lra).
  assert (V : 0 < 1 / (sqrt 2 * (1 / 100000))) by (apply Rdiv_lt_0_compat; lra).
  pose proof (sqrt_lt_R0 _ V) as Q. set (v := sqrt (1 / (sqrt 2 * (1 / 100000)))) in *.
  assert (VS : v * v = 1 / (sqrt 2 * (1 / 100000))) by (apply sqrt_sqrt; lra).
  replace ((2 * 80 / v) ^ 2) with (25600 * / (v * v)) by (field; lra). rewrite VS. replace (/ (1 / (sqrt 2 * (1 / 100000)))) with (sqrt 2 / 100000) by (field; lra).
  pose proof PI_4. lra.
Qed.
(* new physics in a dipole and in a lepton current: the hypotheses of C57 and C59 *)
Example C57_case : let C := point (two_entries (- (1 / 100000))) in
  wc_point C /\ wc_symmetric C /\ inputs ex_p 80 (1 / 100000) (1 / 128) /\ physical0 80 (1 / 100000) (1 / 128) /\ physical C 80 (1 / 100000) (1 / 128) /\
  GF_sm (1 / 100000) C <> 1 / 100000 /\
  exists t, tree_match C ex_p = Ok t /\ coef t "VnueLL" [1; 0; 0; 1]%nat = 0%K /\ coef t "dG" [0; 0]%nat = rc (vev (1 / 100000) C / sqrt 2).
Proof.
  intros C. destruct ex_inputs as [P P0]. pose proof (point_wc (two_entries (- (1 / 100000)))) as W. pose proof (two_symmetric (- (1 / 100000))) as S. fold C in W, S.
  pose proof sqrt2_pos as SP.
  assert (G : GF_sm (1 / 100000) C = 1 / 100000 + sqrt 2 / 200000).
  { unfold GF_sm. change (coef C "phil3" [0; 0]%nat) with (rc (- (1 / 100000))). change (coef C "phil3" [1; 1]%nat) with (0%K : CR). change (coef C "ll" [1; 0; 0; 1]%nat) with (0%K : CR).
    change (coef C "ll" [0; 1; 1; 0]%nat) with (0%K : CR). cbn [rc fst]. change (fst (0%K : CR)) with 0. field. }
  assert (PH : physical C 80 (1 / 100000) (1 / 128)) by (apply physical_more; [exact P0|reflexivity|reflexivity|rewrite G; lra]).
  repeat (split; [first [exact W|exact S|exact P|exact P0|exact PH|rewrite G; lra]|]).
  destruct (C57_fermi_constant C ex_p _ _ _ W S P PH P0) as (c' & t & _ & _ & T & M). exists t. split; [exact T|]. split; [exact M|].
  destruct (tree_match_ok C ex_p _ _ _ W S P PH P0) as (c & c0 & t' & E & E0 & T' & _ & A). rewrite T in T'. injection T' as <-.
  assert (V : forall D c, wc_point D -> wc_symmetric D -> physical D 80 (1 / 100000) (1 / 128) -> tree_raw D ex_p = Ok c -> coef c "dG" [0; 0]%nat = (rc (vev (1 / 100000) D) / rc (sqrt 2) * coef D "dG" [0; 0]%nat)%K).
  { clear -P. intros D c WD SD PD E. destruct (tree_raw_ok D ex_p _ _ _ WD SD P PD) as (c' & E' & _ & _ & _ & _ & A). rewrite E in E'. injection E' as <-.
    destruct (A "dG" _ eq_refl) as (e & DE & V). injection DE as <-. rewrite V by (apply kmem_In; vm_compute; reflexivity).
    apply dipole_dG. apply rc_neq, sqrt2_pos. }
  rewrite (A "dG" _ eq_refl) by (apply kmem_In; vm_compute; reflexivity).
  rewrite (V C c W S PH E), (V (zero_of C) c0 (zero_point C W) (zero_symmetric C) (physical_zero C _ _ _ P0) E0), coef_zero_of, kmul_0_r, ksub_0r.
  change (coef C "dG" [0; 0]%nat) with (1%K : CR). rewrite <- rc_1, <- rc_div, <- rc_mul by lra. f_equal. field. lra.
Qed.
(* match_all: the hypotheses of C38_zero_total and C56_match_all, with a non-zero coefficient *)
Example C56_case : exists E, smeft_util (all_of warsaw_ops) (real_of warsaw_ops) E /\
  let d := [("dG_11", rc 1); ("phil3_11", rc (1 / 10))] : dict string CR in wfdict d /\ (forall k, In k (dkeys d) -> In k (all_of warsaw_ops)) /\
  (forall x, dget ex_p "loop_order" = Some x -> x <> 1) /\
  let ckm := fun _ _ _ _ : R => CArr (K := CR) [3; 3]%nat (fun I => match I with [i; j] => delta i j | _ => 0%K end) in
  exists a b c g, dget ex_p "Vus" = Some a /\ dget ex_p "Vub" = Some b /\ dget ex_p "Vcb" = Some c /\ dget ex_p "gamma" = Some g /\ vshape (ckm a b c g) = [3; 3]%nat.
Proof.
  destruct C24_case as (E & SU & _). exists E. split; [exact SU|]. intros d. split; [apply knodup_NoDup; reflexivity|]. split.
  { intros k [<-|[<-|[]]]; apply kmem_In; vm_compute; reflexivity. }
  split; [discriminate|]. intros ckm. now exists (22 / 100), (4 / 1000), (4 / 100), 1.
Qed.
(* C58: a rotation that exchanges two generations *)
Example C58_case : let V : cval QI := CArr [3; 3]%nat (fun I => match I with [0; 1]%nat | [1; 0]%nat | [2; 2]%nat => 1%K | _ => 0%K end) in
  let C : dict string (cval QI) := map (fun kt => (fst kt, match snd kt with [] => CNum 0%K | ts => CArr (repeat 3%nat (List.length ts)) (fun I => if keqb I [0; 0]%nat then qi 1 2 else 0%K) end)) jms_fields in
  vshape V = [3; 3]%nat /\ jms_point C /\
  (forall i j, (i < 3)%nat -> (j < 3)%nat -> ksum (map (fun m => entry V [i; m] * (entry V [j; m])^*)%K (seq 0 3)) = delta i j) /\
  exists C', rotate_down V C = Ok C' /\ coef C' "dG" [1; 0]%nat = coef C "dG" [0; 0]%nat /\ coef C "dG" [0; 0]%nat = qi 1 2.
Proof.
  intros V C. split; [reflexivity|].
  assert (J : jms_point C).
  { intros k ts D. assert (X : dget C k = Some (match ts with [] => CNum 0%K | _ => CArr (repeat 3%nat (List.length ts)) (fun I => if keqb I [0; 0]%nat then qi 1 2 else 0%K) end)).
    { unfold C. clear -D. induction jms_fields as [|[j us] l IH]; [discriminate D|]. cbn [map fst snd dget] in *. destruct (keqb k j); [injection D as ->; destruct ts; reflexivity|exact (IH D)]. }
    destruct ts; (eexists; split; [exact X|]; split; [reflexivity|]); [eauto|discriminate]. }
  split; [exact J|]. split.
  { intros i j Hi Hj. destruct i as [|[|[|]]]; [..|lia]; (destruct j as [|[|[|]]]; [..|lia]); vm_compute; reflexivity. }
  destruct (C58_rotation QI V C eq_refl J) as (C' & E & _ & A & _). exists C'. split; [exact E|]. split; [|reflexivity].
  rewrite (A "dG" _ eq_refl) by (apply kmem_In; vm_compute; reflexivity). vm_compute. reflexivity.
Qed.

Print Assumptions C38_zero.
Print Assumptions C38_zero_total.
Print Assumptions C38_linear_refuted.
Print Assumptions C56_first_order.
Print Assumptions C56_baryon_number.
Print Assumptions C56_match_all.
Print Assumptions C57_inputs.
Print Assumptions C57_fermi_constant.
Print Assumptions C57_electric_charge.
Print Assumptions C58_rotation.
Print Assumptions C58_other_fields.
Print Assumptions C58_inverse.
Print Assumptions C59_symmetries.
