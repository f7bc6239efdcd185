(* C63: the SMEFT class: the basis in which it returns its results. *)
From Coq Require Import List Bool ZArith Arith Lia String Ascii Reals Lra Psatz Setoid Morphisms.
From Verif Require Import PyBase Num SymModel SymClass EftModel EftSpec EftProofs NpModel NpProofs RotModel BetaSpec BetaProofs RotProofs RotProps BetaProg RgeModel RealC SmparModel SmparProofs SmparProps
  SmeftModel SmeftProofs.
Import ListNotations.
Local Open Scope string_scope.
Local Open Scope list_scope.
Local Open Scope R_scope.

(* ---------- specification ---------- *)
Definition ascending (m : nat -> R) : Prop := 0 <= m 0%nat /\ m 0%nat <= m 1%nat /\ m 1%nat <= m 2%nat.
(* three different nonzero masses *)
Definition nondegenerate (M : cmat) : Prop := exists L m V, svd M L m V /\ 0 < m 0%nat /\ m 0%nat < m 1%nat /\ m 1%nat < m 2%nat.
(* msvd returns a singular value decomposition of M *)
Definition msvd_at (msvd : cmat -> cmat * (nat -> R) * cmat) (M : cmat) : Prop :=
  svd M (fst (fst (msvd M))) (snd (fst (msvd M))) (snd (msvd M)).
(* rephase_standard multiplies the columns of the left- and right-handed matrices by the same
   phases, such that the CKM matrix has its standard form *)
Definition rephase_ok (rs : cmat * cmat * cmat * cmat -> cmat * cmat * cmat * cmat) (UuL UdL UuR UdR : cmat) : Prop :=
  exists a b UuL' UdL' UuR' UdR', rs (UuL, UdL, UuR, UdR) = (UuL', UdL', UuR', UdR') /\ phases a /\ phases b /\
    rephased UuL a UuL' /\ rephased UuR a UuR' /\ rephased UdL b UdL' /\ rephased UdR b UdR' /\ standard_ckm (mm (dagm UuL') UdL').
Definition rephase_pmns_ok (rp : cmat * cmat * cmat -> cmat * cmat * cmat) (Unu UeL UeR : cmat) : Prop :=
  exists c Unu' UeL' UeR', rp (Unu, UeL, UeR) = (Unu', UeL', UeR') /\ phases c /\ rephased UeL c UeL' /\ rephased UeR c UeR'.
(* the external functions meet their contracts for the matrices of the point C *)
Definition external_ok (msvd : cmat -> cmat * (nat -> R) * cmat) (mtakfac : cmat -> cmat * (nat -> R)) rs rp (C : cdictR) : Prop :=
  let Mu := mass C "Gu" "uphi" in let Md := mass C "Gd" "dphi" in let Me := mass C "Ge" "ephi" in
  msvd_at msvd Mu /\ msvd_at msvd Md /\ msvd_at msvd Me /\
  rephase_ok rs (fst (fst (msvd Mu))) (fst (fst (msvd Md))) (snd (msvd Mu)) (snd (msvd Md)) /\
  rephase_pmns_ok rp (fst (mtakfac (fun i j => kmul (rc (- v_default ^ 2)) (coef C "llphiphi" [i; j])))) (fst (fst (msvd Me))) (snd (msvd Me)).
(* the masses are diagonal and ascending, up to a unitary matrix V for the up quarks with a standard CKM matrix V^dagger *)
Definition default_form (D : cdictR) (V : cmat) (mu md me : nat -> R) : Prop :=
  meq (mass D "Gd" "dphi") (diagm md) /\ meq (mass D "Ge" "ephi") (diagm me) /\ meq (mass D "Gu" "uphi") (mm V (diagm mu)) /\
  ascending mu /\ ascending md /\ ascending me /\ uni V /\ standard_ckm (dagm V).

(* ---------- lemmas ---------- *)
Lemma standard_ckm_meq V W : meq V W -> standard_ckm V -> standard_ckm W.
Proof.
  intros E (s12 & c12 & s13 & c13 & s23 & c23 & e & H). exists s12, c12, s13, c13, s23, c23, e.
  assert (X : forall i j, (i < 3)%nat -> (j < 3)%nat -> W i j = V i j) by (intros i j Hi Hj; symmetry; now apply E).
  rewrite !X by lia. exact H.
Qed.
Lemma mat3_arr2 A : mat3 (arr2 A).
Proof. unfold mat3, arr2. eauto. Qed.
Lemma point_getm C k f : smeft_point C -> dget op_fields k = Some f -> exists w, getm C k = Ok w /\ w = (fun i j => coef C k [i; j]).
Proof.
  intros P F. destruct (P k f F) as (v & E & _). unfold getm, getC, coef. rewrite E. eexists. split; reflexivity.
Qed.
(* the matrices of the rotation *)
Record default_rotation (msvd : cmat -> cmat * (nat -> R) * cmat) (C : cdictR) (U : field -> cmat) (UuL : cmat) : Prop := {
  dr_u : svd (mass C "Gu" "uphi") UuL (snd (fst (msvd (mass C "Gu" "uphi"))) : nat -> R) (U Fu);
  dr_d : svd (mass C "Gd" "dphi") (U Fq) (snd (fst (msvd (mass C "Gd" "dphi")))) (U Fd);
  dr_e : svd (mass C "Ge" "ephi") (U Fl) (snd (fst (msvd (mass C "Ge" "ephi")))) (U Fe);
  dr_ckm : standard_ckm (mm (dagm UuL) (U Fq)) }.
Lemma rotation_done E (msvd : cmat -> cmat * (nat -> R) * cmat) mtakfac rs rp C : bosonic_keys (e_keys0 E) -> smeft_point C -> external_ok msvd mtakfac rs rp C ->
  exists D U UuL, rotate_defaultbasis E msvd mtakfac rs rp C = Ok D /\ smeft_point D /\ (forall k, dget op_fields k = None -> dget D k = None) /\
    rotated_point U C D /\ default_rotation msvd C U UuL.
Proof.
  intros BK P (SU & SD & SE & (a & b & UuL & UdL & UuR & UdR & ER & PA & PB & R1 & R2 & R3 & R4 & CK) & (c & Unu & UeL & UeR & EP & PC & R5 & R6)).
  unfold rotate_defaultbasis.
  destruct (point_getm C "Ge" _ P eq_refl) as (ge & E1 & _). destruct (point_getm C "ephi" _ P eq_refl) as (we & E2 & _).
  destruct (point_getm C "Gu" _ P eq_refl) as (gu & E3 & _). destruct (point_getm C "uphi" _ P eq_refl) as (wu & E4 & _).
  destruct (point_getm C "Gd" _ P eq_refl) as (gd & E5 & _). destruct (point_getm C "dphi" _ P eq_refl) as (wd & E6 & _).
  destruct (point_getm C "llphiphi" _ P eq_refl) as (ll & E7 & LL). rewrite E1, E2, E3, E4, E5, E6, E7. cbn [bind].
  assert (DM : default_matrices msvd mtakfac rs rp ge we gu wu gd wd ll =
    fun f => match f with Fq => arr2 UdL | Fu => arr2 UuR | Fd => arr2 UdR | Fl => arr2 UeL | Fe => arr2 UeR end).
  { unfold default_matrices. rewrite (mass_massm C _ _ _ _ E1 E2), (mass_massm C _ _ _ _ E3 E4), (mass_massm C _ _ _ _ E5 E6).
    rewrite ER. subst ll. unfold nu_mass. now rewrite EP. }
  rewrite DM. set (U0 := fun f => match f with Fq => arr2 UdL | Fu => arr2 UuR | Fd => arr2 UdR | Fl => arr2 UeL | Fe => arr2 UeR end).
  destruct (C23_parameter_point CR U0 (e_keys0 E) C BK) as (D & ED & PD & KD & RD); [intros [| | | |]; apply mat3_arr2|exact P|].
  exists D, (fun f => match f with Fq => UdL | Fu => UuR | Fd => UdR | Fl => UeL | Fe => UeR end), UuL. split; [exact ED|]. split; [exact PD|]. split; [exact KD|]. split.
  - intros k ts F I HI. rewrite (RD k ts F I HI). rewrite (indices_of_idxs k ts F) in HI. apply rot_extU; [|intros x Hx; apply in_idxs in HI as [_ HI]; now apply HI].
    intros f i j _ _. destruct f; reflexivity.
  - split; [now apply (svd_rephase _ _ _ _ a UuL UuR SU)|now apply (svd_rephase _ _ _ _ b UdL UdR SD)|now apply (svd_rephase _ _ _ _ c UeL UeR SE)|exact CK].
Qed.
Lemma default_form_of msvd C U UuL D : default_rotation msvd C U UuL -> rotated_point U C D ->
  default_form D (mm (dagm (U Fq)) UuL) (snd (fst (msvd (mass C "Gu" "uphi")))) (snd (fst (msvd (mass C "Gd" "dphi")))) (snd (fst (msvd (mass C "Ge" "ephi")))).
Proof.
  intros [S1 S2 S3 CK] R. revert S1 S2 S3. generalize (snd (fst (msvd (mass C "Gu" "uphi")))) (snd (fst (msvd (mass C "Gd" "dphi")))) (snd (fst (msvd (mass C "Ge" "ephi")))).
  intros mu md me (AU & BU & EU & OU) (AD & BD & EDD & OD) (AE & BE & EE & OE). unfold default_form.
  assert (X : forall A L m V, uni L -> uni V -> meq A (mm (mm L (diagm m)) (dagm V)) -> meq (mm (mm (dagm L) A) V) (diagm m)).
  { intros A L m V [L1 _] [V1 _] EA. rewrite EA, !mm_assoc, L1, mm_id_l, <- mm_assoc, V1, mm_id_r. reflexivity. }
  split; [rewrite (mass_rot U C D "Gd" "dphi" Fq Fd R eq_refl eq_refl); now apply X|].
  split; [rewrite (mass_rot U C D "Ge" "ephi" Fl Fe R eq_refl eq_refl); now apply X|].
  split. { rewrite (mass_rot U C D "Gu" "uphi" Fq Fu R eq_refl eq_refl), EU. destruct BU as [BU _]. rewrite <- !mm_assoc, BU, mm_id_r. reflexivity. }
  split; [exact OU|]. split; [exact OD|]. split; [exact OE|]. split; [apply uni_mm; [now apply uni_dag|exact AU]|].
  apply (standard_ckm_meq (mm (dagm UuL) (U Fq))); [|exact CK]. now rewrite dag_mm, dag_dag.
Qed.

(* The result of _rotate_defaultbasis is a parameter point related to the given one by unitary
   flavour rotations, in which the mass matrices of the down quarks and charged leptons are
   diagonal with ascending masses and the one of the up quarks is V.diag(m), with a standard CKM matrix. *)
Theorem C63_default_basis : forall E msvd mtakfac rs rp (C : cdictR),
  bosonic_keys (e_keys0 E) -> smeft_point C -> external_ok msvd mtakfac rs rp C ->
  exists D U V mu md me, rotate_defaultbasis E msvd mtakfac rs rp C = Ok D /\
    smeft_point D /\ (forall k, dget op_fields k = None -> dget D k = None) /\
    (forall f, uni (U f)) /\ rotated_point U C D /\ default_form D V mu md me.
Proof.
  intros E msvd mtakfac rs rp C BK P X. destruct (rotation_done E msvd mtakfac rs rp C BK P X) as (D & U & UuL & ED & PD & KD & RD & DR).
  exists D, U, (mm (dagm (U Fq)) UuL). do 3 eexists. split; [exact ED|]. split; [exact PD|]. split; [exact KD|]. split; [|split; [exact RD|exact (default_form_of _ _ _ _ _ DR RD)]].
  destruct DR as [A1 A2 A3 _]. intros [| | | |]; [apply A2|apply A1|apply A2|apply A3|apply A3].
Qed.
Print Assumptions C63_default_basis.

(* ---------- basis independence ---------- *)
(* the phase of a flavour index: a common phase x for all quarks, c for the leptons *)
Definition slot_phase (x : CR) (c : nat -> CR) (t : slot) (i : nat) : CR :=
  let p := match fst t with Fl | Fe => c i | _ => x end in if snd t then kconj p else p.
Fixpoint op_phase (x : CR) (c : nat -> CR) (ts : list slot) (I : idx) : CR :=
  match ts, I with t :: ts', i :: I' => kmul (slot_phase x c t i) (op_phase x c ts' I') | _, _ => k1 end.
(* an operator made of quarks only, with as many conjugated fields as others *)
Definition quark (t : slot) : bool := match fst t with Fl | Fe => false | _ => true end.
Definition quarks_only (ts : list slot) : Prop := forallb quark ts = true /\ List.length (filter snd ts) = List.length (filter (fun t => negb (snd t)) ts).

Section Phase.
Local Open Scope K_scope.
Add Field KFph : (k_field CR).
Definition phase_matrix (x : CR) (c : nat -> CR) (f : field) : cmat := fun j i => delta j i * match f with Fl | Fe => c i | _ => x end.
Lemma rotf_phase x c t j i : rotf (phase_matrix x c) t j i = rotf (fun _ => delta) t j i * slot_phase x c t i.
Proof. destruct t as [f []]; unfold rotf, phase_matrix, slot_phase; cbn [fst snd]; rewrite ?kconj_mul; reflexivity. Qed.
Lemma rotprod_phase x c ts : forall J I, List.length J = List.length ts -> List.length I = List.length ts ->
  rotprod (phase_matrix x c) ts J I = rotprod (fun _ => delta) ts J I * op_phase x c ts I.
Proof.
  induction ts as [|t ts IH]; intros J I LJ LI; cbn [rotprod op_phase]; [ring|]. destruct J as [|j J]; [discriminate|]. destruct I as [|i I]; [discriminate|].
  injection LJ as LJ. injection LI as LI. rewrite IH, rotf_phase by assumption. ring.
Qed.
Lemma rot_phase x c ts F I : In I (idxs (List.length ts)) -> rot (phase_matrix x c) ts F I = op_phase x c ts I * F I.
Proof.
  intros HI. transitivity (op_phase x c ts I * rot (fun _ => delta) ts F I); [|now rewrite rot_id]. unfold rot. rewrite <- ksum_scale. apply ksum_ext. intros J HJ.
  rewrite rotprod_phase; [ring| |now apply in_idxs in HI]. fold (idxs (List.length ts)) in HJ. now apply in_idxs in HJ.
Qed.
Lemma mulU_mm (A B : field -> cmat) f j i : mulU A B f j i = mm (A f) (B f) j i.
Proof. unfold mulU, mm. cbn [seq map ksum fold_right]. ring. Qed.
Lemma mulU_phase (A : field -> cmat) x c f j i : (i < 3)%nat -> mulU A (phase_matrix x c) f j i = A f j i * match f with Fl | Fe => c i | _ => x end.
Proof.
  intros Hi. unfold mulU, phase_matrix. generalize (match f with Fl | Fe => c i | _ => x end). intros w.
  rewrite <- (ksum_delta (fun m => A f j m * w) i Hi). apply ksum_ext. intros m _. ring.
Qed.
Lemma ckm_ring (a b u0 u1 u2 v0 v1 v2 : CR) :
  kconj u0 * kconj a * (v0 * b) + kconj u1 * kconj a * (v1 * b) + kconj u2 * kconj a * (v2 * b) = kconj a * (kconj u0 * v0 + kconj u1 * v1 + kconj u2 * v2) * b.
Proof. ring. Qed.
Fixpoint kpow (x : CR) (n : nat) : CR := match n with O => k1 | Datatypes.S n => x * kpow x n end.
Lemma quark_pow x c ts : forallb quark ts = true -> forall I, List.length I = List.length ts ->
  op_phase x c ts I = kpow (kconj x) (List.length (filter snd ts)) * kpow x (List.length (filter (fun t => negb (snd t)) ts)).
Proof.
  induction ts as [|[f b] ts IH]; intros Q I L; cbn [op_phase filter snd List.length kpow]; [ring|]. destruct I as [|i I]; [discriminate|]. injection L as L.
  cbn [forallb] in Q. apply andb_prop in Q as [Q1 Q2]. rewrite (IH Q2 I L). unfold slot_phase, quark in *. cbn [fst snd] in *.
  destruct f; try discriminate Q1; destruct b; cbn [negb List.length kpow]; ring.
Qed.
Lemma kpow_unit x n : unit_phase x -> kpow (kconj x) n * kpow x n = k1.
Proof. unfold unit_phase. intros U. induction n as [|n IH]; cbn [kpow]; [ring|]. transitivity ((kconj x * x) * (kpow (kconj x) n * kpow x n)); [ring|]. rewrite U, IH. ring. Qed.
Lemma quark_phase x c ts : unit_phase x -> forallb quark ts = true -> List.length (filter snd ts) = List.length (filter (fun t => negb (snd t)) ts) ->
  forall I, List.length I = List.length ts -> op_phase x c ts I = k1.
Proof. intros U Q N I L. rewrite (quark_pow x c ts Q I L), N. now apply kpow_unit. Qed.
End Phase.

Lemma nondeg_svd M L m V L' m' V' : svd M L m V -> svd M L' m' V' -> 0 < m 0%nat -> m 0%nat < m 1%nat -> m 1%nat < m 2%nat ->
  0 < m' 0%nat /\ m' 0%nat < m' 1%nat /\ m' 1%nat < m' 2%nat.
Proof. intros S S' A B D. pose proof (svd_values _ _ _ _ _ _ _ S S') as E. rewrite <- !E by lia. auto. Qed.
(* decompositions of M and of the rotated A^dagger M B *)
Lemma svd_two M N A B L m V L1 m1 V1 : uni A -> uni B -> meq N (mm (mm (dagm A) M) B) -> nondegenerate M -> svd M L m V -> svd N L1 m1 V1 ->
  exists w, phases w /\ rephased (mm (dagm A) L) w L1 /\ rephased (mm (dagm B) V) w V1.
Proof.
  intros HA HB EN (L0 & m0 & V0 & S0 & P0 & P1 & P2) S S1. destruct (nondeg_svd _ _ _ _ _ _ _ S0 S P0 P1 P2) as (Q0 & Q1 & Q2).
  apply (svd_both N _ m _ _ m1 _); [|exact S1|exact Q0|exact Q1|exact Q2]. apply (svd_ext _ _ _ _ _ EN). now apply svd_rot.
Qed.
Lemma undo A L w L1 : uni A -> rephased (mm (dagm A) L) w L1 -> rephased L w (mm A L1).
Proof.
  intros [_ HA] E. pose proof (diag_cols _ _ _ E) as X. intros i j Hi Hj.
  assert (Y : meq (mm A L1) (mm L (fun i j => if Nat.eqb i j then w i else k0))) by (rewrite X, !mm_assoc, HA, mm_id_l; reflexivity).
  rewrite (Y i j Hi Hj). symmetry. refine (meq_at _ _ (diag_cols L w (fun i j => kmul (L i j) (w j)) _) i j Hi Hj). intros ? ? _ _. reflexivity.
Qed.

(* The result does not depend on the flavour basis in which the parameter point is given, except
   for one common phase of all quarks and one phase for each lepton generation. *)
Theorem C63_basis_independence : forall E msvd mtakfac rs rp (C C1 : cdictR) (W : field -> cmat),
  bosonic_keys (e_keys0 E) -> smeft_point C -> smeft_point C1 -> (forall f, uni (W f)) -> rotated_point W C C1 ->
  external_ok msvd mtakfac rs rp C -> external_ok msvd mtakfac rs rp C1 ->
  nondegenerate (mass C "Gu" "uphi") -> nondegenerate (mass C "Gd" "dphi") -> nondegenerate (mass C "Ge" "ephi") ->
  exists D D1 x c, rotate_defaultbasis E msvd mtakfac rs rp C = Ok D /\ rotate_defaultbasis E msvd mtakfac rs rp C1 = Ok D1 /\
    unit_phase x /\ phases c /\
    (forall k ts, dget op_fields k = Some ts -> forall I, In I (indices_of k) -> coef D1 k I = kmul (op_phase x c ts I) (coef D k I)) /\
    (forall k ts, dget op_fields k = Some ts -> quarks_only ts -> same k D1 D).
Proof.
  intros E msvd mtakfac rs rp C C1 W BK P P1 HW RW X X1 NU ND NE.
  destruct (rotation_done E msvd mtakfac rs rp C BK P X) as (D & U & UuL & ED & _ & _ & RD & [SU SD SE CK]).
  destruct (rotation_done E msvd mtakfac rs rp C1 BK P1 X1) as (D1 & U1 & UuL1 & ED1 & _ & _ & RD1 & [SU1 SD1 SE1 CK1]).
  destruct (svd_two _ _ (W Fq) (W Fu) _ _ _ _ _ _ (HW Fq) (HW Fu) (mass_rot W C C1 "Gu" "uphi" Fq Fu RW eq_refl eq_refl) NU SU SU1) as (a & PA & A1 & A2).
  destruct (svd_two _ _ (W Fq) (W Fd) _ _ _ _ _ _ (HW Fq) (HW Fd) (mass_rot W C C1 "Gd" "dphi" Fq Fd RW eq_refl eq_refl) ND SD SD1) as (b & PB & B1 & B2).
  destruct (svd_two _ _ (W Fl) (W Fe) _ _ _ _ _ _ (HW Fl) (HW Fe) (mass_rot W C C1 "Ge" "ephi" Fl Fe RW eq_refl eq_refl) NE SE SE1) as (c & PC & C1' & C2').
  (* the CKM matrices *)
  destruct (ckm_rigid (mm (dagm UuL) (U Fq)) (mm (dagm UuL1) (U1 Fq)) a b CK CK1 PA PB) as (x & UX & XX).
  { assert (M : meq (mm (dagm UuL1) (U1 Fq)) (mm (dagm (mm (W Fq) UuL1)) (mm (W Fq) (U1 Fq)))).
    { rewrite dag_mm, !mm_assoc. rewrite <- (mm_assoc (dagm UuL1)). destruct (HW Fq) as [H1 _]. rewrite H1, mm_id_r. reflexivity. }
    intros i j Hi Hj. rewrite (M i j Hi Hj). pose proof (undo _ _ _ _ (HW Fq) A1) as F1. pose proof (undo _ _ _ _ (HW Fq) B1) as F2.
    unfold mm at 1. unfold dagm. rewrite !F1, !F2 by lia. rewrite !kconj_mul. unfold mm, dagm. apply ckm_ring. }
  assert (UU : forall f j i, (j < 3)%nat -> (i < 3)%nat -> mulU W U1 f j i = mulU U (phase_matrix x c) f j i).
  { intros f j i Hj Hi.
    assert (L : mulU W U1 f j i = mm (W f) (U1 f) j i) by apply mulU_mm.
    assert (R : forall w : CR, w = match f with Fl | Fe => c i | _ => x end -> kmul (U f j i) w = mulU U (phase_matrix x c) f j i).
    { intros w ->. symmetry. now apply mulU_phase. }
    rewrite L. destruct f; cbn in R.
    - rewrite (undo _ _ _ _ (HW Fq) B1 j i Hj Hi). apply R. apply XX, Hi.
    - rewrite (undo _ _ _ _ (HW Fu) A2 j i Hj Hi). apply R. apply XX, Hi.
    - rewrite (undo _ _ _ _ (HW Fd) B2 j i Hj Hi). apply R. apply XX, Hi.
    - rewrite (undo _ _ _ _ (HW Fl) C1' j i Hj Hi). now apply R.
    - rewrite (undo _ _ _ _ (HW Fe) C2' j i Hj Hi). now apply R. }
  assert (V : forall k ts, dget op_fields k = Some ts -> forall I, In I (indices_of k) -> coef D1 k I = kmul (op_phase x c ts I) (coef D k I)).
  { intros k ts F I HI. rewrite (RD1 k ts F I HI). pose proof (indices_of_idxs k ts F) as IX. rewrite IX in HI.
    transitivity (rot U1 ts (rot W ts (coef C k)) I). { apply rot_ext. intros J HJ. apply (RW k ts F). now rewrite IX. }
    rewrite rot_mul by (now apply in_idxs in HI). rewrite (rot_extU _ _ ts _ I UU) by (intros y Hy; apply in_idxs in HI as [_ HI]; now apply HI).
    rewrite <- rot_mul by (now apply in_idxs in HI). rewrite rot_phase by exact HI. f_equal. symmetry. apply (RD k ts F). now rewrite IX. }
  exists D, D1, x, c. split; [exact ED|]. split; [exact ED1|]. split; [exact UX|]. split; [exact PC|]. split; [exact V|].
  intros k ts F (Q1 & Q2) I HI. rewrite (V k ts F I HI). rewrite (indices_of_idxs k ts F) in HI. apply in_idxs in HI as [LI _].
  rewrite (quark_phase x c ts UX Q1 Q2 I LI). apply kmul_1_l.
Qed.
Print Assumptions C63_basis_independence.

(* A parameter point that is already in the default form is returned unchanged, except for one
   common phase of all quarks and one phase for each lepton generation.  In particular the
   rotation of its own result does nothing else. *)
Theorem C63_default_form_kept : forall E msvd mtakfac rs rp (C : cdictR) V mu md me,
  bosonic_keys (e_keys0 E) -> smeft_point C -> external_ok msvd mtakfac rs rp C -> default_form C V mu md me ->
  0 < mu 0%nat -> mu 0%nat < mu 1%nat -> mu 1%nat < mu 2%nat -> 0 < md 0%nat -> md 0%nat < md 1%nat -> md 1%nat < md 2%nat ->
  0 < me 0%nat -> me 0%nat < me 1%nat -> me 1%nat < me 2%nat ->
  exists D x c, rotate_defaultbasis E msvd mtakfac rs rp C = Ok D /\ smeft_point D /\ (forall k, dget op_fields k = None -> dget D k = None) /\
    unit_phase x /\ phases c /\
    (forall k ts, dget op_fields k = Some ts -> forall I, In I (indices_of k) -> coef D k I = kmul (op_phase x c ts I) (coef C k I)) /\
    (forall k ts, dget op_fields k = Some ts -> quarks_only ts -> same k D C).
Proof.
  intros E msvd mtakfac rs rp C V mu md me BK P X (FD & FE & FU & _ & _ & _ & UV & CKV) U0 U1 U2 D0 D1 D2 E0 E1 E2.
  destruct (rotation_done E msvd mtakfac rs rp C BK P X) as (D & U & UuL & ED & PD & KD & RD & [SU SD SE CK]).
  assert (XU : svd (mass C "Gu" "uphi") V mu idm) by (apply (svd_ext _ _ _ _ _ FU); apply svd_left; [exact UV|lra..]).
  assert (XD : svd (mass C "Gd" "dphi") idm md idm) by (apply (svd_ext _ _ _ _ _ FD); apply svd_id; lra).
  assert (XE : svd (mass C "Ge" "ephi") idm me idm) by (apply (svd_ext _ _ _ _ _ FE); apply svd_id; lra).
  destruct (svd_both _ _ _ _ _ _ _ XU SU U0 U1 U2) as (a & PA & A1 & A2).
  destruct (svd_both _ _ _ _ _ _ _ XD SD D0 D1 D2) as (b & PB & B1 & B2).
  destruct (svd_both _ _ _ _ _ _ _ XE SE E0 E1 E2) as (c & PC & C1' & C2').
  destruct (ckm_rigid (dagm V) (mm (dagm UuL) (U Fq)) a b CKV CK PA PB) as (x & UX & XX).
  { assert (M : meq (dagm V) (mm (dagm V) idm)) by (now rewrite mm_id_r).
    intros i j Hi Hj. rewrite (meq_at _ _ M i j Hi Hj). unfold mm at 1. unfold dagm. rewrite !A1, !B1 by lia. rewrite !kconj_mul. unfold mm, dagm. apply ckm_ring. }
  assert (ID : forall i j w, kmul (idm i j) w = kmul (delta i j) w :> CR).
  { intros i j w. unfold idm, diagm, delta. destruct (i =? j)%nat; reflexivity. }
  assert (UU : forall f j i, (j < 3)%nat -> (i < 3)%nat -> U f j i = phase_matrix x c f j i).
  { intros f j i Hj Hi. unfold phase_matrix. destruct f.
    - rewrite (B1 j i Hj Hi), ID. f_equal. apply XX, Hi.
    - rewrite (A2 j i Hj Hi), ID. f_equal. apply XX, Hi.
    - rewrite (B2 j i Hj Hi), ID. f_equal. apply XX, Hi.
    - now rewrite (C1' j i Hj Hi), ID.
    - now rewrite (C2' j i Hj Hi), ID. }
  assert (VV : forall k ts, dget op_fields k = Some ts -> forall I, In I (indices_of k) -> coef D k I = kmul (op_phase x c ts I) (coef C k I)).
  { intros k ts F I HI. rewrite (RD k ts F I HI). rewrite (indices_of_idxs k ts F) in HI.
    rewrite (rot_extU _ _ ts _ I UU) by (intros y Hy; apply in_idxs in HI as [_ HI]; now apply HI). now apply rot_phase. }
  exists D, x, c. split; [exact ED|]. split; [exact PD|]. split; [exact KD|]. split; [exact UX|]. split; [exact PC|]. split; [exact VV|].
  intros k ts F (Q1 & Q2) I HI. rewrite (VV k ts F I HI). rewrite (indices_of_idxs k ts F) in HI. apply in_idxs in HI as [LI _].
  rewrite (quark_phase x c ts UX Q1 Q2 I LI). apply kmul_1_l.
Qed.
Print Assumptions C63_default_form_kept.

(* ---------- a concrete case ---------- *)
(* three angles with sines 3/5 and the phase pi/2 *)
Definition ex63K : cmat := fun i j => match i, j with
  | 0%nat, 0%nat => rc (16 / 25) | 0%nat, 1%nat => rc (12 / 25) | 0%nat, 2%nat => (0, - 3 / 5)
  | 1%nat, 0%nat => (- 12 / 25, - 36 / 125) | 1%nat, 1%nat => (16 / 25, - 27 / 125) | 1%nat, 2%nat => rc (12 / 25)
  | 2%nat, 0%nat => (9 / 25, - 48 / 125) | 2%nat, 1%nat => (- 12 / 25, - 36 / 125) | 2%nat, 2%nat => rc (16 / 25) | _, _ => rc 0 end.
(* a rotation of the right-handed leptons of the first two generations *)
Definition ex63R : cmat := fun i j => match i, j with
  | 0%nat, 0%nat => rc (4 / 5) | 0%nat, 1%nat => rc (3 / 5) | 1%nat, 0%nat => rc (- 3 / 5) | 1%nat, 1%nat => rc (4 / 5) | 2%nat, 2%nat => rc 1 | _, _ => rc 0 end.
Definition ex63m : nat -> R := fun i => INR (i + 1).
Definition zero_mat : cmat := fun _ _ => rc 0.
Definition ex63v (k : string) (ts : list slot) : cval CR :=
  if String.eqb k "Gu" then arr2 (yuk v_default (mm (dagm ex63K) (diagm ex63m)) zero_mat)
  else if String.eqb k "Gd" then arr2 (yuk v_default (diagm ex63m) zero_mat)
  else if String.eqb k "Ge" then arr2 (yuk v_default (diagm ex63m) zero_mat)
  else match ts with [] => CNum (rc 1) | _ :: _ => CArr (map (fun _ => 3%nat) ts) (fun _ => rc 0) end.
Definition ex63 : cdictR := map (fun kt => (fst kt, ex63v (fst kt) (snd kt))) op_fields.
Definition ex63W (f : field) : cmat := match f with Fe => ex63R | _ => idm end.
Definition ex63_msvd (M : cmat) : cmat * (nat -> R) * cmat :=
  if cx_eqb (M 0%nat 1%nat) (rc 0) then (idm, ex63m, idm) else if cx_eqb (M 2%nat 0%nat) (rc 0) then (idm, ex63m, dagm ex63R) else (dagm ex63K, ex63m, idm).
Lemma v_default_pos : 0 < v_default.
Proof. unfold v_default. lra. Qed.
Lemma ex63_ascending : 0 < ex63m 0%nat /\ ex63m 0%nat < ex63m 1%nat /\ ex63m 1%nat < ex63m 2%nat.
Proof. unfold ex63m. cbn [INR Nat.add]. lra. Qed.
Lemma ex63K_uni : uni ex63K.
Proof. split; split; intros [|[|[|i]]] [|[|[|j]]] Hi Hj; try lia; apply injective_projections; cbn; field. Qed.
Lemma ex63R_uni : uni ex63R.
Proof. split; split; intros [|[|[|i]]] [|[|[|j]]] Hi Hj; try lia; apply injective_projections; cbn; field. Qed.
Lemma ex63K_standard : standard_ckm ex63K.
Proof.
  exists (3/5), (4/5), (3/5), (4/5), (3/5), (4/5), (0, 1).
  repeat (split; [lra|]). repeat split; apply injective_projections; cbn; field.
Qed.
Lemma ex63_point : smeft_point ex63.
Proof.
  assert (F : forall k ts, In (k, ts) op_fields -> In (k, ex63v k ts) ex63).
  { intros k ts H. unfold ex63. apply in_map_iff. exists (k, ts). split; [reflexivity|exact H]. }
  assert (W : wfdict ex63) by (apply knodup_NoDup; reflexivity).
  intros k ts T. pose proof (F k ts (dget_In _ _ _ T)) as H. exists (ex63v k ts). split; [apply In_dget; [exact W|exact H]|]. unfold ex63v.
  destruct (String.eqb_spec k "Gu") as [->|_]; [injection T as <-; split; [reflexivity|discriminate]|].
  destruct (String.eqb_spec k "Gd") as [->|_]; [injection T as <-; split; [reflexivity|discriminate]|].
  destruct (String.eqb_spec k "Ge") as [->|_]; [injection T as <-; split; [reflexivity|discriminate]|].
  destruct ts; [split; [reflexivity|eauto]|split; [reflexivity|discriminate]].
Qed.
Lemma ex63_mass G M : (exists W, In (G, W) [("Gu", "uphi"); ("Gd", "dphi"); ("Ge", "ephi")] /\ getm ex63 G = Ok (yuk v_default M zero_mat)) ->
  forall W, In (G, W) [("Gu", "uphi"); ("Gd", "dphi"); ("Ge", "ephi")] -> meq (mass ex63 G W) M.
Proof.
  intros (_ & _ & EG) W IN. assert (EW : getm ex63 W = Ok zero_mat) by (cbn [In] in IN; repeat (destruct IN as [IN|IN]; [injection IN as <- <-; reflexivity|]); destruct IN).
  rewrite <- (mass_massm ex63 G W _ _ EG EW). apply mass_yuk; [exact v_default_pos|reflexivity].
Qed.
Lemma ex63_mu : meq (mass ex63 "Gu" "uphi") (mm (dagm ex63K) (diagm ex63m)).
Proof. apply ex63_mass; [exists "uphi"; split; [cbn; auto|reflexivity]|cbn; auto]. Qed.
Lemma ex63_md : meq (mass ex63 "Gd" "dphi") (diagm ex63m).
Proof. apply ex63_mass; [exists "dphi"; split; [cbn; auto|reflexivity]|cbn; auto]. Qed.
Lemma ex63_me : meq (mass ex63 "Ge" "ephi") (diagm ex63m).
Proof. apply ex63_mass; [exists "ephi"; split; [cbn; auto|reflexivity]|cbn; auto]. Qed.
Lemma ex63_diag M : meq M (diagm ex63m) -> ex63_msvd M = (idm, ex63m, idm).
Proof.
  intros E. unfold ex63_msvd. rewrite (meq_at _ _ E 0%nat 1%nat) by lia. cbn [diagm Nat.eqb]. destruct (cx_eqb_spec (rc 0) (rc 0)) as [_|N]; [reflexivity|congruence].
Qed.
Lemma ex63_up M : meq M (mm (dagm ex63K) (diagm ex63m)) -> ex63_msvd M = (dagm ex63K, ex63m, idm).
Proof.
  intros E. unfold ex63_msvd. rewrite (meq_at _ _ E 0%nat 1%nat), (meq_at _ _ E 2%nat 0%nat) by lia. rewrite !mm_diag_r by lia.
  match goal with |- context [cx_eqb ?z (rc 0)] => destruct (cx_eqb_spec z (rc 0)) as [F|_] end.
  { exfalso. apply (f_equal fst) in F. cbn in F. unfold ex63m in F. cbn in F. lra. }
  match goal with |- context [cx_eqb ?z (rc 0)] => destruct (cx_eqb_spec z (rc 0)) as [F|_] end; [|reflexivity].
  exfalso. apply (f_equal snd) in F. cbn in F. unfold ex63m in F. cbn in F. lra.
Qed.
Lemma ex63_rotated M : meq M (mm (diagm ex63m) ex63R) -> ex63_msvd M = (idm, ex63m, dagm ex63R).
Proof.
  intros E. unfold ex63_msvd. rewrite (meq_at _ _ E 0%nat 1%nat), (meq_at _ _ E 2%nat 0%nat) by lia. rewrite !mm_diag_l by lia.
  match goal with |- context [cx_eqb ?z (rc 0)] => destruct (cx_eqb_spec z (rc 0)) as [F|_] end.
  { exfalso. apply (f_equal fst) in F. cbn in F. unfold ex63m in F. cbn in F. lra. }
  match goal with |- context [cx_eqb ?z (rc 0)] => destruct (cx_eqb_spec z (rc 0)) as [_|F] end; [reflexivity|].
  exfalso. apply F. apply injective_projections; cbn; ring.
Qed.
Lemma ex63_external C M : meq (mass C "Gu" "uphi") (mm (dagm ex63K) (diagm ex63m)) -> meq (mass C "Gd" "dphi") (diagm ex63m) ->
  meq (mass C "Ge" "ephi") M -> svd M (fst (fst (ex63_msvd M))) (snd (fst (ex63_msvd M))) (snd (ex63_msvd M)) -> ex63_msvd (mass C "Ge" "ephi") = ex63_msvd M ->
  external_ok ex63_msvd (fun _ => (idm, fun _ => 0)) (fun x => x) (fun x => x) C.
Proof.
  intros EU EDD EE SM Q. pose proof ex63_ascending as (A0 & A1 & A2). unfold external_ok, msvd_at. cbn zeta. rewrite Q, (ex63_up _ EU), (ex63_diag _ EDD). cbn [fst snd].
  split; [apply (svd_ext _ _ _ _ _ EU), svd_left; [apply uni_dag, ex63K_uni|lra..]|].
  split; [apply (svd_ext _ _ _ _ _ EDD), svd_id; lra|]. split; [apply (svd_ext _ _ _ _ _ EE), SM|].
  assert (ON : phases (fun _ => k1)) by (intros i _; unfold unit_phase; apply injective_projections; cbn; ring).
  assert (RO : forall A, rephased A (fun _ => k1) A) by (intros A i j _ _; symmetry; apply kmul_1_r).
  split.
  - exists (fun _ => k1), (fun _ => k1). do 4 eexists. split; [reflexivity|]. split; [exact ON|]. split; [exact ON|]. split; [apply RO|]. split; [apply RO|]. split; [apply RO|]. split; [apply RO|].
    apply (standard_ckm_meq ex63K); [|exact ex63K_standard]. now rewrite dag_dag, mm_id_r.
  - exists (fun _ => k1). do 3 eexists. split; [reflexivity|]. split; [exact ON|]. split; apply RO.
Qed.
Lemma ex63_ok : external_ok ex63_msvd (fun _ => (idm, fun _ => 0)) (fun x => x) (fun x => x) ex63.
Proof.
  pose proof ex63_ascending as (A0 & A1 & A2). apply (ex63_external _ (diagm ex63m)); [exact ex63_mu|exact ex63_md|exact ex63_me| |].
  - rewrite ex63_diag by reflexivity. cbn [fst snd]. apply svd_id; lra.
  - rewrite (ex63_diag _ ex63_me). symmetry. apply ex63_diag. reflexivity.
Qed.
Example C63_case : smeft_point ex63 /\ external_ok ex63_msvd (fun _ => (idm, fun _ => 0)) (fun x => x) (fun x => x) ex63 /\
  default_form ex63 (dagm ex63K) ex63m ex63m ex63m /\ 0 < ex63m 0%nat /\ ex63m 0%nat < ex63m 1%nat /\ ex63m 1%nat < ex63m 2%nat.
Proof.
  pose proof ex63_ascending as (A0 & A1 & A2). assert (AS : ascending ex63m) by (unfold ascending; lra).
  split; [exact ex63_point|]. split; [exact ex63_ok|]. split; [|auto]. split; [exact ex63_md|]. split; [exact ex63_me|]. split; [exact ex63_mu|].
  split; [exact AS|]. split; [exact AS|]. split; [exact AS|]. split; [apply uni_dag, ex63K_uni|].
  apply (standard_ckm_meq ex63K); [now rewrite dag_dag|exact ex63K_standard].
Qed.
(* the same point in another flavour basis *)
Example C63_two_bases : exists C1, smeft_point C1 /\ (forall f, uni (ex63W f)) /\ rotated_point ex63W ex63 C1 /\
  external_ok ex63_msvd (fun _ => (idm, fun _ => 0)) (fun x => x) (fun x => x) C1 /\
  nondegenerate (mass ex63 "Gu" "uphi") /\ nondegenerate (mass ex63 "Gd" "dphi") /\ nondegenerate (mass ex63 "Ge" "ephi") /\
  ~ meq (mass C1 "Ge" "ephi") (mass ex63 "Ge" "ephi").
Proof.
  pose proof ex63_ascending as (A0 & A1 & A2).
  destruct (C23_parameter_point CR (fun f => arr2 (ex63W f)) bosonic ex63 (fun k => iff_refl _) (fun f => mat3_arr2 _) ex63_point) as (C1 & _ & P1 & _ & R1).
  assert (RW : rotated_point ex63W ex63 C1).
  { intros k ts F I HI. rewrite (R1 k ts F I HI). rewrite (indices_of_idxs k ts F) in HI. apply rot_extU; [|intros x Hx; apply in_idxs in HI as [_ HI]; now apply HI].
    intros f i j _ _. reflexivity. }
  assert (MI : forall M, meq (mm (mm (dagm idm) M) idm) M) by (intros M; rewrite dag_id, mm_id_l, mm_id_r; reflexivity).
  assert (MU : meq (mass C1 "Gu" "uphi") (mm (dagm ex63K) (diagm ex63m))).
  { rewrite (mass_rot ex63W ex63 C1 "Gu" "uphi" Fq Fu RW eq_refl eq_refl). cbn [ex63W]. rewrite MI. exact ex63_mu. }
  assert (MD : meq (mass C1 "Gd" "dphi") (diagm ex63m)).
  { rewrite (mass_rot ex63W ex63 C1 "Gd" "dphi" Fq Fd RW eq_refl eq_refl). cbn [ex63W]. rewrite MI. exact ex63_md. }
  assert (ME : meq (mass C1 "Ge" "ephi") (mm (diagm ex63m) ex63R)).
  { rewrite (mass_rot ex63W ex63 C1 "Ge" "ephi" Fl Fe RW eq_refl eq_refl). cbn [ex63W]. rewrite dag_id, mm_id_l, ex63_me. reflexivity. }
  exists C1. split; [exact P1|]. split; [intros [| | | |]; try apply uni_id; exact ex63R_uni|]. split; [exact RW|]. split.
  { apply (ex63_external _ (mm (diagm ex63m) ex63R)); [exact MU|exact MD|exact ME| |].
    - rewrite ex63_rotated by reflexivity. cbn [fst snd]. split; [apply uni_id|]. split; [apply uni_dag, ex63R_uni|]. split; [now rewrite mm_id_l, dag_dag|lra].
    - rewrite (ex63_rotated _ ME). symmetry. apply ex63_rotated. reflexivity. }
  split; [exists (dagm ex63K), ex63m, idm; split; [apply (svd_ext _ _ _ _ _ ex63_mu), svd_left; [apply uni_dag, ex63K_uni|lra..]|lra]|].
  split; [exists idm, ex63m, idm; split; [apply (svd_ext _ _ _ _ _ ex63_md), svd_id; lra|lra]|].
  split; [exists idm, ex63m, idm; split; [apply (svd_ext _ _ _ _ _ ex63_me), svd_id; lra|lra]|].
  rewrite ME, ex63_me. intros F. apply (meq_at _ _) with (i := 0%nat) (j := 1%nat) in F; [|lia..]. rewrite mm_diag_l in F by lia.
  apply (f_equal fst) in F. cbn in F. unfold ex63m in F. cbn in F. lra.
Qed.
