(* Round trips between non-redundant coefficients and symmetrized arrays. *)
From Coq Require Import List Bool ZArith QArith Arith Lia String Ascii.
From Verif Require Import PyBase Num Lin SymModel SymTables SymClass SymSpec SymProofs SymCheck SymFacts EftModel EftSpec EftProofs EftLabels EftRound.
Import ListNotations.
Local Open Scope string_scope.
Local Open Scope list_scope.
Opaque S SN U symmetrize symmetrize_nonred unscale exec.

Lemma gen_ok_small s : forallb gen_ok s = true -> small_shape s = true.
Proof.
  unfold small_shape. rewrite !forallb_forall. intros H n Hn. specialize (H n Hn). unfold gen_ok in H.
  apply orb_prop in H as [H|H]; apply Nat.eqb_eq in H as ->; reflexivity.
Qed.
Section R.
Context {K : StarField}.
Local Open Scope K_scope.
Add Field KF5 : (k_field K).
Notation arr := (idx -> K).
Notation cdict := (dict string (cval K)).
Notation sym_ := (symmetrize (@k_alg K)).
Notation nonred_ := (symmetrize_nonred (@k_alg K)).
Notation unscale_ := (unscale (@k_alg K)).
Variable E : eft.
Variable sp : list opspec.
Hypothesis OK : eft_ok E sp.

Lemma op_fine n c s : In (n, (c, s)) sp -> c <> Cl0 -> fine E s /\ full s = full_shape c.
Proof.
  intros H N. pose proof (ok_shapes E sp OK n c s H) as G. pose proof (shape_ok_rank c s G) as L.
  split; [|unfold full, full_shape; now rewrite L].
  split; [now apply (shape_ok_gen c)|]. split; [rewrite L; destruct c; simpl; auto; congruence|].
  intros P. exact (ok_pad E sp OK P n c s H).
Qed.
Lemma op_unique n c s c' s' : In (n, (c, s)) sp -> In (n, (c', s')) sp -> c = c' /\ s = s'.
Proof.
  intros A B. pose proof (ok_names E sp OK) as ND.
  enough (EQ : (c, s) = (c', s')) by (injection EQ; auto).
  assert (WF : @wfdict string (cls * list nat) sp) by exact ND.
  apply (In_dget sp) in A; [|exact WF]. apply (In_dget sp) in B; [|exact WF]. congruence.
Qed.
Lemma op_arr n c s (v : cval K) : In (n, (c, s)) sp -> c <> Cl0 -> has_shape (op_shape c s) v -> exists a, v = CArr s a.
Proof. intros H N HS. destruct c; try congruence; destruct v as [z|t a]; simpl in HS; try contradiction; subst t; eauto. Qed.
Lemma op_num n s (v : cval K) : In (n, (Cl0, s)) sp -> has_shape (op_shape Cl0 s) v -> exists z, v = CNum z.
Proof. intros H HS. destruct v as [z|t a]; simpl in HS; try contradiction; eauto. Qed.

(* result of applying f to the value of an operator of class c and shape s *)
Definition applied (f : cls -> arr -> arr) (c : cls) (s : list nat) (v w : cval K) : Prop :=
  match v with
  | CNum z => w = CNum (f Cl0 (fun _ => z) [])
  | CArr _ a => exists b, w = CArr s b /\ forall I, in_shape s I = true -> b I = f c (padded s a) I
  end.
Lemma in_full c s I : shape_ok c s = true -> in_shape s I = true -> in_shape (full_shape c) I = true.
Proof. intros H HI. apply indices_full, (in_shape_indices c s); assumption. Qed.
Lemma symm_op f T n c s v : computed f T -> (forall a, f Cl1 a = a) -> (forall a, f Cl3 a = a) ->
  In (n, (c, s)) sp -> has_shape (op_shape c s) v ->
  exists v1 v2 v3, pad1 E v = Ok (Some v1) /\ symm_val E f n v1 = Ok (Some v2) /\ unpad1 E n v2 = Ok (Some v3) /\
    applied f c s v v3.
Proof.
  intros CF F1 F3 H HS. pose proof (ok_class E sp OK n c s H) as CL. pose proof (ok_shape E sp OK n c s H) as SH.
  pose proof (ok_shapes E sp OK n c s H) as SO.
  assert (D : c = Cl0 \/ c <> Cl0) by (destruct c; ((now left)||(right; discriminate))). destruct D as [->|N0].
  - destruct (op_num n s v H HS) as (z & ->). exists (CNum z), (CNum (f Cl0 (fun _ => z) [])), (CNum (f Cl0 (fun _ => z) [])).
    split; [apply pad1_num|]. split; [unfold symm_val; rewrite CL; reflexivity|].
    split; [apply unpad1_num; rewrite SH; discriminate|]. reflexivity.
  - destruct (op_arr n c s v H N0 HS) as (a & ->). destruct (op_fine n c s H N0) as [FI FU].
    destruct (pad1_arr E s a FI) as (a' & P1 & P2). rewrite FU in P1, P2.
    assert (SH' : dget (e_shape E) n = Some (Some s)) by (rewrite SH; destruct c; try reflexivity; congruence).
    assert (EX : forall I, in_shape s I = true -> f c a' I = f c (padded s a) I).
    { intros I HI. apply (computed_ext f T c a' (padded s a) I CF); [now apply (in_shape_indices c s)|].
      intros J HJ. apply P2. now apply indices_full. }
    assert (GO : forall b, (forall I, in_shape s I = true -> b I = f c (padded s a) I) ->
       symm_val E f n (CArr (full_shape c) a') = Ok (Some (CArr (full_shape c) b)) ->
       exists v1 v2 v3, pad1 E (CArr s a) = Ok (Some v1) /\ symm_val E f n v1 = Ok (Some v2) /\ unpad1 E n v2 = Ok (Some v3) /\
         applied f c s (CArr s a) v3).
    { intros b B S1. exists (CArr (full_shape c) a'), (CArr (full_shape c) b), (CArr s b).
      split; [exact P1|]. split; [exact S1|]. split; [rewrite <- FU; now apply unpad1_arr|]. exists b. auto. }
    assert (D : c = Cl1 \/ c = Cl3 \/ (c <> Cl1 /\ c <> Cl3)) by (destruct c; ((now left)||(right; now left)||(right; right; split; discriminate))).
    destruct D as [->|[->|[N1 N3]]].
    + apply (GO a'); [|unfold symm_val; now rewrite CL]. intros I HI. rewrite F1. apply P2. now apply (in_full Cl1 s).
    + apply (GO a'); [|unfold symm_val; now rewrite CL]. intros I HI. rewrite F3. apply P2. now apply (in_full Cl3 s).
    + apply (GO (f c a')); [exact EX|]. unfold symm_val. rewrite CL.
      assert (KE : keqb (full_shape c) (full_shape c) = true) by apply keqb_refl.
      destruct c; try congruence; now rewrite KE.
Qed.
(* dictionaries over the operators of the basis *)
Definition well_shaped (C : cdict) : Prop :=
  wfdict C /\ forall n v, dget C n = Some v -> exists c s, In (n, (c, s)) sp /\ has_shape (op_shape c s) v.
Lemma symmetrize_C_spec f T (C : cdict) : computed f T -> (forall a, f Cl1 a = a) -> (forall a, f Cl3 a = a) ->
  well_shaped C ->
  exists C', symmetrize_C E f C = Ok C' /\ dkeys C' = dkeys C /\
    (forall n c s v, In (n, (c, s)) sp -> dget C n = Some v -> exists w, dget C' n = Some w /\ applied f c s v w).
Proof.
  intros CF F1 F3 [WF WS].
  assert (OP : forall k v, dget C k = Some v -> exists c s, In (k, (c, s)) sp /\
     exists v1 v2 v3, pad1 E v = Ok (Some v1) /\ symm_val E f k v1 = Ok (Some v2) /\ unpad1 E k v2 = Ok (Some v3) /\ applied f c s v v3).
  { intros k v H. destruct (WS k v H) as (c & s & HI & HS). exists c, s. split; [exact HI|]. now apply (symm_op f T). }
  unfold symmetrize_C. rewrite pad_C_trav.
  destruct (dtrav_total (fun _ => pad1 E) C) as (C1 & E1 & K1 & D1).
  { intros k v H. apply In_dget in H; [|exact WF]. destruct (OP k v H) as (c & s & _ & v1 & v2 & v3 & A & _). eauto. }
  rewrite E1. cbn [bind].
  assert (WF1 : wfdict C1) by (unfold wfdict; rewrite K1; exact WF).
  assert (B1 : forall k v, dget C1 k = Some v -> exists v0, dget C k = Some v0 /\ pad1 E v0 = Ok (Some v)).
  { intros k v H. destruct (dget C k) as [v0|] eqn:E0.
    - destruct (D1 k v0 E0) as (v' & A & B). exists v0. split; [reflexivity|]. congruence.
    - rewrite (dkeys_None C C1 k K1 E0) in H. discriminate. }
  destruct (dtrav_total (symm_val E f) C1) as (C2 & E2 & K2 & D2).
  { intros k v H. apply In_dget in H; [|exact WF1]. destruct (B1 k v H) as (v0 & X & Y).
    destruct (OP k v0 X) as (c & s & _ & v1 & v2 & v3 & A & B & _). exists v2. congruence. }
  rewrite E2. cbn [bind]. rewrite unpad_C_trav.
  assert (WF2 : wfdict C2) by (unfold wfdict; rewrite K2; exact WF1).
  assert (B2 : forall k v, dget C2 k = Some v -> exists v0, dget C1 k = Some v0 /\ symm_val E f k v0 = Ok (Some v)).
  { intros k v H. destruct (dget C1 k) as [v0|] eqn:E0.
    - destruct (D2 k v0 E0) as (v' & A & B). exists v0. split; [reflexivity|]. congruence.
    - rewrite (dkeys_None C1 C2 k K2 E0) in H. discriminate. }
  destruct (dtrav_total (unpad1 E) C2) as (C3 & E3 & K3 & D3).
  { intros k v H. apply In_dget in H; [|exact WF2]. destruct (B2 k v H) as (w1 & X & Y). destruct (B1 k w1 X) as (w0 & X0 & Y0).
    destruct (OP k w0 X0) as (c & s & _ & v1 & v2 & v3 & A & B & D & _). exists v3.
    assert (v1 = w1) by congruence. subst v1. assert (v2 = v) by congruence. now subst v2. }
  exists C3. split; [exact E3|]. split; [congruence|].
  intros n c s v H Hv. destruct (OP n v Hv) as (c' & s' & H' & v1 & v2 & v3 & A & B & D & AP).
  destruct (op_unique n c s c' s' H H') as [<- <-].
  destruct (D1 n v Hv) as (u1 & U1 & G1). assert (u1 = v1) by congruence. subst u1.
  destruct (D2 n v1 G1) as (u2 & U2 & G2). assert (u2 = v2) by congruence. subst u2.
  destruct (D3 n v2 G2) as (u3 & U3 & G3). assert (u3 = v3) by congruence. subst u3.
  exists v3. auto.
Qed.

(* ---------- unscale_dict ---------- *)
(* keys of the basis, or further keys known to the class (SM parameters) *)
Definition known_shaped (C : cdict) : Prop :=
  wfdict C /\ forall n v, dget C n = Some v ->
    (exists c s, In (n, (c, s)) sp /\ has_shape (op_shape c s) v) \/
    (~ In n (map fst sp) /\ no_us n /\
     exists sh, dget (e_shape E) n = Some sh /\ has_shape sh v /\ match sh with None => True | Some s => fine E s end).
Lemma known_shape C n v : known_shaped C -> dget C n = Some v ->
  no_us n /\ exists sh, dget (e_shape E) n = Some sh /\ has_shape sh v /\ match sh with None => True | Some s => fine E s end.
Proof.
  intros [WF H] Hv. destruct (H n v Hv) as [(c & s & HI & HS)|(NI & N & X)]; [|split; assumption].
  split; [exact (ok_no_us E sp OK n c s HI)|]. exists (op_shape c s). split; [exact (ok_shape E sp OK n c s HI)|]. split; [exact HS|].
  assert (D : c = Cl0 \/ c <> Cl0) by (destruct c; ((now left)||(right; discriminate))). destruct D as [->|N0]; [exact Logic.I|].
  destruct (op_fine n c s HI N0) as [F _]. destruct c; try exact F. congruence.
Qed.
Definition unscaled (n : string) (v w : cval K) : Prop :=
  match v with
  | CNum z => w = CNum z
  | CArr s a => exists b, w = CArr s b /\
      forall c, In (n, (c, s)) sp -> forall I, in_shape s I = true -> b I = unscale_ c (padded s a) I
  end.
Lemma unscale_op n v sh : dget (e_shape E) n = Some sh -> has_shape sh v -> match sh with None => True | Some s => fine E s end ->
  exists v1 v2 v3, pad1 E v = Ok (Some v1) /\ unscale_val E n v1 = Ok (Some v2) /\ unpad1 E n v2 = Ok (Some v3) /\ unscaled n v v3.
Proof.
  intros SH HS FI.
  assert (KN : forall v1 : cval K, unscale_val E n v1 = match v1, class_of E n with
     | CArr s a, Some c => Ok (Some (CArr s (unscale k_alg c a))) | _, _ => Ok (Some v1) end).
  { intros v1. unfold unscale_val. rewrite dmem_dget, SH. reflexivity. }
  destruct v as [z|s a].
  - exists (CNum z), (CNum z), (CNum z). split; [apply pad1_num|]. split; [now rewrite KN|].
    split; [apply unpad1_num; congruence|reflexivity].
  - destruct sh as [s'|]; [|contradiction]. simpl in HS. subst s'.
    destruct (pad1_arr E s a FI) as (a' & P1 & P2).
    set (b := match class_of E n with Some c => unscale_ c a' | None => a' end).
    exists (CArr (full s) a'), (CArr (full s) b), (CArr s b). split; [exact P1|].
    split; [rewrite KN; unfold b; destruct (class_of E n); reflexivity|].
    split; [now apply unpad1_arr|]. exists b. split; [reflexivity|].
    intros c HI I II. unfold b. rewrite (ok_class E sp OK n c s HI).
    pose proof (ok_shapes E sp OK n c s HI) as SO.
    apply (computed_ext unscale_ U c a' (padded s a) I computed_unscale); [now apply (in_shape_indices c s)|].
    intros J HJ. apply P2. unfold full. rewrite (shape_ok_rank c s SO). now apply indices_full.
Qed.
Lemma unscale_dict_spec (C : cdict) : known_shaped C ->
  (forall n s, In (n, (Cl8, s)) sp -> dget C n <> None) ->
  exists C', eft_unscale_dict E C = Ok C' /\ dkeys C' = dkeys C /\
    (forall n v, dget C n = Some v -> exists w, dget C' n = Some w /\ unscaled n v w).
Proof.
  intros KS H8. pose proof KS as [WF _].
  assert (OP : forall k v, dget C k = Some v ->
     exists v1 v2 v3, pad1 E v = Ok (Some v1) /\ unscale_val E k v1 = Ok (Some v2) /\ unpad1 E k v2 = Ok (Some v3) /\ unscaled k v v3).
  { intros k v H. destruct (known_shape C k v KS H) as (_ & sh & A & B & F). now apply (unscale_op k v sh). }
  unfold eft_unscale_dict. rewrite pad_C_trav.
  destruct (dtrav_total (fun _ => pad1 E) C) as (C1 & E1 & K1 & D1).
  { intros k v H. apply In_dget in H; [|exact WF]. destruct (OP k v H) as (v1 & v2 & v3 & A & _). eauto. }
  rewrite E1. cbn [bind].
  assert (WF1 : wfdict C1) by (unfold wfdict; rewrite K1; exact WF).
  assert (B1 : forall k v, dget C1 k = Some v -> exists v0, dget C k = Some v0 /\ pad1 E v0 = Ok (Some v)).
  { intros k v H. destruct (dget C k) as [v0|] eqn:E0.
    - destruct (D1 k v0 E0) as (v' & A & B). exists v0. split; [reflexivity|]. congruence.
    - rewrite (dkeys_None C C1 k K1 E0) in H. discriminate. }
  destruct (dtrav_total (unscale_val E) C1) as (C2 & E2 & K2 & D2).
  { intros k v H. apply In_dget in H; [|exact WF1]. destruct (B1 k v H) as (v0 & X & Y).
    destruct (OP k v0 X) as (v1 & v2 & v3 & A & B & _). exists v2. congruence. }
  rewrite E2. cbn [bind].
  assert (F8 : forallb (fun k => dmem C2 k) (dgetd (e_symm E) Cl8 []) = true).
  { apply forallb_forall. intros n Hn. pose proof (ok_8 E sp OK n Hn) as I8.
    destruct I8 as (s & I8). pose proof (H8 n s I8) as P. unfold dmem. rewrite K2, K1. apply kmem_In.
    destruct (dget C n) as [v|] eqn:Ev; [now apply dget_Some_key in Ev|congruence]. }
  rewrite F8, unpad_C_trav.
  assert (WF2 : wfdict C2) by (unfold wfdict; rewrite K2; exact WF1).
  assert (B2 : forall k v, dget C2 k = Some v -> exists v0, dget C1 k = Some v0 /\ unscale_val E k v0 = Ok (Some v)).
  { intros k v H. destruct (dget C1 k) as [v0|] eqn:E0.
    - destruct (D2 k v0 E0) as (v' & A & B). exists v0. split; [reflexivity|]. congruence.
    - rewrite (dkeys_None C1 C2 k K2 E0) in H. discriminate. }
  destruct (dtrav_total (unpad1 E) C2) as (C3 & E3 & K3 & D3).
  { intros k v H. apply In_dget in H; [|exact WF2]. destruct (B2 k v H) as (w1 & X & Y). destruct (B1 k w1 X) as (w0 & X0 & Y0).
    destruct (OP k w0 X0) as (v1 & v2 & v3 & A & B & D & _). exists v3.
    assert (v1 = w1) by congruence. subst v1. assert (v2 = v) by congruence. now subst v2. }
  exists C3. split; [exact E3|]. split; [congruence|].
  intros n v Hv. destruct (OP n v Hv) as (v1 & v2 & v3 & A & B & D & AP).
  destruct (D1 n v Hv) as (u1 & U1 & G1). assert (u1 = v1) by congruence. subst u1.
  destruct (D2 n v1 G1) as (u2 & U2 & G2). assert (u2 = v2) by congruence. subst u2.
  destruct (D3 n v2 G2) as (u3 & U3 & G3). assert (u3 = v3) by congruence. subst u3.
  exists v3. auto.
Qed.

(* ---------- arrays2wcxf_nonred ---------- *)
Lemma op_label_coeff n c s k : In (n, (c, s)) sp -> In k (map fst (op_coeffs (n, (c, s)))) ->
  exists I, k = op_label n c I /\ in_shape s I = true /\ nonredundant c I = true /\ In I (indices c).
Proof.
  intros H Hk. unfold op_coeffs in Hk. rewrite map_map in Hk. apply in_map_iff in Hk as (I & <- & HI).
  apply filter_In in HI as [HI HN]. apply andb_prop in HN as [H1 H2]. exists I. auto.
Qed.
Lemma label_in_all n c s I : In (n, (c, s)) sp -> in_shape s I = true -> nonredundant c I = true -> In (op_label n c I) (e_all E).
Proof.
  intros H HI HN. apply (ok_all E sp OK). exists (n, (c, s)). split; [exact H|]. unfold op_coeffs. rewrite map_map.
  apply in_map_iff. exists I. split; [reflexivity|]. apply filter_In. split; [|now rewrite HI, HN].
  apply (in_shape_indices c s); [exact (ok_shapes E sp OK n c s H)|exact HI].
Qed.
Lemma op_small n c s I : In (n, (c, s)) sp -> in_shape s I = true -> small I = true.
Proof.
  intros H HI. apply (in_shape_small s); [|exact HI]. apply gen_ok_small, (shape_ok_gen c), (ok_shapes E sp OK n c s H).
Qed.
Lemma shape0 n s : In (n, (Cl0, s)) sp -> s = [].
Proof. intros H. pose proof (shape_ok_rank _ _ (ok_shapes E sp OK n Cl0 s H)) as L. destruct s; [reflexivity|discriminate]. Qed.
Lemma op_label_inj n c s I m c' s' J : In (n, (c, s)) sp -> In (m, (c', s')) sp -> in_shape s I = true -> in_shape s' J = true ->
  op_label n c I = op_label m c' J -> n = m /\ I = J.
Proof.
  intros H1 H2 A B EQ. pose proof (ok_no_us E sp OK n c s H1) as N1. pose proof (ok_no_us E sp OK m c' s' H2) as N2.
  pose proof (op_small n c s I H1 A) as S1. pose proof (op_small m c' s' J H2 B) as S2.
  assert (D : forall c, c = Cl0 \/ c <> Cl0) by (intros x; destruct x; ((now left)||(right; discriminate))).
  assert (L : forall x k c I, c <> Cl0 -> op_label k c I = x -> label k I = x) by (intros x k c0 L0 NC; destruct c0; try congruence; auto).
  destruct (D c) as [->|NC], (D c') as [->|NC'].
  - simpl in EQ. pose proof (shape0 n s H1). pose proof (shape0 m s' H2). subst s s'.
    destruct I, J; try discriminate; auto.
  - simpl in EQ. symmetry in EQ. apply L in EQ; [|exact NC']. exfalso. now apply (label_not_plain m n J).
  - simpl in EQ. apply L in EQ; [|exact NC]. exfalso. now apply (label_not_plain n m I).
  - apply L in EQ; [|exact NC]. symmetry in EQ. apply L in EQ; [|exact NC']. symmetry in EQ. now apply label_inj in EQ.
Qed.
Definition coeff_of (c : cls) (s : list nat) (v : cval K) (I : idx) : K :=
  match v with CNum z => z | CArr _ a => unscale_ c (padded s a) I end.
Definition nonzero (z : K) : option K := if kdec z 0 then None else Some z.
Lemma a2w_nonred_spec (C : cdict) : known_shaped C ->
  (forall n s, In (n, (Cl8, s)) sp -> dget C n <> None) ->
  exists d, arrays2wcxf_nonred E C = Ok d /\ wfdict d /\
    (forall k, dget d k <> None -> In k (e_all E)) /\
    (forall n c s I, In (n, (c, s)) sp -> in_shape s I = true -> nonredundant c I = true ->
       dget d (op_label n c I) = match dget C n with None => None | Some v => nonzero (coeff_of c s v I) end).
Proof.
  intros KS H8. destruct (unscale_dict_spec C KS H8) as (C' & E1 & K1 & D1).
  pose proof KS as [WF _]. assert (WF' : wfdict C') by (unfold wfdict; rewrite K1; exact WF).
  assert (B1 : forall k w, dget C' k = Some w -> exists v, dget C k = Some v /\ unscaled k v w).
  { intros k w H. destruct (dget C k) as [v|] eqn:E0.
    - destruct (D1 k v E0) as (v' & A & B). exists v. split; [reflexivity|]. congruence.
    - rewrite (dkeys_None C C' k K1 E0) in H. discriminate. }
  assert (PR : forall k v, In (k, v) C' -> no_us k /\ proper_val v = true).
  { intros k w H. apply In_dget in H; [|exact WF']. destruct (B1 k w H) as (v & Hv & UN).
    destruct (known_shape C k v KS Hv) as (N & sh & SH & HS & FI). split; [exact N|].
    destruct v as [z|s a]; simpl in UN.
    - subst w. reflexivity.
    - destruct UN as (b & -> & _). destruct sh as [s'|]; [|contradiction]. simpl in HS. subst s'.
      destruct FI as (G & L & _). unfold proper_val. rewrite (gen_ok_small s G). cbn [andb]. apply Nat.leb_le. lia. }
  destruct (arrays2wcxf_spec C' WF' PR) as (P1 & P2 & P3 & P4).
  unfold arrays2wcxf_nonred. rewrite E1. cbn [bind]. eexists. split; [reflexivity|].
  split; [now apply wf_dfilter|]. split.
  - intros k. rewrite dget_dfilter by exact P4. destruct (dget (arrays2wcxf C') k) as [z|]; [|congruence].
    destruct (kmem k (e_all E)) eqn:M; [intros _; now apply kmem_In in M|]. cbn [andb]. congruence.
  - intros n c s I H HI HN. rewrite dget_dfilter by exact P4.
    pose proof (label_in_all n c s I H HI HN) as IA. apply kmem_In in IA. rewrite IA. cbn [andb].
    assert (VAL : dget (arrays2wcxf C') (op_label n c I) = match dget C n with None => None | Some v => Some (coeff_of c s v I) end).
    { assert (DD : c = Cl0 \/ c <> Cl0) by (destruct c; ((now left)||(right; discriminate))).
      destruct (dget C n) as [v|] eqn:Ev.
      - destruct (D1 n v Ev) as (w & Hw & UN).
        assert (HS : has_shape (op_shape c s) v).
        { destruct KS as [_ KS]. destruct (KS n v Ev) as [(c' & s' & H' & HS)|(NI & _)].
          - now destruct (op_unique n c s c' s' H H') as [<- <-].
          - exfalso. apply NI. apply in_map_iff. exists (n, (c, s)). auto. }
        destruct DD as [->|NC].
        + destruct (op_num n s v H HS) as (z & ->). simpl in UN. subst w. simpl. now apply P1.
        + destruct (op_arr n c s v H NC HS) as (a & ->). destruct UN as (b & -> & B).
          replace (op_label n c I) with (label n I) by (destruct c; try reflexivity; congruence).
          rewrite (P2 n s b I Hw HI). f_equal. now apply B.
      - destruct (dget (arrays2wcxf C') (op_label n c I)) as [z|] eqn:Ez; [|reflexivity]. exfalso.
        pose proof (ok_no_us E sp OK n c s H) as N. pose proof (op_small n c s I H HI) as SI.
        assert (NC' : forall w, dget C' n <> Some w).
        { intros w Hw. destruct (B1 n w Hw) as (v & Hv & _). congruence. }
        destruct (P3 (op_label n c I)) as [(x & X)|(m & t & b & J & X & HJ & EQ)]; [congruence| |].
        + destruct DD as [->|NC]; [simpl in X; now apply NC' in X|].
          replace (op_label n c I) with (label n I) in X by (destruct c; try reflexivity; congruence).
          apply dget_In in X as X'. destruct (PR _ _ X') as [NL _]. now apply (label_not_plain n (label n I) I).
        + apply dget_In in X as X'. destruct (PR _ _ X') as [NM PV]. simpl in PV. apply andb_prop in PV as [SM _].
          pose proof (in_shape_small t J SM HJ) as SJ.
          destruct DD as [->|NC].
          * simpl in EQ. symmetry in EQ. now apply (label_not_plain m n J).
          * replace (op_label n c I) with (label n I) in EQ by (destruct c; try reflexivity; congruence).
            apply label_inj in EQ as [<- <-]; auto. now apply NC' in X. }
    rewrite VAL. destruct (dget C n) as [v|]; [|reflexivity]. unfold nonzero. destruct (kdec (coeff_of c s v I) 0); reflexivity.
Qed.

(* ---------- add_missing, wcxf2arrays_symmetrized ---------- *)
Definition zero_of (sh : option (list nat)) : cval K := match sh with None => CNum 0 | Some s => CArr s (fun _ => 0) end.
Lemma add_missing_fold (C : cdict) ks : forall C', (forall k, In k ks -> dget (e_shape E) k <> None) -> wfdict C' ->
  exists C'', fold_left (fun acc k => bind acc (fun C' =>
    if dmem C k then Ok C' else
    match dget (e_shape E) k with
    | None => Err KeyError
    | Some None => Ok (dset C' k (CNum 0))
    | Some (Some s) => Ok (dset C' k (CArr s (fun _ => 0)))
    end)) ks (Ok C') = Ok C'' /\ wfdict C'' /\
  (forall k, dget C'' k = if kmem k ks then if dmem C k then dget C' k else
       match dget (e_shape E) k with Some sh => Some (zero_of sh) | None => None end else dget C' k).
Proof.
  induction ks as [|k ks IH]; intros C' H WF.
  - exists C'. split; [reflexivity|]. split; [exact WF|]. reflexivity.
  - cbn [fold_left bind]. assert (H' : forall k, In k ks -> dget (e_shape E) k <> None) by (intros; apply H; now right).
    assert (Hk := H k (or_introl eq_refl)). destruct (dmem C k) eqn:M.
    + destruct (IH C' H' WF) as (C'' & A & B & D). exists C''. split; [exact A|]. split; [exact B|]. intros j. rewrite D.
      cbn [kmem]. destruct (keqb_spec j k) as [->|N]; [rewrite M; destruct (kmem k ks); reflexivity|reflexivity].
    + assert (G : exists sh, dget (e_shape E) k = Some sh) by (destruct (dget (e_shape E) k); [eauto|congruence]).
      destruct G as (sh & G).
      assert (ST : (match dget (e_shape E) k with None => Err KeyError | Some None => Ok (dset C' k (CNum 0))
                    | Some (Some s) => Ok (dset C' k (CArr s (fun _ => 0))) end) = Ok (dset C' k (zero_of sh))).
      { rewrite G. destruct sh; reflexivity. }
      rewrite ST. destruct (IH (dset C' k (zero_of sh)) H' (wf_dset _ _ _ WF)) as (C'' & A & B & D).
      exists C''. split; [exact A|]. split; [exact B|]. intros j. rewrite D, dget_dset. cbn [kmem].
      destruct (keqb_spec j k) as [->|N]; [|reflexivity]. rewrite M, G. destruct (kmem k ks); reflexivity.
Qed.
Definition entries (d : dict string K) (n : string) (s : list nat) : arr :=
  fun I => if in_shape s I then dgetd d (label n I) 0 else 0.
Definition symmetrized (d : dict string K) (n : string) (c : cls) (s : list nat) (w : cval K) : Prop :=
  match c with
  | Cl0 => w = CNum (kre (dgetd d n 0))
  | _ => exists b, w = CArr s b /\ forall I, in_shape s I = true -> b I = nonred_ c (entries d n s) I
  end.
Lemma nonred_0 (z : K) : nonred_ Cl0 (fun _ => z) [] = kre z.
Proof.
  Transparent symmetrize_nonred. unfold symmetrize_nonred, real_part, upd. rewrite keqb_refl. cbn [v_setim k_alg].
  unfold ksum. cbn [map fold_right]. ring.
Qed.
Opaque symmetrize_nonred.
Lemma nonred_1 (a : arr) : nonred_ Cl1 a = a. Proof. reflexivity. Qed.
Lemma nonred_3 (a : arr) : nonred_ Cl3 a = a. Proof. reflexivity. Qed.
Lemma w2a_sym_spec (d : dict string K) : wfdict d -> (forall k, In k (dkeys d) -> In k (e_all E)) ->
  exists C, wcxf2arrays_symmetrized E d = Ok C /\ wfdict C /\
    (forall n, dget C n <> None <-> In n (map fst sp)) /\
    (forall n c s, In (n, (c, s)) sp -> exists w, dget C n = Some w /\ symmetrized d n c s w).
Proof.
  intros WF HD.
  assert (DD : forall c, c = Cl0 \/ c <> Cl0) by (intros c; destruct c; ((now left)||(right; discriminate))).
  assert (KEY : forall k, In k (dkeys d) -> exists n c s I, In (n, (c, s)) sp /\ k = op_label n c I /\ in_shape s I = true).
  { intros k Hk. apply HD in Hk. apply (ok_all E sp OK) in Hk as ([n [c s]] & H & Hk).
    destruct (op_label_coeff n c s k H Hk) as (I & -> & HI & _). exists n, c, s, I. auto. }
  assert (SH : forall n c s, In (n, (c, s)) sp -> c <> Cl0 -> dget (e_shape E) n = Some (Some s)).
  { intros n c s H N. rewrite (ok_shape E sp OK n c s H). destruct c; try reflexivity; congruence. }
  destruct (wcxf2arrays_inv E d WF) as (C0 & E0 & (WC & KC & SC & AR)).
  { intros k Hk. destruct (KEY k Hk) as (n & c & s & I & H & -> & HI). destruct (DD c) as [->|NC].
    - apply good_scalar; [exact (ok_no_us E sp OK n Cl0 s H)|exact (ok_shape E sp OK n Cl0 s H)].
    - replace (op_label n c I) with (label n I) by (destruct c; try reflexivity; congruence).
      apply (good_array E n s I); [exact (ok_no_us E sp OK n c s H)|now apply (SH n c)| |exact HI].
      apply gen_ok_small, (shape_ok_gen c), (ok_shapes E sp OK n c s H). }
  (* values of the arrays *)
  assert (V0 : forall n s, In (n, (Cl0, s)) sp -> dget C0 n = match dget d n with Some z => Some (CNum z) | None => None end).
  { intros n s H. apply SC; [exact (ok_no_us E sp OK n Cl0 s H)|exact (ok_shape E sp OK n Cl0 s H)]. }
  assert (V1 : forall n c s, In (n, (c, s)) sp -> c <> Cl0 ->
     match dget C0 n with
     | None => forall I, entries d n s I = 0
     | Some v => exists a, v = CArr s a /\ forall I, padded s a I = entries d n s I
     end).
  { intros n c s H NC. specialize (AR n s (ok_no_us E sp OK n c s H) (SH n c s H NC)).
    destruct (dget C0 n) as [v|].
    - destruct AR as (a & -> & A1 & _). exists a. split; [reflexivity|]. intros I. unfold padded, entries.
      destruct (in_shape s I) eqn:HI; [|reflexivity]. apply A1; [exact HI|now apply (op_small n c s)].
    - intros I. unfold entries. destruct (in_shape s I) eqn:HI; [|reflexivity]. unfold dgetd.
      rewrite AR; [reflexivity|exact HI|now apply (op_small n c s)]. }
  assert (WS : well_shaped C0).
  { split; [exact WC|]. intros n v Hv. destruct (KC n) as [N X]; [now apply dget_Some_key in Hv|].
    assert (IN : exists c s, In (n, (c, s)) sp).
    { destruct (dget (e_shape E) n) as [[s|]|] eqn:Es; [| |congruence].
      - specialize (AR n s N Es). rewrite Hv in AR. destruct AR as (a & _ & _ & I & HI & ND).
        destruct (dget d (label n I)) as [z|] eqn:Ez; [|congruence]. apply dget_Some_key in Ez.
        destruct (KEY _ Ez) as (m & c & t & J & H & EQ & HJ). exists c, t.
        assert (SPL : forall p L, no_us p -> split_us (label p L) = p :: split_us (String.concat "" (map (fun j => str_nat (j + 1)) L))).
        { intros p L NP. unfold label. now apply split_app. }
        pose proof (ok_no_us E sp OK m c t H) as NM. destruct (DD c) as [->|NC].
        + simpl in EQ. pose proof (SPL n I N) as Q. rewrite EQ in Q. unfold no_us in NM. rewrite NM in Q. injection Q as _ Q.
          symmetry in Q. now apply split_us_nonempty in Q.
        + replace (op_label m c J) with (label m J) in EQ by (destruct c; try reflexivity; congruence).
          pose proof (SPL n I N) as Q1. pose proof (SPL m J NM) as Q2. rewrite EQ in Q1.
          assert (n = m) by congruence. now subst m.
      - specialize (SC n N Es). rewrite Hv in SC. destruct (dget d n) as [z|] eqn:Ez; [|discriminate]. apply dget_Some_key in Ez.
        destruct (KEY _ Ez) as (m & c & t & J & H & EQ & HJ). exists c, t. destruct (DD c) as [->|NC].
        + simpl in EQ. now subst m.
        + exfalso. replace (op_label m c J) with (label m J) in EQ by (destruct c; try reflexivity; congruence).
          symmetry in EQ. apply (label_not_plain m n J) in EQ; auto; [exact (ok_no_us E sp OK m c t H)|now apply (op_small m c t)]. }
    destruct IN as (c & s & H). exists c, s. split; [exact H|]. destruct (DD c) as [->|NC].
    - rewrite (V0 n s H) in Hv. destruct (dget d n); [injection Hv as <-; exact Logic.I|discriminate].
    - specialize (V1 n c s H NC). rewrite Hv in V1. destruct V1 as (a & -> & _). destruct c; try reflexivity; congruence. }
  destruct (symmetrize_C_spec nonred_ SN C0 computed_nonred nonred_1 nonred_3 WS) as (C1 & E1 & K1 & D1).
  assert (WF1 : wfdict C1) by (unfold wfdict; rewrite K1; exact WC).
  destruct (add_missing_fold C1 (e_wc_keys E) C1) as (C2 & E2 & WF2 & D2); [|exact WF1|].
  { intros k Hk. apply (ok_wc E sp OK) in Hk. apply in_map_iff in Hk as ([n [c s]] & <- & H). simpl.
    rewrite (ok_shape E sp OK n c s H). discriminate. }
  exists C2. split; [|split; [exact WF2|]].
  { unfold wcxf2arrays_symmetrized. rewrite E0. cbn [bind]. unfold eft_symmetrize_nonred. rewrite E1. cbn [bind]. exact E2. }
  assert (OPV : forall n c s, In (n, (c, s)) sp -> exists w, dget C2 n = Some w /\ symmetrized d n c s w).
  { intros n c s H. rewrite D2.
    assert (WK : kmem n (e_wc_keys E) = true).
    { apply kmem_In, (ok_wc E sp OK), in_map_iff. exists (n, (c, s)). auto. }
    rewrite WK. destruct (dget C0 n) as [v|] eqn:Ev.
    - destruct (D1 n c s v H Ev) as (w & Hw & AP).
      assert (DM : dmem C1 n = true) by (rewrite dmem_dget, Hw; reflexivity). rewrite DM. exists w. split; [exact Hw|].
      destruct (DD c) as [->|NC].
      + rewrite (V0 n s H) in Ev. unfold symmetrized, dgetd. destruct (dget d n) as [z|]; [|discriminate]. injection Ev as <-.
        simpl in AP. now rewrite nonred_0 in AP.
      + specialize (V1 n c s H NC). rewrite Ev in V1. destruct V1 as (a & -> & PA). destruct AP as (b & -> & B).
        assert (X : exists b0, CArr s b = CArr s b0 /\ (forall I, in_shape s I = true -> b0 I = nonred_ c (entries d n s) I)).
        { exists b. split; [reflexivity|]. intros I HI. rewrite B by exact HI.
          apply (computed_ext nonred_ SN c _ _ I computed_nonred); [|intros; apply PA].
          now apply (in_shape_indices c s I (ok_shapes E sp OK n c s H)). }
        destruct c; try exact X. congruence.
    - assert (DM : dmem C1 n = false) by (rewrite dmem_dget, (dkeys_None C0 C1 n K1 Ev); reflexivity). rewrite DM.
      rewrite (ok_shape E sp OK n c s H). eexists. split; [reflexivity|]. destruct (DD c) as [->|NC].
      + rewrite (V0 n s H) in Ev. unfold symmetrized, dgetd. destruct (dget d n); [discriminate|]. simpl. f_equal.
        symmetry. apply kre_of_real, kreal_0.
      + specialize (V1 n c s H NC). rewrite Ev in V1.
        assert (X : exists b0, CArr s (fun _ => 0 : K) = CArr s b0 /\ (forall I, in_shape s I = true -> b0 I = nonred_ c (entries d n s) I)).
        { exists (fun _ => 0). split; [reflexivity|]. intros I HI. symmetry.
          apply (computed_zero nonred_ SN c s _ I computed_nonred (ok_shapes E sp OK n c s H)); [|intros; apply V1].
          now apply (in_shape_indices c s I (ok_shapes E sp OK n c s H)). }
        destruct c; try exact X. congruence. }
  split; [|exact OPV]. intros n. split.
  - rewrite D2. destruct (kmem n (e_wc_keys E)) eqn:WK; [intros _; now apply (ok_wc E sp OK), kmem_In|].
    intros X. destruct (dget C0 n) as [v|] eqn:Ev; [|rewrite (dkeys_None C0 C1 n K1 Ev) in X; congruence].
    destruct WS as [_ WS]. destruct (WS n v Ev) as (c & s & H & _). apply in_map_iff. exists (n, (c, s)). auto.
  - intros H. apply in_map_iff in H as ([m [c s]] & <- & H). destruct (OPV m c s H) as (w & Hw & _). simpl. congruence.
Qed.

(* ---------- the round trips ---------- *)
Lemma round1 (d : dict string K) : wfdict d -> (forall k, In k (dkeys d) -> In k (e_all E)) ->
  exists C d', wcxf2arrays_symmetrized E d = Ok C /\ arrays2wcxf_nonred E C = Ok d' /\
    (forall k, dget d' k <> None -> In k (e_all E)) /\
    (forall n c s I, In (n, (c, s)) sp -> in_shape s I = true -> nonredundant c I = true ->
       dget d' (op_label n c I) =
       nonzero ((if real_entry c I then kre else fun z => z) (dgetd d (op_label n c I) 0))).
Proof.
  intros WF HD. destruct (w2a_sym_spec d WF HD) as (C & E1 & WC & KC & VC).
  assert (DD : forall c, c = Cl0 \/ c <> Cl0) by (intros c; destruct c; ((now left)||(right; discriminate))).
  assert (KS : known_shaped C).
  { split; [exact WC|]. intros n v Hv. left. assert (H : In n (map fst sp)) by (apply KC; congruence).
    apply in_map_iff in H as ([m [c s]] & X & H). simpl in X. subst m. exists c, s. split; [exact H|].
    destruct (VC n c s H) as (w & Hw & SY). assert (w = v) by congruence. subst w. destruct (DD c) as [->|NC].
    - simpl in SY. subst v. exact Logic.I.
    - assert (X : exists b, v = CArr s b) by (destruct c; try congruence; destruct SY as (b & -> & _); eauto).
      destruct X as (b & ->). destruct c; try reflexivity; congruence. }
  destruct (a2w_nonred_spec C KS) as (d' & E2 & WD & AD & VD).
  { intros n s H. apply KC. apply in_map_iff. exists (n, (Cl8, s)). auto. }
  exists C, d'. split; [exact E1|]. split; [exact E2|]. split; [exact AD|].
  intros n c s I H HI HN. rewrite (VD n c s I H HI HN). destruct (VC n c s H) as (w & -> & SY). f_equal.
  pose proof (ok_shapes E sp OK n c s H) as SO. pose proof (in_shape_indices c s I SO HI) as II.
  destruct (DD c) as [->|NC].
  - simpl in SY. subst w. pose proof (shape0 n s H). subst s. destruct I as [|? ?]; [|discriminate]. reflexivity.
  - assert (X : exists b, w = CArr s b /\ forall I, in_shape s I = true -> b I = nonred_ c (entries d n s) I)
      by (destruct c; try congruence; exact SY).
    destruct X as (b & -> & B). unfold coeff_of.
    rewrite (computed_local unscale_ U c s (padded s b) (nonred_ c (entries d n s)) I computed_unscale SO II).
    + rewrite (S16 c (entries d n s) I II HN). unfold entries. rewrite HI.
      replace (op_label n c I) with (label n I) by (destruct c; try reflexivity; congruence).
      destruct (real_entry c I); reflexivity.
    + intros J HJ EQ. rewrite HI in EQ. unfold padded. rewrite EQ. now apply B.
Qed.
Lemma round2 (C : cdict) : known_shaped C -> (forall n, In n (map fst sp) -> dget C n <> None) ->
  (forall n c s a, In (n, (c, s)) sp -> dget C n = Some (CArr s a) -> symmetric_in c s a) ->
  (forall n s z, In (n, (Cl0, s)) sp -> dget C n = Some (CNum z) -> kreal z) ->
  exists d C', arrays2wcxf_nonred E C = Ok d /\ wcxf2arrays_symmetrized E d = Ok C' /\
    (forall n, dget C' n <> None <-> In n (map fst sp)) /\
    (forall n v, In n (map fst sp) -> dget C n = Some v -> exists w, dget C' n = Some w /\ cv_eq v w).
Proof.
  intros KS ALL SY RE. destruct (a2w_nonred_spec C KS) as (d & E1 & WD & AD & VD).
  { intros n s H. apply ALL. apply in_map_iff. exists (n, (Cl8, s)). auto. }
  destruct (w2a_sym_spec d WD) as (C' & E2 & WC & KC & VC).
  { intros k Hk. apply AD. intros X. apply dget_None in X. contradiction. }
  exists d, C'. split; [exact E1|]. split; [exact E2|]. split; [exact KC|].
  assert (DD : forall c, c = Cl0 \/ c <> Cl0) by (intros c; destruct c; ((now left)||(right; discriminate))).
  intros n v Hn Hv. apply in_map_iff in Hn as ([m [c s]] & X & H). simpl in X. subst m.
  destruct (VC n c s H) as (w & Hw & SW). exists w. split; [exact Hw|].
  assert (HS : has_shape (op_shape c s) v).
  { destruct KS as [_ KS]. destruct (KS n v Hv) as [(c' & s' & H' & HS)|(NI & _)].
    - now destruct (op_unique n c s c' s' H H') as [<- <-].
    - exfalso. apply NI. apply in_map_iff. exists (n, (c, s)). auto. }
  pose proof (ok_shapes E sp OK n c s H) as SO.
  assert (NZ : forall z : K, match nonzero z with Some x => x | None => 0 end = z).
  { intros z. unfold nonzero. destruct (kdec z 0) eqn:Z; [|reflexivity]. symmetry. now apply kdec_true. }
  destruct (DD c) as [->|NC].
  - destruct (op_num n s v H HS) as (z & ->). simpl in SW. subst w. simpl.
    pose proof (shape0 n s H). subst s. pose proof (VD n Cl0 [] [] H eq_refl eq_refl) as V. simpl in V. rewrite Hv in V.
    unfold dgetd. rewrite V. unfold coeff_of. rewrite NZ. symmetry. apply kre_of_real. now apply (RE n []).
  - destruct (op_arr n c s v H NC HS) as (a & ->).
    assert (X : exists b, w = CArr s b /\ forall I, in_shape s I = true -> b I = nonred_ c (entries d n s) I)
      by (destruct c; try congruence; exact SW).
    destruct X as (b & -> & B). split; [reflexivity|]. intros I HI. rewrite B by exact HI.
    pose proof (in_shape_indices c s I SO HI) as II. specialize (SY n c s a H Hv). unfold symmetric_in in SY. fold (padded s a) in SY.
    transitivity (padded s a I); [unfold padded; now rewrite HI|].
    rewrite <- (S16b c (padded s a) I SY II). apply (computed_ext nonred_ SN c _ _ I computed_nonred II).
    intros J HJ. unfold project, entries.
    destruct (nonredundant c J) eqn:HN.
    + destruct (in_shape s J) eqn:HJS.
      * pose proof (VD n c s J H HJS HN) as V. rewrite Hv in V.
        replace (op_label n c J) with (label n J) in V by (destruct c; try reflexivity; congruence).
        unfold dgetd. rewrite V. unfold coeff_of. now rewrite NZ.
      * apply (computed_zero unscale_ U c s _ J computed_unscale SO HJ). intros L HL EQ. unfold padded. now rewrite EQ, HJS.
    + destruct (in_shape s J) eqn:HJS; [|reflexivity]. unfold dgetd.
      destruct (dget d (label n J)) as [z|] eqn:Ez; [|reflexivity]. exfalso.
      assert (IA : In (label n J) (e_all E)) by (apply AD; congruence).
      apply (ok_all E sp OK) in IA as ([m [c' s']] & H' & IA).
      destruct (op_label_coeff m c' s' _ H' IA) as (L & EQ & HL & NL & _).
      assert (EQ' : op_label n c J = op_label m c' L) by (rewrite <- EQ; destruct c; try reflexivity; congruence).
      apply (op_label_inj n c s J m c' s' L H H' HJS HL) in EQ' as [<- <-].
      destruct (op_unique n c s c' s' H H') as [<- _]. congruence.
Qed.
End R.
