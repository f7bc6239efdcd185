(* The steps of SMEFTio: symmetrization with the parameters of the Standard Model in the
   dictionary, scaling, and the output of coefficients. *)
From Coq Require Import List Bool ZArith QArith Arith Lia String Ascii.
From Verif Require Import PyBase Num SymModel SymClass SymSpec SymProofs SymFacts EftModel EftSpec EftProofs EftLabels EftRound EftRound2 EftInit
  BasisProps UpProofs UpProps WcxfModel DsixData DsixModel DsixProofs DsixRound.
Import ListNotations.
Local Open Scope string_scope.
Local Open Scope list_scope.
Opaque SymCheck.S SymCheck.SN U symmetrize symmetrize_nonred unscale exec.

(* ---------- smeftutil, util/__init__.py:5-23 ---------- *)
Definition sm_numbers : list string := ["g"; "gp"; "gs"; "Lambda"; "m2"].
Definition sm_matrices : list string := ["Gu"; "Gd"; "Ge"].
Definition sm_thetas : list string := ["Theta"; "Thetap"; "Thetas"].
Record smeftutil (all : list string) (real : string -> bool) (E : eft) : Prop := {
  su_describes : describes warsaw_ops all real;
  su_made : eft_init all real smeft_d4 smeft_d4s = Ok E }.
Lemma smeftutil_util all real E : smeftutil all real E -> smeft_util all real E.
Proof. intros [D I]. split; [exact D|]. exists smeft_d4, smeft_d4s. split; [apply ex16_smeft|exact I]. Qed.
Lemma eft_init_keys all real d4 d4s E : eft_init all real d4 d4s = Ok E ->
  e_keys2 E = keys_nf 2 all /\ e_keys4 E = keys_nf 4 all /\ get_symm_keys all real d4s = Ok (e_symm E).
Proof.
  unfold eft_init. destruct (get_symm_keys all real d4s) as [symm|]; [|discriminate]. cbn [bind].
  destruct (negb _); [discriminate|]. destruct (rmapl _ _) as [sh|]; [|discriminate]. cbn [bind].
  destruct (min_dims _) as [|x r]; [discriminate|]. now intros [= <-].
Qed.
Lemma not_op_check : forallb (fun k => negb (kmem k (map fst warsaw_ops))) (sm_numbers ++ sm_matrices ++ sm_thetas) = true.
Proof. vm_cast_no_check (eq_refl true). Qed.
Lemma sm_not_op k : In k (sm_numbers ++ sm_matrices ++ sm_thetas) -> ~ In k (map fst warsaw_ops).
Proof. intros H. pose proof not_op_check as T. rewrite forallb_forall in T. specialize (T k H). apply negb_true_iff in T. now apply kmem_nIn. Qed.
Lemma sm_classes all real E : smeftutil all real E ->
  (forall k, In k sm_numbers -> class_of E k = Some Cl0) /\ (forall k, In k sm_matrices -> class_of E k = Some Cl1) /\
  (forall k, In k sm_thetas -> class_of E k = None).
Proof.
  intros [D I]. destruct (eft_init_keys _ _ _ _ _ I) as (_ & _ & GS).
  assert (D4 : dim4_ok warsaw_ops smeft_d4 smeft_d4s) by apply ex16_smeft.
  assert (X : forall c x, ~ In x (map fst warsaw_ops) -> (In x (dgetd (e_symm E) c []) <-> exists l, In (c, l) smeft_d4s /\ In x l)).
  { unfold get_symm_keys in GS. cbv zeta in GS.
    destruct (symm_fold warsaw_ops all real D (uniq (map name_of all)) []) as (d1 & E1 & A1 & B1 & _).
    { intros k. now apply (names_in warsaw_ops all real D). }
    match type of GS with bind ?X _ = _ => replace X with (Ok d1) in GS by (symmetry; exact E1) end. cbn [bind] in GS.
    destruct (dim4_fold smeft_d4s d1) as (d2 & E2 & A2).
    { intros c l H. destruct (d4_class _ _ _ D4 c l H) as (_ & n & s & Hn). rewrite <- (cl_op warsaw_ops all real D n c s Hn). apply B1, (names_in warsaw_ops all real D).
      apply in_map_iff. exists (n, (c, s)). auto. }
    assert (EQ : d2 = e_symm E) by congruence. rewrite <- EQ. intros c x Hx. rewrite A2, A1. simpl. split; [|auto].
    intros [[[]|[Y _]]|Y]; [|exact Y]. apply (names_in warsaw_ops all real D) in Y. contradiction. }
  assert (F : forall k c, ~ In k (map fst warsaw_ops) -> (forall c', existsb (fun cl => cls_eqb c' (fst cl) && kmem k (snd cl)) smeft_d4s = cls_eqb c' c) -> class_of E k = Some c).
  { intros k c Hk H. unfold class_of. apply find_class. intros c'. rewrite <- H. destruct (kmem k (dgetd (e_symm E) c' [])) eqn:M.
    - apply kmem_In, X in M as (l & M1 & M2); [|exact Hk]. symmetry. apply existsb_exists. exists (c', l). split; [exact M1|]. cbn [fst snd].
      destruct (cls_eqb_spec c' c'); [|congruence]. now apply kmem_In.
    - symmetry. destruct (existsb _ smeft_d4s) eqn:Q; [|reflexivity]. apply existsb_exists in Q as ([c2 l] & Q1 & Q2). cbn [fst snd] in Q2.
      apply andb_prop in Q2 as [Q2 Q3]. destruct (cls_eqb_spec c' c2) as [<-|]; [|discriminate]. exfalso. apply kmem_nIn in M. apply M, X; [exact Hk|].
      exists l. split; [exact Q1|now apply kmem_In]. }
  split; [|split].
  - intros k H. apply F; [apply sm_not_op, in_or_app; now left|]. cbn in H. intros c'.
    repeat (destruct H as [<-|H]; [destruct c'; vm_compute; reflexivity|]). destruct H.
  - intros k H. apply F; [apply sm_not_op, in_or_app; right; apply in_or_app; now left|]. cbn in H. intros c'.
    repeat (destruct H as [<-|H]; [destruct c'; vm_compute; reflexivity|]). destruct H.
  - intros k H. unfold class_of. assert (NK : ~ In k (map fst warsaw_ops)) by (apply sm_not_op, in_or_app; right; apply in_or_app; now right).
    assert (Z : forall c, kmem k (dgetd (e_symm E) c []) = false).
    { intros c. apply kmem_nIn. rewrite X by exact NK. intros (l & M1 & M2). cbn in M1. cbn in H.
      destruct M1 as [M1|[M1|[]]]; injection M1 as <- <-; cbn in M2; intuition (subst; discriminate). }
    unfold dispatch_order. cbn [find]. rewrite !Z. reflexivity.
Qed.
Lemma util_facts all real E : smeftutil all real E ->
  eft_ok E warsaw_ops /\ e_all E = all /\ (forall n, In n (e_keys2 E) <-> is_op 2 n) /\ (forall n, In n (e_keys4 E) <-> is_op 4 n) /\
  NoDup (e_keys2 E) /\ NoDup (e_keys4 E) /\ (forall k, ~ In k (map fst warsaw_ops) -> dget (e_shape E) k = dget smeft_d4 k) /\ wfdict (e_shape E).
Proof.
  intros SU. pose proof SU as [D I]. assert (D4 : dim4_ok warsaw_ops smeft_d4 smeft_d4s) by apply ex16_smeft.
  assert (A : exists n c s, In (n, (c, s)) warsaw_ops /\ c <> Cl0) by apply ex16_smeft.
  destruct (eft_init_ok warsaw_ops all real _ _ D D4 A) as (E' & I' & OK & EA & G & W & _). assert (E' = E) by congruence. subst E'.
  destruct (eft_init_keys _ _ _ _ _ I) as (-> & -> & _).
  split; [exact OK|]. split; [exact EA|]. split; [intros n; rewrite (keys_nf_in warsaw_ops all real D) by lia; reflexivity|].
  split; [intros n; rewrite (keys_nf_in warsaw_ops all real D) by lia; reflexivity|].
  split; [apply uniq_nodup|]. split; [apply uniq_nodup|]. auto.
Qed.

Section P.
Context {K : StarField}.
Local Open Scope K_scope.
Add Field KFdss : (k_field K).
Notation cdict := (dict string (cval K)).
Notation arr := (idx -> K).
Notation sym_ := (symmetrize (@k_alg K)).
Variables (all : list string) (real : string -> bool) (E : eft).
Hypothesis SU : smeftutil all real E.
Local Lemma OK : eft_ok E warsaw_ops. Proof. exact (proj1 (util_facts all real E SU)). Qed.

Lemma dtrav_spec (f : string -> cval K -> res (option (cval K))) (C : cdict) : wfdict C ->
  (forall k v, dget C k = Some v -> exists o, f k v = Ok o) ->
  exists C', dtrav f C = Ok C' /\ wfdict C' /\
    forall k, dget C' k = match dget C k with None => None | Some v => match f k v with Ok o => o | Err _ => None end end.
Proof.
  induction C as [|[k v] C IH]; intros WF H.
  - exists []. split; [reflexivity|]. split; [constructor|]. reflexivity.
  - inversion WF as [|? ? NI WF' EQ]; subst. destruct (H k v) as (o & F); [cbn [dget]; now rewrite keqb_refl|].
    destruct (IH WF') as (C' & E' & W' & V').
    { intros k' v' X. apply H. cbn [dget]. destruct (keqb_spec k' k) as [->|]; [|exact X]. apply dget_Some_key in X. contradiction. }
    cbn [dtrav]. rewrite F. cbn [bind]. rewrite E'. cbn [bind].
    assert (NK : dget C' k = None).
    { rewrite V'. destruct (dget C k) eqn:Q; [|reflexivity]. apply dget_Some_key in Q. contradiction. }
    exists (match o with Some v' => (k, v') :: C' | None => C' end). split; [reflexivity|]. split.
    + destruct o; [|exact W']. constructor; [|exact W']. now apply dget_None.
    + intros k'. destruct o as [v'|]; cbn [dget]; destruct (keqb_spec k' k) as [->|N]; try (now rewrite F); try (now apply V'); now rewrite NK, F.
Qed.
(* dictionaries with operators and parameters of the Standard Model *)
Definition sm_value (k : string) (v : cval K) : Prop :=
  In k (sm_numbers ++ sm_thetas) /\ (exists z, v = CNum z) \/ In k sm_matrices /\ exists a, v = CArr [3; 3]%nat a.
Definition op_value (n : string) (v : cval K) : Prop := exists c s, In (n, (c, s)) warsaw_ops /\ has_shape (op_shape c s) v.
Definition with_sm (C : cdict) : Prop := wfdict C /\ forall n v, dget C n = Some v -> op_value n v \/ sm_value n v.
Lemma sym_0' (z : K) : sym_ Cl0 (fun _ => z) [] = kre z. Proof. apply sym_0. Qed.
Lemma sm_d4 k : In k (sm_numbers ++ sm_matrices) -> dget (e_shape E) k = dget smeft_d4 k.
Proof.
  intros H. destruct (util_facts all real E SU) as (_ & _ & _ & _ & _ & _ & G & _). apply G, sm_not_op. rewrite app_assoc. apply in_or_app. now left.
Qed.
Lemma symm_sm k v : sm_value k v -> exists v1, pad1 E v = Ok (Some v1) /\ exists o, symm_val E sym_ k v1 = Ok o /\
  match o with None => True | Some v2 => exists v3, unpad1 E k v2 = Ok (Some v3) /\ sm_value k v3 end.
Proof.
  destruct (sm_classes all real E SU) as (CN & CM & CT). intros [[Hk (z & ->)]|[Hk (a & ->)]].
  - exists (CNum z). split; [apply pad1_num|]. apply in_app_or in Hk as [Hk|Hk].
    + exists (Some (CNum (kre z))). split; [unfold symm_val; rewrite (CN k Hk), sym_0; reflexivity|].
      exists (CNum (kre z)). split; [apply unpad1_num; rewrite sm_d4 by (apply in_or_app; now left); cbn in Hk; intuition (subst; discriminate)|].
      left. split; [apply in_or_app; now left|eauto].
    + exists None. split; [unfold symm_val; rewrite (CT k Hk); reflexivity|exact Logic.I].
  - exists (CArr [3; 3]%nat a). split; [unfold pad1; destruct (e_pad E); reflexivity|].
    exists (Some (CArr [3; 3]%nat a)). split; [unfold symm_val; rewrite (CM k Hk); reflexivity|].
    exists (CArr [3; 3]%nat a). split; [|right; split; [exact Hk|eauto]]. unfold unpad1. destruct (e_pad E); [|reflexivity].
    unfold unpad_val. rewrite sm_d4 by (apply in_or_app; now right). cbn in Hk. intuition (subst; reflexivity).
Qed.
Lemma symmetrize_with_sm (C : cdict) : with_sm C -> exists C', eft_symmetrize E C = Ok C' /\ with_sm C' /\
  (forall n c s v, In (n, (c, s)) warsaw_ops -> dget C n = Some v -> exists w, dget C' n = Some w /\ applied sym_ c s v w) /\
  (forall n, In n (map fst warsaw_ops) -> dget C n = None -> dget C' n = None).
Proof.
  intros [WF H].
  assert (F1 : forall a : arr, sym_ Cl1 a = a) by reflexivity. assert (F3 : forall a : arr, sym_ Cl3 a = a) by reflexivity.
  assert (ST : forall n v, dget C n = Some v -> exists v1 o, pad1 E v = Ok (Some v1) /\ symm_val E sym_ n v1 = Ok o /\
     match o with None => sm_value n v | Some v2 => exists v3, unpad1 E n v2 = Ok (Some v3) /\
       (forall c s, In (n, (c, s)) warsaw_ops -> applied sym_ c s v v3) /\ (op_value n v3 \/ sm_value n v3) end).
  { intros n v Hv. destruct (H n v Hv) as [(c & s & HI & HS)|SM].
    - destruct (symm_op E warsaw_ops OK sym_ SymCheck.S n c s v (computed_sym) F1 F3 HI HS) as (v1 & v2 & v3 & P1 & P2 & P3 & AP).
      exists v1, (Some v2). split; [exact P1|]. split; [exact P2|]. exists v3. split; [exact P3|]. split.
      + intros c' s' HI'. destruct (op_unique E warsaw_ops OK n c s c' s' HI HI') as [<- <-]. exact AP.
      + left. exists c, s. split; [exact HI|]. destruct (cl0_dec c) as [->|N].
        * destruct v as [z|]; [|contradiction]. cbn [applied] in AP. subst v3. exact Logic.I.
        * destruct (op_arr (K := K) warsaw_ops n c s v HI N HS) as (a & ->). destruct AP as (b & -> & _). destruct c; try reflexivity; congruence.
    - destruct (symm_sm n v SM) as (v1 & P1 & o & P2 & Q). exists v1, o. split; [exact P1|]. split; [exact P2|]. destruct o as [v2|]; [|exact SM].
      destruct Q as (v3 & P3 & Q). exists v3. split; [exact P3|]. split; [|now right]. intros c s HI. exfalso.
      assert (X : In n (map fst warsaw_ops)) by (apply in_map_iff; exists (n, (c, s)); auto).
      revert X. apply sm_not_op. destruct SM as [[SM _]|[SM _]]; rewrite ?in_app_iff in *; tauto. }
  unfold eft_symmetrize, symmetrize_C. rewrite pad_C_trav.
  destruct (dtrav_spec (fun _ => pad1 E) C WF) as (C1 & E1 & W1 & V1).
  { intros n v Hv. destruct (ST n v Hv) as (v1 & o & P1 & _). eauto. }
  rewrite E1. cbn [bind].
  assert (B1 : forall n v1, dget C1 n = Some v1 -> exists v, dget C n = Some v /\ pad1 E v = Ok (Some v1)).
  { intros n v1 Hv. rewrite V1 in Hv. destruct (dget C n) as [v|] eqn:Q; [|discriminate]. exists v. split; [reflexivity|].
    destruct (ST n v Q) as (u & o & P1 & _). rewrite P1 in *. congruence. }
  destruct (dtrav_spec (symm_val E sym_) C1 W1) as (C2 & E2 & W2 & V2).
  { intros n v1 Hv. destruct (B1 n v1 Hv) as (v & Q & P). destruct (ST n v Q) as (u & o & P1 & P2 & _). exists o. congruence. }
  rewrite E2. cbn [bind]. rewrite unpad_C_trav.
  assert (B2 : forall n v2, dget C2 n = Some v2 -> exists v, dget C n = Some v /\ exists v3, unpad1 E n v2 = Ok (Some v3) /\
       (forall c s, In (n, (c, s)) warsaw_ops -> applied sym_ c s v v3) /\ (op_value n v3 \/ sm_value n v3)).
  { intros n v2 Hv. rewrite V2 in Hv. destruct (dget C1 n) as [v1|] eqn:Q1; [|discriminate]. destruct (B1 n v1 Q1) as (v & Q & P). exists v. split; [exact Q|].
    destruct (ST n v Q) as (u & o & P1 & P2 & R). assert (u = v1) by congruence. subst u. rewrite P2 in Hv. subst o. exact R. }
  destruct (dtrav_spec (unpad1 E) C2 W2) as (C3 & E3 & W3 & V3).
  { intros n v2 Hv. destruct (B2 n v2 Hv) as (v & Q & v3 & P3 & _). eauto. }
  exists C3. split; [exact E3|]. split; [|split].
  - split; [exact W3|]. intros n v3 Hv. rewrite V3 in Hv. destruct (dget C2 n) as [v2|] eqn:Q2; [|discriminate].
    destruct (B2 n v2 Q2) as (v & Q & w & P3 & _ & R). rewrite P3 in Hv. injection Hv as <-. exact R.
  - intros n c s v HI Hv. destruct (ST n v Hv) as (v1 & o & P1 & P2 & R).
    assert (Q1 : dget C1 n = Some v1) by (rewrite V1, Hv, P1; reflexivity).
    assert (Q2 : dget C2 n = o) by (rewrite V2, Q1, P2; reflexivity).
    destruct o as [v2|].
    + destruct R as (v3 & P3 & AP & _). exists v3. split; [rewrite V3, Q2, P3; reflexivity|exact (AP c s HI)].
    + exfalso. assert (X : In n (map fst warsaw_ops)) by (apply in_map_iff; exists (n, (c, s)); auto).
      revert X. apply sm_not_op. destruct R as [[R _]|[R _]]; rewrite ?in_app_iff in *; tauto.
  - intros n HI Hn. rewrite V3, V2, V1, Hn. reflexivity.
Qed.

(* sm_lha2dict gives values of these keys *)
Lemma sm_dict_values (d : @blocks K) sm : sm_lha2dict d = Ok sm -> wfdict sm /\ forall n v, dget sm n = Some v -> sm_value n v.
Proof.
  unfold sm_lha2dict.
  assert (MT : forall re im v, sm_matrix d re im = Ok v -> exists a, v = CArr [3; 3]%nat a).
  { intros re im v. unfold sm_matrix. destruct (block d re) as [l|]; [|discriminate]. cbn [bind]. destruct (lha2matrix l _) as [M|]; [|discriminate]. cbn [bind].
    destruct (dget d im) as [w|]; [|intros [= <-]; eauto]. destruct (lha2matrix w _) as [N|]; [|discriminate]. cbn [bind]. intros [= <-]; eauto. }
  assert (TH : forall i v, sm_theta d i = Ok v -> exists z, v = CNum z).
  { intros i v. unfold sm_theta. destruct (dget d "THETA") as [l|]; [|intros [= <-]; eauto]. destruct (line_dict l) as [D|]; [|discriminate]. cbn [bind]. intros [= <-]; eauto. }
  repeat (match goal with |- bind ?X _ = _ -> _ => destruct X eqn:?; [|discriminate]; cbn [bind] end).
  repeat match goal with H : sm_matrix _ _ _ = Ok _ |- _ => apply MT in H as (? & ->) end.
  repeat match goal with H : sm_theta _ _ = Ok _ |- _ => apply TH in H as (? & ->) end.
  intros [= <-]. split; [apply knodup_NoDup; vm_compute; reflexivity|]. intros n v Hv. unfold sm_value.
  apply dget_In in Hv. cbn [In] in Hv.
  repeat (destruct Hv as [Hv|Hv]; [injection Hv as <- <-; first [left; split; [cbn; tauto|eauto; fail]|right; split; [cbn; tauto|eauto; fail]]|]). destruct Hv.
Qed.
End P.
