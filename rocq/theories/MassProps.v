(* C61: the translation from the Warsaw to the Warsaw mass basis. *)
From Coq Require Import List Bool ZArith QArith Qcanon Arith Lia String Ascii Reals Lra.
From Verif Require Import PyBase Num Lin SymModel SymTables SymClass SymSpec EftModel EftSpec EftProofs EftLabels EftRound EftRound2 EftInit BasisProps
  NpModel NpProofs BetaSpec BetaProofs RotModel RotProofs RotProps UpProofs UpProps MassModel RealC SmparModel SmparProofs.
Import ListNotations.
Local Open Scope string_scope.
Local Open Scope list_scope.

(* the up-quark operators with a left-handed and a right-handed up quark *)
Definition up_ops : list string := ["uphi"; "uG"; "uW"; "uB"].
(* the symmetric coefficient matrix of the Weinberg operator, given by its upper triangle *)
Definition weinberg {K : StarField} (d : dict string K) (i j : nat) : K :=
  dgetd d (label "llphiphi" [Nat.min i j; Nat.max i j]) 0%K.

Section Facts.
Context {K : StarField}.
Local Open Scope K_scope.
Add Field KFmass : (k_field K).
Variable E : eft.
Hypothesis OK : eft_ok E warsaw_ops.

Lemma up_in n : In n up_ops -> In (n, (Cl1, [3; 3]%nat)) warsaw_ops.
Proof. intros [<-|[<-|[<-|[<-|[]]]]]; vm_compute; tauto. Qed.
Lemma weinberg_in : In ("llphiphi", (Cl9, [3; 3]%nat)) warsaw_ops.
Proof. vm_compute. tauto. Qed.

(* what the loop of smeft_toarray collects *)
Lemma toarray_fold n c (d : dict string K) : In (n, (c, [3; 3]%nat)) warsaw_ops -> c <> Cl0 -> wfdict d -> (forall k, In k (dkeys d) -> In k (e_all E)) ->
  exists a, fold_left (fun acc kv => bind acc (fun a => toarray_step n [3; 3]%nat a kv)) d (Ok (fun _ => 0)) = Ok a /\
    forall I, in_shape [3; 3]%nat I = true -> a I = dgetd d (label n I) 0.
Proof.
  intros H NC. pose proof (ok_no_us E _ OK n c _ H) as NU.
  assert (SM : forall I, in_shape [3; 3]%nat I = true -> small I = true) by (intros J HJ; apply (in_shape_small [3; 3]%nat); [reflexivity|exact HJ]).
  induction d as [|[k v] d IH] using rev_ind; intros WF HD.
  - exists (fun _ => 0). split; [reflexivity|]. intros I _. reflexivity.
  - assert (NI : ~ In k (dkeys d) /\ wfdict d).
    { unfold wfdict, dkeys in *. rewrite map_app in WF. simpl in WF. apply NoDup_remove in WF as [W1 W2]. rewrite app_nil_r in *. auto. }
    destruct NI as [NI WF']. destruct IH as (a & F & A); [exact WF'| |].
    { intros j Hj. apply HD. unfold dkeys. rewrite map_app. apply in_or_app. now left. }
    assert (Hk : In k (e_all E)) by (apply HD; unfold dkeys; rewrite map_app; apply in_or_app; right; now left).
    apply (ok_all E _ OK) in Hk as ([m [c' s']] & H' & Hk). destruct (op_label_coeff _ m c' s' k H' Hk) as (J & -> & HJ & _ & _).
    rewrite fold_left_app, F. cbn [fold_left bind]. unfold toarray_step. cbn [fst snd].
    pose proof (ok_no_us E _ OK m c' s' H') as NU'.
    assert (SJ : c' <> Cl0 -> small J = true).
    { intros N. apply (in_shape_small s'); [|exact HJ]. apply gen_ok_small, (shape_ok_gen c'), (ok_shapes E _ OK m c' s' H'). }
    assert (NM : name_of (op_label m c' J) = m).
    { destruct (cl0_dec c') as [->|N]; [apply plain_name; exact NU'|]. replace (op_label m c' J) with (label m J) by (destruct c'; try reflexivity; congruence). apply label_name; auto. }
    rewrite NM. destruct (keqb_spec m n) as [->|NE]; cbn [negb].
    + destruct (op_unique E _ OK n c _ c' s' H H') as [<- <-].
      replace (op_label n c J) with (label n J) in * by (destruct c; try reflexivity; congruence).
      rewrite (label_index n J NU (SJ NC)), (int_chars_digits J (SJ NC)). cbn [bind]. rewrite (norm_index_in _ J HJ). cbn [bind].
      eexists. split; [reflexivity|]. intros I HI. unfold dgetd. rewrite dget_app_last by exact NI.
      rewrite prefixb_eq by (rewrite (in_shape_length _ _ HI), (in_shape_length _ _ HJ); reflexivity).
      destruct (keqb_spec (label n I) (label n J)) as [EQ|NQ].
      * apply label_inj in EQ as [_ ->]; auto. now rewrite keqb_refl.
      * match goal with |- (if ?b then _ else _) = _ => destruct b eqn:Q end; [apply keqb_true in Q; congruence|]. apply A, HI.
    + exists a. split; [reflexivity|]. intros I HI. rewrite (A I HI). unfold dgetd. rewrite dget_app_last by exact NI.
      destruct (keqb_spec (label n I) (op_label m c' J)) as [EQ|]; [|reflexivity]. exfalso. apply NE.
      rewrite <- NM, <- EQ. apply label_name; auto.
Qed.
Lemma symmetrize_one n c (a : idx -> K) : In (n, (c, [3; 3]%nat)) warsaw_ops -> c = Cl1 \/ c = Cl9 ->
  eft_symmetrize E [(n, CArr [3; 3]%nat a)] = Ok [(n, CArr [3; 3]%nat (symmetrize k_alg c a))].
Proof.
  intros H C. unfold eft_symmetrize, symmetrize_C.
  assert (P : pad_C E [(n, CArr [3; 3]%nat a)] = Ok [(n, CArr [3; 3]%nat a)]) by (unfold pad_C; destruct (e_pad E); reflexivity).
  assert (U : forall b : idx -> K, unpad_C E [(n, CArr [3; 3]%nat b)] = Ok [(n, CArr [3; 3]%nat b)]).
  { intros b. unfold unpad_C. destruct (e_pad E); [|reflexivity]. cbn [dtrav]. unfold unpad_val. rewrite (ok_shape E _ OK n c _ H).
    destruct C as [->| ->]; reflexivity. }
  rewrite P. cbn [bind dtrav]. unfold symm_val. rewrite (ok_class E _ OK n c _ H).
  destruct C as [->| ->]; cbn [bind]; [exact (U a)|]. change (keqb [3; 3]%nat (full_shape Cl9)) with true. cbn [bind]. apply U.
Qed.
Lemma sym9_entry (a : idx -> K) i j : (i < 3)%nat -> (j < 3)%nat -> symmetrize k_alg Cl9 a [i; j] = a [Nat.min i j; Nat.max i j].
Proof.
  intros Hi Hj. assert (X : forall x : K, kQ (1 # 1) * x + 0 = x) by (intros x; rewrite kQ_1; ring).
  destruct i as [|[|[|?]]]; try lia; destruct j as [|[|[|?]]]; try lia; cbn; try reflexivity; apply X.
Qed.
Lemma toarray_spec n c (d : dict string K) : In (n, (c, [3; 3]%nat)) warsaw_ops -> c = Cl1 \/ c = Cl9 -> wfdict d -> (forall k, In k (dkeys d) -> In k (e_all E)) ->
  exists a, smeft_toarray E n d = Ok (CArr [3; 3]%nat a) /\
    forall i j, (i < 3)%nat -> (j < 3)%nat -> a [i; j] = dgetd d (label n (match c with Cl9 => [Nat.min i j; Nat.max i j] | _ => [i; j] end)) 0.
Proof.
  intros H C WF HD. assert (NC : c <> Cl0) by (destruct C; congruence).
  destruct (toarray_fold n c d H NC WF HD) as (a & F & A). exists (symmetrize k_alg c a). split.
  - unfold smeft_toarray. rewrite (ok_shape E _ OK n c _ H). destruct c; try congruence; cbn [op_shape]; rewrite F; cbn [bind];
      rewrite (symmetrize_one n _ a H C); cbn [bind dget]; now rewrite keqb_refl.
  - intros i j Hi Hj.
    assert (IS : forall p q, (p < 3)%nat -> (q < 3)%nat -> in_shape [3; 3]%nat [p; q] = true).
    { intros p q Hp Hq. cbn [in_shape]. apply Nat.ltb_lt in Hp, Hq. now rewrite Hp, Hq. }
    destruct C as [->| ->]; [apply A, IS; assumption|]. rewrite sym9_entry by assumption. apply A, IS; lia.
Qed.
(* smeft_fromarray *)
Lemma all33 I : In I (all_indices [3; 3]%nat) <-> exists i j, (i < 3)%nat /\ (j < 3)%nat /\ I = [i; j].
Proof.
  rewrite in_all_indices. split.
  - destruct I as [|i [|j [|? ?]]]; cbn [in_shape]; rewrite ?andb_false_r; try discriminate. rewrite andb_true_r. intros H. apply andb_prop in H as [A B].
    apply Nat.ltb_lt in A, B. exists i, j. auto.
  - intros (i & j & A & B & ->). cbn [in_shape]. apply Nat.ltb_lt in A, B. now rewrite A, B.
Qed.
Lemma small33 I : In I (all_indices [3; 3]%nat) -> small I = true.
Proof. intros H. apply (in_shape_small [3; 3]%nat); [reflexivity|]. now apply in_all_indices. Qed.
Lemma from_wf n (a : idx -> K) : wfdict (smeft_fromarray n (CArr [3; 3]%nat a)).
Proof.
  unfold smeft_fromarray. generalize (all_indices [3; 3]%nat). intros L. assert (W : @wfdict string K []) by apply wf_nil. revert W.
  generalize (@nil (string * K)). induction L as [|x L IH]; intros d W; [exact W|]. cbn [fold_left]. apply IH. now apply wf_dset.
Qed.
Lemma from_at n (a : idx -> K) i j : no_us n -> (i < 3)%nat -> (j < 3)%nat -> dget (smeft_fromarray n (CArr [3; 3]%nat a)) (label n [i; j]) = Some (a [i; j]).
Proof.
  intros N Hi Hj. unfold smeft_fromarray. rewrite fold_set_labels by (auto; apply small33).
  assert (HI : In [i; j] (all_indices [3; 3]%nat)) by (apply all33; eauto).
  destruct (find _ _) as [J|] eqn:F.
  - apply find_some in F as [HJ F]. apply keqb_true in F. apply label_inj in F as [_ <-]; auto using small33.
  - apply (find_none _ _ F) in HI. now rewrite keqb_refl in HI.
Qed.
Lemma from_other n (a : idx -> K) k : no_us n -> name_of k <> n -> dget (smeft_fromarray n (CArr [3; 3]%nat a)) k = None.
Proof.
  intros N H. unfold smeft_fromarray. rewrite fold_set_labels by (auto; apply small33).
  destruct (find _ _) as [J|] eqn:F; [|reflexivity]. exfalso. apply find_some in F as [HJ F]. apply keqb_true in F. apply H. rewrite F.
  apply label_name; auto using small33.
Qed.
Lemma from_keys n (a : idx -> K) k : no_us n -> dget (smeft_fromarray n (CArr [3; 3]%nat a)) k <> None -> exists i j, (i < 3)%nat /\ (j < 3)%nat /\ k = label n [i; j].
Proof.
  intros N H. unfold smeft_fromarray in H. rewrite fold_set_labels in H by (auto; apply small33).
  destruct (find _ _) as [J|] eqn:F; [|now elim H]. apply find_some in F as [HJ F]. apply keqb_true in F.
  apply all33 in HJ as (i & j & A & B & ->). eauto.
Qed.

Definition vrow (V : cval K) (d : dict string K) (n : string) (i j : nat) : K :=
  ksum (map (fun k => entry V [i; k] * dgetd d (label n [k; j]) 0) (seq 0 3)).
Lemma rotate_one V d n C : mat3 V -> wfdict d -> (forall k, In k (dkeys d) -> In k (e_all E)) -> In n up_ops -> wfdict C ->
  exists C', rotate_step E V d n C = Ok C' /\ wfdict C' /\
    (forall i j, (i < 3)%nat -> (j < 3)%nat -> dget C' (label n [i; j]) = Some (vrow V d n i j)) /\
    (forall k, name_of k <> n -> dget C' k = dget C k) /\
    (forall k, dget C' k <> None -> dget C k <> None \/ exists i j, (i < 3)%nat /\ (j < 3)%nat /\ k = label n [i; j]).
Proof.
  intros MV WF HD Hn WC. pose proof (up_in n Hn) as H. pose proof (ok_no_us E _ OK n _ _ H) as NU.
  destruct (toarray_spec n Cl1 d H (or_introl eq_refl) WF HD) as (a & F & A). unfold rotate_step. rewrite F. cbn [bind].
  destruct MV as (v & MV). subst V. cbn [np_conj np_T np_matmul rev app Nat.eqb]. cbn [bind].
  eexists. split; [reflexivity|]. split; [apply wf_dupdate, WC|].
  split; [|split].
  - intros i j Hi Hj. rewrite dget_dupdate by apply from_wf. rewrite from_at by assumption. f_equal. unfold vrow. apply ksum_ext. intros k Hk.
    apply in_seq in Hk. cbn [nth rev app entry]. rewrite A by lia. now rewrite kconj_conj.
  - intros k Hk. rewrite dget_dupdate by apply from_wf. now rewrite from_other.
  - intros k Hk. rewrite dget_dupdate in Hk by apply from_wf.
    match type of Hk with match ?x with _ => _ end <> None => destruct x as [z|] eqn:G end; [|now left].
    right. eapply (from_keys n); [exact NU|]. rewrite G. discriminate.
Qed.
Lemma rotate_list V d names : mat3 V -> wfdict d -> (forall k, In k (dkeys d) -> In k (e_all E)) -> NoDup names -> (forall n, In n names -> In n up_ops) -> forall C, wfdict C ->
  exists C', rotate_all E V d names C = Ok C' /\ wfdict C' /\
    (forall n i j, In n names -> (i < 3)%nat -> (j < 3)%nat -> dget C' (label n [i; j]) = Some (vrow V d n i j)) /\
    (forall k, ~ In (name_of k) names -> dget C' k = dget C k) /\
    (forall k, dget C' k <> None -> dget C k <> None \/ exists n i j, In n names /\ (i < 3)%nat /\ (j < 3)%nat /\ k = label n [i; j]).
Proof.
  intros MV WF HD. induction names as [|n ns IH]; intros ND UP C WC.
  - exists C. repeat split; auto. intros ? ? ? [].
  - inversion ND as [|? ? NI ND']; subst. destruct (rotate_one V d n C MV WF HD (UP n (or_introl eq_refl)) WC) as (C1 & F1 & W1 & A1 & B1 & K1).
    destruct (IH ND' (fun m Hm => UP m (or_intror Hm)) C1 W1) as (C2 & F2 & W2 & A2 & B2 & K2).
    exists C2. split; [cbn [rotate_all]; rewrite F1; exact F2|]. split; [exact W2|]. split; [|split].
    + intros m i j [<-|Hm] Hi Hj; [|now apply A2]. rewrite B2; [now apply A1|].
      rewrite label_name; [exact NI|exact (ok_no_us E _ OK n _ _ (up_in n (UP n (or_introl eq_refl))))|]. apply small33, all33. eauto.
    + intros k Hk. rewrite B2 by (intros X; apply Hk; now right). apply B1. intros X. apply Hk. now left.
    + intros k Hk. destruct (K2 k Hk) as [X|(m & i & j & Hm & R)].
      * destruct (K1 k X) as [Y|(i & j & Hi & Hj & Y)]; [now left|]. right. exists n, i, j. repeat split; auto. now left.
      * right. exists m, i, j. split; [now right|exact R].
Qed.
(* the rotation of a coefficient matrix with indices of a conjugated doublet and an up-quark singlet *)
Lemma rot_up (V : cval K) (f : idx -> K) i j : (i < 3)%nat -> (j < 3)%nat ->
  rot (fun f i j => match f with Fq => kconj (entry V [j; i]) | _ => delta i j end) [bar Fq; pln Fu] f [i; j] =
  ksum (map (fun k => entry V [i; k] * f [k; j]) (seq 0 3)).
Proof.
  intros Hi Hj. unfold rot.
  destruct i as [|[|[|?]]]; try lia; destruct j as [|[|[|?]]]; try lia; cbn; rewrite ?kconj_conj; unfold delta; cbn; ring.
Qed.
End Facts.

(* The translation.  With A the symmetric coefficient matrix of the Weinberg operator,
   the result holds V times the coefficient matrix for the operators that involve
   left- and right-handed up quarks, the singular values of A for the Weinberg
   operator, and all other coefficients unchanged. *)
Theorem C61_translation : forall (K : StarField) all real E (V : cval K) (msvd : cval K -> nat -> K) (d : dict string K),
  smeft_util all real E -> mat3 V -> wfdict d -> (forall k, In k (dkeys d) -> In k all) ->
  exists d' A, warsaw_to_warsawmass E V msvd d = Ok d' /\ wfdict d' /\
    (forall n i j, In n ["uphi"; "uG"; "uW"; "uB"] -> (i < 3)%nat -> (j < 3)%nat ->
       dget d' (label n [i; j]) = Some (ksum (map (fun k => entry V [i; k] * dgetd d (label n [k; j]) 0) (seq 0 3))%K)) /\
    vshape A = [3; 3]%nat /\ (forall i j, (i < 3)%nat -> (j < 3)%nat -> entry A [i; j] = weinberg d i j) /\
    (forall i j, (i < 3)%nat -> (j < 3)%nat ->
       dget d' (label "llphiphi" [i; j]) = Some (if Nat.eqb i j then msvd A i else 0%K)) /\
    (forall k, ~ In (name_of k) ["uphi"; "uG"; "uW"; "uB"; "llphiphi"] -> dget d' k = dget d k) /\
    (forall z k, dget d' k = Some z -> z <> 0%K -> In k all).
Proof.
  intros K all real E V msvd d SU MV WF HD. destruct (util_ok all real E SU) as (OK & EA & KZ). rewrite <- EA in HD |- *.
  assert (ND : NoDup C_rotate_u) by (apply knodup_NoDup; reflexivity).
  destruct (rotate_list E OK V d C_rotate_u MV WF HD ND (fun n H => H) d WF) as (C & F & WC & A1 & B1 & K1).
  destruct (toarray_spec E OK "llphiphi" Cl9 d weinberg_in (or_intror eq_refl) WF HD) as (a & FA & A2).
  pose proof (ok_no_us E _ OK "llphiphi" _ _ weinberg_in) as NW.
  exists (dupdate C (smeft_fromarray "llphiphi" (np_diag3 (msvd (CArr [3; 3]%nat a))))), (CArr [3; 3]%nat a).
  assert (SM : forall i j, (i < 3)%nat -> (j < 3)%nat -> small [i; j] = true) by (intros; apply small33, all33; eauto).
  assert (UP : forall n i j, In n up_ops -> (i < 3)%nat -> (j < 3)%nat -> name_of (label n [i; j]) = n).
  { intros n i j Hn Hi Hj. apply label_name; auto. exact (ok_no_us E _ OK n _ _ (up_in n Hn)). }
  assert (AT : forall k, name_of k <> "llphiphi" -> dget (dupdate C (smeft_fromarray "llphiphi" (np_diag3 (msvd (CArr [3; 3]%nat a))))) k = dget C k).
  { intros k Hk. rewrite dget_dupdate by apply from_wf. unfold np_diag3. now rewrite from_other. }
  assert (WN : forall i j, (i < 3)%nat -> (j < 3)%nat -> dget (dupdate C (smeft_fromarray "llphiphi" (np_diag3 (msvd (CArr [3; 3]%nat a))))) (label "llphiphi" [i; j])
     = Some (if Nat.eqb i j then msvd (CArr [3; 3]%nat a) i else 0%K)).
  { intros i j Hi Hj. rewrite dget_dupdate by apply from_wf. unfold np_diag3. now rewrite from_at. }
  split; [unfold warsaw_to_warsawmass; rewrite F; cbn [bind]; rewrite FA; reflexivity|].
  split; [apply wf_dupdate, WC|]. split; [|split; [reflexivity|split; [|split; [exact WN|split]]]].
  - intros n i j Hn Hi Hj. rewrite AT; [apply A1; auto|]. rewrite UP by assumption. destruct Hn as [<-|[<-|[<-|[<-|[]]]]]; discriminate.
  - intros i j Hi Hj. exact (A2 i j Hi Hj).
  - intros k Hk. rewrite AT by (intros X; apply Hk; rewrite X; simpl; tauto). apply B1. intros X. apply Hk.
    change (In (name_of k) (C_rotate_u ++ ["llphiphi"])). apply in_or_app. now left.
  - intros z k Hz NZ.
    assert (KC : dget C k <> None -> In k (e_all E)).
    { intros X. destruct (K1 k X) as [Y|(n & i & j & Hn & Hi & Hj & ->)].
      - apply HD. destruct (dget d k) as [w|] eqn:G; [|congruence]. now apply dget_Some_key in G.
      - change (label n [i; j]) with (op_label n Cl1 [i; j]). apply (label_in_all E _ OK n Cl1 [3; 3]%nat); [now apply up_in| |].
        + apply in_all_indices, all33. eauto.
        + destruct i as [|[|[|?]]]; try lia; destruct j as [|[|[|?]]]; try lia; reflexivity. }
    rewrite dget_dupdate in Hz by apply from_wf.
    destruct (dget (smeft_fromarray "llphiphi" (np_diag3 (msvd (CArr [3; 3]%nat a)))) k) as [y|] eqn:G; [|apply KC; congruence].
    injection Hz as ->. unfold np_diag3 in G.
    assert (KK : exists i j, (i < 3)%nat /\ (j < 3)%nat /\ k = label "llphiphi" [i; j]) by (eapply (from_keys (K := K) "llphiphi"); [exact NW|rewrite G; discriminate]).
    destruct KK as (i & j & Hi & Hj & ->). rewrite from_at in G by assumption. cbn [nth] in G. destruct (Nat.eqb_spec i j) as [->|]; [|congruence].
    change (label "llphiphi" [j; j]) with (op_label "llphiphi" Cl9 [j; j]). apply (label_in_all E _ OK "llphiphi" Cl9 [3; 3]%nat); [exact weinberg_in| |].
    + apply in_all_indices, all33. eauto.
    + destruct j as [|[|[|?]]]; try lia; reflexivity.
Qed.
Print Assumptions C61_translation.

(* For the operators that involve left- and right-handed up quarks the result is the one
   of the translation to the Warsaw up basis. *)
Theorem C61_agrees_with_warsaw_up : forall (K : StarField) all real E (V : cval K) (msvd : cval K -> nat -> K) (d : dict string K),
  smeft_util all real E -> mat3 V -> unitary3 (fun i j => entry V [i; j]) -> wfdict d -> (forall k, In k (dkeys d) -> In k all) ->
  exists d' d1, warsaw_to_warsawmass E V msvd d = Ok d' /\ warsaw_to_warsaw_up E V d = Ok d1 /\
    forall n i j, In n ["uphi"; "uG"; "uW"; "uB"] -> (i < 3)%nat -> (j < 3)%nat ->
      dgetd d' (label n [i; j]) 0%K = dgetd d1 (label n [i; j]) 0%K.
Proof.
  intros K all real E V msvd d SU MV UV WF HD. destruct (util_ok all real E SU) as (OK & EA & KZ).
  destruct (C61_translation K all real E V msvd d SU MV WF HD) as (d' & A & F & _ & U & _).
  destruct (C24_rotation K all real E V d SU MV UV WF HD) as (d1 & C & C1 & F1 & FC & FC1 & R).
  destruct (C24_warsaw_roundtrip K all real E V d SU MV UV WF HD) as (d1' & _ & F1' & _ & HD1 & _).
  assert (d1' = d1) by congruence. subst d1'. exists d', d1. split; [exact F|]. split; [exact F1|].
  assert (WF1 : wfdict d1).
  { destruct (unitary_dag V MV UV) as [_ INV].
    destruct (there_and_back E OK KZ (only_q (np_T (np_conj V))) (only_q V) d (only_q_mat3 _ (dag_mat3 _ MV)) (only_q_mat3 _ MV) INV WF)
      as (C' & D & d1' & d2 & G1 & G2 & G3 & W1 & _); [now rewrite EA|].
    assert (d1' = d1); [|now subst]. unfold warsaw_to_warsaw_up in F1. rewrite G1 in F1. cbn [bind] in F1. rewrite G2 in F1. cbn [bind] in F1. congruence. }
  rewrite <- EA in HD, HD1.
  assert (CF : forall (e : dict string K) Ce n i j, wfdict e -> (forall k, In k (dkeys e) -> In k (e_all E)) -> wcxf2arrays_symmetrized E e = Ok Ce -> In n up_ops -> (i < 3)%nat -> (j < 3)%nat ->
    coef Ce n [i; j] = dgetd e (label n [i; j]) 0%K).
  { intros e Ce n i j We He Fe Hn Hi Hj. destruct (w2a_sym_spec E warsaw_ops OK e We He) as (Ce' & Fe' & _ & _ & VC). assert (Ce' = Ce) by congruence. subst Ce'.
    destruct (VC n Cl1 [3; 3]%nat (up_in n Hn)) as (w & Hw & (b & -> & B)). unfold coef. rewrite Hw. cbn [entry].
    assert (IS : in_shape [3; 3]%nat [i; j] = true) by (apply in_all_indices, all33; eauto).
    rewrite (B _ IS). change (entries e n [3; 3]%nat [i; j] = dgetd e (label n [i; j]) 0%K). unfold entries. now rewrite IS. }
  intros n i j Hn Hi Hj. rewrite <- (CF d1 C1 n i j WF1 HD1 FC1 Hn Hi Hj).
  unfold dgetd at 1. rewrite (U n i j Hn Hi Hj).
  assert (TS : exists t, dget wc_fields n = Some t /\ t = [bar Fq; pln Fu] /\ indices_of n = all_indices [3; 3]%nat)
    by (destruct Hn as [<-|[<-|[<-|[<-|[]]]]]; eexists; (split; [vm_compute; reflexivity|split; reflexivity])).
  destruct TS as (t & TS & -> & IX).
  rewrite (R n _ TS [i; j]) by (rewrite IX; apply all33; eauto). rewrite rot_up by assumption.
  apply ksum_ext. intros k Hk. apply in_seq in Hk. rewrite (CF d C n k j WF HD FC Hn) by lia. reflexivity.
Qed.
Print Assumptions C61_agrees_with_warsaw_up.

(* ---------- the Weinberg operator ---------- *)
(* the contract of ckmutil.diag.msvd for the matrix M: it returns the singular values in ascending order *)
Definition msvd_at (msvd : cval CR -> nat -> CR) (M : cmat) : Prop :=
  forall A, vshape A = [3; 3]%nat -> (forall i j, (i < 3)%nat -> (j < 3)%nat -> entry A [i; j] = M i j) ->
  exists U m W, svd M U m W /\ forall i, (i < 3)%nat -> msvd A i = rc (m i).
Definition trm (A : cmat) : cmat := fun i j => A j i.
Section Lept.
Local Open Scope K_scope.
Add Field KFlept : (k_field CR).
Lemma uni_tr U : uni U -> uni (trm U).
Proof.
  assert (X : forall A, meq A idm -> meq (trm A) idm).
  { intros A [H]. split. intros i j Hi Hj. unfold trm. rewrite (H j i) by assumption. unfold idm, diagm. now rewrite Nat.eqb_sym. }
  intros [A B]. split.
  - transitivity (trm (mm U (dagm U))); [|now apply X]. split. intros i j _ _. unfold mm, dagm, trm. ring.
  - transitivity (trm (mm (dagm U) U)); [|now apply X]. split. intros i j _ _. unfold mm, dagm, trm. ring.
Qed.
Lemma svd_congruence M U X m Y : uni U -> svd M X m Y -> svd (mm (mm (trm U) M) U) (mm (trm U) X) m (mm (dagm U) Y).
Proof.
  intros HU (HX & HY & EQ & S). split; [apply uni_mm; [now apply uni_tr|exact HX]|]. split; [apply uni_mm; [now apply uni_dag|exact HY]|]. split; [|exact S].
  rewrite EQ, dag_mm, dag_dag, !mm_assoc. reflexivity.
Qed.
End Lept.
Lemma svd_meq M N U m W : meq M N -> svd M U m W -> svd N U m W.
Proof. intros E (A & B & C & D). split; [exact A|]. split; [exact B|]. split; [now rewrite <- E|exact D]. Qed.

(* The coefficients of the Weinberg operator in the mass basis do not depend on the basis chosen for the
   lepton doublets: if the doublets of the input are rotated by a unitary matrix U the result is the same.
   They are real, non-negative and in ascending order. *)
Theorem C61_neutrino_masses : forall all real E (V : cval CR) msvd (d d1 : dict string CR) (U : cmat),
  smeft_util all real E -> mat3 V -> wfdict d -> (forall k, In k (dkeys d) -> In k all) -> wfdict d1 -> (forall k, In k (dkeys d1) -> In k all) ->
  msvd_at msvd (weinberg d) -> msvd_at msvd (weinberg d1) ->
  uni U -> meq (weinberg d1) (mm (mm (trm U) (weinberg d)) U) ->
  exists d' d1' m, warsaw_to_warsawmass E V msvd d = Ok d' /\ warsaw_to_warsawmass E V msvd d1 = Ok d1' /\
    (0 <= m 0%nat <= m 1%nat)%R /\ (m 1%nat <= m 2%nat)%R /\
    forall i j, (i < 3)%nat -> (j < 3)%nat ->
      dget d' (label "llphiphi" [i; j]) = Some (if Nat.eqb i j then rc (m i) else rc 0) /\
      dget d1' (label "llphiphi" [i; j]) = Some (if Nat.eqb i j then rc (m i) else rc 0).
Proof.
  intros all real E V msvd d d1 U SU MV WF HD WF1 HD1 MS MS1 HU EQ.
  destruct (C61_translation CR all real E V msvd d SU MV WF HD) as (d' & A & F & _ & _ & SA & EA & WA & _).
  destruct (C61_translation CR all real E V msvd d1 SU MV WF1 HD1) as (d1' & A1 & F1 & _ & _ & SA1 & EA1 & WA1 & _).
  destruct (MS A SA EA) as (X & m & Y & S & VM). destruct (MS1 A1 SA1 EA1) as (X1 & m1 & Y1 & S1 & VM1).
  assert (MM : forall i, (i < 3)%nat -> m1 i = m i).
  { eapply svd_values; [exact S1|]. apply (svd_meq (mm (mm (trm U) (weinberg d)) U)); [now symmetry|]. now apply (svd_congruence _ U X m Y). }
  exists d', d1', m. split; [exact F|]. split; [exact F1|]. destruct S as (_ & _ & _ & S0 & S2 & S3). split; [split; assumption|]. split; [exact S3|].
  intros i j Hi Hj. rewrite WA, WA1 by assumption. change (k0 : CR) with (rc 0). destruct (Nat.eqb_spec i j) as [->|]; [|auto].
  rewrite VM, VM1, MM by assumption. auto.
Qed.
Print Assumptions C61_neutrino_masses.

(* inputs that meet the hypotheses *)
Example C61_case : exists E, smeft_util (all_of warsaw_ops) (real_of warsaw_ops) E /\ mat3 (ex_U Fq) /\ unitary3 (fun i j => entry (ex_U Fq) [i; j]) /\
  exists d : dict string QI, wfdict d /\ (forall k, In k (dkeys d) -> In k (all_of warsaw_ops)) /\ d = [("uW_23", qi 1 2); ("llphiphi_12", qi 3 0); ("G", qi 5 0)].
Proof.
  destruct ex16_smeft as (D & D4 & A & I1 & _).
  destruct (C15_basis_detected warsaw_ops _ _ _ _ D D4 A) as (E & EI & _).
  exists E. split; [split; eauto|]. split; [exists ex_u; reflexivity|]. split; [exact (C23_unitary Fq)|].
  eexists. split; [|split; [|reflexivity]].
  - apply knodup_NoDup. vm_compute. reflexivity.
  - intros k Hk. apply kmem_In. revert k Hk. apply (proj1 (forallb_forall (fun k => kmem k (all_of warsaw_ops)) _)). vm_compute. reflexivity.
Qed.
Example C61_case_masses : exists (d d1 : dict string CR) msvd U,
  wfdict d /\ (forall k, In k (dkeys d) -> In k (all_of warsaw_ops)) /\ wfdict d1 /\ (forall k, In k (dkeys d1) -> In k (all_of warsaw_ops)) /\
  msvd_at msvd (weinberg d) /\ msvd_at msvd (weinberg d1) /\ uni U /\ meq (weinberg d1) (mm (mm (trm U) (weinberg d)) U) /\
  dget d "llphiphi_33" = Some (rc 2) /\ dget d1 "llphiphi_33" = Some (rc (-2)).
Proof.
  set (U := (fun i j : nat => if Nat.eqb i j then if Nat.eqb i 2 then (0, 1)%R else rc 1 else rc 0) : cmat).
  assert (HU : uni U).
  { split; split; intros i j Hi Hj; destruct i as [|[|[|?]]]; try lia; destruct j as [|[|[|?]]]; try lia; unfold mm, dagm, U, idm, diagm; apply injective_projections; cbn; ring. }
  exists [("llphiphi_33", rc 2)], [("llphiphi_33", rc (-2))], (fun _ i => if Nat.eqb i 2 then rc 2 else rc 0), U.
  assert (K1 : forall z : CR, wfdict [("llphiphi_33", z)] /\ forall k, In k (dkeys [("llphiphi_33", z)]) -> In k (all_of warsaw_ops)).
  { intros z. split; [constructor; [intros []|constructor]|]. intros k Hk. apply kmem_In. destruct Hk as [<-|[]]. vm_compute. reflexivity. }
  destruct (K1 (rc 2)) as [A1 A2]. destruct (K1 (rc (-2))) as [B1 B2].
  assert (W : forall z i j, (i < 3)%nat -> (j < 3)%nat -> weinberg [("llphiphi_33", z)] i j = if Nat.eqb i 2 && Nat.eqb j 2 then z else rc 0).
  { intros z i j Hi Hj. destruct i as [|[|[|?]]]; try lia; destruct j as [|[|[|?]]]; try lia; reflexivity. }
  split; [exact A1|]. split; [exact A2|]. split; [exact B1|]. split; [exact B2|].
  split; [|split; [|split; [exact HU|split; [|split; reflexivity]]]].
  - intros A _ _. exists idm, (fun i => if Nat.eqb i 2 then 2 else 0)%R, idm. split.
    + split; [exact uni_id|]. split; [exact uni_id|]. split; [|cbn; lra].
      split. intros i j Hi Hj. rewrite W by assumption. destruct i as [|[|[|?]]]; try lia; destruct j as [|[|[|?]]]; try lia; unfold mm, dagm, idm, diagm; apply injective_projections; cbn; ring.
    + intros i Hi. destruct i as [|[|[|?]]]; try lia; reflexivity.
  - intros A _ _. exists U, (fun i => if Nat.eqb i 2 then 2 else 0)%R, (dagm U). split.
    + split; [exact HU|]. split; [now apply uni_dag|]. split; [|cbn; lra].
      split. intros i j Hi Hj. rewrite W by assumption. destruct i as [|[|[|?]]]; try lia; destruct j as [|[|[|?]]]; try lia; unfold mm, dagm, U, diagm; apply injective_projections; cbn; ring.
    + intros i Hi. destruct i as [|[|[|?]]]; try lia; reflexivity.
  - split. intros i j Hi Hj. unfold mm at 1 2. rewrite !W by lia.
    destruct i as [|[|[|?]]]; try lia; destruct j as [|[|[|?]]]; try lia; unfold trm, U; apply injective_projections; cbn; ring.
Qed.
