(* C42: the DSixTools format.  A parsed file is a dictionary from block names to lines
   (indices, value); see DsixModel.v. *)
From Coq Require Import List Bool ZArith QArith Arith Lia String Ascii Field.
From Verif Require Import PyBase Num SymModel SymClass SymSpec SymCheck SymProofs SymFacts EftModel EftSpec EftProofs EftLabels EftRound EftRound2 EftInit
  BasisProps UpProofs UpProps WcxfModel WcxfProofs DsixData DsixModel DsixProofs DsixRound DsixSym DsixLoad DsixIO.
Import ListNotations.
Local Open Scope string_scope.
Local Open Scope list_scope.

(* the names in C_keys_shape of dimension 4 *)
Definition sm_keys : list string := ["g"; "gp"; "gs"; "Lambda"; "m2"; "Gu"; "Gd"; "Ge"].
(* a file with the parameters of the Standard Model and nothing else *)
Definition parameter_file {K : StarField} (S : @blocks K) : Prop :=
  wfdict S /\ (forall b, dget S b <> None -> In b sm_blocks) /\ exists sm, sm_lha2dict S = Ok sm.
(* a set of coefficients in the Warsaw basis *)
Definition warsaw_wc {K : StarField} (all : list string) (wc : WC K) : Prop :=
  wc_eft wc = "SMEFT" /\ wc_basis wc = "Warsaw" /\ wfdict (wc_dict wc) /\ forall k, In k (dkeys (wc_dict wc)) -> In k all.
Lemma parameter_blocks {K : StarField} (S : @blocks K) : (forall b, dget S b <> None -> In b sm_blocks) ->
  forall b, dget S b <> None -> ~ wc_block b /\ b <> "SCALES".
Proof. intros H b Hb. pose proof (H b Hb) as X. split; [apply other_not_wc; now right|]. intros ->. cbn in X. intuition discriminate. Qed.

(* wcxf2dsixtools writes the coefficients; reading them back together with a file of
   parameters, in either order, returns the coefficients (the real part where the basis
   file says real, without zeros) at the same scale *)
Theorem C42_wcxf_roundtrip : forall (K : StarField) all real E (wc : WC K) (S : @blocks K) hash,
  smeftutil all real E -> warsaw_wc all wc -> kreal (wc_scale wc) -> wc_scale wc <> 0%K -> parameter_file S ->
  exists L, wcxf2dsixtools E sm_keys wc = Ok L /\
  forall streams, streams = [Some L; Some S] \/ streams = [Some S; Some L] ->
  exists wc', dsixtools2wcxf E streams hash = Ok wc' /\ wc_eft wc' = "SMEFT" /\ wc_basis wc' = "Warsaw" /\ wc_scale wc' = wc_scale wc /\
    forall k, dget (wc_dict wc') k = clean real (wc_dict wc) k.
Proof.
  intros K all real E wc S hash SU (EE & EB & WF & HD) RH NH (WS & DS & sm & ES).
  destruct (io_round all real E SU wc None S sm hash EE EB WF HD RH NH WS (parameter_blocks S DS) ES) as (io & C & L & E1 & E2 & _ & _ & E3 & _ & R).
  exists L. split; [|exact R]. unfold wcxf2dsixtools. change sm_keys with (map fst smeft_d4). rewrite E1. cbn [bind]. rewrite E2. exact E3.
Qed.
(* the coefficients alone cannot be read: the parameters are not written *)
Theorem C42_parameters_needed : forall (K : StarField) all real E (wc : WC K) hash,
  smeftutil all real E -> warsaw_wc all wc -> kreal (wc_scale wc) -> wc_scale wc <> 0%K ->
  exists L, wcxf2dsixtools E sm_keys wc = Ok L /\ dsixtools2wcxf E [Some L] hash = Err KeyError.
Proof.
  intros K all real E wc hash SU (EE & EB & WF & HD) RH NH.
  set (P := [("g", CNum 0); ("gp", CNum 0); ("gs", CNum 0); ("Lambda", CNum 0); ("m2", CNum 0); ("Gu", CArr [3;3]%nat (fun _ => 0)); ("Gd", CArr [3;3]%nat (fun _ => 0)); ("Ge", CArr [3;3]%nat (fun _ => 0));
             ("Theta", CNum 0); ("Thetap", CNum 0); ("Thetas", CNum 0)]%K : dict string (cval K)).
  destruct (sm_dict2lha P) as [S|] eqn:ES; [|discriminate ES].
  assert (X : exists sm, sm_lha2dict S = Ok sm /\ wfdict S /\ forall b, dget S b <> None -> In b sm_blocks).
  { cbv [sm_dict2lha P number part_lines dget keqb bind] in ES. cbn in ES. injection ES as <-.
    eexists. split; [reflexivity|]. split; [apply knodup_NoDup; vm_compute; reflexivity|]. intros b Hb.
    destruct (in_dec string_dec b sm_blocks) as [Y|N]; [exact Y|]. exfalso. apply Hb, dget_None. cbn. cbn in N. intuition. }
  destruct X as (sm & X1 & X2 & X3).
  destruct (io_round all real E SU wc None S sm hash EE EB WF HD RH NH X2 (parameter_blocks S X3) X1) as (io & C & L & E1 & E2 & _ & _ & E3 & E4 & R).
  exists L. split; [unfold wcxf2dsixtools; change sm_keys with (map fst smeft_d4); rewrite E1; cbn [bind]; rewrite E2; exact E3|].
  unfold dsixtools2wcxf. rewrite E4. reflexivity.
Qed.
(* with another high scale h, set_initial_wcxf(wc, scale_high=h): the coefficients come
   back, at the scale h *)
Theorem C42_high_scale : forall (K : StarField) all real E (wc : WC K) (h : K) (S : @blocks K) hash,
  smeftutil all real E -> warsaw_wc all wc -> kreal h -> h <> 0%K -> parameter_file S ->
  exists io C L, set_initial_wcxf E sm_keys new_io wc (Some h) = Ok io /\ C_in io = Some C /\ scale_in io = Some (wc_scale wc) /\
    io_dump E io C None true = Ok L /\
  forall streams, streams = [Some L; Some S] \/ streams = [Some S; Some L] ->
  exists wc', dsixtools2wcxf E streams hash = Ok wc' /\ wc_scale wc' = h /\
    forall k, dget (wc_dict wc') k = clean real (wc_dict wc) k.
Proof.
  intros K all real E wc h S hash SU (EE & EB & WF & HD) RH NH (WS & DS & sm & ES).
  destruct (io_round all real E SU wc (Some h) S sm hash EE EB WF HD RH NH WS (parameter_blocks S DS) ES) as (io & C & L & E1 & E2 & E2' & _ & E3 & _ & R).
  exists io, C, L. split; [exact E1|]. split; [exact E2|]. split; [exact E2'|]. split; [exact E3|]. intros st Hst.
  destruct (R st Hst) as (wc' & A & _ & _ & B & V). exists wc'. auto.
Qed.
(* arrays with the symmetries of their operators: whatever is skipped in the file, the
   arrays are read back *)
Theorem C42_arrays_roundtrip : forall (K : StarField) all real E (C : dict string (cval K)) skip_redundant skip_zero,
  smeftutil all real E ->
  (forall n c s, In (n, (c, s)) warsaw_ops -> exists v, dget C n = Some v /\ has_shape (op_shape c s) v /\ value_symmetric c s v) ->
  exists d, wc_dict2lha E C skip_redundant skip_zero = Ok d /\
  forall d' sm, (forall b, wc_block b -> dget d' b = dget d b) -> sm_lha2dict d' = Ok sm ->
  exists C' C'', wc_lha2dict E d' = Ok C' /\ eft_symmetrize E (dupdate C' sm) = Ok C'' /\
    forall n, In n (map fst warsaw_ops) -> exists v w, dget C n = Some v /\ dget C'' n = Some w /\ cv_eq w v.
Proof.
  intros K all real E C sr sz SU F. destruct (util_facts all real E SU) as (_ & _ & K2 & K4 & N2 & N4 & _).
  destruct (file_spec E K2 K4 C sr sz) as (d & ED & _).
  { intros n c s H. destruct (F n c s H) as (v & A & B & _). eauto. }
  exists d. split; [exact ED|]. intros d' sm EQ ES. destruct (recover all real E SU C sr sz d d' sm F ED EQ ES) as (C' & C'' & A & B & _ & D).
  exists C', C''. auto.
Qed.
(* the parameters of the Standard Model *)
Theorem C42_parameters_roundtrip : forall (K : StarField) (P : dict string (cval K)),
  (forall k, In k ["g"; "gp"; "gs"; "Lambda"; "m2"; "Theta"; "Thetap"; "Thetas"] -> exists x, dget P k = Some (CNum x) /\ kreal x) ->
  (forall k, In k ["Gu"; "Gd"; "Ge"] -> exists a, dget P k = Some (CArr [3; 3]%nat a)) ->
  exists d P', sm_dict2lha P = Ok d /\ parameter_file d /\ sm_lha2dict d = Ok P' /\
    forall k, In k ["g"; "gp"; "gs"; "Lambda"; "m2"; "Theta"; "Thetap"; "Thetas"; "Gu"; "Gd"; "Ge"] ->
      exists v w, dget P k = Some v /\ dget P' k = Some w /\ cv_eq w v.
Proof.
  intros K P HN HM.
  destruct (HN "g") as (g & G1 & G2); [cbn; tauto|]. destruct (HN "gp") as (gp & G3 & G4); [cbn; tauto|]. destruct (HN "gs") as (gs & G5 & G6); [cbn; tauto|].
  destruct (HN "Lambda") as (l & G7 & G8); [cbn; tauto|]. destruct (HN "m2") as (m & G9 & G10); [cbn; tauto|].
  destruct (HN "Theta") as (t & T1 & T2); [cbn; tauto|]. destruct (HN "Thetap") as (tp & T3 & T4); [cbn; tauto|]. destruct (HN "Thetas") as (ts & T5 & T6); [cbn; tauto|].
  destruct (HM "Gu") as (u & M1); [cbn; tauto|]. destruct (HM "Gd") as (d & M2); [cbn; tauto|]. destruct (HM "Ge") as (e & M3); [cbn; tauto|].
  unfold sm_dict2lha, number, part_lines. rewrite G1, G3, G5, G7, G9, T1, T3, T5, M1, M2, M3. cbn [bind].
  destruct (lha_matrix [3;3]%nat (fun I => kre (u I))) as (A1 & B1 & C1). destruct (lha_matrix [3;3]%nat (fun I => kim (u I))) as (A2 & B2 & C2).
  destruct (lha_matrix [3;3]%nat (fun I => kre (d I))) as (A3 & B3 & C3). destruct (lha_matrix [3;3]%nat (fun I => kim (d I))) as (A4 & B4 & C4).
  destruct (lha_matrix [3;3]%nat (fun I => kre (e I))) as (A5 & B5 & C5). destruct (lha_matrix [3;3]%nat (fun I => kim (e I))) as (A6 & B6 & C6).
  remember (matrix2lha [3;3]%nat (fun I => kre (u I))) as L1. remember (matrix2lha [3;3]%nat (fun I => kim (u I))) as L2.
  remember (matrix2lha [3;3]%nat (fun I => kre (d I))) as L3. remember (matrix2lha [3;3]%nat (fun I => kim (d I))) as L4.
  remember (matrix2lha [3;3]%nat (fun I => kre (e I))) as L5. remember (matrix2lha [3;3]%nat (fun I => kim (e I))) as L6.
  set (F := [("GAUGE", _); _; _; _; _; _; _; _; _]).
  assert (SD : sm_lha2dict F = Ok [("g", CNum (kre g)); ("gp", CNum (kre gp)); ("gs", CNum (kre gs)); ("Lambda", CNum (kre l)); ("m2", CNum (kre m));
     ("Gu", CArr [3;3]%nat (fun I => A1 I + ki * A2 I)%K); ("Gd", CArr [3;3]%nat (fun I => A3 I + ki * A4 I)%K); ("Ge", CArr [3;3]%nat (fun I => A5 I + ki * A6 I)%K);
     ("Theta", CNum (kre t)); ("Thetap", CNum (kre tp)); ("Thetas", CNum (kre ts))]).
  { unfold sm_lha2dict.
    assert (N1 : read_number F "GAUGE" 1 = Ok (kre g)) by reflexivity. assert (N2 : read_number F "GAUGE" 2 = Ok (kre gp)) by reflexivity.
    assert (N3 : read_number F "GAUGE" 3 = Ok (kre gs)) by reflexivity. assert (N4 : read_number F "SCALAR" 1 = Ok (kre l)) by reflexivity.
    assert (N5 : read_number F "SCALAR" 2 = Ok (kre m)) by reflexivity.
    rewrite N1, N2, N3, N4, N5. cbn [bind].
    assert (X1 : sm_matrix F "GU" "IMGU" = Ok (CArr [3;3]%nat (fun I => A1 I + ki * A2 I)%K)).
    { unfold sm_matrix. change (block F "GU") with (Ok L1). change (dget F "IMGU") with (Some L2). cbn [bind]. rewrite B1. cbn [bind]. rewrite B2. reflexivity. }
    assert (X2 : sm_matrix F "GD" "IMGD" = Ok (CArr [3;3]%nat (fun I => A3 I + ki * A4 I)%K)).
    { unfold sm_matrix. change (block F "GD") with (Ok L3). change (dget F "IMGD") with (Some L4). cbn [bind]. rewrite B3. cbn [bind]. rewrite B4. reflexivity. }
    assert (X3 : sm_matrix F "GE" "IMGE" = Ok (CArr [3;3]%nat (fun I => A5 I + ki * A6 I)%K)).
    { unfold sm_matrix. change (block F "GE") with (Ok L5). change (dget F "IMGE") with (Some L6). cbn [bind]. rewrite B5. cbn [bind]. rewrite B6. reflexivity. }
    rewrite X1, X2, X3. reflexivity. }
  exists F. eexists. split; [reflexivity|]. split; [|split; [exact SD|]].
  - split; [apply knodup_NoDup; reflexivity|]. split; [|eauto]. intros b Hb.
    destruct (in_dec string_dec b sm_blocks) as [Y|N]; [exact Y|]. exfalso. apply Hb, dget_None. cbn. cbn in N. intuition.
  - assert (RE : forall x : K, kreal x -> cv_eq (CNum (kre x)) (CNum x)) by (intros x Hx; exact (kre_of_real x Hx)).
    assert (MA : forall (a p q : idx -> K), (forall I, in_shape [3;3]%nat I = true -> p I = kre (a I)) -> (forall I, in_shape [3;3]%nat I = true -> q I = kim (a I)) ->
       cv_eq (CArr [3;3]%nat (fun I => p I + ki * q I)%K) (CArr [3;3]%nat a)).
    { intros a p q Hp Hq. split; [reflexivity|]. intros I HI. rewrite (Hp I HI), (Hq I HI). apply kre_im. }
    intros k Hk. cbn [In] in Hk.
    repeat (destruct Hk as [<-|Hk]; [eexists; eexists; split; [eassumption|split; [reflexivity|first [apply RE; assumption|apply MA; assumption]]]|]). destruct Hk.
Qed.
(* the arrays handed to DSixTools hold the coefficients of the non-redundant basis times
   the power of the high scale that makes them dimensionless, and their images under the
   symmetries of the operators *)
Theorem C42_dimensionless_arrays : forall (K : StarField) all real E (wc : WC K) (h : K),
  smeftutil all real E -> warsaw_wc all wc -> kreal h ->
  exists io C, set_initial_wcxf E sm_keys new_io wc (Some h) = Ok io /\ C_in io = Some C /\ scale_high io = Some h /\
    (forall n, dget C n <> None <-> In n (map fst warsaw_ops)) /\
    forall n c s, In (n, (c, s)) warsaw_ops -> exists v, dget C n = Some v /\ has_shape (op_shape c s) v /\ value_symmetric c s v /\
      forall I, in_shape s I = true -> nonredundant c I = true ->
        let x := dgetd (wc_dict wc) (op_label n c I) 0%K in
        (match v with CNum z => z | CArr _ a => a I end =
         (if real_entry c I then kre x else x) * (if String.eqb n "llphiphi" then h else h * h))%K.
Proof.
  intros K all real E wc h SU (EE & EB & WF & HD) RH.
  destruct (set_initial_spec all real E SU new_io wc (Some h) EE EB WF HD) as (C & EI & WC & KC & VC). cbn [new_io C_in high_of] in *.
  exists (mkIO (Some C) (Some (wc_scale wc)) (Some h)), C. split; [exact EI|]. split; [reflexivity|]. split; [reflexivity|]. split; [exact KC|].
  intros n c s H. destruct (init_full all real E SU _ _ _ VC n c s H) as (v & Hv & HS & SY). exists v. split; [exact Hv|]. split; [exact HS|]. split; [exact SY|].
  intros I HI HN. set (x := dgetd (wc_dict wc) (op_label n c I) 0%K). destruct (VC n c s H) as (v' & Hv' & IV). assert (v' = v) by congruence. subst v'.
  assert (FA : fac h n = (if String.eqb n "llphiphi" then h else h * h)%K).
  { unfold fac. cbn [keys_dim5 kmem]. destruct (keqb_spec n "llphiphi") as [->|N]; [reflexivity|]. destruct (String.eqb_spec n "llphiphi"); [contradiction|reflexivity]. }
  rewrite <- FA. assert (RF : kreal (fac h n)) by (unfold fac; destruct (kmem n keys_dim5); [exact RH|unfold kreal in *; now rewrite kconj_mul, RH]).
  pose proof (ok_shapes E warsaw_ops (proj1 (util_facts all real E SU)) n c s H) as SO. pose proof (in_shape_indices c s I SO HI) as II.
  destruct (cl0_dec c) as [->|NC].
  - cbn [init_val] in IV. subst v. assert (Z : I = []) by (destruct II as [<-|[]]; reflexivity). subst I. unfold x. cbn [op_label]. rewrite kre_scale by exact RF. reflexivity.
  - assert (X : exists b, v = CArr s b /\ forall I, in_shape s I = true -> b I = symmetrize k_alg c (fun J => (entries (wc_dict wc) n s J * fac h n)%K) I) by (destruct c; try exact IV; congruence).
    destruct X as (b & -> & B). rewrite (B I HI), (S15 c _ I II HN). unfold entries. rewrite HI. unfold x.
    replace (op_label n c I) with (label n I) by (destruct c; try reflexivity; congruence).
    destruct (real_entry c I); [now apply kre_scale|reflexivity].
Qed.

(* ---------- what is not preserved ---------- *)
Definition ex42_wc (k : string) (scale : QI) : WC QI := mkWC "SMEFT" "Warsaw" scale (dict2values [(k, qi 3 0)]) [] 0.
Lemma ex42_warsaw k s : In k (all_of warsaw_ops) -> warsaw_wc (all_of warsaw_ops) (ex42_wc k s).
Proof.
  intros H. split; [reflexivity|]. split; [reflexivity|]. unfold ex42_wc. rewrite wc_dict_mk. split; [constructor; [intros []|constructor]|].
  intros k' [<-|[]]. exact H.
Qed.
Definition ex42_P : dict string (cval QI) :=
  [("g", CNum (qi (13#20) 0)); ("gp", CNum (qi (7#20) 0)); ("gs", CNum (qi 1 0)); ("Lambda", CNum (qi (1#4) 0)); ("m2", CNum (qi 7700 0));
   ("Gu", CArr [3;3]%nat (fun I => if keqb I [2;1]%nat then qi (1#2) (1#3) else qi 0 0)); ("Gd", CArr [3;3]%nat (fun I => if keqb I [2;2]%nat then qi (1#50) 0 else qi 0 0));
   ("Ge", CArr [3;3]%nat (fun _ => qi 0 0)); ("Theta", CNum (qi 0 0)); ("Thetap", CNum (qi 0 0)); ("Thetas", CNum (qi 0 0))].
Lemma ex42_file : exists S, sm_dict2lha ex42_P = Ok S /\ parameter_file S.
Proof.
  destruct (C42_parameters_roundtrip QI ex42_P) as (d & P' & A & B & _).
  - intros k H. cbn [In] in H. repeat (destruct H as [<-|H]; [eexists; split; [reflexivity|vm_compute; reflexivity]|]). destruct H.
  - intros k H. cbn [In] in H. repeat (destruct H as [<-|H]; [eexists; reflexivity|]). destruct H.
  - exists d. auto.
Qed.
Lemma ex42_util : exists E, smeftutil (all_of warsaw_ops) (real_of warsaw_ops) E.
Proof.
  destruct ex16_smeft as (D & D4 & A & _). destruct (C15_basis_detected warsaw_ops _ _ _ _ D D4 A) as (E & EI & _). exists E. split; assumption.
Qed.
(* a WC at 91 with scale_high = 1000 comes back as a WC at 1000 *)
Theorem C42_scale_refuted : exists (all : list string) real E (wc : WC QI) (S : @blocks QI) io C L wc',
  smeftutil all real E /\ warsaw_wc all wc /\ parameter_file S /\
  set_initial_wcxf E sm_keys new_io wc (Some (qi 1000 0)) = Ok io /\ C_in io = Some C /\ io_dump E io C None true = Ok L /\
  dsixtools2wcxf E [Some L; Some S] 0 = Ok wc' /\ wc_scale wc' <> wc_scale wc.
Proof.
  destruct ex42_util as (E & SU). destruct ex42_file as (S & _ & PF).
  assert (IN : In "ll_1122" (all_of warsaw_ops)) by (apply kmem_In; vm_cast_no_check (eq_refl true)).
  pose proof (ex42_warsaw "ll_1122" (qi 91 0) IN) as WW.
  destruct (C42_high_scale QI _ _ E (ex42_wc "ll_1122" (qi 91 0)) (qi 1000 0) S 0 SU WW) as (io & C & L & E1 & E2 & _ & E3 & R);
    [vm_compute; reflexivity|vm_compute; discriminate|exact PF|].
  destruct (R _ (or_introl eq_refl)) as (wc' & E4 & E5 & _). exists (all_of warsaw_ops), (real_of warsaw_ops), E, (ex42_wc "ll_1122" (qi 91 0)), S, io, C, L, wc'.
  repeat (split; [assumption|]). rewrite E5. vm_compute. discriminate.
Qed.
(* the arrays handed to DSixTools are not those of wcxf2arrays_symmetrized, which divides
   by the number of equal terms in the Lagrangian: ll_1122 stands for [1,1,2,2] and [2,2,1,1] *)
Theorem C42_symmetry_factor_refuted : exists (all : list string) real E (wc : WC QI) io C C' a b,
  smeftutil all real E /\ warsaw_wc all wc /\ wc_scale wc = qi 1 0 /\
  set_initial_wcxf E sm_keys new_io wc None = Ok io /\ C_in io = Some C /\ wcxf2arrays_symmetrized E (wc_dict wc) = Ok C' /\
  dget C "ll" = Some (CArr [3;3;3;3]%nat a) /\ dget C' "ll" = Some (CArr [3;3;3;3]%nat b) /\
  a [0;0;1;1]%nat = qi 3 0 /\ b [0;0;1;1]%nat = qi (3#2) 0.
Proof.
  destruct ex42_util as (E & SU).
  assert (IN : In "ll_1122" (all_of warsaw_ops)) by (apply kmem_In; vm_cast_no_check (eq_refl true)).
  set (wc := ex42_wc "ll_1122" (qi 1 0)). pose proof (ex42_warsaw "ll_1122" (qi 1 0) IN) as WW. fold wc in WW.
  destruct WW as (EE & EB & WF & HD). destruct (util_facts _ _ E SU) as (OK & EA & _).
  destruct (set_initial_spec _ _ E SU new_io wc None EE EB WF HD) as (C & EI & _ & _ & VC). cbn [new_io C_in high_of scale_high] in *.
  destruct (w2a_sym_spec E warsaw_ops OK (wc_dict wc) WF) as (C' & E' & _ & _ & VC'); [now rewrite EA|].
  assert (LL : In ("ll", (Cl4, [3;3;3;3]%nat)) warsaw_ops) by (cbv; tauto).
  destruct (VC _ _ _ LL) as (v & Hv & b & -> & B). destruct (VC' _ _ _ LL) as (v' & Hv' & b' & -> & B').
  exists (all_of warsaw_ops), (real_of warsaw_ops), E, wc, (mkIO (Some C) (Some (wc_scale wc)) (Some (wc_scale wc))), C, C', b, b'.
  split; [exact SU|]. split; [repeat split; assumption|]. split; [reflexivity|]. split; [exact EI|]. split; [reflexivity|]. split; [exact E'|].
  split; [exact Hv|]. split; [exact Hv'|]. rewrite B, B' by reflexivity. split; vm_compute; reflexivity.
Qed.

(* ---------- cases ---------- *)
Example C42_case : exists (E : eft) (S : @blocks QI) L wc', smeftutil (all_of warsaw_ops) (real_of warsaw_ops) E /\ parameter_file S /\
  wcxf2dsixtools E sm_keys (ex42_wc "llphiphi_23" (qi 1000 0)) = Ok L /\ dsixtools2wcxf E [Some S; Some L] 1 = Ok wc' /\ dget (wc_dict wc') "llphiphi_23" = Some (qi 3 0).
Proof.
  destruct ex42_util as (E & SU). destruct ex42_file as (S & _ & PF).
  assert (IN : In "llphiphi_23" (all_of warsaw_ops)) by (apply kmem_In; vm_cast_no_check (eq_refl true)).
  pose proof (ex42_warsaw "llphiphi_23" (qi 1000 0) IN) as WW.
  destruct (C42_wcxf_roundtrip QI _ _ E _ S 1 SU WW) as (L & E1 & R); [vm_compute; reflexivity|vm_compute; discriminate|exact PF|].
  destruct (R _ (or_intror eq_refl)) as (wc' & E2 & _ & _ & _ & V). exists E, S, L, wc'. repeat (split; [assumption|]). rewrite V.
  unfold clean, ex42_wc. rewrite wc_dict_mk. vm_compute. reflexivity.
Qed.
Print Assumptions C42_wcxf_roundtrip.
Print Assumptions C42_parameters_needed.
Print Assumptions C42_high_scale.
Print Assumptions C42_arrays_roundtrip.
Print Assumptions C42_parameters_roundtrip.
Print Assumptions C42_dimensionless_arrays.
Print Assumptions C42_scale_refuted.
Print Assumptions C42_symmetry_factor_refuted.
