(* C26-C28: translations between the WET bases. *)
From Coq Require Import List Bool ZArith QArith Arith Lia String Ascii.
From Verif Require Import PyBase Num Lin SymModel SymClass SymSpec EftModel EftSpec EftProofs EftLabels EftRound EftInit JmsModel JmsSpec JmsProofs JmsArrays JmsProps
  TrLang TrData TrBlocks TrModel TrNorm TrSpec AdmData BasisProps TrProofs TrValues TrRound TrMore TrKit TrWC.
Import ListNotations.
Local Open Scope string_scope.
Local Open Scope list_scope.

(* ---------- C26 ---------- *)
(* p: the parameters (real and non-zero: par_ok; CKM elements non-zero).  all: the coefficients
   of the JMS basis.  bern_wcs, flavio_wcs: those of the Bern and flavio bases. *)
Section C26.
Context {K : StarField}.
Local Open Scope K_scope.
Variables (p : tpar K) (all : list string) (real : string -> bool) (js : dict string (list string)) (bern_wcs flavio_wcs : list string).
Hypotheses (PO : par_ok p) (D : describes jms_ops all real) (HB : incl bern_keys bern_wcs) (HF : incl flavio_keys flavio_wcs).

(* JMS <-> Bern: inverse to each other on all coefficients of the Bern sectors *)
Theorem C26_Bern_JMS_Bern (C : dict string K) :
  exists J B, Bern_to_JMS p all bern_wcs C = Ok J /\ JMS_to_Bern p all js J None = Ok B /\ holds B bern_keys (fun k => dgetd C k 0).
Proof. exact (round_BJB p PO all real D js bern_wcs HB C). Qed.
Theorem C26_JMS_Bern_JMS (C : dict string K) :
  exists B J, JMS_to_Bern p all js C None = Ok B /\ Bern_to_JMS p all bern_wcs B = Ok J /\ holds J (of_sectors bern_sectors) (fun k => dgetd C k 0).
Proof. exact (round_JBJ p PO all real D js bern_wcs HB C HB). Qed.
(* JMS <-> flavio *)
Theorem C26_flavio_JMS_flavio (C : dict string K) :
  exists J F, flavio_to_JMS p all flavio_wcs C None = Ok J /\ JMS_to_flavio p all js J None = Ok F /\ holds F flavio_keys (fun k => dgetd C k 0).
Proof. exact (round_FJF p PO all real D js flavio_wcs HF C). Qed.
(* the semileptonic tensor coefficients of quark-flavour changing transitions are lost, all others come back *)
Theorem C26_JMS_flavio_JMS_partial (C : dict string K) :
  exists F J, JMS_to_flavio p all js C None = Ok F /\ flavio_to_JMS p all flavio_wcs F None = Ok J /\
    holds J (of_sectors flavio_sectors) (fun k => if kmem k semileptonic_tensors then 0 else dgetd C k 0).
Proof. exact (round_JFJ p PO all real D js flavio_wcs HF C). Qed.
(* flavio <-> Bern: s -> d l l' with l <> l' is lost on the way to Bern; *)
Theorem C26_flavio_Bern_flavio_partial (C : dict string K) :
  exists B F, flavio_to_Bern p all flavio_wcs C = Ok B /\ Bern_to_flavio p all bern_wcs B = Ok F /\
    holds F flavio_bern (fun k => if kmem k sd_lfv then 0 else dgetd C k 0).
Proof. exact (round_FBF p PO all real D bern_wcs flavio_wcs HB HF C). Qed.
(* the semileptonic Bern coefficients 7, 7' come back as 16 times 9, 9' *)
Theorem C26_Bern_flavio_Bern_partial (C : dict string K) :
  exists F B, Bern_to_flavio p all bern_wcs C = Ok F /\ flavio_to_Bern p all flavio_wcs F = Ok B /\
    holds B bern_flavio (fun k => match dget bern_tensors k with Some n => kZ 16 * dgetd C n 0 | None => dgetd C k 0 end).
Proof. exact (round_BFB p PO all real D bern_wcs flavio_wcs HB HF C). Qed.
(* the direct translations agree with those via the third basis *)
Theorem C26_JMS_Bern_flavio (C : dict string K) :
  exists B F1 F2, JMS_to_Bern p all js C None = Ok B /\ Bern_to_flavio p all bern_wcs B = Ok F1 /\ JMS_to_flavio p all js C None = Ok F2 /\
    holds F1 flavio_bern (fun k => dgetd F2 k 0).
Proof. exact (way_JBF p PO all real D js bern_wcs HB C). Qed.
Theorem C26_flavio_JMS_Bern (C : dict string K) :
  exists J B1 B2, flavio_to_JMS p all flavio_wcs C None = Ok J /\ JMS_to_Bern p all js J None = Ok B1 /\ flavio_to_Bern p all flavio_wcs C = Ok B2 /\
    forall k, In k bern_flavio -> dget B1 k = dget B2 k.
Proof. exact (way_FJB p PO all real D js flavio_wcs HF C). Qed.
Theorem C26_Bern_JMS_flavio (C : dict string K) :
  exists J F1 F2, Bern_to_JMS p all bern_wcs C = Ok J /\ JMS_to_flavio p all js J None = Ok F1 /\ Bern_to_flavio p all bern_wcs C = Ok F2 /\
    forall k, In k flavio_bern -> dget F1 k = dget F2 k.
Proof. exact (way_BJF p PO all real D js bern_wcs HB C). Qed.
(* JMS <-> FlavorKit: identities on the keys FlavorKit names and their images; other JMS coefficients are dropped *)
Lemma fk_keys : dkeys kit = flavorkit_keys.
Proof. vm_compute. reflexivity. Qed.
Lemma fk_images : dkeys kit_inv = flavorkit_images.
Proof. vm_compute. reflexivity. Qed.
Theorem C26_FlavorKit_JMS_FlavorKit (C : dict string K) : keys_in flavorkit_keys C ->
  exists J F, FlavorKit_to_JMS p all C = Ok J /\ JMS_to_FlavorKit p all J = Ok F /\ forall k, dget F k = dget C k.
Proof. rewrite <- fk_keys. exact (round_FKJ p PO all C). Qed.
Theorem C26_JMS_FlavorKit_JMS (C : dict string K) : keys_in (all_of jms_ops) C ->
  exists F J, JMS_to_FlavorKit p all C = Ok F /\ FlavorKit_to_JMS p all F = Ok J /\
    forall j, dget J j = if kmem j flavorkit_images then dget C j else None.
Proof. rewrite <- fk_images. exact (round_JFK p PO all C). Qed.

(* translating WC objects (Translator.translate drops zeros): an object without zero values
   is recovered exactly *)
Definition nonzero_in (ks : list string) (C : dict string K) : Prop := keys_in ks C /\ forall k v, dget C k = Some v -> v <> 0.
Lemma back_exact ks (C E' : dict string K) : nonzero_in ks C ->
  (forall k, dget E' k = if kdec (if kmem k ks then dgetd C k 0 else 0) 0 then None else Some (if kmem k ks then dgetd C k 0 else 0)) ->
  forall k, dget E' k = dget C k.
Proof.
  intros [[W I] N] H k. rewrite H. destruct (kmem k ks) eqn:M.
  - unfold dgetd. destruct (dget C k) as [v|] eqn:E.
    + destruct (kdec_spec K v 0) as [->|]; [exfalso; exact (N k 0 E eq_refl)|reflexivity].
    + destruct (kdec_spec K (0 : K) 0); [reflexivity|congruence].
  - destruct (kdec_spec K (0 : K) 0); [|congruence]. symmetry. apply dget_None. intros X. apply I, kmem_In in X. congruence.
Qed.
Theorem C26_WC_Bern_JMS_Bern (C : dict string K) : NoDup bern_wcs -> nonzero_in bern_keys C ->
  exists J B, translate (Bern_to_JMS p all bern_wcs) C = Ok J /\ translate (fun J => JMS_to_Bern p all js J None) J = Ok B /\ forall k, dget B k = dget C k.
Proof.
  intros ND N. destruct (C26_Bern_JMS_Bern C) as (J & B & E1 & E2 & H).
  assert (HG : forall k, dgetd B k 0 = if kmem k bern_keys then dgetd C k 0 else 0) by (intros k; unfold dgetd at 1; rewrite (H k); destruct (kmem k bern_keys); reflexivity).
  assert (WJ : wfdict J) by exact (run_wf p all p_Bern_to_JMS (mkEnv (complete bern_wcs C) []) J (complete_wf bern_wcs C ND) E1).
  assert (WB : forall C' d, wfdict C' -> JMS_to_Bern p all js C' None = Ok d -> wfdict d).
  { intros C' d W X. unfold JMS_to_Bern, from_jms in X. destruct (JMS_to_array all js C' None) as [A|]; [|discriminate]. cbn [bind] in X. exact (run_wf p all _ (mkEnv C' A) d W X). }
  destruct (translate_two (Bern_to_JMS p all bern_wcs) (fun J => JMS_to_Bern p all js J None) C J B _ E1 E2 WJ WB (lin_j2b p PO all real D js) HG) as (D' & E' & T1 & T2 & G).
  exists D', E'. split; [exact T1|]. split; [exact T2|]. exact (back_exact bern_keys C E' N G).
Qed.
Theorem C26_WC_flavio_JMS_flavio (C : dict string K) : NoDup flavio_wcs -> nonzero_in flavio_keys C ->
  exists J F, translate (fun C => flavio_to_JMS p all flavio_wcs C None) C = Ok J /\ translate (fun J => JMS_to_flavio p all js J None) J = Ok F /\ forall k, dget F k = dget C k.
Proof.
  intros ND N. destruct (C26_flavio_JMS_flavio C) as (J & B & E1 & E2 & H).
  assert (HG : forall k, dgetd B k 0 = if kmem k flavio_keys then dgetd C k 0 else 0) by (intros k; unfold dgetd at 1; rewrite (H k); destruct (kmem k flavio_keys); reflexivity).
  assert (WJ : wfdict J) by exact (run_wf p all (p_flavio_to_JMS None) (mkEnv (complete flavio_wcs C) []) J (complete_wf flavio_wcs C ND) E1).
  assert (WB : forall C' d, wfdict C' -> JMS_to_flavio p all js C' None = Ok d -> wfdict d).
  { intros C' d W X. unfold JMS_to_flavio, from_jms in X. destruct (JMS_to_array all js C' None) as [A|]; [|discriminate]. cbn [bind] in X. exact (run_wf p all _ (mkEnv C' A) d W X). }
  destruct (translate_two (fun C => flavio_to_JMS p all flavio_wcs C None) (fun J => JMS_to_flavio p all js J None) C J B _ E1 E2 WJ WB (lin_j2f p PO all real D js) HG) as (D' & E' & T1 & T2 & G).
  exists D', E'. split; [exact T1|]. split; [exact T2|]. exact (back_exact flavio_keys C E' N G).
Qed.
End C26.

(* the losses are real: translating there and back is not the identity on coefficients that
   both bases have *)
Theorem C26_tensors_lost_refuted : forall (K : StarField) (p : tpar K) all real js flavio_wcs (z : K),
  par_ok p -> describes jms_ops all real -> incl flavio_keys flavio_wcs -> z <> 0%K ->
  exists F J, JMS_to_flavio p all js [("TedRR_2223", z)] None = Ok F /\ flavio_to_JMS p all flavio_wcs F None = Ok J /\
    dget J "TedRR_2223" = Some 0%K /\ z <> 0%K.
Proof.
  intros K p all real js flavio_wcs z PO D HF NZ. destruct (C26_JMS_flavio_JMS_partial p all real js flavio_wcs PO D HF [("TedRR_2223", z)]) as (F & J & E1 & E2 & H).
  exists F, J. split; [exact E1|]. split; [exact E2|]. split; [|exact NZ]. rewrite H.
  assert (X : kmem "TedRR_2223" (of_sectors flavio_sectors) && kmem "TedRR_2223" semileptonic_tensors = true) by (vm_compute; reflexivity).
  apply andb_prop in X as [X1 X2]. rewrite X1, X2. reflexivity.
Qed.
Theorem C26_sd_lfv_lost_refuted : forall (K : StarField) (p : tpar K) all real bern_wcs flavio_wcs (z : K),
  par_ok p -> describes jms_ops all real -> incl bern_keys bern_wcs -> incl flavio_keys flavio_wcs -> z <> 0%K ->
  exists B F, flavio_to_Bern p all flavio_wcs [("C9_sdemu", z)] = Ok B /\ Bern_to_flavio p all bern_wcs B = Ok F /\ dget F "C9_sdemu" = Some 0%K.
Proof.
  intros K p all real bern_wcs flavio_wcs z PO D HB HF NZ. destruct (C26_flavio_Bern_flavio_partial p all real bern_wcs flavio_wcs PO D HB HF [("C9_sdemu", z)]) as (B & F & E1 & E2 & H).
  exists B, F. split; [exact E1|]. split; [exact E2|]. rewrite H.
  assert (X : kmem "C9_sdemu" flavio_bern && kmem "C9_sdemu" sd_lfv = true) by (vm_compute; reflexivity).
  apply andb_prop in X as [X1 X2]. rewrite X1, X2. reflexivity.
Qed.
Theorem C26_Bern_tensors_changed_refuted : forall (K : StarField) (p : tpar K) all real bern_wcs flavio_wcs (z : K),
  par_ok p -> describes jms_ops all real -> incl bern_keys bern_wcs -> incl flavio_keys flavio_wcs -> z <> 0%K ->
  exists F B, Bern_to_flavio p all bern_wcs [("7sbmumu", z)] = Ok F /\ flavio_to_Bern p all flavio_wcs F = Ok B /\ dget B "7sbmumu" = Some 0%K.
Proof.
  intros K p all real bern_wcs flavio_wcs z PO D HB HF NZ. destruct (C26_Bern_flavio_Bern_partial p all real bern_wcs flavio_wcs PO D HB HF [("7sbmumu", z)]) as (F & B & E1 & E2 & H).
  exists F, B. split; [exact E1|]. split; [exact E2|]. rewrite H.
  assert (X : kmem "7sbmumu" bern_flavio && match dget bern_tensors "7sbmumu" with Some n => String.eqb n "9sbmumu" | None => false end = true) by (vm_compute; reflexivity).
  apply andb_prop in X as [X1 X2]. rewrite X1. destruct (dget bern_tensors "7sbmumu") as [n|]; [|discriminate]. apply String.eqb_eq in X2 as ->.
  f_equal. change (dgetd [("7sbmumu", z)] "9sbmumu" 0%K) with (0%K : K). apply kmul_0_r.
Qed.

(* ---------- C27 ---------- *)
(* combines a b C1 C2 C: C = a C1 + b C2 as functions of the coefficient, absent = 0 *)
Section C27.
Context {K : StarField}.
Local Open Scope K_scope.
Variables (p : tpar K) (all : list string) (real : string -> bool) (js : dict string (list string)) (bern_wcs flavio_wcs : list string).
Hypotheses (PO : par_ok p) (D : describes jms_ops all real) (HB : incl bern_keys bern_wcs) (HF : incl flavio_keys flavio_wcs).
Add Field KFtq : (k_field K).
Theorem C27_linear : forall T, In T
    [(fun C => JMS_to_EOS p all js C None); (fun C => JMS_to_flavio p all js C None); (fun C => JMS_to_FormFlavor p all js C None);
     (fun C => JMS_to_Bern p all js C None); Bern_to_flavio p all bern_wcs; flavio_to_Bern p all flavio_wcs; Bern_to_JMS p all bern_wcs;
     (fun C => flavio_to_JMS p all flavio_wcs C None)] ->
  forall a b C1 C2 C, kreal a -> kreal b -> combines a b C1 C2 C ->
  exists D1 D2 D, T C1 = Ok D1 /\ T C2 = Ok D2 /\ T C = Ok D /\ combines a b D1 D2 D.
Proof.
  intros T HT a b C1 C2 C A B H. assert (L : real_linear (fun _ => True) T); [|exact (L a b C1 C2 C A B I I I H)].
  repeat (destruct HT as [<-|HT]); [apply (lin_j2e p PO all real D js)|apply (lin_j2f p PO all real D js)|apply (lin_j2ff p PO all real D js)|
    apply (lin_j2b p PO all real D js)|apply (lin_b2f p PO all real D bern_wcs HB)|apply (lin_f2b p PO all real D flavio_wcs HF)|
    apply (lin_b2j p PO all real D bern_wcs HB)|apply (lin_f2j p PO all real D flavio_wcs HF)|destruct HT].
Qed.
(* FlavorKit rejects unknown keys *)
Theorem C27_linear_FlavorKit : forall a b C1 C2 C, kreal a -> kreal b -> combines a b C1 C2 C ->
  (keys_in flavorkit_keys C1 -> keys_in flavorkit_keys C2 -> keys_in flavorkit_keys C ->
     exists D1 D2 D, FlavorKit_to_JMS p all C1 = Ok D1 /\ FlavorKit_to_JMS p all C2 = Ok D2 /\ FlavorKit_to_JMS p all C = Ok D /\ combines a b D1 D2 D) /\
  (keys_in (all_of jms_ops) C1 -> keys_in (all_of jms_ops) C2 -> keys_in (all_of jms_ops) C ->
     exists D1 D2 D, JMS_to_FlavorKit p all C1 = Ok D1 /\ JMS_to_FlavorKit p all C2 = Ok D2 /\ JMS_to_FlavorKit p all C = Ok D /\ combines a b D1 D2 D).
Proof.
  intros a b C1 C2 C A B H. split; intros I1 I2 I3.
  - rewrite <- fk_keys in *. exact (lin_fk_to p all a b C1 C2 C A B I1 I2 I3 H).
  - exact (lin_fk_from p PO all a b C1 C2 C A B I1 I2 I3 H).
Qed.
(* all coefficients zero or absent: all values of the result are zero *)
Theorem C27_zero : forall T, In T
    [(fun C => JMS_to_EOS p all js C None); (fun C => JMS_to_flavio p all js C None); (fun C => JMS_to_FormFlavor p all js C None);
     (fun C => JMS_to_Bern p all js C None); Bern_to_flavio p all bern_wcs; flavio_to_Bern p all flavio_wcs; Bern_to_JMS p all bern_wcs;
     (fun C => flavio_to_JMS p all flavio_wcs C None)] ->
  forall C, (forall k, dgetd C k 0 = 0) -> exists D, T C = Ok D /\ forall k v, dget D k = Some v -> v = 0.
Proof.
  intros T HT C Z. assert (R0 : kreal (0 : K)) by apply kconj_0.
  destruct (C27_linear T HT 0 0 C C C R0 R0) as (D1 & D2 & D3 & E1 & E2 & E3 & H).
  - intros k. rewrite Z. ring.
  - exists D3. split; [exact E3|]. intros k v HV. specialize (H k). unfold dgetd at 1 in H. rewrite HV in H. rewrite H. ring.
Qed.
End C27.

(* ---------- C28 ---------- *)
(* all FormFlavor coefficients of Delta F = 2 in the down sector, b -> q mu mu, the vector
   coefficients of the charm sector and the dipoles are as expected *)
Theorem C28_FormFlavor_values_partial : forall (K : StarField) (p : tpar K) all real js (C : dict string K),
  par_ok p -> describes jms_ops all real ->
  exists F, JMS_to_FormFlavor p all js C None = Ok F /\
    (forall k l, In (k, l) ff_expected -> dget F k = Some (sum_terms C l)) /\
    (forall k n c g, In (k, (n, c, g)) ff_dipoles -> dget F k = Some ((if c : bool then (dgetd C n 0)^* else dgetd C n 0) / ysym p (if g : bool then Ygs else Ye))%K).
Proof.
  intros K p all real js C PO D. destruct (ff_val p PO all real D js C) as (F & E & H1 & _ & _ & H4 & _). exists F. auto.
Qed.
(* charm: the scalar coefficient mixes conjugated and unconjugated coefficients: it is neither
   linear nor antilinear in S8uuRR_1212 *)
Section C28.
Context {K : StarField}.
Local Open Scope K_scope.
Add Field KFtp : (k_field K).
Variables (p : tpar K) (all : list string) (real : string -> bool) (js : dict string (list string)).
Hypotheses (PO : par_ok p) (D : describes jms_ops all real).
Theorem C28_charm_values (C : dict string K) :
  exists F, JMS_to_FormFlavor p all js C None = Ok F /\
    let v1 := dgetd C "S1uuRR_1212" 0 in let v8 := dgetd C "S8uuRR_1212" 0 in
    let w1 := dgetd C "S1uuRR_2121" 0 in let w8 := dgetd C "S8uuRR_2121" 0 in
    dget F "CSLL_cucu" = Some (v1^* - v8^* / kZ 6 + v8 / kZ 4) /\ dget F "CTLL_cucu" = Some (- v8 / kZ 16) /\
    dget F "CSRR_cucu" = Some (w1^* + w8^* / kZ 12) /\ dget F "CTRR_cucu" = Some (- w8 / kZ 16).
Proof.
  destruct (ff_val p PO all real D js C) as (F & E & _ & _ & _ & _ & _ & H1 & H2 & H3 & H4). exists F. split; [exact E|]. cbv zeta.
  rewrite H1, H2, H3, H4. unfold sum_terms. cbn [fold_right fst snd]. unfold kQ. cbn [Qnum Qden]. unfold kZ.
  change (kpos 1) with (1 : K).
  repeat split; f_equal; field; repeat split; try apply kpos_neq_0; apply k_1_neq_0.
Qed.
Theorem C28_charm_refuted :
  exists F1 Fi v w, JMS_to_FormFlavor p all js [("S8uuRR_1212", 1)] None = Ok F1 /\ JMS_to_FormFlavor p all js [("S8uuRR_1212", ki)] None = Ok Fi /\
    dget F1 "CSLL_cucu" = Some v /\ dget Fi "CSLL_cucu" = Some w /\ w <> ki * v /\ w <> ki^* * v.
Proof.
  destruct (C28_charm_values [("S8uuRR_1212", 1)]) as (F1 & E1 & H1 & _). destruct (C28_charm_values [("S8uuRR_1212", ki)]) as (Fi & Ei & H2 & _).
  exists F1, Fi, (0^* - 1^* / kZ 6 + 1 / kZ 4), (0^* - ki^* / kZ 6 + ki / kZ 4).
  split; [exact E1|]. split; [exact Ei|]. split; [exact H1|]. split; [exact H2|].
  assert (N : forall n : positive, @kZ K (Zpos n) <> 0) by (intros n; apply kpos_neq_0).
  assert (NI : (ki : K) <> 0). { intros X. pose proof (ki_sq K) as Y. rewrite X in Y. apply (@k_1_neq_0 K). transitivity (- (- (1 : K))); [ring|]. rewrite <- Y. ring. }
  rewrite kconj_0, kconj_1, kconj_i.
  assert (E4 : @kZ K 4 = kZ 2 * kZ 2) by (rewrite <- kZ_mul; reflexivity).
  assert (E6 : @kZ K 6 = kZ 2 * kZ 3) by (rewrite <- kZ_mul; reflexivity).
  assert (E2 : @kZ K 2 = 1 + 1) by (rewrite <- kZ_1, <- kZ_add; reflexivity).
  pose proof (N 2%positive) as N2. pose proof (N 3%positive) as N3.
  split; intros X.
  - apply NI. assert (Y : (0 : K) - - ki / kZ 6 + ki / kZ 4 - ki * (0 - 1 / kZ 6 + 1 / kZ 4) = ki * ((1 + 1) / (kZ 2 * kZ 3))).
    { rewrite E4, E6. field. split; assumption. }
    rewrite X in Y. rewrite <- E2 in Y. assert (Y2 : (ki : K) * (kZ 2 / (kZ 2 * kZ 3)) = 0) by (rewrite <- Y; ring).
    transitivity ((ki : K) * (kZ 2 / (kZ 2 * kZ 3)) * kZ 3); [field; split; assumption|]. rewrite Y2. ring.
  - apply NI. assert (Y : (0 : K) - - ki / kZ 6 + ki / kZ 4 - (- ki) * (0 - 1 / kZ 6 + 1 / kZ 4) = ki * ((1 + 1) / (kZ 2 * kZ 2))).
    { rewrite E4, E6. field. split; assumption. }
    rewrite X in Y. rewrite <- E2 in Y. assert (Y2 : (ki : K) * (kZ 2 / (kZ 2 * kZ 2)) = 0) by (rewrite <- Y; ring).
    transitivity ((ki : K) * (kZ 2 / (kZ 2 * kZ 2)) * kZ 2); [field; assumption|]. rewrite Y2. ring.
Qed.
(* the coefficients of s -> d nu nu are those of b -> d nu nu: they do not depend on the s-d coefficients *)
Theorem C28_sdnn_refuted (C : dict string K) :
  exists F, JMS_to_FormFlavor p all js C None = Ok F /\
    dget F "CVLL_sdnn" = Some (sum_terms C (nunu_average "VnudLL" "13" true)) /\
    dget F "CVRL_sdnn" = Some (sum_terms C (nunu_average "VnudLR" "13" true)) /\
    (incl (dkeys C) (all2 append ["VnudLL_"; "VnudLR_"] (all2 append ["11"; "22"; "33"] ["12"; "21"])) ->
     dget F "CVLL_sdnn" = Some 0 /\ dget F "CVRL_sdnn" = Some 0).
Proof.
  destruct (ff_val p PO all real D js C) as (F & E & _ & H1 & H2 & _). exists F. split; [exact E|]. split; [exact H1|]. split; [exact H2|].
  intros I. assert (Z : forall k, ~ In k (all2 append ["VnudLL_"; "VnudLR_"] (all2 append ["11"; "22"; "33"] ["12"; "21"])) -> dgetd C k 0 = 0).
  { intros k X. unfold dgetd. assert (Y : dget C k = None) by (apply dget_None; intros Q; apply X, I, Q). now rewrite Y. }
  rewrite H1, H2. unfold sum_terms, nunu_average. cbn [map fold_right fst snd].
  rewrite !Z by (intros X; apply kmem_In in X; revert X; vm_compute; discriminate).
  rewrite kconj_0. split; f_equal; ring.
Qed.
(* the photon dipoles of leptons: CAR is divided by e, CAL by g_s *)
Theorem C28_lepton_dipole_refuted (C : dict string K) : ysym p Ye <> ysym p Ygs -> dgetd C "egamma_32" 0 <> 0 ->
  exists F, JMS_to_FormFlavor p all js C None = Ok F /\
    dget F "CAR_mt" = Some (dgetd C "egamma_23" 0 / ysym p Ye) /\ dget F "CAL_mt" <> Some ((dgetd C "egamma_32" 0)^* / ysym p Ye).
Proof.
  intros NE NZ. destruct (ff_val p PO all real D js C) as (F & E & _ & _ & _ & H4 & H5 & _). exists F. split; [exact E|].
  split; [apply (H4 "CAR_mt" "egamma_23" false false); apply in_or_app; right; simpl; tauto|].
  rewrite (H5 "CAL_mt" "egamma_32") by (simpl; tauto). intros X. injection X as X. apply NE.
  pose proof (par_nz p PO Ye) as N1. pose proof (par_nz p PO Ygs) as N2.
  assert (N3 : (dgetd C "egamma_32" 0)^* <> 0). { intros Y. apply NZ. rewrite <- (kconj_conj K (dgetd C "egamma_32" 0)), Y. apply kconj_0. }
  revert X N3. generalize ((dgetd C "egamma_32" 0)^*). intros z X NZ'.
  assert (Y : z * ysym p Ye = z * ysym p Ygs).
  { transitivity (z / ysym p Ygs * ysym p Ygs * ysym p Ye); [field; exact N2|]. rewrite X. field. exact N1. }
  transitivity (z * ysym p Ye / z); [field; exact NZ'|]. rewrite Y. field. exact NZ'.
Qed.
End C28.

(* ---------- the hypotheses are satisfiable ---------- *)
Definition ex_par : tpar QI := mkTpar (fun y => qi (inject_Z (1 + Z.of_nat (sym_idx y))) 0) (fun i j => qi (1 # Pos.of_nat (1 + i)) (inject_Z (Z.of_nat j))).
Example ex26 : par_ok ex_par /\ describes jms_ops (all_of jms_ops) (real_of jms_ops) /\ incl bern_keys bern_keys /\ incl flavio_keys flavio_keys /\
  NoDup bern_keys /\ NoDup flavio_keys /\
  nonzero_in bern_keys [("1sbsb", qi 1 2 : QI); ("9dbmumu", qi 3 1)] /\ nonzero_in flavio_keys [("C9_bsmumu", qi 1 2 : QI); ("CVLL_uccu", qi 3 1)] /\
  keys_in flavorkit_keys [("K2R_12", qi 1 2 : QI); ("AVLL_2231", qi 3 1)] /\ keys_in (all_of jms_ops) [("egamma_21", qi 1 2 : QI)] /\
  ysym ex_par Ye <> ysym ex_par Ygs.
Proof.
  split. { constructor; [intros []; vm_compute; reflexivity|intros []; vm_compute; discriminate|].
    intros i j Hi Hj. destruct i as [|[|[|]]]; try lia; destruct j as [|[|[|]]]; try lia; vm_compute; discriminate. }
  split; [apply ex16_wet|]. split; [apply incl_refl|]. split; [apply incl_refl|].
  split; [apply knodup_NoDup; vm_compute; reflexivity|]. split; [apply knodup_NoDup; vm_compute; reflexivity|].
  assert (KI : forall ks (C : dict string QI), knodup (dkeys C) && forallb (fun k => kmem k ks) (dkeys C) = true -> keys_in ks C).
  { intros ks C H. apply andb_prop in H as [H1 H2]. split; [now apply knodup_NoDup|now apply incl_b]. }
  assert (NZ : forall C : dict string QI, forallb (fun x => negb (kdec (snd x) 0%K)) C = true -> forall k v, dget C k = Some v -> v <> 0%K).
  { intros C H k v HV. apply dget_In in HV. rewrite forallb_forall in H. specialize (H _ HV). cbn [snd] in H. destruct (kdec_spec QI v 0%K); [discriminate|assumption]. }
  split; [split; [apply KI; vm_compute; reflexivity|apply NZ; vm_compute; reflexivity]|].
  split; [split; [apply KI; vm_compute; reflexivity|apply NZ; vm_compute; reflexivity]|].
  split; [apply KI; vm_compute; reflexivity|]. split; [apply KI; vm_compute; reflexivity|]. vm_compute. discriminate.
Qed.
(* translations of concrete coefficients *)
Example ex26_run :
  match Bern_to_JMS ex_par (all_of jms_ops) bern_keys [("1sbsb", qi 1 2 : QI)] with
  | Ok J => negb (kdec (dgetd J "VddLL_2323" 0%K) 0%K) && kdec (dgetd J "VddLL_1313" 0%K) 0%K && match JMS_to_Bern ex_par (all_of jms_ops) [] J None with Ok B => kdec (dgetd B "1sbsb" 0%K) (qi 1 2) | Err _ => false end
  | Err _ => false end = true.
Proof. vm_cast_no_check (eq_refl true). Qed.
Example ex27 : combines (K := QI) (qi 2 0) (qi (-1) 0) [("1sbsb", qi 1 2)] [("1sbsb", qi 0 1); ("9dbmumu", qi 3 1)] [("9dbmumu", qi (-3) (-1)); ("1sbsb", qi 2 3)] /\
  kreal (qi 2 0 : QI) /\ kreal (qi (-1) 0 : QI).
Proof.
  split; [|split; vm_compute; reflexivity]. intros k. unfold dgetd. cbn [dget]. destruct (keqb_spec k "1sbsb") as [->|]; [vm_compute; reflexivity|].
  destruct (keqb_spec k "9dbmumu"); vm_compute; reflexivity.
Qed.

Print Assumptions C26_Bern_JMS_Bern.
Print Assumptions C26_JMS_Bern_JMS.
Print Assumptions C26_flavio_JMS_flavio.
Print Assumptions C26_JMS_flavio_JMS_partial.
Print Assumptions C26_flavio_Bern_flavio_partial.
Print Assumptions C26_Bern_flavio_Bern_partial.
Print Assumptions C26_JMS_Bern_flavio.
Print Assumptions C26_flavio_JMS_Bern.
Print Assumptions C26_Bern_JMS_flavio.
Print Assumptions C26_FlavorKit_JMS_FlavorKit.
Print Assumptions C26_JMS_FlavorKit_JMS.
Print Assumptions C26_WC_Bern_JMS_Bern.
Print Assumptions C26_WC_flavio_JMS_flavio.
Print Assumptions C26_tensors_lost_refuted.
Print Assumptions C26_sd_lfv_lost_refuted.
Print Assumptions C26_Bern_tensors_changed_refuted.
Print Assumptions C27_linear.
Print Assumptions C27_linear_FlavorKit.
Print Assumptions C27_zero.
Print Assumptions C28_FormFlavor_values_partial.
Print Assumptions C28_charm_values.
Print Assumptions C28_charm_refuted.
Print Assumptions C28_sdnn_refuted.
Print Assumptions C28_lepton_dipole_refuted.
