(* Statements about whole runs in WET *)
From Coq Require Import List Bool ZArith QArith Reals Qreals Arith Lia Lra String Ascii.
From Verif Require Import PyBase Num SymModel EftModel NpModel NpProofs RealC WcxfModel WcxfProofs AdmData WetModel WetSpec WetMat WetPow WetProofs WetSector WetEvol WetRge WetRun WetLaws WetUnmix.
Import ListNotations.
Local Open Scope string_scope.
Local Open Scope list_scope.
Local Open Scope K_scope.
Add Field KFT : (k_field CR).
Section Thms.
Variable la : linalg.
Variable bases : @basis_reg CR.
Variable efts : @eft_reg CR.
Variable running : Z -> R -> res rpar.
Local Notation wet_run := (wet_run la bases efts running).
Local Notation run_sector := (run_sector la bases).
Local Notation ran := (ran la bases efts running).

Lemma covers_at r so sl w s k (X : ran r so sl w) : covers bases efts r sl s k ->
  exists cls ds, dget sectors s = Some cls /\
    run_sector s (r_C r) (alpha_s (ran_pi X) / alpha_s (ran_po X)) (ran_f X) (ran_pi X) (ran_po X) (r_qed r) (r_qcd r) = Ok ds /\
    In k (dkeys ds) /\ wc_getitem w k = dgetd ds k 0.
Proof.
  intros ((E & EE & IS) & SEL & (f & keys & EF & EK & IK) & (b & allw & EB & EA & IA)).
  destruct (sector_keys_spec _ _ _ _ EK) as [_ (all & EC & IN)]. destruct (sector_facts s all EC) as (cls & ES & _).
  assert (F : ran_f X = f) by (pose proof (ran_Ef X); congruence).
  assert (R : runs sl s = true). { unfold runs. rewrite SEL, andb_true_r, dmem_dget, ES. reflexivity. }
  destruct (ran_at _ _ _ _ _ _ _ _ X s all k EC (IN _ IK)) as (ds & D & G).
  - pose proof (ran_Eeft X). congruence.
  - exact R.
  - apply kmem_In. pose proof (ran_Eb X). pose proof (ran_Eall X). congruence.
  - exists cls, ds. repeat split; auto. destruct (run_sector_keys _ _ _ _ _ _ _ _ _ _ _ D) as [EK' _]. congruence.
Qed.

(* ---------- qcd_order = 0 ---------- *)
Lemma qcd0 s C eta f pi po qed d k : run_sector s C eta f pi po qed 0 = Ok d -> In k (dkeys d) ->
  dgetd d k 0 = dgetd C k 0 \/
  exists si so, scale_C k pi = Ok si /\ scale_C k po = Ok so /\ so <> 0%R /\ dgetd d k 0 = rc (si / so) * dgetd C k 0.
Proof.
  intros E IK. destruct (run_sector_keys _ _ _ _ _ _ _ _ _ _ _ E) as [EK (cls & ES)].
  destruct (keys_index _ _ IK) as (j & Lj & ->).
  destruct (String.eqb_spec cls "inv") as [->|NI].
  { destruct (run_sector_get _ _ _ _ _ _ _ _ _ _ _ _ _ ES EK E) as [_ [[_ R]|[[X _]|[X _]]]]; try discriminate X. left. apply dgetd_Some. now apply R. }
  destruct (run_sector_mat _ _ _ _ _ _ _ _ _ _ _ _ ES NI E) as [Z|(M & EM & R)].
  { left. destruct (Z _ IK) as [-> ->]. reflexivity. }
  right. rewrite R by exact Lj. destruct (sector_matrix_form _ _ _ _ _ _ _ _ _ _ _ EM) as (Us & Ue & EU & EE & F).
  destruct (F j Lj) as (si & Si & G). destruct (G j Lj) as (so & So & NZ & _). exists si, so. repeat split; auto.
  unfold us_of in EU. cbn [Z.eqb] in EU. injection EU as <-.
  assert (UE : forall i k, Ue i k = 0).
  { intros i k. unfold ue_of in EE. destruct (qed =? 0)%Z; [injection EE as <-; reflexivity|].
    destruct (qed =? 1)%Z; [|discriminate]. cbn [Z.eqb] in EE. exact (getUe_1 _ _ _ _ _ _ _ i k EE). }
  unfold mvec. rewrite (ksum_ext _ (fun b => if (j =? b)%nat then rc (si / so) * cin C (dkeys d) b else 0)).
  { now rewrite sum_delta. }
  intros b I. apply in_seq in I. destruct (F b ltac:(lia)) as (sb & Sb & G'). destruct (G' j Lj) as (so' & So' & _ & ->).
  rewrite So in So'. injection So' as <-. rewrite UE. unfold meye. cbv beta. destruct (Nat.eqb_spec j b) as [->|].
  - rewrite Si in Sb. injection Sb as <-. rewrite rc_div by exact NZ. field. now apply rc_nz.
  - field. now apply rc_nz.
Qed.
Lemma qcd0_run r so sl h w s k : r_qcd r = 0%Z -> wet_run r so sl h = Ok w -> covers bases efts r sl s k -> unscaled k = true ->
  wc_getitem w k = dgetd (r_C r) k 0.
Proof.
  intros Q E CV U. pose proof (wet_run_inv _ _ _ _ _ _ _ _ _ E) as X. destruct (covers_at _ _ _ _ _ _ X CV) as (cls & ds & ES & D & IK & ->).
  rewrite Q in D. destruct (qcd0 _ _ _ _ _ _ _ _ _ D IK) as [G|(si & so' & S1 & S2 & NZ & G)]; [exact G|].
  apply (unscaled_C _ _ _ U) in S1, S2. subst si so'. rewrite G. replace (1 / 1)%R with 1%R by field. change (rc 1) with (1 : CR). ring.
Qed.
(* the setting of qed_order is irrelevant *)
Lemma qcd0_any s C eta f pi po qed qed' d d' k : run_sector s C eta f pi po qed 0 = Ok d -> run_sector s C eta f pi po qed' 0 = Ok d' ->
  In k (dkeys d) -> dgetd d k 0 = dgetd d' k 0.
Proof.
  intros E E' IK. destruct (run_sector_keys _ _ _ _ _ _ _ _ _ _ _ E) as [EK (cls & ES)]. destruct (run_sector_keys _ _ _ _ _ _ _ _ _ _ _ E') as [EK' _].
  assert (KK : dkeys d' = dkeys d) by congruence. destruct (keys_index _ _ IK) as (j & Lj & EJ).
  destruct (run_sector_get _ _ _ _ _ _ _ _ _ _ _ _ _ ES EK E) as [_ R]. destruct (run_sector_get _ _ _ _ _ _ _ _ _ _ _ _ _ ES EK E') as [_ R'].
  destruct R as [[I R]|[[I R]|(I & M & EM & R)]]; destruct R' as [[I' R']|[[I' R']|(I' & M' & EM' & R')]]; try congruence; subst k;
    rewrite ?(dgetd_Some _ _ _ _ (R j Lj)), ?(dgetd_Some _ _ _ _ (R' j Lj)), ?(dgetd_Some _ _ _ _ (proj2 (R j Lj))), ?(dgetd_Some _ _ _ _ (proj2 (R' j Lj))); auto.
  - symmetry. apply mvec_zero. intros i Li. apply (proj1 (R i Li)).
  - apply mvec_zero. intros i Li. apply (proj1 (R' i Li)).
  - destruct (sector_matrix_form _ _ _ _ _ _ _ _ _ _ _ EM) as (Us & Ue & EU & EE & F).
    destruct (sector_matrix_form _ _ _ _ _ _ _ _ _ _ _ EM') as (Us' & Ue' & EU' & EE' & F').
    assert (UU : forall q U, ue_of la bases cls eta f pi q 0 (List.length (dkeys d)) = Ok (List.length (dkeys d), U) -> forall i k, U i k = 0).
    { intros q U EE0 i k. unfold ue_of in EE0. destruct (q =? 0)%Z; [injection EE0 as <-; reflexivity|].
      destruct (q =? 1)%Z; [|discriminate]. cbn [Z.eqb] in EE0. exact (getUe_1 _ _ _ _ _ _ _ i k EE0). }
    assert (UQ : Us' = Us) by congruence. subst Us'. apply mvec_ext; auto. intros a b La Lb.
    destruct (F b Lb) as (sb & Sb & G). destruct (G a La) as (ta & Ta & NZ & ->).
    destruct (F' b Lb) as (sb' & Sb' & G'). destruct (G' a La) as (ta' & Ta' & NZ' & ->).
    rewrite (UU _ _ EE), (UU _ _ EE'). congruence.
Qed.
Lemma qed_ignored r so sl h w q h' w' s k : r_qcd r = 0%Z ->
  wet_run r so sl h = Ok w -> wet_run (mkRunner (r_eft r) (r_f r) (r_scale r) (r_C r) q 0) so sl h' = Ok w' ->
  covers bases efts r sl s k -> wc_getitem w k = wc_getitem w' k.
Proof.
  intros Q E E' CV. pose proof (wet_run_inv _ _ _ _ _ _ _ _ _ E) as X. pose proof (wet_run_inv _ _ _ _ _ _ _ _ _ E') as X'.
  destruct (covers_at _ _ _ _ _ _ X CV) as (cls & ds & ES & D & IK & ->).
  destruct (covers_at _ _ _ _ s k X' CV) as (cls' & ds' & ES' & D' & IK' & ->). cbn [r_C r_qed r_qcd] in D'.
  assert (EF : ran_f X' = ran_f X) by (pose proof (ran_Ef X); pose proof (ran_Ef X') as Y; cbn [r_f] in Y; congruence).
  assert (EP : ran_pi X' = ran_pi X) by (pose proof (ran_Epi X); pose proof (ran_Epi X') as Y; rewrite EF in Y; cbn [r_scale] in Y; congruence).
  assert (EO : ran_po X' = ran_po X) by (pose proof (ran_Epo X); pose proof (ran_Epo X'); congruence).
  rewrite Q in D. rewrite EF, EP, EO in D'. eapply qcd0_any; eauto.
Qed.

(* ---------- sectors without anomalous dimension ---------- *)
Lemma inv_run r so sl h w s k : dget sectors s = Some "inv" -> wet_run r so sl h = Ok w -> covers bases efts r sl s k ->
  wc_getitem w k = dgetd (r_C r) k 0.
Proof.
  intros ES E CV. pose proof (wet_run_inv _ _ _ _ _ _ _ _ _ E) as X. destruct (covers_at _ _ _ _ _ _ X CV) as (cls & ds & ES' & D & IK & ->).
  destruct (run_sector_keys _ _ _ _ _ _ _ _ _ _ _ D) as [EK _]. destruct (keys_index _ _ IK) as (j & Lj & ->).
  destruct (run_sector_get _ _ _ _ _ _ _ _ _ _ _ _ _ ES EK D) as [_ [[_ R]|[[Y _]|[Y _]]]]; try discriminate Y. apply dgetd_Some. now apply R.
Qed.
(* ---------- zero distance ---------- *)
Lemma same_run r sl h w s k f p cls : dget sectors s = Some cls -> r_f r = Some f -> running f (r_scale r) = Ok p -> adm_ok la bases cls f p ->
  wet_run r (r_scale r) sl h = Ok w -> covers bases efts r sl s k -> wc_getitem w k = dgetd (r_C r) k 0.
Proof.
  intros ES EF EP O E CV. pose proof (wet_run_inv _ _ _ _ _ _ _ _ _ E) as X. destruct (covers_at _ _ _ _ _ _ X CV) as (cls' & ds & ES' & D & IK & ->).
  assert (F : ran_f X = f) by (pose proof (ran_Ef X); congruence).
  assert (P1 : ran_pi X = p) by (pose proof (ran_Epi X) as Y; rewrite F in Y; congruence).
  assert (P2 : ran_po X = p) by (pose proof (ran_Epo X) as Y; rewrite F in Y; congruence).
  rewrite F, P1, P2 in D. replace (alpha_s p / alpha_s p)%R with 1%R in D by (pose proof (ran_nz X) as N; rewrite P2 in N; now field).
  assert (cls' = cls) by congruence. subst cls'. exact (run_sector_same _ _ _ _ _ _ _ _ _ _ ES O D _ IK).
Qed.
(* ---------- pure QCD running of coefficients that do not mix ---------- *)
Definition qgam (k : string) : option (Q * Q) :=
  let n := name_of k in
  if kmem n current_names then Some (0%Q, 0%Q) else
  if kmem n scalar_names then Some ((-8)%Q, 0%Q) else
  if kmem n tensor_names then Some ((8 # 3)%Q, 0%Q) else
  if kmem n bnv_names then Some ((-4)%Q, 0%Q) else None.
Lemma qgam_tab : forallb (gamma_ok qgam) coeffs = true.
Proof. vm_cast_no_check (eq_refl true). Qed.
Lemma qgam_unscaled k : qgam k <> None -> kmem k all_keys = true -> unscaled k = true.
Proof.
  intros N I. assert (T : forallb (fun k => match qgam k with None => true | Some _ => unscaled k end) all_keys = true) by (vm_cast_no_check (eq_refl true)).
  rewrite forallb_forall in T. apply kmem_In in I. specialize (T _ I). cbv beta in T. destruct (qgam k); [exact T|contradiction].
Qed.
Lemma qgam_spec f k g : qcd_gamma (name_of k) = Some g -> exists q, qgam k = Some q /\ lval f q = g.
Proof.
  unfold qcd_gamma, qgam, lval. intros E.
  repeat match type of E with (if ?b then _ else _) = _ => destruct b end; try discriminate; injection E as <-; eexists; (split; [reflexivity|]);
    cbn [fst snd]; rewrite Q2R_0; unfold Q2R; cbn [Qnum Qden]; field.
Qed.
Lemma covers_key r sl s k : covers bases efts r sl s k -> kmem k all_keys = true.
Proof.
  intros (_ & _ & (f & keys & _ & EK & IK) & _). destruct (sector_keys_spec _ _ _ _ EK) as [_ (all & EA & IN)]. apply kmem_In. eapply In_all_keys; eauto.
Qed.
Lemma gamma_run_all r so sl h w s k g f pa pb :
  r_f r = Some f -> r_qed r = 0%Z -> r_qcd r = 1%Z ->
  running f (r_scale r) = Ok pa -> running f so = Ok pb -> (forall cls, dget sectors s = Some cls -> adm_ok la bases cls f pa) ->
  wet_run r so sl h = Ok w -> covers bases efts r sl s k -> dget sectors s <> Some "inv" -> qcd_gamma (name_of k) = Some g ->
  wc_getitem w k = rc (Rpower (alpha_s pa / alpha_s pb) (g / (2 * b0s f))) * dgetd (r_C r) k 0.
Proof.
  intros EF Q0 Q1 EA EB O E CV NI G. pose proof (wet_run_inv _ _ _ _ _ _ _ _ _ E) as X. destruct (covers_at _ _ _ _ _ _ X CV) as (cls & ds & ES & D & IK & ->).
  destruct (qgam_spec f k g G) as (q & EQ & <-).
  assert (F : ran_f X = f) by (pose proof (ran_Ef X); congruence).
  assert (P1 : ran_pi X = pa) by (pose proof (ran_Epi X) as Y; rewrite F in Y; congruence).
  assert (P2 : ran_po X = pb) by (pose proof (ran_Epo X) as Y; rewrite F in Y; congruence).
  rewrite F, P1, P2, Q0, Q1 in D.
  eapply gamma_run_plain; [exact qgam_tab|exact ES| |apply O; exact ES|exact D|exact IK|exact EQ|].
  - intros ->. contradiction.
  - apply qgam_unscaled; [congruence|]. eapply covers_key; eauto.
Qed.
Lemma g3_run_all r so sl h w s k f pa pb :
  r_f r = Some f -> r_qed r = 0%Z -> r_qcd r = 1%Z ->
  running f (r_scale r) = Ok pa -> running f so = Ok pb -> p_ok pa -> p_ok pb -> (forall cls, dget sectors s = Some cls -> adm_ok la bases cls f pa) ->
  wet_run r so sl h = Ok w -> covers bases efts r sl s k -> dget sectors s <> Some "inv" -> In k G3 ->
  wc_getitem w k = rc (Rpower (alpha_s pa / alpha_s pb) ((36 - 2 * b0s f) / (2 * b0s f))) * dgetd (r_C r) k 0.
Proof.
  intros EF Q0 Q1 EA EB PA PB O E CV NI G. pose proof (wet_run_inv _ _ _ _ _ _ _ _ _ E) as X. destruct (covers_at _ _ _ _ _ _ X CV) as (cls & ds & ES & D & IK & ->).
  assert (F : ran_f X = f) by (pose proof (ran_Ef X); congruence).
  assert (P1 : ran_pi X = pa) by (pose proof (ran_Epi X) as Y; rewrite F in Y; congruence).
  assert (P2 : ran_po X = pb) by (pose proof (ran_Epo X) as Y; rewrite F in Y; congruence).
  rewrite F, P1, P2, Q0, Q1 in D. eapply g3_run; [exact ES| |apply O; exact ES|exact PA|exact PB|exact D|exact IK|exact G]. intros ->. contradiction.
Qed.

(* ---------- totality ---------- *)
Lemma rs_total r f eta pi po sl todo C : p_ok pi -> p_ok po -> ord_ok (r_qed r) -> ord_ok (r_qcd r) ->
  (forall s, In s todo -> runs sl s = true -> exists keys, sector_keys bases s f = Ok keys) ->
  exists d, run_sectors la bases r f eta pi po sl todo C = Ok d.
Proof.
  intros PA PB OE OS. revert C. induction todo as [|s todo IH]; intros C H; [eexists; reflexivity|].
  cbn [run_sectors]. fold (runs sl s). destruct (runs sl s) eqn:R; [|apply IH; intros; apply H; auto; now right].
  destruct (H s (or_introl eq_refl) R) as [keys EK]. destruct (run_sector_total la bases s (r_C r) eta f pi po _ _ keys PA PB OE OS EK) as (d & -> & _).
  cbn [bind]. apply IH. intros; apply H; auto; now right.
Qed.
Lemma wet_run_total r so sl h f pa pb E b all :
  r_f r = Some f -> ord_ok (r_qed r) -> ord_ok (r_qcd r) ->
  running f (r_scale r) = Ok pa -> running f so = Ok pb -> p_ok pa -> p_ok pb ->
  reg_get efts (r_eft r) = Ok E -> reg_get bases (r_eft r, "JMS") = Ok b -> all_wcs b = Ok all ->
  (forall s, In s (dkeys (eft_sectors E)) -> dmem sectors s = true -> exists keys, sector_keys bases s f = Ok keys) ->
  exists w, wet_run r so sl h = Ok w.
Proof.
  intros EF OE OS EA EB PA PB EE Eb Eall H.
  destruct (rs_total r f (alpha_s pa / alpha_s pb) pa pb sl (dkeys (eft_sectors E)) [] PA PB OE OS) as [d D].
  { intros s I R. apply H; auto. unfold runs in R. now apply andb_true_iff in R as [R _]. }
  eexists. eapply wet_run_intro; eauto. destruct PB as [P _]. lra.
Qed.
(* with five flavours all sectors have their coefficients *)
Lemma sector_keys_5 s : dmem sectors s = true -> dmem coeffs s = true -> exists keys, sector_keys bases s 5 = Ok keys.
Proof.
  intros _ M. rewrite dmem_dget in M. unfold sector_keys. destruct (dget coeffs s) as [l|]; [|discriminate].
  destruct (String.eqb s "dF=0"); unfold get_permissible_wcs; rewrite Z.eqb_refl, orb_true_r; cbn [rmap]; eauto.
Qed.
Lemma sectors_coeffs : forallb (fun s => dmem coeffs s) (dkeys sectors) = true.
Proof. vm_cast_no_check (eq_refl true). Qed.

(* ---------- a vanishing QCD anomalous dimension matrix ---------- *)
Lemma eig_zero n A : eig_ok la n A -> meqn n A (fun _ _ => 0) -> forall j, (j < n)%nat -> ew la n A j = 0.
Proof.
  intros (AV & VU & UV) Z j Lj. unfold ew. set (w := fst (eig la n A)) in *. set (v := snd (eig la n A)) in *. set (u := minv la n v) in *.
  assert (WV : forall k, (k < n)%nat -> w j * v k j = 0).
  { intros k Lk. rewrite <- (AV k j Lk Lj). unfold mmul. apply ksum_zero. intros a I. apply in_seq in I. rewrite Z by lia. ring. }
  specialize (UV j j Lj Lj). unfold meye in UV. rewrite Nat.eqb_refl in UV.
  transitivity (w j * mmul n u v j j); [rewrite UV; ring|]. unfold mmul. rewrite <- ksum_scale. apply ksum_zero. intros k I. apply in_seq in I.
  transitivity (u j k * (w j * v k j)); [ring|]. rewrite WV by lia. ring.
Qed.
Lemma ueM_zero n A B f eta i j : (0 < eta)%R -> eig_ok la n A -> meqn n A (fun _ _ => 0) -> (i < n)%nat -> (j < n)%nat ->
  ueM la n A B f eta i j = rc (1 - eta) * B i j.
Proof.
  intros P O Z Li Lj. pose proof (eig_zero n A O Z) as W0. destruct O as (AV & VU & UV).
  rewrite (ueM_entry la n A B f eta i j).
  rewrite (ksum_ext _ (fun l => rc (1 - eta) * (ksum (map (fun k => ev la n A i k * mmul n (mmul n (eu la n A) B) (ev la n A) k l) (seq 0 n)) * eu la n A l j))).
  - rewrite ksum_scale. f_equal. rewrite (ksum_ext _ (fun l => mmul n B (ev la n A) i l * eu la n A l j)).
    + change (mmul n (mmul n B (ev la n A)) (eu la n A) i j = B i j). rewrite (mmul_assoc n B (ev la n A) (eu la n A) i j Li Lj).
      etransitivity; [exact (mmul_ext n B B _ _ (meqn_refl n B) VU i j Li Lj)|now apply mmul_eye_r].
    + intros l I. apply in_seq in I. rewrite (vK0 la n A B (conj AV (conj VU UV)) i l) by lia. reflexivity.
  - intros l I. apply in_seq in I. rewrite <- ksum_scale_r, <- ksum_scale. apply ksum_ext. intros k J. apply in_seq in J. cbv beta.
    rewrite !W0 by lia. replace (0 / rc (2 * b0s f)) with (0 : CR) by (rewrite kdiv_def; ring).
    unfold ue_factor. destruct (ceqb_spec (0 - 0) 1) as [Q|_].
    { exfalso. apply (f_equal fst) in Q. cbn in Q. lra. }
    cbn [negb]. rewrite cpow_zero, cpow_add, cpow_zero, cpow_one by exact P. rewrite rc_sub. change (rc 1) with (1 : CR). field.
    intros Q. apply (f_equal fst) in Q. cbn in Q. lra.
Qed.
End Thms.
