(* Properties of the running in WET (C34-C36, C49-C51, C54). *)
From Coq Require Import List Bool ZArith Reals Arith Lia Lra String Ascii.
From Verif Require Import PyBase Num SymModel EftModel NpModel NpProofs RealC WcxfModel WcxfProofs AdmData WetModel WetSpec WetMat WetPow WetProofs WetSector WetEvol WetRge WetRun WetLaws WetUnmix WetThms WetCompose WetDemo WetUnique.
Import ListNotations.
Local Open Scope string_scope.
Local Open Scope list_scope.
Local Open Scope K_scope.
Add Field KFP : (k_field CR).

(* ================= C34 ================= *)
(* Linearity: the result for a C1 + b C2 is a times the result for C1 plus b times the one for C2. *)
Theorem C34_linear : forall la bases efts running r so sl h1 h2 h (a b : CR) C1 C2 C w1 w2,
  (forall k, dgetd C k 0 = a * dgetd C1 k 0 + b * dgetd C2 k 0) ->
  wet_run la bases efts running (with_C r C1) so sl h1 = Ok w1 ->
  wet_run la bases efts running (with_C r C2) so sl h2 = Ok w2 ->
  exists w, wet_run la bases efts running (with_C r C) so sl h = Ok w /\
    forall k, wc_getitem w k = a * wc_getitem w1 k + b * wc_getitem w2 k.
Proof. exact wet_run_linear. Qed.
(* The coefficients of a sector only depend on those of the same sector. *)
Theorem C34_sectors_independent : forall la bases efts running r so sl h1 h2 C1 C2 w1 w2 s all,
  dget coeffs s = Some all -> (forall k, In k all -> dgetd C1 k 0 = dgetd C2 k 0) ->
  wet_run la bases efts running (with_C r C1) so sl h1 = Ok w1 ->
  wet_run la bases efts running (with_C r C2) so sl h2 = Ok w2 ->
  forall k, In k all -> wc_getitem w1 k = wc_getitem w2 k.
Proof. exact wet_run_sector. Qed.
(* Running to the scale one starts from changes nothing. *)
Theorem C34_same_scale : forall la bases efts running r sl h w s k f p cls,
  dget sectors s = Some cls -> r_f r = Some f -> running f (r_scale r) = Ok p -> adm_ok la bases cls f p ->
  wet_run la bases efts running r (r_scale r) sl h = Ok w -> covers bases efts r sl s k ->
  wc_getitem w k = dgetd (r_C r) k 0.
Proof. exact same_run. Qed.
(* The sectors of the class 'inv' do not run, whatever the scales and orders. *)
Theorem C34_no_anomalous_dimension : forall la bases efts running r so sl h w s k,
  dget sectors s = Some "inv" -> wet_run la bases efts running r so sl h = Ok w -> covers bases efts r sl s k ->
  wc_getitem w k = dgetd (r_C r) k 0.
Proof. exact inv_run. Qed.
(* In pure QCD running from a to b and then to c equals running from a to c, in the sectors whose anomalous
   dimensions do not depend on masses ... *)
Theorem C34_compose_partial : forall la bases efts running r b c h1 h2 h3 w1 w2 w3 s all cls f pa pb allw bs,
  r_f r = Some f -> r_qed r = 0%Z -> r_qcd r = 1%Z ->
  (forall g m p, running g m = Ok p -> p_ok p) ->
  running f (r_scale r) = Ok pa -> running f b = Ok pb ->
  dget sectors s = Some cls -> dget coeffs s = Some all ->
  (kmem cls special_classes = false \/ exists l, l <> 0%R /\ forall v, mval pa v = (l * mval pb v)%R) ->
  adm_ok la bases cls f pa -> adm_ok la bases cls f pb ->
  reg_get bases (r_eft r, "JMS") = Ok bs -> all_wcs bs = Ok allw -> incl all allw ->
  wet_run la bases efts running r b (SelStr "all") h1 = Ok w1 ->
  wet_run la bases efts running (mkRunner (r_eft r) (Some f) b (wc_dict w1) 0 1) c (SelStr "all") h2 = Ok w2 ->
  wet_run la bases efts running r c (SelStr "all") h3 = Ok w3 ->
  forall k, In k all -> wc_getitem w2 k = wc_getitem w3 k.
Proof.
  intros la bases efts running r b c h1 h2 h3 w1 w2 w3 s all cls f pa pb allw bs EF Q0 Q1 PO EA EB ES EC SAME OA OB Eb Eall INC E1 E2 E3.
  eapply wet_run_compose; eauto. destruct SAME as [K|(l & NL & M)]; [now apply same_adm_free|exact (same_adm_ratio bases cls f pb pa l NL M)].
Qed.
(* ... but not in the others: in the sector mue the tensor operator with b quarks mixes into the muon dipole with
   the ratio m_b/m_mu, which the code takes at the initial scale.  Whatever the linear algebra returns, running in
   two steps differs from running in one, whenever that ratio is not the same at a and b. *)
Theorem C34_compose_refuted : forall la bases C pa pb pc d1 d2 d3,
  p_ok pa -> p_ok pb -> p_ok pc -> adm_ok la bases "mue" 5 pa -> adm_ok la bases "mue" 5 pb ->
  (forall k, k <> "TedRR_1233" -> k <> "egamma_12" -> dgetd C k 0 = 0) -> dgetd C "egamma_12" 0 = 0 -> dgetd C "TedRR_1233" 0 <> 0 ->
  run_sector la bases "mue" C (alpha_s pa / alpha_s pb) 5 pa pb 0 1 = Ok d1 ->
  run_sector la bases "mue" d1 (alpha_s pb / alpha_s pc) 5 pb pc 0 1 = Ok d2 ->
  run_sector la bases "mue" C (alpha_s pa / alpha_s pc) 5 pa pc 0 1 = Ok d3 ->
  (m_b pa / m_mu pa <> m_b pb / m_mu pb)%R -> alpha_s pb <> alpha_s pc ->
  dgetd d2 "egamma_12" 0 <> dgetd d3 "egamma_12" 0.
Proof. exact mue_compose. Qed.

(* examples *)
Definition exC : dict string CR := [("SedRL_1223", 1); ("TedRR_1223", ki); ("VeeLL_1212", 1); ("TedRR_1233", 1)].
Example C34_example : exists w1 w2 w3,
  wet_run la_tri demo_bases demo_efts demo_running (demo_runner exC 4 0 1) 2 (SelStr "all") 0 = Ok w1 /\
  wet_run la_tri demo_bases demo_efts demo_running (demo_runner (wc_dict w1) 2 0 1) 1 (SelStr "all") 0 = Ok w2 /\
  wet_run la_tri demo_bases demo_efts demo_running (demo_runner exC 4 0 1) 1 (SelStr "all") 0 = Ok w3 /\
  wc_getitem w2 "SedRL_1223" = wc_getitem w3 "SedRL_1223".
Proof.
  assert (O0 : ord_ok 0) by now left. assert (O1 : ord_ok 1) by now right.
  destruct (demo_total la_tri exC 4 2 0 1 (SelStr "all") 0 ltac:(lra) ltac:(lra) O0 O1) as [w1 E1].
  destruct (demo_total la_tri (wc_dict w1) 2 1 0 1 (SelStr "all") 0 ltac:(lra) ltac:(lra) O0 O1) as [w2 E2].
  destruct (demo_total la_tri exC 4 1 0 1 (SelStr "all") 0 ltac:(lra) ltac:(lra) O0 O1) as [w3 E3].
  exists w1, w2, w3. repeat split; auto.
  destruct (dget coeffs "sbemu") as [all|] eqn:EC; [|vm_compute in EC; discriminate].
  assert (ES : dget sectors "sbemu" = Some "Vb") by (vm_compute; reflexivity).
  assert (IA : In "SedRL_1223" all).
  { apply kmem_In. assert (K : match dget coeffs "sbemu" with Some l => kmem "SedRL_1223" l | None => false end = true) by (vm_compute; reflexivity). now rewrite EC in K. }
  destruct (demo_covers exC 4 0 1 (SelStr "all") "sbemu" "SedRL_1223" ltac:(vm_compute; reflexivity) eq_refl) as (_ & _ & _ & (bs & allw & Eb & Eall & _)).
  eapply (C34_compose_partial la_tri demo_bases demo_efts demo_running (demo_runner exC 4 0 1) 2 1 0 0 0 w1 w2 w3 "sbemu" all "Vb" 5 (demo_p 4) (demo_p 2) allw bs); auto.
  - intros g m p. unfold demo_running. destruct (Rlt_dec 0 m) as [P|]; [|discriminate]. intros E. injection E as <-. now apply demo_p_ok.
  - apply demo_run_ok. cbn. lra.
  - apply demo_run_ok. lra.
  - apply (tri_class_ok _ _ _ []). exact demo_Vb.
  - apply (tri_class_ok _ _ _ []). exact demo_Vb.
  - intros k I. destruct (demo_covers exC 4 0 1 (SelStr "all") "sbemu" k) as (_ & _ & _ & (bs' & allw' & Eb' & Eall' & I')).
    + unfold demo_covers_b. rewrite EC. apply kmem_In in I. rewrite I. reflexivity.
    + reflexivity.
    + rewrite Eb in Eb'. injection Eb' as <-. rewrite Eall in Eall'. injection Eall' as <-. exact I'.
Qed.
Example C34_compose_example : exists d1 d2 d3,
  let pa := demo_p 4 in let pb := demo_p 2 in let pc := demo_p 1 in
  run_sector la_tri demo_bases "mue" [("TedRR_1233", 1)] (alpha_s pa / alpha_s pb) 5 pa pb 0 1 = Ok d1 /\
  run_sector la_tri demo_bases "mue" d1 (alpha_s pb / alpha_s pc) 5 pb pc 0 1 = Ok d2 /\
  run_sector la_tri demo_bases "mue" [("TedRR_1233", 1)] (alpha_s pa / alpha_s pc) 5 pa pc 0 1 = Ok d3 /\
  dgetd d2 "egamma_12" 0 <> dgetd d3 "egamma_12" 0.
Proof.
  assert (O0 : ord_ok 0) by now left. assert (O1 : ord_ok 1) by now right.
  assert (P4 : p_ok (demo_p 4)) by (apply demo_p_ok; lra). assert (P2 : p_ok (demo_p 2)) by (apply demo_p_ok; lra). assert (P1 : p_ok (demo_p 1)) by (apply demo_p_ok; lra).
  destruct (mue_keys demo_bases) as (keys & EK & _). cbv zeta.
  destruct (run_sector_total la_tri demo_bases "mue" [("TedRR_1233", 1)] (alpha_s (demo_p 4) / alpha_s (demo_p 2)) 5 _ _ 0 1 keys P4 P2 O0 O1 EK) as (d1 & E1 & _).
  destruct (run_sector_total la_tri demo_bases "mue" d1 (alpha_s (demo_p 2) / alpha_s (demo_p 1)) 5 _ _ 0 1 keys P2 P1 O0 O1 EK) as (d2 & E2 & _).
  destruct (run_sector_total la_tri demo_bases "mue" [("TedRR_1233", 1)] (alpha_s (demo_p 4) / alpha_s (demo_p 1)) 5 _ _ 0 1 keys P4 P1 O0 O1 EK) as (d3 & E3 & _).
  exists d1, d2, d3. repeat split; auto.
  refine (C34_compose_refuted la_tri demo_bases _ _ _ _ _ _ _ P4 P2 P1 (tri_class_ok _ _ _ _ demo_mue) (tri_class_ok _ _ _ _ demo_mue) _ _ _ E1 E2 E3 _ _).
  - intros k N _. unfold dgetd. cbn [dget]. destruct (keqb_spec k "TedRR_1233"); [contradiction|reflexivity].
  - reflexivity.
  - intros Q. apply (f_equal fst) in Q. cbn in Q. lra.
  - cbn. lra.
  - cbn. lra.
Qed.

(* ================= C35 ================= *)
(* The property is false: with qcd_order = 0 no coefficient runs, whatever qed_order.  (Dipoles and the three gluon
   operators change only by the factors that define their normalisation.) *)
Theorem C35_qcd0_switches_off_qed_refuted : forall la bases efts running r so sl h w s k,
  r_qcd r = 0%Z -> wet_run la bases efts running r so sl h = Ok w -> covers bases efts r sl s k ->
  kmem (name_of k) ["uG"; "dG"; "ugamma"; "dgamma"; "egamma"; "nugamma"] = false -> kmem k ["G"; "Gtilde"] = false ->
  wc_getitem w k = dgetd (r_C r) k 0.
Proof. intros la bases efts running r so sl h w s k Q E CV K1 K2. eapply qcd0_run; eauto. unfold unscaled. change (qG ++ qgamma ++ lgamma) with ["uG"; "dG"; "ugamma"; "dgamma"; "egamma"; "nugamma"]. change G3 with ["G"; "Gtilde"]. now rewrite K1, K2. Qed.
Theorem C35_qed_order_ignored_refuted : forall la bases efts running r so sl h w q h' w' s k,
  r_qcd r = 0%Z -> wet_run la bases efts running r so sl h = Ok w ->
  wet_run la bases efts running (mkRunner (r_eft r) (r_f r) (r_scale r) (r_C r) q 0) so sl h' = Ok w' ->
  covers bases efts r sl s k -> wc_getitem w k = wc_getitem w' k.
Proof. exact qed_ignored. Qed.
(* With qcd_order = 1 the same coefficient runs: the QED part of the evolution matrix of a class without QCD
   anomalous dimension is alpha_e / (2 b0 alpha_s) (eta - 1) times the QED anomalous dimension. *)
Theorem C35_qed_runs_with_qcd : forall la bases cls eta f p n A B,
  p_ok p -> (0 < eta)%R -> adm_reduced bases "adm_s_" cls f p = Ok (n, A) -> adm_reduced bases "adm_e_" cls f p = Ok (n, B) ->
  adm_ok la bases cls f p -> (forall i j, (i < n)%nat -> (j < n)%nat -> A i j = 0) ->
  exists U, getUe la bases cls eta f p = Ok (n, U) /\
    forall i j, (i < n)%nat -> (j < n)%nat -> U i j = rc (alpha_e p / (2 * b0s f * alpha_s p) * (eta - 1)) * B j i.
Proof.
  intros la bases cls eta f p n A B PO P EA EB O Z. destruct (getUe_form la bases cls eta f p n A B PO EA EB) as (U & EU & F).
  exists U. split; [exact EU|]. intros i j Li Lj. rewrite F by assumption.
  rewrite (ueM_zero la n (mT A) (mT B) f eta i j P (O _ _ EA)); [|intros a b La Lb; apply Z; assumption|exact Li|exact Lj].
  rewrite kmul_assoc. unfold ue_pre, mT. f_equal. rewrite <- rc_mul. f_equal. destruct PO as (P1 & _). pose proof (b0s_nz f). field. lra.
Qed.
(* VeeLL_1212 has the QED anomalous dimension 12 *)
Example C35_example : exists w,
  wet_run la_tri demo_bases demo_efts demo_running (demo_runner exC 4 1 0) 2 (SelStr "all") 0 = Ok w /\
  wc_getitem w "VeeLL_1212" = dgetd exC "VeeLL_1212" 0 /\
  exists U, getUe la_tri demo_bases "Ie" (alpha_s (demo_p 4) / alpha_s (demo_p 2)) 5 (demo_p 4) = Ok (5%nat, U) /\ U 2%nat 2%nat <> 0.
Proof.
  assert (O1 : ord_ok 1) by now right.
  destruct (demo_total la_tri exC 4 2 1 0 (SelStr "all") 0 ltac:(lra) ltac:(lra) O1 (or_introl eq_refl)) as [w1 E1].
  exists w1. split; [exact E1|]. split.
  - rewrite (C35_qcd0_switches_off_qed_refuted _ _ _ _ (demo_runner exC 4 1 0) _ _ _ _ "muemue" "VeeLL_1212" eq_refl E1); try reflexivity.
    apply demo_covers; vm_compute; reflexivity.
  - assert (P4 : p_ok (demo_p 4)) by (apply demo_p_ok; lra).
    assert (EA : exists A, adm_reduced demo_bases "adm_s_" "Ie" 5 (demo_p 4) = Ok (5%nat, A) /\ forall i j, (i < 5)%nat -> (j < 5)%nat -> A i j = 0).
    { eexists. split; [reflexivity|]. intros i j Li Lj. do 5 (destruct i as [|i]; [reflexivity|]). lia. }
    destruct EA as (A & EA & ZA).
    assert (EB : exists B, adm_reduced demo_bases "adm_e_" "Ie" 5 (demo_p 4) = Ok (5%nat, B) /\ B 2%nat 2%nat = rc 12).
    { eexists. split; reflexivity. }
    destruct EB as (B & EB & B22).
    assert (AO : adm_ok la_tri demo_bases "Ie" 5 (demo_p 4)) by (apply (tri_class_ok _ _ _ []); exact demo_Ie).
    destruct (C35_qed_runs_with_qcd la_tri demo_bases "Ie" (alpha_s (demo_p 4) / alpha_s (demo_p 2)) 5 (demo_p 4) 5 A B P4 ltac:(cbn; lra) EA EB AO ZA) as (U & EU' & FU).
    exists U. split; [exact EU'|]. rewrite FU by lia. rewrite B22, <- rc_mul. apply rc_nz. unfold b0s. cbn. lra.
Qed.

(* ================= C36 ================= *)
(* For every selection of sectors the output contains only nonzero coefficients of the JMS basis that belong to a
   selected sector, and these have the values they have when all sectors are run. *)
Theorem C36_selected_sectors : forall la bases efts running r so sl h h' w,
  wet_run la bases efts running r so (SelStr "all") h = Ok w ->
  exists w', wet_run la bases efts running r so sl h' = Ok w' /\
  (forall k v, dget (wc_dict w') k = Some v -> v <> 0 /\ v = wc_getitem w k /\
     (exists E, reg_get efts (r_eft r) = Ok E /\ exists s all, dget coeffs s = Some all /\ In k all /\ In s (dkeys (eft_sectors E)) /\ selected sl s = true) /\
     (exists b all, reg_get bases (r_eft r, "JMS") = Ok b /\ all_wcs b = Ok all /\ In k all)) /\
  (forall s all k, dget coeffs s = Some all -> In k all -> selected sl s = true -> wc_getitem w' k = wc_getitem w k).
Proof. exact wet_run_select. Qed.
Example C36_example : exists w w',
  wet_run la_tri demo_bases demo_efts demo_running (demo_runner exC 4 1 1) 2 (SelStr "all") 0 = Ok w /\
  wet_run la_tri demo_bases demo_efts demo_running (demo_runner exC 4 1 1) 2 (SelList ["sbemu"; "mue"]) 0 = Ok w' /\
  wc_getitem w' "SedRL_1223" = wc_getitem w "SedRL_1223".
Proof.
  assert (O1 : ord_ok 1) by now right.
  destruct (demo_total la_tri exC 4 2 1 1 (SelStr "all") 0 ltac:(lra) ltac:(lra) O1 O1) as [w E].
  destruct (C36_selected_sectors _ _ _ _ _ _ (SelList ["sbemu"; "mue"]) _ 0%nat _ E) as (w' & E' & _ & V).
  exists w, w'. split; [exact E|]. split; [exact E'|].
  destruct (dget coeffs "sbemu") as [all|] eqn:EC; [|vm_compute in EC; discriminate].
  apply (V "sbemu" all); [exact EC| |reflexivity].
  apply kmem_In. assert (K : match dget coeffs "sbemu" with Some l => kmem "SedRL_1223" l | None => false end = true) by (vm_compute; reflexivity). now rewrite EC in K.
Qed.
(* A string other than 'all' as selection is not compared for equality, but searched for the name of each sector
   (classes.py:79): with sectors='sbsb' the sector 'sb' is run as well. *)
Example C36_string_selection : selected (SelStr "sbsb") "sb" = true /\ selected (SelList ["sbsb"]) "sb" = false.
Proof. split; reflexivity. Qed.

(* ================= C49 ================= *)
(* The evolution matrices solve the leading order renormalisation group equations.  Let al(t) be a coupling that
   runs at one loop, d al/dt = -2 b0 al^2/(4 pi) with b0 = 11 - 2 f/3.  Then Us(t) = getUs(alpha_s/al(t)) satisfies
   dUs/dt = al/(4 pi) A^T Us, and Ue(t) = getUe(alpha_s/al(t)) satisfies
   dUe/dt = al/(4 pi) A^T Ue + alpha_e/(4 pi) B^T Us (fixed alpha_e), where A and B are the QCD and QED anomalous
   dimension matrices.  At the initial scale Us = 1 and Ue = 0. *)
Theorem C49_evolution_solves_rge : forall la bases cls f p n A B,
  p_ok p -> adm_reduced bases "adm_s_" cls f p = Ok (n, A) -> adm_reduced bases "adm_e_" cls f p = Ok (n, B) -> adm_ok la bases cls f p ->
  exists Us Ue : R -> mat,
    (forall x, getUs la bases cls (alpha_s p / x) f p = Ok (n, Us x) /\
               exists U, getUe la bases cls (alpha_s p / x) f p = Ok (n, U) /\ meqn n U (Ue x)) /\
    meqn n (Us (alpha_s p)) meye /\ meqn n (Ue (alpha_s p)) (fun _ _ => 0) /\
    forall (al : R -> R) t, (0 < al t)%R -> derivable_pt_lim al t (- 2 * (11 - 2 * IZR f / 3) * (al t * al t) / (4 * PI))%R ->
    forall i j, (i < n)%nat -> (j < n)%nat ->
      cderiv (fun s => Us (al s) i j) t (rc (al t / (4 * PI)) * mmul n (mT A) (Us (al t)) i j) /\
      cderiv (fun s => Ue (al s) i j) t (rc (al t / (4 * PI)) * mmul n (mT A) (Ue (al t)) i j +
                                         rc (alpha_e p / (4 * PI)) * mmul n (mT B) (Us (al t)) i j).
Proof.
  intros la bases cls f p n A B PO EA EB O.
  exists (fun x => fmA la n (mT A) (pw f (alpha_s p / x))), (fun x i j => rc (ue_pre f p) * ueM la n (mT A) (mT B) f (alpha_s p / x) i j).
  assert (P0 : (0 < alpha_s p)%R) by apply PO. assert (E1 : (alpha_s p / alpha_s p)%R = 1%R) by (field; lra).
  split; [|split; [|split]].
  - intros x. split; [now apply getUs_form|]. exact (getUe_form la bases cls (alpha_s p / x) f p n A B PO EA EB).
  - rewrite E1. destruct (adm_fm _ _ _ _ _ _ _ EA O) as (_ & VU & _). apply (fm_one _ _ _ _ _ VU). intros; apply pw_1.
  - intros i j Li Lj. rewrite E1. destruct (getUe_form la bases cls 1 f p n A B PO EA EB) as (U & EU & F). rewrite <- F by assumption. exact (getUe_1 _ _ _ _ _ _ _ i j EU).
  - intros al t P D i j Li Lj. split; [exact (us_rge la bases cls f p n A al t EA O P0 P D i j Li Lj)|exact (ue_rge la bases cls f p n A B al t EA EB O P0 P D i j Li Lj)].
Qed.
Example C49_example : exists n A B, p_ok (demo_p 4) /\ adm_reduced demo_bases "adm_s_" "mue" 5 (demo_p 4) = Ok (n, A) /\
  adm_reduced demo_bases "adm_e_" "mue" 5 (demo_p 4) = Ok (n, B) /\ adm_ok la_tri demo_bases "mue" 5 (demo_p 4) /\
  (let al := fun t => (6 * PI / (23 * t))%R in (0 < al 1)%R /\ derivable_pt_lim al 1 (- 2 * (11 - 2 * IZR 5 / 3) * (al 1 * al 1) / (4 * PI))%R).
Proof.
  assert (P4 : p_ok (demo_p 4)) by (apply demo_p_ok; lra). destruct (mue_keys demo_bases) as (keys & EK & _).
  assert (ES : dget sectors "mue" = Some "mue") by (vm_compute; reflexivity).
  destruct (adm_reduced_ok demo_bases "adm_s_" "mue" 5 _ _ "mue" P4 EK ES ltac:(discriminate) (or_introl eq_refl)) as [A EA].
  destruct (adm_reduced_ok demo_bases "adm_e_" "mue" 5 _ _ "mue" P4 EK ES ltac:(discriminate) (or_intror eq_refl)) as [B EB].
  exists (List.length keys), A, B. split; [exact P4|]. split; [exact EA|]. split; [exact EB|]. split; [exact (tri_class_ok _ _ _ _ demo_mue)|].
  cbv zeta. pose proof PI_RGT_0 as PP. split; [apply Rdiv_lt_0_compat; lra|].
  replace (- 2 * (11 - 2 * 5 / 3) * (6 * PI / (23 * 1) * (6 * PI / (23 * 1))) / (4 * PI))%R with ((0 * (23 * 1) - (23 * 1) * (6 * PI)) / Rsqr (23 * 1))%R.
  - apply (derivable_pt_lim_div (fun _ => 6 * PI)%R (fun t => 23 * t)%R 1 0 (23 * 1)); [apply derivable_pt_lim_const| |lra].
    apply (derivable_pt_lim_scal (fun t => t)). apply derivable_pt_lim_id.
  - unfold Rsqr. field. lra.
Qed.

(* ================= C50 ================= *)
(* The result does not depend on the choices np.linalg.eig makes: order and normalisation of the eigenvectors, and the
   basis of each eigenspace. *)
Theorem C50_independent_of_eigenvectors : forall la la' bases efts running r so sl h h' w w' s k f p cls,
  dget sectors s = Some cls -> r_f r = Some f -> running f (r_scale r) = Ok p -> adm_ok la bases cls f p -> adm_ok la' bases cls f p ->
  wet_run la bases efts running r so sl h = Ok w -> wet_run la' bases efts running r so sl h' = Ok w' ->
  covers bases efts r sl s k -> wc_getitem w k = wc_getitem w' k.
Proof. exact run_unique. Qed.
(* for instance other normalisations of the eigenvectors *)
Definition la_scaled : linalg := {|
  eig := fun n A => (fst (eig la_tri n A), fun i j => rc 2 * snd (eig la_tri n A) i j);
  minv := fun n v i j => rc (/ 2) * minv la_tri n (fun a b => rc (/ 2) * v a b) i j |}.
Lemma la_scaled_ok n A : eig_ok la_tri n A -> eig_ok la_scaled n A.
Proof.
  intros (H1 & H2 & H3). unfold eig_ok, la_scaled. cbn [eig minv fst snd]. set (v := snd (eig la_tri n A)) in *.
  assert (R2 : rc 2 * rc (/ 2) = 1) by (rewrite <- rc_mul; replace (2 * / 2)%R with 1%R by field; reflexivity).
  assert (MV : forall i j, minv la_tri n (fun a b => rc (/ 2) * (rc 2 * v a b)) i j = minv la_tri n v i j).
  { intros i j. cbn [minv la_tri]. destruct (i =? j)%nat; [reflexivity|]. f_equal. transitivity (rc 2 * rc (/ 2) * v i j); [ring|]. rewrite R2. ring. }
  split; [|split]; intros i j Li Lj.
  - transitivity (rc 2 * mmul n A v i j); [unfold mmul; rewrite <- ksum_scale; apply ksum_ext; intros; ring|]. rewrite (H1 i j Li Lj). ring.
  - rewrite <- (H2 i j Li Lj). unfold mmul. apply ksum_ext. intros k _. rewrite MV. transitivity (rc 2 * rc (/ 2) * (v i k * minv la_tri n v k j)); [ring|]. rewrite R2. ring.
  - rewrite <- (H3 i j Li Lj). unfold mmul. apply ksum_ext. intros k _. rewrite MV. transitivity (rc 2 * rc (/ 2) * (minv la_tri n v i k * v k j)); [ring|]. rewrite R2. ring.
Qed.
Example C50_example : exists w w',
  wet_run la_tri demo_bases demo_efts demo_running (demo_runner exC 4 1 1) 2 (SelStr "all") 0 = Ok w /\
  wet_run la_scaled demo_bases demo_efts demo_running (demo_runner exC 4 1 1) 2 (SelStr "all") 0 = Ok w' /\
  wc_getitem w "SedRL_1223" = wc_getitem w' "SedRL_1223".
Proof.
  assert (O1 : ord_ok 1) by now right.
  destruct (demo_total la_tri exC 4 2 1 1 (SelStr "all") 0 ltac:(lra) ltac:(lra) O1 O1) as [w E].
  destruct (demo_total la_scaled exC 4 2 1 1 (SelStr "all") 0 ltac:(lra) ltac:(lra) O1 O1) as [w' E'].
  exists w, w'. split; [exact E|]. split; [exact E'|]. pose proof (tri_class_ok demo_bases _ (demo_p 4) [] demo_Vb) as T.
  apply (C50_independent_of_eigenvectors la_tri la_scaled demo_bases demo_efts demo_running (demo_runner exC 4 1 1) 2 (SelStr "all") 0 0 w w' "sbemu" "SedRL_1223" 5 (demo_p 4) "Vb"); auto.
  - apply demo_run_ok. cbn. lra.
  - intros n A EA. apply la_scaled_ok. exact (T n A EA).
  - apply demo_covers; vm_compute; reflexivity.
Qed.

(* ================= C51 ================= *)
(* Under pure QCD running a coefficient of a current-current, semileptonic, leptonic or baryon number violating
   operator is multiplied by eta^(gamma/(2 b0)), eta = alpha_s(mu_in)/alpha_s(mu_out), where gamma is its known
   one-loop anomalous dimension (qcd_gamma in WetSpec.v), and nothing is mixed into it. *)
Theorem C51_qcd_scaling : forall la bases efts running r so sl h w s k g f pa pb,
  r_f r = Some f -> r_qed r = 0%Z -> r_qcd r = 1%Z ->
  running f (r_scale r) = Ok pa -> running f so = Ok pb -> (forall cls, dget sectors s = Some cls -> adm_ok la bases cls f pa) ->
  wet_run la bases efts running r so sl h = Ok w -> covers bases efts r sl s k -> dget sectors s <> Some "inv" ->
  qcd_gamma (name_of k) = Some g ->
  wc_getitem w k = rc (Rpower (alpha_s pa / alpha_s pb) (g / (2 * (11 - 2 * IZR f / 3)))) * dgetd (r_C r) k 0.
Proof. exact gamma_run_all. Qed.
(* The three-gluon coefficients: the code multiplies them by eta^((36 - 2 b0)/(2 b0)) ... *)
Theorem C51_three_gluon_scaling : forall la bases efts running r so sl h w s k f pa pb,
  r_f r = Some f -> r_qed r = 0%Z -> r_qcd r = 1%Z ->
  running f (r_scale r) = Ok pa -> running f so = Ok pb -> p_ok pa -> p_ok pb -> (forall cls, dget sectors s = Some cls -> adm_ok la bases cls f pa) ->
  wet_run la bases efts running r so sl h = Ok w -> covers bases efts r sl s k -> dget sectors s <> Some "inv" -> In k ["G"; "Gtilde"] ->
  wc_getitem w k = rc (Rpower (alpha_s pa / alpha_s pb) ((36 - 2 * b0s f) / (2 * b0s f))) * dgetd (r_C r) k 0.
Proof. exact g3_run_all. Qed.
(* ... while their one-loop anomalous dimension is 12 C_A - 3 b0 = 36 - 3 b0 (the package's own SMEFT beta function of
   the same operator has 15 = 36 - 3 * 7, BetaProg.v): the factor eta^((36 - 3 b0)/(2 b0)) is missed whenever the
   coupling changes. *)
Theorem C51_three_gluon_refuted : forall la bases efts running r so sl h w s k f pa pb,
  r_f r = Some f -> r_qed r = 0%Z -> r_qcd r = 1%Z ->
  running f (r_scale r) = Ok pa -> running f so = Ok pb -> p_ok pa -> p_ok pb -> (forall cls, dget sectors s = Some cls -> adm_ok la bases cls f pa) ->
  wet_run la bases efts running r so sl h = Ok w -> covers bases efts r sl s k -> dget sectors s <> Some "inv" -> In k ["G"; "Gtilde"] ->
  alpha_s pa <> alpha_s pb -> dgetd (r_C r) k 0 <> 0 ->
  wc_getitem w k <> rc (Rpower (alpha_s pa / alpha_s pb) ((36 - 3 * b0s f) / (2 * b0s f))) * dgetd (r_C r) k 0.
Proof.
  intros la bases efts running r so sl h w s k f pa pb EF Q0 Q1 EA EB PA PB O E CV NI G NA NC.
  rewrite (g3_run_all la bases efts running r so sl h w s k f pa pb EF Q0 Q1 EA EB PA PB O E CV NI G). intros Q.
  assert (P : (0 < alpha_s pa / alpha_s pb)%R) by (apply Rdiv_lt_0_compat; [apply PA|apply PB]). set (eta := (alpha_s pa / alpha_s pb)%R) in *.
  assert (K : (rc (Rpower eta ((36 - 2 * b0s f) / (2 * b0s f))) - rc (Rpower eta ((36 - 3 * b0s f) / (2 * b0s f)))) * dgetd (r_C r) k 0 = 0).
  { transitivity (rc (Rpower eta ((36 - 2 * b0s f) / (2 * b0s f))) * dgetd (r_C r) k 0 - rc (Rpower eta ((36 - 3 * b0s f) / (2 * b0s f))) * dgetd (r_C r) k 0).
    - ring.
    - rewrite Q. ring. }
  apply kmul_integral in K as [K|K]; [|contradiction]. rewrite <- rc_sub in K. apply (f_equal fst) in K. cbn in K.
  assert (L : (Rpower eta ((36 - 2 * b0s f) / (2 * b0s f)) = Rpower eta ((36 - 3 * b0s f) / (2 * b0s f)))%R) by lra.
  unfold Rpower in L. apply exp_inv in L. pose proof (b0s_nz f) as NB.
  assert (LN : ln eta = 0%R).
  { assert (((36 - 2 * b0s f) / (2 * b0s f) - (36 - 3 * b0s f) / (2 * b0s f)) * ln eta = 0)%R by (rewrite Rmult_minus_distr_r; lra).
    replace ((36 - 2 * b0s f) / (2 * b0s f) - (36 - 3 * b0s f) / (2 * b0s f))%R with (/ 2)%R in H by (field; lra). lra. }
  apply NA. assert (E1 : eta = 1%R) by (rewrite <- (exp_ln eta P), LN; apply exp_0).
  unfold eta in E1. apply (f_equal (fun x => x * alpha_s pb)%R) in E1. destruct PB as [PB _]. field_simplify in E1; lra.
Qed.
Example C51_example : exists w,
  wet_run la_tri demo_bases demo_efts demo_running (demo_runner exC 4 0 1) 2 (SelStr "all") 0 = Ok w /\
  wc_getitem w "SedRL_1223" = rc (Rpower (/ 4 / / 2) ((-8) / (2 * (11 - 2 * IZR 5 / 3)))) * 1.
Proof.
  assert (O0 : ord_ok 0) by now left. assert (O1 : ord_ok 1) by now right.
  destruct (demo_total la_tri exC 4 2 0 1 (SelStr "all") 0 ltac:(lra) ltac:(lra) O0 O1) as [w E]. exists w. split; [exact E|].
  apply (C51_qcd_scaling la_tri demo_bases demo_efts demo_running (demo_runner exC 4 0 1) 2 (SelStr "all") 0 w "sbemu" "SedRL_1223" (-8)%R 5 (demo_p 4) (demo_p 2)); auto.
  - apply demo_run_ok. cbn. lra.
  - apply demo_run_ok. lra.
  - intros cls ES. assert (cls = "Vb") by (vm_compute in ES; congruence). subst. apply (tri_class_ok _ _ _ []). exact demo_Vb.
  - apply demo_covers; vm_compute; reflexivity.
  - vm_compute. discriminate.
Qed.

(* ================= C54 ================= *)
(* Running in WET never raises for physical parameters (positive couplings and masses), whatever the coefficients,
   scales and sectors, provided the EFT and its JMS basis are known and, for fewer than five flavours, the basis
   has the sectors it is asked for. *)
Theorem C54_total : forall la bases efts running r so sl h f pa pb E b all,
  r_f r = Some f -> (r_qed r = 0%Z \/ r_qed r = 1%Z) -> (r_qcd r = 0%Z \/ r_qcd r = 1%Z) ->
  running f (r_scale r) = Ok pa -> running f so = Ok pb -> p_ok pa -> p_ok pb ->
  reg_get efts (r_eft r) = Ok E -> reg_get bases (r_eft r, "JMS") = Ok b -> all_wcs b = Ok all ->
  (forall s, In s (dkeys (eft_sectors E)) -> dmem sectors s = true -> exists keys, sector_keys bases s f = Ok keys) ->
  exists w, wet_run la bases efts running r so sl h = Ok w.
Proof. exact wet_run_total. Qed.
Theorem C54_total_five_flavours : forall la bases efts running r so sl h pa pb E b all,
  r_f r = Some 5%Z -> (r_qed r = 0%Z \/ r_qed r = 1%Z) -> (r_qcd r = 0%Z \/ r_qcd r = 1%Z) ->
  running 5%Z (r_scale r) = Ok pa -> running 5%Z so = Ok pb -> p_ok pa -> p_ok pb ->
  reg_get efts (r_eft r) = Ok E -> reg_get bases (r_eft r, "JMS") = Ok b -> all_wcs b = Ok all ->
  exists w, wet_run la bases efts running r so sl h = Ok w.
Proof.
  intros. eapply wet_run_total; eauto. intros s I M. apply sector_keys_5; [exact M|]. pose proof sectors_coeffs as T. rewrite forallb_forall in T. apply T.
  rewrite dmem_dget in M. destruct (dget sectors s) as [c|] eqn:Es; [|discriminate]. apply dget_In in Es. now apply in_map with (f := fst) in Es.
Qed.
Example C54_example : forall C, exists w, wet_run la_tri demo_bases demo_efts demo_running (demo_runner C 4 1 1) 2 (SelStr "all") 0 = Ok w.
Proof.
  intros C. eapply (C54_total_five_flavours la_tri demo_bases demo_efts demo_running (demo_runner C 4 1 1) 2 (SelStr "all") 0 (demo_p 4) (demo_p 2)).
  1: reflexivity. 1,2: right; reflexivity. 1,2: apply demo_run_ok; cbn; lra. 1,2: apply demo_p_ok; lra. all: reflexivity.
Qed.

Print Assumptions C34_linear.
Print Assumptions C34_sectors_independent.
Print Assumptions C34_same_scale.
Print Assumptions C34_no_anomalous_dimension.
Print Assumptions C34_compose_partial.
Print Assumptions C34_compose_refuted.
Print Assumptions C35_qcd0_switches_off_qed_refuted.
Print Assumptions C35_qed_order_ignored_refuted.
Print Assumptions C35_qed_runs_with_qcd.
Print Assumptions C36_selected_sectors.
Print Assumptions C49_evolution_solves_rge.
Print Assumptions C50_independent_of_eigenvectors.
Print Assumptions C51_qcd_scaling.
Print Assumptions C51_three_gluon_scaling.
Print Assumptions C51_three_gluon_refuted.
Print Assumptions C54_total.
Print Assumptions C54_total_five_flavours.
