(* The running in WET does not depend on the eigen-decomposition numpy returns *)
From Coq Require Import List Bool ZArith Reals Arith Lia Lra String Ascii.
From Verif Require Import PyBase Num SymModel EftModel NpModel NpProofs RealC WcxfModel WcxfProofs AdmData WetModel WetSpec WetMat WetPow WetProofs WetSector WetEvol WetRge WetRun WetThms.
Import ListNotations.
Local Open Scope string_scope.
Local Open Scope list_scope.
Local Open Scope K_scope.
Add Field KFU : (k_field CR).
Section Uniq.
Variables la la' : linalg.
Variable bases : @basis_reg CR.
Lemma us_unique cls eta f p n U U' : adm_ok la bases cls f p -> adm_ok la' bases cls f p ->
  getUs la bases cls eta f p = Ok (n, U) -> getUs la' bases cls eta f p = Ok (n, U') -> meqn n U U'.
Proof.
  intros O O' E E'. apply getUs_inv in E as (A & EA & ->). apply getUs_inv in E' as (A' & EA' & ->).
  rewrite EA in EA'. injection EA' as <-. destruct (O _ _ EA) as (H1 & H2 & H3). destruct (O' _ _ EA) as (H1' & H2' & H3').
  exact (fmat_unique n (mT A) _ _ _ _ _ _ H1 H2 H3 H1' H2' (pw f eta)).
Qed.
Lemma ue_unique cls eta f p n U U' : adm_ok la bases cls f p -> adm_ok la' bases cls f p ->
  getUe la bases cls eta f p = Ok (n, U) -> getUe la' bases cls eta f p = Ok (n, U') -> meqn n U U'.
Proof.
  intros O O' E E'. apply getUe_inv in E as (A & B & EA & EB & _ & ->). apply getUe_inv in E' as (A' & B' & EA' & EB' & _ & ->).
  rewrite EA in EA'. injection EA' as <-. rewrite EB in EB'. injection EB' as <-.
  destruct (O _ _ EA) as (H1 & H2 & H3). destruct (O' _ _ EA) as (H1' & H2' & H3').
  intros i j Li Lj. rewrite !mmul_scale_l. f_equal.
  exact (kmat_unique n (mT A) (mT B) _ _ _ _ _ _ H1 H2 H3 H1' H2' H3' (fun a b => ue_factor eta (a / rc (2 * b0s f)) (b / rc (2 * b0s f))) i j Li Lj).
Qed.
Lemma sector_unique s C eta f pi po qed qcd d d' cls : dget sectors s = Some cls -> adm_ok la bases cls f pi -> adm_ok la' bases cls f pi ->
  run_sector la bases s C eta f pi po qed qcd = Ok d -> run_sector la' bases s C eta f pi po qed qcd = Ok d' ->
  forall k, In k (dkeys d) -> dgetd d k 0 = dgetd d' k 0.
Proof.
  intros ES O O' E E' k IK. destruct (run_sector_keys _ _ _ _ _ _ _ _ _ _ _ E) as [EK _].
  destruct (keys_index _ _ IK) as (j & Lj & ->).
  destruct (run_sector_get _ _ _ _ _ _ _ _ _ _ _ _ _ ES EK E) as [_ R]. destruct (run_sector_get _ _ _ _ _ _ _ _ _ _ _ _ _ ES EK E') as [_ R'].
  destruct R as [[I R]|[[I R]|(I & M & EM & R)]]; destruct R' as [[I' R']|[[I' R']|(I' & M' & EM' & R')]]; try congruence.
  - now rewrite (dgetd_Some _ _ _ _ (R j Lj)), (dgetd_Some _ _ _ _ (R' j Lj)).
  - now rewrite (dgetd_Some _ _ _ _ (proj2 (R j Lj))), (dgetd_Some _ _ _ _ (proj2 (R' j Lj))).
  - rewrite (dgetd_Some _ _ _ _ (proj2 (R j Lj))), (dgetd_Some _ _ _ _ (R' j Lj)). symmetry. apply mvec_zero. intros i Li. apply (proj1 (R i Li)).
  - rewrite (dgetd_Some _ _ _ _ (proj2 (R' j Lj))), (dgetd_Some _ _ _ _ (R j Lj)). apply mvec_zero. intros i Li. apply (proj1 (R' i Li)).
  - rewrite (dgetd_Some _ _ _ _ (R j Lj)), (dgetd_Some _ _ _ _ (R' j Lj)).
    destruct (sector_matrix_form _ _ _ _ _ _ _ _ _ _ _ EM) as (Us & Ue & EU & EE & F).
    destruct (sector_matrix_form _ _ _ _ _ _ _ _ _ _ _ EM') as (Us' & Ue' & EU' & EE' & F').
    assert (U1 : meqn (List.length (dkeys d)) Us Us').
    { unfold us_of in EU, EU'. destruct (qcd =? 0)%Z; [injection EU as <-; injection EU' as <-; apply meqn_refl|].
      destruct (qcd =? 1)%Z; [|discriminate]. eapply us_unique; eauto. }
    assert (U2 : meqn (List.length (dkeys d)) Ue Ue').
    { unfold ue_of in EE, EE'. destruct (qed =? 0)%Z; [injection EE as <-; injection EE' as <-; intros ? ? _ _; reflexivity|].
      destruct (qed =? 1)%Z; [|discriminate]. destruct (qcd =? 0)%Z; eapply ue_unique; eauto. }
    apply mvec_ext; auto. intros a b La Lb.
    destruct (F b Lb) as (sb & Sb & G). destruct (G a La) as (ta & Ta & NZ & ->).
    destruct (F' b Lb) as (sb' & Sb' & G'). destruct (G' a La) as (ta' & Ta' & NZ' & ->).
    rewrite (U1 a b La Lb), (U2 a b La Lb). congruence.
Qed.
Lemma run_unique efts running r so sl h h' w w' s k f p cls : dget sectors s = Some cls ->
  r_f r = Some f -> running f (r_scale r) = Ok p -> adm_ok la bases cls f p -> adm_ok la' bases cls f p ->
  wet_run la bases efts running r so sl h = Ok w -> wet_run la' bases efts running r so sl h' = Ok w' ->
  covers bases efts r sl s k -> wc_getitem w k = wc_getitem w' k.
Proof.
  intros ES EF EP O O' E E' CV. pose proof (wet_run_inv _ _ _ _ _ _ _ _ _ E) as X. pose proof (wet_run_inv _ _ _ _ _ _ _ _ _ E') as X'.
  destruct (covers_at _ _ _ _ _ _ _ _ _ _ X CV) as (c1 & ds & ES1 & D & IK & ->).
  destruct (covers_at _ _ _ _ _ _ _ _ _ _ X' CV) as (c2 & ds' & ES2 & D' & IK' & ->).
  assert (F1 : ran_f X = f) by (pose proof (ran_Ef X); congruence). assert (F2 : ran_f X' = f) by (pose proof (ran_Ef X'); congruence).
  assert (P1 : ran_pi X = p) by (pose proof (ran_Epi X) as Y; rewrite F1 in Y; congruence).
  assert (P2 : ran_pi X' = p) by (pose proof (ran_Epi X') as Y; rewrite F2 in Y; congruence).
  assert (Q : ran_po X' = ran_po X) by (pose proof (ran_Epo X) as Y; pose proof (ran_Epo X') as Y'; rewrite F1 in Y; rewrite F2 in Y'; congruence).
  rewrite F1, P1 in D. rewrite F2, P2, Q in D'. exact (sector_unique _ _ _ _ _ _ _ _ _ _ _ ES O O' D D' _ IK).
Qed.
End Uniq.
