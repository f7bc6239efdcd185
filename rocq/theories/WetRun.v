(* Proofs about WETrunner.run *)
From Coq Require Import List Bool ZArith Reals Arith Lia Lra String Ascii.
From Verif Require Import PyBase Num SymModel EftModel NpModel NpProofs RealC WcxfModel WcxfProofs AdmData WetModel WetSpec WetMat WetPow WetProofs WetSector WetEvol.
Import ListNotations.
Local Open Scope string_scope.
Local Open Scope list_scope.
Local Open Scope K_scope.
Add Field KFU : (k_field CR).

Section Run.
Variable la : linalg.
Variable bases : @basis_reg CR.
Variable efts : @eft_reg CR.
Variable running : Z -> R -> res rpar.
Local Notation run_sector := (run_sector la bases).
Local Notation run_sectors := (run_sectors la bases).
Local Notation wet_run := (wet_run la bases efts running).

Lemma run_sector_ext s C C' eta f pi po qed qcd keys :
  sector_keys bases s f = Ok keys -> (forall k, In k keys -> dgetd C k 0 = dgetd C' k 0) ->
  run_sector s C eta f pi po qed qcd = run_sector s C' eta f pi po qed qcd.
Proof.
  intros EK E. rewrite !run_sector_eq. destruct (dget sectors s) as [cls|]; [|reflexivity]. rewrite EK. cbn [bind].
  assert (M : map (fun key => dgetd C key 0) keys = map (fun key => dgetd C' key 0) keys) by (apply map_ext_in; exact E).
  rewrite M. destruct (_ || _); [reflexivity|]. destruct (sector_matrix _ _ _ _ _ _ _ _ _ _) as [N|]; [|reflexivity]. cbn [bind].
  f_equal. f_equal. apply map_ext_in. intros i I. apply in_seq in I. apply mvec_ext; [lia|apply meqn_refl|].
  intros j Lj. unfold cin. apply E. now apply nth_In.
Qed.
Lemma run_sector_sub s C eta f pi po qed qcd d all k :
  run_sector s C eta f pi po qed qcd = Ok d -> dget coeffs s = Some all -> In k (dkeys d) -> In k all.
Proof.
  intros E EA I. destruct (run_sector_keys _ _ _ _ _ _ _ _ _ _ _ E) as [EK _].
  destruct (sector_keys_spec _ _ _ _ EK) as [_ (all' & EA' & IN)]. rewrite EA in EA'. injection EA' as <-. now apply IN.
Qed.
Lemma run_sector_wf s C eta f pi po qed qcd d : run_sector s C eta f pi po qed qcd = Ok d -> wfdict d /\ exists all, dget coeffs s = Some all.
Proof.
  intros E. destruct (run_sector_keys _ _ _ _ _ _ _ _ _ _ _ E) as [EK _]. destruct (sector_keys_spec _ _ _ _ EK) as [W (all & EA & _)].
  split; [exact W|eauto].
Qed.
Definition runs (sl : sel) (s : string) : bool := dmem sectors s && selected sl s.
Section Loop.
Variables (r : runner) (f : Z) (eta : R) (pi po : rpar) (sl : sel).
Local Notation rs := (run_sectors r f eta pi po sl).
Local Notation rs1 := (fun s => run_sector s (r_C r) eta f pi po (r_qed r) (r_qcd r)).
Lemma dget_upd (C d : dict string CR) k : wfdict d -> dget (dupdate C d) k = match dget d k with Some v => Some v | None => dget C k end.
Proof. intros W. now rewrite dget_dupdate. Qed.
Lemma rs_cons s todo C d : rs (s :: todo) C = Ok d ->
  runs sl s = true /\ (exists ds, rs1 s = Ok ds /\ rs todo (dupdate C ds) = Ok d) \/ runs sl s = false /\ rs todo C = Ok d.
Proof.
  cbn [WetModel.run_sectors]. fold (runs sl s). destruct (runs sl s); [|auto].
  destruct (WetModel.run_sector la bases s (r_C r) eta f pi po (r_qed r) (r_qcd r)) as [ds|] eqn:E; [|discriminate]. cbn [bind]. intros F. left. eauto.
Qed.
Lemma rs_none todo C d k : rs todo C = Ok d ->
  (forall s all, In s todo -> runs sl s = true -> dget coeffs s = Some all -> ~ In k all) -> dget d k = dget C k.
Proof.
  revert C. induction todo as [|s todo IH]; intros C E H; [now injection E as <-|].
  destruct (rs_cons _ _ _ _ E) as [[R (ds & E1 & E2)]|[_ E2]].
  - rewrite (IH _ E2) by (intros; eapply H; eauto; now right). destruct (run_sector_wf _ _ _ _ _ _ _ _ _ E1) as [W (all & EA)].
    rewrite dget_upd by exact W. replace (dget ds k) with (@None CR); [reflexivity|]. symmetry. apply dget_None. intros I.
    apply (H s all (or_introl eq_refl) R EA). eapply run_sector_sub; eauto.
  - apply (IH _ E2). intros; eapply H; eauto. now right.
Qed.
Lemma rs_ok todo C d s : rs todo C = Ok d -> In s todo -> runs sl s = true -> exists ds, rs1 s = Ok ds.
Proof.
  revert C. induction todo as [|t todo IH]; intros C E; [intros []|]. intros [->|I] R.
  - destruct (rs_cons _ _ _ _ E) as [[_ (ds & E1 & _)]|[R' _]]; [eauto|congruence].
  - destruct (rs_cons _ _ _ _ E) as [[_ (ds & _ & E2)]|[_ E2]]; eapply IH; eauto.
Qed.
Lemma rs_at todo C d s ds all k : rs todo C = Ok d -> In s todo -> runs sl s = true -> rs1 s = Ok ds -> dget coeffs s = Some all -> In k all ->
  dget d k = match dget ds k with Some v => Some v | None => dget C k end.
Proof.
  intros E I R E1 EA K. revert C E.
  assert (G : forall todo C d, rs todo C = Ok d -> (In s todo -> dget d k = match dget ds k with Some v => Some v | None => dget C k end) /\
                               (~ In s todo -> dget d k = dget C k)).
  { clear todo d I. induction todo as [|t todo IH]; intros C d E; [split; [intros []|now injection E as <-]|].
    destruct (rs_cons _ _ _ _ E) as [[Rt (dt & Et & E2)]|[Rt E2]]; destruct (IH _ _ E2) as [IH1 IH2]; destruct (string_dec s t) as [<-|N].
    - rewrite E1 in Et. injection Et as <-. destruct (run_sector_wf _ _ _ _ _ _ _ _ _ E1) as [W _]. split; [intros _|intros X; exfalso; apply X; now left].
      destruct (in_dec string_dec s todo) as [J|J]; [rewrite IH1 by exact J|rewrite IH2 by exact J]; rewrite dget_upd by exact W; destruct (dget ds k); reflexivity.
    - destruct (run_sector_wf _ _ _ _ _ _ _ _ _ Et) as [W (allt & EAt)].
      assert (Z : dget dt k = None). { apply dget_None. intros J. apply N. eapply coeffs_disj; eauto. eapply run_sector_sub; eauto. }
      split; intros J.
      + destruct J as [->|J]; [contradiction|]. rewrite IH1 by exact J. now rewrite dget_upd, Z by exact W.
      + rewrite IH2 by (intros X; apply J; now right). now rewrite dget_upd, Z by exact W.
    - congruence.
    - split; intros J.
      + destruct J as [->|J]; [contradiction|]. now apply IH1.
      + apply IH2. intros X. apply J. now right. }
  intros C E. exact (proj1 (G _ _ _ E) I).
Qed.
Lemma rs_wf todo C d : rs todo C = Ok d -> wfdict C -> wfdict d.
Proof.
  revert C. induction todo as [|t todo IH]; intros C E W; [now injection E as <-|].
  destruct (rs_cons _ _ _ _ E) as [[_ (ds & _ & E2)]|[_ E2]]; eapply IH; eauto. now apply wf_dupdate.
Qed.
End Loop.

(* ---------- the whole run ---------- *)
(* what a successful run has computed *)
Record ran (r : runner) (so : R) (sl : sel) (w : @WC CR) : Type := {
  ran_f : Z; ran_pi : rpar; ran_po : rpar; ran_eft : @EFT CR; ran_b : @Basis CR; ran_all : list string; ran_d : dict string CR;
  ran_Ef : r_f r = Some ran_f;
  ran_Epi : running ran_f (r_scale r) = Ok ran_pi;
  ran_Epo : running ran_f so = Ok ran_po;
  ran_nz : alpha_s ran_po <> 0%R;
  ran_Eeft : reg_get efts (r_eft r) = Ok ran_eft;
  ran_Ed : run_sectors r ran_f (alpha_s ran_pi / alpha_s ran_po) ran_pi ran_po sl (dkeys (eft_sectors ran_eft)) [] = Ok ran_d;
  ran_Eb : reg_get bases (r_eft r, "JMS") = Ok ran_b;
  ran_Eall : all_wcs ran_b = Ok ran_all;
  ran_w : wc_dict w = dfilter (fun k v => negb (ceqb v 0) && kmem k ran_all) ran_d;
  ran_we : wc_eft w = r_eft r; ran_wb : wc_basis w = "JMS"; ran_ws : wc_scale w = rc so }.
Lemma wet_run_inv r so sl h w : wet_run r so sl h = Ok w -> ran r so sl w.
Proof.
  unfold WetModel.wet_run, run_dict. destruct (r_f r) as [f|] eqn:E1; [|discriminate].
  destruct (running f (r_scale r)) as [pi|] eqn:E2; [|discriminate]. cbn [bind].
  destruct (running f so) as [po|] eqn:E3; [|discriminate]. cbn [bind]. unfold fdiv. destruct (Req_EM_T _ 0) as [|NZ]; [discriminate|]. cbn [bind].
  destruct (reg_get efts (r_eft r)) as [E|] eqn:E4; [|discriminate]. cbn [bind].
  destruct (WetModel.run_sectors _ _ _ _ _ _ _ _ _ _) as [d|] eqn:E5; [|discriminate]. cbn [bind].
  destruct (reg_get bases (r_eft r, "JMS")) as [b|] eqn:E6; [|discriminate]. cbn [bind].
  destruct (all_wcs b) as [all|] eqn:E7; [|discriminate]. cbn [bind]. intros H. injection H as <-.
  refine (Build_ran _ _ _ _ f pi po E b all d E1 E2 E3 NZ E4 E5 E6 E7 _ _ _ _); [apply wc_dict_mk|reflexivity..].
Qed.
Lemma wet_run_intro r so sl h f pi po E b all d :
  r_f r = Some f -> running f (r_scale r) = Ok pi -> running f so = Ok po -> alpha_s po <> 0%R -> reg_get efts (r_eft r) = Ok E ->
  run_sectors r f (alpha_s pi / alpha_s po) pi po sl (dkeys (eft_sectors E)) [] = Ok d ->
  reg_get bases (r_eft r, "JMS") = Ok b -> all_wcs b = Ok all ->
  wet_run r so sl h = Ok (mkWC (r_eft r) "JMS" (rc so) (dict2values (dfilter (fun k v => negb (ceqb v 0) && kmem k all) d)) [] h).
Proof.
  intros E1 E2 E3 NZ E4 E5 E6 E7. unfold WetModel.wet_run, run_dict. rewrite E1, E2. cbn [bind]. rewrite E3. cbn [bind]. unfold fdiv.
  destruct (Req_EM_T (alpha_s po) 0) as [|_]; [contradiction|]. cbn [bind]. rewrite E4. cbn [bind]. rewrite E5. cbn [bind]. rewrite E6. cbn [bind].
  rewrite E7. reflexivity.
Qed.
Lemma getitem_filter (w : @WC CR) (d : dict string CR) all k :
  wfdict d -> wc_dict w = dfilter (fun k v => negb (ceqb v 0) && kmem k all) d ->
  wc_getitem w k = if kmem k all then dgetd d k 0 else 0.
Proof.
  intros W E. unfold wc_getitem. rewrite E, dget_dfilter by exact W. unfold dgetd. destruct (dget d k) as [v|]; [|now destruct (kmem k all)].
  destruct (ceqb_spec v 0) as [->|]; cbn [negb andb]; destruct (kmem k all); reflexivity.
Qed.
Lemma ran_get r so sl w (X : ran r so sl w) k : wc_getitem w k = if kmem k (ran_all _ _ _ _ X) then dgetd (ran_d _ _ _ _ X) k 0 else 0.
Proof. apply getitem_filter; [eapply rs_wf; [apply (ran_Ed _ _ _ _ X)|apply wf_nil]|apply (ran_w _ _ _ _ X)]. Qed.
Arguments ran_f {_ _ _ _}. Arguments ran_pi {_ _ _ _}. Arguments ran_po {_ _ _ _}. Arguments ran_eft {_ _ _ _}.
Arguments ran_all {_ _ _ _}. Arguments ran_d {_ _ _ _}. Arguments ran_Ef {_ _ _ _}. Arguments ran_Epi {_ _ _ _}. Arguments ran_Epo {_ _ _ _}.
Arguments ran_nz {_ _ _ _}. Arguments ran_Eeft {_ _ _ _}. Arguments ran_Ed {_ _ _ _}. Arguments ran_Eb {_ _ _ _}. Arguments ran_Eall {_ _ _ _}.
Arguments ran_w {_ _ _ _}. Arguments ran_we {_ _ _ _}. Arguments ran_wb {_ _ _ _}. Arguments ran_b {_ _ _ _}.

(* ---------- linearity ---------- *)
Definition with_C (r : runner) (C : dict string CR) : runner := mkRunner (r_eft r) (r_f r) (r_scale r) C (r_qed r) (r_qcd r).
Lemma lincomb_upd a b (C C1 C2 d d1 d2 : dict string CR) : lincomb a b C C1 C2 -> lincomb a b d d1 d2 ->
  dkeys d = dkeys d1 -> dkeys d2 = dkeys d1 -> wfdict d1 -> lincomb a b (dupdate C d) (dupdate C1 d1) (dupdate C2 d2).
Proof.
  intros LC LD K1 K2 W k. assert (W0 : wfdict d) by (unfold wfdict; now rewrite K1). assert (W2 : wfdict d2) by (unfold wfdict; now rewrite K2).
  specialize (LC k). specialize (LD k). unfold dgetd in *. rewrite !dget_upd by assumption.
  destruct (in_dec string_dec k (dkeys d1)) as [I|N].
  - destruct (dget d k) eqn:E0; [|apply dget_None in E0; exfalso; apply E0; now rewrite K1].
    destruct (dget d1 k) eqn:E1; [|apply dget_None in E1; contradiction].
    destruct (dget d2 k) eqn:E2; [|apply dget_None in E2; exfalso; apply E2; now rewrite K2]. exact LD.
  - rewrite (proj2 (dget_None d1 k) N). rewrite (proj2 (dget_None d k)) by now rewrite K1. rewrite (proj2 (dget_None d2 k)) by now rewrite K2. exact LC.
Qed.
Lemma rs_linear r f eta pi po sl a b C1 C2 C todo : lincomb a b C C1 C2 -> forall D D1 D2, lincomb a b D D1 D2 -> forall d1 d2,
  run_sectors (with_C r C1) f eta pi po sl todo D1 = Ok d1 -> run_sectors (with_C r C2) f eta pi po sl todo D2 = Ok d2 ->
  exists d, run_sectors (with_C r C) f eta pi po sl todo D = Ok d /\ lincomb a b d d1 d2.
Proof.
  intros LC. induction todo as [|s todo IH]; intros D D1 D2 LD d1 d2 E1 E2.
  - injection E1 as <-. injection E2 as <-. exists D. auto.
  - destruct (rs_cons _ _ _ _ _ _ _ _ _ _ E1) as [[R1 (e1 & F1 & G1)]|[R1 G1]]; destruct (rs_cons _ _ _ _ _ _ _ _ _ _ E2) as [[R2 (e2 & F2 & G2)]|[R2 G2]];
      try congruence.
    + cbn [with_C r_C r_qed r_qcd] in F1, F2. destruct (run_sector_linear _ _ _ _ _ _ a b _ _ _ _ _ _ _ _ LC F1 F2) as (e & F & LE & KE).
      destruct (run_sector_wf _ _ _ _ _ _ _ _ _ F1) as [W1 _].
      assert (K2 : dkeys e2 = dkeys e1).
      { destruct (run_sector_keys _ _ _ _ _ _ _ _ _ _ _ F1) as [X1 _]. destruct (run_sector_keys _ _ _ _ _ _ _ _ _ _ _ F2) as [X2 _]. congruence. }
      destruct (IH (dupdate D e) _ _ (lincomb_upd _ _ _ _ _ _ _ _ LD LE KE K2 W1) _ _ G1 G2) as (d & Ed & Ld).
      exists d. split; auto. cbn [WetModel.run_sectors]. fold (runs sl s). rewrite R1. cbn [with_C r_C r_qed r_qcd]. rewrite F. cbn [bind]. exact Ed.
    + destruct (IH D _ _ LD _ _ G1 G2) as (d & Ed & Ld). exists d. split; auto. cbn [WetModel.run_sectors]. fold (runs sl s). rewrite R1. exact Ed.
Qed.
Theorem wet_run_linear r so sl h1 h2 h a b C1 C2 C w1 w2 : lincomb a b C C1 C2 ->
  wet_run (with_C r C1) so sl h1 = Ok w1 -> wet_run (with_C r C2) so sl h2 = Ok w2 ->
  exists w, wet_run (with_C r C) so sl h = Ok w /\ forall k, wc_getitem w k = a * wc_getitem w1 k + b * wc_getitem w2 k.
Proof.
  intros LC E1 E2. pose proof (wet_run_inv _ _ _ _ _ E1) as X1. pose proof (wet_run_inv _ _ _ _ _ E2) as X2.
  pose proof (ran_get _ _ _ _ X1) as G1. pose proof (ran_get _ _ _ _ X2) as G2.
  destruct X1 as [f pi po E b1 all d1 A1 A2 A3 A4 A5 A6 A7 A8 A9 A10 A11 A12]. destruct X2 as [f' pi' po' E' b2 all' d2 B1 B2 B3 B4 B5 B6 B7 B8 B9 B10 B11 B12].
  cbn [with_C r_f r_scale r_eft ran_all ran_d] in *.
  rewrite A1 in B1. injection B1 as <-. rewrite A2 in B2. injection B2 as <-. rewrite A3 in B3. injection B3 as <-.
  rewrite A5 in B5. injection B5 as <-. rewrite A7 in B7. injection B7 as <-. rewrite A8 in B8. injection B8 as <-.
  destruct (rs_linear r f _ pi po sl a b C1 C2 C _ LC [] [] [] ltac:(intros k; cbn [dgetd dget]; ring) _ _ A6 B6) as (d & Ed & Ld).
  eexists. split; [apply (wet_run_intro (with_C r C) so sl h f pi po E b1 all d); assumption|].
  intros k. rewrite G1, G2. erewrite getitem_filter; [|eapply rs_wf; [exact Ed|apply wf_nil]|apply wc_dict_mk].
  destruct (kmem k all); [apply Ld|ring].
Qed.

(* ---------- the value of one coefficient ---------- *)
(* the sector s of the coefficient k is run: the output is that of run_sector *)
Lemma ran_at r so sl w (X : ran r so sl w) s all k :
  dget coeffs s = Some all -> In k all -> In s (dkeys (eft_sectors (ran_eft X))) -> runs sl s = true -> kmem k (ran_all X) = true ->
  exists ds, run_sector s (r_C r) (alpha_s (ran_pi X) / alpha_s (ran_po X)) (ran_f X) (ran_pi X) (ran_po X) (r_qed r) (r_qcd r) = Ok ds /\
             wc_getitem w k = dgetd ds k 0.
Proof.
  intros EA I J R K. destruct (rs_ok _ _ _ _ _ _ _ _ _ _ (ran_Ed X) J R) as [ds E]. exists ds. split; auto.
  rewrite (ran_get _ _ _ _ X), K. unfold dgetd. rewrite (rs_at _ _ _ _ _ _ _ _ _ _ _ _ _ (ran_Ed X) J R E EA I).
  cbn [dget]. destruct (dget ds k); reflexivity.
Qed.
(* otherwise it is zero *)
Lemma ran_not r so sl w (X : ran r so sl w) k :
  (forall s all, dget coeffs s = Some all -> In k all -> In s (dkeys (eft_sectors (ran_eft X))) -> runs sl s = true -> False) \/ kmem k (ran_all X) = false ->
  wc_getitem w k = 0.
Proof.
  intros H. rewrite (ran_get _ _ _ _ X). destruct (kmem k (ran_all X)) eqn:K; [|reflexivity].
  destruct H as [H|]; [|discriminate]. unfold dgetd. rewrite (rs_none _ _ _ _ _ _ _ _ _ k (ran_Ed X)); [reflexivity|].
  intros s all I R EA J. eapply H; eauto.
Qed.
Lemma runs_dec sl k (L : list string) : (exists s all, dget coeffs s = Some all /\ In k all /\ In s L /\ runs sl s = true) \/
  (forall s all, dget coeffs s = Some all -> In k all -> In s L -> runs sl s = true -> False).
Proof.
  induction L as [|t L IH]; [right; intros s all _ _ []|].
  destruct IH as [(s & all & A & B & C & D)|H]; [left; exists s, all; auto using in_cons|].
  destruct (dget coeffs t) as [all|] eqn:E.
  - destruct (in_dec string_dec k all) as [I|N]; [|right; intros s a A B [<-|C] D; [congruence|eauto]].
    destruct (runs sl t) eqn:R; [left; exists t, all; repeat split; auto; now left|].
    right. intros s a A B [<-|C] D; [congruence|eauto].
  - right. intros s a A B [<-|C] D; [congruence|eauto].
Qed.
(* only the coefficients of the same sector matter *)
Theorem wet_run_sector r so sl h1 h2 C1 C2 w1 w2 s all : dget coeffs s = Some all ->
  (forall k, In k all -> dgetd C1 k 0 = dgetd C2 k 0) ->
  wet_run (with_C r C1) so sl h1 = Ok w1 -> wet_run (with_C r C2) so sl h2 = Ok w2 ->
  forall k, In k all -> wc_getitem w1 k = wc_getitem w2 k.
Proof.
  intros EA EQ E1 E2 k I. pose proof (wet_run_inv _ _ _ _ _ E1) as X1. pose proof (wet_run_inv _ _ _ _ _ E2) as X2.
  assert (EE : ran_eft X1 = ran_eft X2) by (pose proof (ran_Eeft X1) as P; pose proof (ran_Eeft X2) as Q; cbn [with_C r_eft] in P, Q; congruence).
  assert (EB : ran_all X1 = ran_all X2).
  { pose proof (ran_Eb X1) as P; pose proof (ran_Eb X2) as Q; cbn [with_C r_eft] in P, Q. pose proof (ran_Eall X1) as P'; pose proof (ran_Eall X2) as Q'. congruence. }
  assert (EF : ran_f X1 = ran_f X2) by (pose proof (ran_Ef X1) as P; pose proof (ran_Ef X2) as Q; cbn [with_C r_f] in P, Q; congruence).
  assert (EP : ran_pi X1 = ran_pi X2) by (pose proof (ran_Epi X1) as P; pose proof (ran_Epi X2) as Q; cbn [with_C r_scale] in P, Q; congruence).
  assert (EO : ran_po X1 = ran_po X2) by (pose proof (ran_Epo X1) as P; pose proof (ran_Epo X2) as Q; congruence).
  destruct (runs_dec sl k (dkeys (eft_sectors (ran_eft X1)))) as [(s' & all' & A & B & J & R)|H].
  - assert (s' = s) by (eapply coeffs_disj; eauto). subst s'. assert (all' = all) by congruence. subst all'.
    destruct (kmem k (ran_all X1)) eqn:K.
    + destruct (ran_at _ _ _ _ X1 s all k EA I J R K) as (d1 & D1 & ->).
      destruct (ran_at _ _ _ _ X2 s all k EA I) as (d2 & D2 & ->); try congruence.
      cbn [with_C r_C r_qed r_qcd] in D1, D2. rewrite EP, EO, EF in D1.
      destruct (run_sector_keys _ _ _ _ _ _ _ _ _ _ _ D1) as [EK _]. destruct (sector_keys_spec _ _ _ _ EK) as [_ (all'' & EA' & IN)].
      assert (all'' = all) by congruence. subst all''.
      rewrite (run_sector_ext s C1 C2 _ _ _ _ _ _ _ EK) in D1 by (intros; apply EQ; now apply IN). congruence.
    + rewrite (ran_not _ _ _ _ X1) by auto. rewrite (ran_not _ _ _ _ X2); [reflexivity|]. right. congruence.
  - rewrite (ran_not _ _ _ _ X1) by auto. rewrite (ran_not _ _ _ _ X2); [reflexivity|]. left. rewrite <- EE. exact H.
Qed.

(* ---------- same scale ---------- *)
Theorem wet_run_same r sl h w s all k (X : ran r (r_scale r) sl w) : wet_run r (r_scale r) sl h = Ok w ->
  (forall cls, adm_ok la bases cls (ran_f X) (ran_pi X)) -> dget coeffs s = Some all -> In k all ->
  In s (dkeys (eft_sectors (ran_eft X))) -> runs sl s = true ->
  (exists keys, sector_keys bases s (ran_f X) = Ok keys /\ In k keys) -> In k (ran_all X) ->
  wc_getitem w k = dgetd (r_C r) k 0.
Proof.
  intros _ O EA I J R (keys & EK & IK) B. apply kmem_In in B. destruct (ran_at _ _ _ _ X s all k EA I J R B) as (ds & D & ->).
  assert (EP : ran_po X = ran_pi X) by (pose proof (ran_Epi X); pose proof (ran_Epo X); congruence). rewrite EP in D.
  replace (alpha_s (ran_pi X) / alpha_s (ran_pi X))%R with 1%R in D by (pose proof (ran_nz X) as N; rewrite EP in N; now field).
  destruct (run_sector_keys _ _ _ _ _ _ _ _ _ _ _ D) as [EK' (cls & ES)]. apply (run_sector_same _ _ _ _ _ _ _ _ _ _ ES (O cls) D).
  congruence.
Qed.
End Run.
Arguments ran_f {_ _ _ _ _ _ _ _}.
Arguments ran_pi {_ _ _ _ _ _ _ _}.
Arguments ran_po {_ _ _ _ _ _ _ _}.
Arguments ran_eft {_ _ _ _ _ _ _ _}.
Arguments ran_b {_ _ _ _ _ _ _ _}.
Arguments ran_all {_ _ _ _ _ _ _ _}.
Arguments ran_d {_ _ _ _ _ _ _ _}.
Arguments ran_Ef {_ _ _ _ _ _ _ _}.
Arguments ran_Epi {_ _ _ _ _ _ _ _}.
Arguments ran_Epo {_ _ _ _ _ _ _ _}.
Arguments ran_nz {_ _ _ _ _ _ _ _}.
Arguments ran_Eeft {_ _ _ _ _ _ _ _}.
Arguments ran_Ed {_ _ _ _ _ _ _ _}.
Arguments ran_Eb {_ _ _ _ _ _ _ _}.
Arguments ran_Eall {_ _ _ _ _ _ _ _}.
Arguments ran_w {_ _ _ _ _ _ _ _}.
Arguments ran_we {_ _ _ _ _ _ _ _}.
Arguments ran_wb {_ _ _ _ _ _ _ _}.
Arguments ran_ws {_ _ _ _ _ _ _ _}.
