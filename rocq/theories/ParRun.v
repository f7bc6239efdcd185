(* P and CP covariance of whole runs *)
From Coq Require Import List Bool ZArith Reals Arith Lia Lra String Ascii.
From Verif Require Import PyBase Num SymModel EftModel NpModel NpProofs RealC WcxfModel WcxfProofs AdmData WetModel WetSpec WetMat WetPow WetProofs WetSector WetEvol WetRge WetRun WetLaws WetUnmix WetThms ParSpec ParData ParMat ParProofs ParUniq.
Import ListNotations.
Local Open Scope string_scope.
Local Open Scope list_scope.
Local Open Scope K_scope.
Section Run.
Variables (la : linalg) (bases : @basis_reg CR) (efts : @eft_reg CR) (running : Z -> R -> res rpar).
Lemma covers_C r C sl s k : covers bases efts (with_C r C) sl s k <-> covers bases efts r sl s k.
Proof. reflexivity. Qed.
Lemma two_runs r C C' so sl h h' w w' s k k' f p : r_f r = Some f -> running f (r_scale r) = Ok p ->
  wet_run la bases efts running (with_C r C) so sl h = Ok w -> wet_run la bases efts running (with_C r C') so sl h' = Ok w' ->
  covers bases efts r sl s k -> covers bases efts r sl s k' ->
  exists po d d', running f so = Ok po /\
    run_sector la bases s C (alpha_s p / alpha_s po) f p po (r_qed r) (r_qcd r) = Ok d /\
    run_sector la bases s C' (alpha_s p / alpha_s po) f p po (r_qed r) (r_qcd r) = Ok d' /\
    In k (dkeys d) /\ In k' (dkeys d') /\ wc_getitem w k = dgetd d k 0 /\ wc_getitem w' k' = dgetd d' k' 0.
Proof.
  intros EF EP E E' CV CV'. pose proof (wet_run_inv _ _ _ _ _ _ _ _ _ E) as X. pose proof (wet_run_inv _ _ _ _ _ _ _ _ _ E') as X'.
  destruct (covers_at _ _ _ _ _ _ _ _ _ _ X CV) as (c1 & d & ES1 & D & IK & G).
  destruct (covers_at _ _ _ _ _ _ _ _ _ _ X' CV') as (c2 & d' & ES2 & D' & IK' & G').
  cbn [with_C r_C r_qed r_qcd] in D, D'.
  assert (F1 : ran_f X = f) by (pose proof (ran_Ef X) as Y; cbn [with_C r_f] in Y; congruence).
  assert (F2 : ran_f X' = f) by (pose proof (ran_Ef X') as Y; cbn [with_C r_f] in Y; congruence).
  assert (P1 : ran_pi X = p) by (pose proof (ran_Epi X) as Y; cbn [with_C r_scale] in Y; rewrite F1 in Y; congruence).
  assert (P2 : ran_pi X' = p) by (pose proof (ran_Epi X') as Y; cbn [with_C r_scale] in Y; rewrite F2 in Y; congruence).
  pose proof (ran_Epo X) as Y. pose proof (ran_Epo X') as Y'. rewrite F1 in Y. rewrite F2 in Y'.
  assert (Q : ran_po X' = ran_po X) by congruence. rewrite F1, P1 in D. rewrite F2, P2, Q in D'.
  exists (ran_po X), d, d'. repeat split; assumption.
Qed.
Lemma run_cp r C C' so sl h h' w w' s k f p cls keys : dget sectors s = Some cls -> r_f r = Some f -> running f (r_scale r) = Ok p ->
  adm_ok la bases cls f p -> sector_keys bases s f = Ok keys ->
  (forall k, In k keys -> dgetd C' k 0 = cp_sign k * (dgetd C k 0)^*) ->
  wet_run la bases efts running (with_C r C) so sl h = Ok w -> wet_run la bases efts running (with_C r C') so sl h' = Ok w' ->
  covers bases efts r sl s k -> wc_getitem w' k = cp_sign k * (wc_getitem w k)^*.
Proof.
  intros ES EF EP O EK CC E E' CV. destruct (two_runs _ _ _ _ _ _ _ _ _ _ _ _ _ _ EF EP E E' CV CV) as (po & d & d' & _ & D & D' & IK & _ & -> & ->).
  destruct (run_sector_keys _ _ _ _ _ _ _ _ _ _ _ D) as [EK' _]. assert (dkeys d = keys) by congruence. rewrite H in IK.
  exact (sector_conj la bases s C C' _ f p po _ _ d d' cls keys ES EK O CC D D' k IK).
Qed.
Lemma par_data_some s all cls : dget coeffs s = Some all -> dget sectors s = Some cls -> kmem cls chiral_classes = false -> dmem par_data s = true.
Proof.
  intros EA ES NC. pose proof all_par as T. rewrite forallb_forall in T. specialize (T _ (dget_In _ _ _ EA)). unfold sector_par in T. cbn [fst snd] in T.
  rewrite ES, NC in T. cbn [orb] in T. rewrite dmem_dget. destruct (dget par_data s); [reflexivity|discriminate].
Qed.
Lemma run_parity r C C' so sl h h' w w' s k k' c f p cls all keys : dget sectors s = Some cls -> ~ In cls chiral_classes -> dget coeffs s = Some all ->
  r_f r = Some f -> running f (r_scale r) = Ok p -> adm_ok la bases cls f p -> sector_keys bases s f = Ok keys ->
  (forall k k' c, In k keys -> In k' all -> mirror k k' = Some c -> In k' keys) ->
  (forall k k' c, In k keys -> In k' keys -> mirror k k' = Some c -> dgetd C' k' 0 = mirror_value k c (dgetd C k 0)) ->
  wet_run la bases efts running (with_C r C) so sl h = Ok w -> wet_run la bases efts running (with_C r C') so sl h' = Ok w' ->
  covers bases efts r sl s k -> covers bases efts r sl s k' -> mirror k k' = Some c -> wc_getitem w' k' = mirror_value k c (wc_getitem w k).
Proof.
  intros ES NC EA EF EP O EK CL CC E E' CV CV' MI. destruct (two_runs _ _ _ _ _ _ _ _ _ _ _ _ _ _ EF EP E E' CV CV') as (po & d & d' & _ & D & D' & IK & IK' & -> & ->).
  assert (NC' : kmem cls chiral_classes = false) by (destruct (kmem cls chiral_classes) eqn:X; [apply kmem_In in X; contradiction|reflexivity]).
  destruct (run_sector_keys _ _ _ _ _ _ _ _ _ _ _ D) as [EK1 _]. assert (H1 : dkeys d = keys) by congruence. rewrite H1 in IK.
  destruct (run_sector_keys _ _ _ _ _ _ _ _ _ _ _ D') as [EK2 _]. assert (H2 : dkeys d' = keys) by congruence. rewrite H2 in IK'.
  destruct (sector_parity la bases s C C' _ f p po _ _ d d' cls keys all ES NC' EA EK O CL CC D D' k IK) as (k2 & c2 & I2 & M2 & V).
  destruct (sector_keys_spec _ _ _ _ EK) as [_ (all' & EA' & IN)]. assert (all' = all) by congruence. subst all'.
  destruct (mirror_unique s all k k' k2 c c2 EA (par_data_some s all cls EA ES NC') (IN _ IK) (IN _ IK') (IN _ I2) MI M2) as [-> ->]. exact V.
Qed.
(* every coefficient of a sector with mirror images has exactly one *)
Lemma mirror_exists s all cls k : dget sectors s = Some cls -> ~ In cls chiral_classes -> dget coeffs s = Some all -> In k all ->
  exists k' c, In k' all /\ mirror k k' = Some c /\ mirror k' k = Some c /\ forall k2 c2, In k2 all -> mirror k k2 = Some c2 -> k2 = k'.
Proof.
  intros ES NC EA IK. assert (NC' : kmem cls chiral_classes = false) by (destruct (kmem cls chiral_classes) eqn:X; [apply kmem_In in X; contradiction|reflexivity]).
  destruct (par_fact s all cls EA ES NC') as (d & PO & _). destruct (In_nth _ _ "" IK) as (a & La & <-).
  destruct (pairs_at all d PO a La) as (B & P2 & FL & _ & _ & MI). destruct (pairs_at all d PO _ B) as (_ & _ & _ & _ & _ & MI'). rewrite P2, FL in MI'.
  exists (nth (partner d a) all ""), (flag d a). split; [now apply nth_In|]. split; [exact MI|]. split; [exact MI'|].
  intros k2 c2 I2 M2. exact (proj1 (mirror_unique s all _ _ _ _ _ EA (par_data_some s all cls EA ES NC') IK I2 (nth_In _ _ B) M2 MI)).
Qed.
End Run.
