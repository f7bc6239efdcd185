(* Further proofs about the running in WET: composition, selections, masses, QED without QCD *)
From Coq Require Import List Bool ZArith Reals Arith Lia Lra String Ascii.
From Verif Require Import PyBase Num SymModel EftModel NpModel NpProofs RealC WcxfModel WcxfProofs AdmData WetModel WetSpec WetMat WetPow WetProofs WetSector WetEvol WetRge WetRun.
Import ListNotations.
Local Open Scope string_scope.
Local Open Scope list_scope.
Local Open Scope K_scope.
Add Field KFL : (k_field CR).

(* ---------- how the matrices depend on the masses ---------- *)
Fixpoint massfree (e : aexp) : bool :=
  match e with
  | V _ => false
  | Neg a => massfree a
  | Add a b | Mul a b | Div a b => massfree a && massfree b
  | _ => true
  end.
Lemma massfree_eval p q f e : massfree e = true -> aeval p f e = aeval q f e.
Proof.
  induction e; cbn [massfree aeval]; intros E; try reflexivity; try discriminate; try (apply andb_true_iff in E as [E1 E2]).
  - now rewrite IHe.
  - now rewrite IHe1, IHe2.
  - now rewrite IHe1, IHe2.
  - now rewrite IHe1, IHe2.
Qed.
Lemma res_map_ext {A B} (g h : A -> res B) l : (forall x, In x l -> g x = h x) -> res_map g l = res_map h l.
Proof. induction l as [|x l IH]; intros E; [reflexivity|]. cbn. rewrite E by now left. rewrite IH; [reflexivity|]. intros; apply E; now right. Qed.
Lemma massfree_mat p q f m : forallb (forallb (fun je => massfree (snd je))) m = true -> amat_eval p f m = amat_eval q f m.
Proof.
  intros E. unfold amat_eval. f_equal. apply res_map_ext. intros r I. rewrite forallb_forall in E. specialize (E r I). rewrite forallb_forall in E.
  apply res_map_ext. intros je J. now rewrite (massfree_eval p q f _ (E je J)).
Qed.
(* the total power of the masses *)
Fixpoint mdeg (e : aexp) : option Z :=
  match e with
  | N _ | Dec _ _ | AJ | B0 => Some 0%Z
  | V _ => Some 1%Z
  | Neg a => mdeg a
  | Add a b => match mdeg a, mdeg b with Some x, Some y => if (x =? y)%Z then Some x else None | _, _ => None end
  | Mul a b => match mdeg a, mdeg b with Some x, Some y => Some (x + y)%Z | _, _ => None end
  | Div a b => match mdeg a, mdeg b with Some x, Some y => Some (x - y)%Z | _, _ => None end
  end.
Lemma mdeg_eval p q f l e : (l <> 0)%R -> (forall v, mval q v = l * mval p v)%R -> forall d, mdeg e = Some d ->
  aeval q f e = rmap (fun z => rc (powerRZ l d) * z) (aeval p f e).
Proof.
  intros NL M. assert (PZ : forall d, powerRZ l d <> 0%R) by (intros; now apply powerRZ_NOR).
  assert (R1 : forall z : CR, rc 1 * z = z) by (intros; change (rc 1) with (1 : CR); ring).
  induction e; cbn [mdeg aeval]; intros d' E.
  - injection E as <-. cbn [powerRZ rmap]. now rewrite R1.
  - injection E as <-. cbn [powerRZ rmap]. now rewrite R1.
  - injection E as <-. cbn [powerRZ rmap]. now rewrite R1.
  - injection E as <-. cbn [rmap]. rewrite powerRZ_1, <- rc_mul. now rewrite M.
  - injection E as <-. cbn [powerRZ rmap]. now rewrite R1.
  - rewrite (IHe _ E). destruct (aeval p f e); [|reflexivity]. cbn [rmap]. f_equal. ring.
  - destruct (mdeg e1) as [x|]; [|discriminate]. destruct (mdeg e2) as [y|]; [|discriminate]. destruct (Z.eqb_spec x y) as [<-|]; [|discriminate]. injection E as <-.
    rewrite (IHe1 _ eq_refl), (IHe2 _ eq_refl). destruct (aeval p f e1); [|reflexivity]. destruct (aeval p f e2); [|reflexivity]. cbn [rmap bind]. f_equal. ring.
  - destruct (mdeg e1) as [x|]; [|discriminate]. destruct (mdeg e2) as [y|]; [|discriminate]. injection E as <-.
    rewrite (IHe1 _ eq_refl), (IHe2 _ eq_refl). destruct (aeval p f e1); [|reflexivity]. destruct (aeval p f e2); [|reflexivity]. cbn [rmap bind]. f_equal.
    rewrite powerRZ_add by exact NL. rewrite rc_mul. ring.
  - destruct (mdeg e1) as [x|]; [|discriminate]. destruct (mdeg e2) as [y|]; [|discriminate]. injection E as <-.
    rewrite (IHe1 _ eq_refl), (IHe2 _ eq_refl). destruct (aeval p f e1) as [a1|]; [|reflexivity]. destruct (aeval p f e2) as [a2|]; [|reflexivity]. cbn [rmap bind].
    destruct (ceqb_spec a2 0) as [->|N2].
    + destruct (ceqb_spec (rc (powerRZ l y) * 0) 0) as [|N]; [reflexivity|]. exfalso. apply N. ring.
    + destruct (ceqb_spec (rc (powerRZ l y) * a2) 0) as [Z|N].
      * exfalso. apply kmul_integral in Z as [Z|Z]; [now apply (rc_nz _ (PZ y))|contradiction].
      * cbn [rmap]. f_equal. unfold Z.sub. rewrite powerRZ_add by exact NL. rewrite powerRZ_neg'.
        rewrite rc_mul, rc_inv by apply PZ. field. split; [exact N2|apply rc_nz, PZ].
Qed.
Lemma deg0_mat p q f l m : (l <> 0)%R -> (forall v, mval q v = l * mval p v)%R ->
  forallb (forallb (fun je => match mdeg (snd je) with Some d => (d =? 0)%Z | None => false end)) m = true -> amat_eval q f m = amat_eval p f m.
Proof.
  intros NL M E. unfold amat_eval. f_equal. apply res_map_ext. intros r I. rewrite forallb_forall in E. specialize (E r I). rewrite forallb_forall in E.
  apply res_map_ext. intros je J. specialize (E je J). destruct (mdeg (snd je)) as [d|] eqn:D; [|discriminate]. apply Z.eqb_eq in E. subst d.
  rewrite (mdeg_eval p q f l _ NL M _ D). cbn [powerRZ]. destruct (aeval p f (snd je)) as [z|]; [|reflexivity]. cbn [rmap]. do 3 f_equal. change (rc 1) with (1 : CR). ring.
Qed.
Definition tab_check (P : amat -> bool) (sel : string -> bool) : bool := forallb (fun nm => negb (sel (fst nm)) || P (snd nm)) adm_table.
(* all classes but the special ones are free of masses *)
Definition is_special (name : string) : bool := existsb (fun c => String.eqb name ("adm_s_" ++ c)) special_classes.
Lemma tab_massfree : tab_check (forallb (forallb (fun je => massfree (snd je)))) (fun n => negb (is_special n)) = true.
Proof. vm_cast_no_check (eq_refl true). Qed.
Lemma tab_deg0 : tab_check (forallb (forallb (fun je => match mdeg (snd je) with Some d => (d =? 0)%Z | None => false end))) (fun _ => true) = true.
Proof. vm_cast_no_check (eq_refl true). Qed.
Lemma tab_check_get P sl n m : tab_check P sl = true -> dget adm_table n = Some m -> sl n = true -> P m = true.
Proof.
  intros T E S. unfold tab_check in T. rewrite forallb_forall in T. apply dget_In in E. specialize (T _ E). cbn [fst snd] in T. rewrite S in T. exact T.
Qed.
Definition same_adm (bases : @basis_reg CR) (cls : string) (f : Z) (p q : rpar) : Prop :=
  adm_reduced bases "adm_s_" cls f p = adm_reduced bases "adm_s_" cls f q.
Lemma same_adm_free bases cls f p q : kmem cls special_classes = false -> same_adm bases cls f p q.
Proof.
  intros K. unfold same_adm, adm_reduced. destruct (dget adm_table _) as [m|] eqn:E; [|reflexivity].
  rewrite (massfree_mat p q f m); [reflexivity|]. apply (tab_check_get _ _ _ _ tab_massfree E). apply negb_true_iff. unfold is_special.
  clear E. assert (N : ~ In cls special_classes) by now apply kmem_nIn. clear K.
  destruct (existsb _ _) eqn:X; [|reflexivity]. exfalso. apply existsb_exists in X as (c & I & Q). apply String.eqb_eq in Q.
  apply N. replace cls with c; auto. clear - Q. cbn in Q. now injection Q.
Qed.
Lemma same_adm_ratio bases cls f p q l : (l <> 0)%R -> (forall v, mval q v = l * mval p v)%R -> same_adm bases cls f q p.
Proof.
  intros NL M. unfold same_adm, adm_reduced. destruct (dget adm_table _) as [m|] eqn:E; [|reflexivity].
  rewrite (deg0_mat p q f l m NL M); [reflexivity|]. now apply (tab_check_get _ _ _ _ tab_deg0 E).
Qed.

Section Laws.
Variable la : linalg.
Variable bases : @basis_reg CR.
Variable efts : @eft_reg CR.
Variable running : Z -> R -> res rpar.
Local Notation run_sector := (run_sector la bases).
Local Notation wet_run := (wet_run la bases efts running).
Local Notation ran := (ran la bases efts running).

(* ---------- composition ---------- *)
Lemma selected_all s : selected (SelStr "all") s = true. Proof. reflexivity. Qed.
Theorem wet_run_compose r b c h1 h2 h3 w1 w2 w3 r2 s all cls f p_a p_b allw bs :
  r_f r = Some f -> r_qed r = 0%Z -> r_qcd r = 1%Z ->
  (forall g m p, running g m = Ok p -> p_ok p) ->
  running f (r_scale r) = Ok p_a -> running f b = Ok p_b ->
  dget sectors s = Some cls -> dget coeffs s = Some all ->
  same_adm bases cls f p_a p_b -> adm_ok la bases cls f p_a -> adm_ok la bases cls f p_b ->
  reg_get bases (r_eft r, "JMS") = Ok bs -> all_wcs bs = Ok allw -> incl all allw ->
  wet_run r b (SelStr "all") h1 = Ok w1 ->
  r2 = mkRunner (r_eft r) (Some f) b (wc_dict w1) 0 1 ->
  wet_run r2 c (SelStr "all") h2 = Ok w2 ->
  wet_run r c (SelStr "all") h3 = Ok w3 ->
  forall k, In k all -> wc_getitem w2 k = wc_getitem w3 k.
Proof.
  intros EF Q0 Q1 POK EPa EPb ES EA SAME Oa Ob EBs EAll INC E1 -> E2 E3 k I.
  pose proof (wet_run_inv _ _ _ _ _ _ _ _ _ E1) as X1. pose proof (wet_run_inv _ _ _ _ _ _ _ _ _ E2) as X2. pose proof (wet_run_inv _ _ _ _ _ _ _ _ _ E3) as X3.
  assert (F1 : ran_f X1 = f) by (pose proof (ran_Ef X1); congruence).
  assert (F2 : ran_f X2 = f) by (pose proof (ran_Ef X2) as P; cbn [r_f] in P; congruence).
  assert (F3 : ran_f X3 = f) by (pose proof (ran_Ef X3); congruence).
  pose proof (ran_Epi X1) as P1. rewrite F1 in P1. pose proof (ran_Epo X1) as R1. rewrite F1 in R1.
  pose proof (ran_Epi X2) as P2. cbn [r_scale] in P2. rewrite F2 in P2. pose proof (ran_Epo X2) as R2. rewrite F2 in R2.
  pose proof (ran_Epi X3) as P3. rewrite F3 in P3. pose proof (ran_Epo X3) as R3. rewrite F3 in R3.
  set (p_c := ran_po X2) in *.
  assert (A1 : ran_pi X1 = p_a) by congruence. assert (B1 : ran_po X1 = p_b) by congruence.
  assert (A2 : ran_pi X2 = p_b) by congruence. assert (A3 : ran_pi X3 = p_a) by congruence.
  assert (B3 : ran_po X3 = p_c) by congruence.
  pose proof (ran_Eeft X1) as G1. pose proof (ran_Eeft X2) as G2. cbn [r_eft] in G2. pose proof (ran_Eeft X3) as G3.
  assert (H2 : ran_eft X2 = ran_eft X1) by congruence. assert (H3 : ran_eft X3 = ran_eft X1) by congruence.
  pose proof (ran_Eb X1) as K1. pose proof (ran_Eb X2) as K2. cbn [r_eft] in K2. pose proof (ran_Eb X3) as K3.
  pose proof (ran_Eall X1) as L1. pose proof (ran_Eall X2) as L2. pose proof (ran_Eall X3) as L3.
  assert (M1 : ran_all X1 = allw) by congruence. assert (M2 : ran_all X2 = allw) by congruence. assert (M3 : ran_all X3 = allw) by congruence.
  assert (INC' : forall k, In k all -> kmem k allw = true) by (intros; apply kmem_In; now apply INC).
  destruct (in_dec string_dec s (dkeys (eft_sectors (ran_eft X1)))) as [J|NJ].
  2: { assert (NR : forall s' all', dget coeffs s' = Some all' -> In k all' -> In s' (dkeys (eft_sectors (ran_eft X1))) -> False).
       { intros s' all' E' I' J'. apply NJ. replace s with s'; auto. eapply coeffs_disj; eauto. }
       rewrite (ran_not _ _ _ _ _ _ _ _ X2) by (left; intros; rewrite H2 in *; eauto).
       rewrite (ran_not _ _ _ _ _ _ _ _ X3) by (left; intros; rewrite H3 in *; eauto). reflexivity. }
  assert (RS : runs (SelStr "all") s = true). { unfold runs. rewrite selected_all, andb_true_r. now rewrite dmem_dget, ES. }
  pose proof (POK _ _ _ EPa) as (PA & _). pose proof (POK _ _ _ EPb) as (PB & _). pose proof (POK _ _ _ R2) as (PC & _).
  destruct (ran_at _ _ _ _ _ _ _ _ X3 s all k EA I) as (d3 & D3 & ->); [now rewrite H3|exact RS|rewrite M3; auto|].
  destruct (ran_at _ _ _ _ _ _ _ _ X2 s all k EA I) as (d2 & D2 & ->); [now rewrite H2|exact RS|rewrite M2; auto|].
  destruct (ran_at _ _ _ _ _ _ _ _ X1 s all k EA I) as (d1 & D1 & _); [exact J|exact RS|rewrite M1; auto|].
  rewrite F1, A1, B1, Q0, Q1 in D1. rewrite F2, A2 in D2. fold p_c in D2. cbn [r_C r_qed r_qcd] in D2. rewrite F3, A3, B3, Q0, Q1 in D3.
  (* the intermediate coefficients *)
  destruct (run_sector_keys _ _ _ _ _ _ _ _ _ _ _ D1) as [EK _]. destruct (sector_keys_spec _ _ _ _ EK) as [_ (all' & EA' & IN)].
  assert (all' = all) by congruence. subst all'.
  rewrite (run_sector_ext _ _ s (wc_dict w1) d1 _ _ _ _ _ _ _ EK) in D2.
  2: { intros k' I'. destruct (ran_at _ _ _ _ _ _ _ _ X1 s all k' EA (IN _ I') J RS) as (d1' & D1' & V); [rewrite M1; auto|].
       rewrite F1, A1, B1, Q0, Q1 in D1'. rewrite D1 in D1'. injection D1' as <-. exact V. }
  assert (EE : (alpha_s p_a / alpha_s p_c = alpha_s p_a / alpha_s p_b * (alpha_s p_b / alpha_s p_c))%R) by (field; lra).
  rewrite EE in D3. destruct (string_dec cls "inv") as [->|NI].
  - destruct (run_sector_get _ _ _ _ _ _ _ _ _ _ _ _ _ ES EK D1) as [_ [[_ V1]|[[Z _]|[Z _]]]]; try discriminate Z.
    destruct (run_sector_get _ _ _ _ _ _ _ _ _ _ _ _ _ ES EK D2) as [Y2 [[_ V2]|[[Z _]|[Z _]]]]; try discriminate Z.
    destruct (run_sector_get _ _ _ _ _ _ _ _ _ _ _ _ _ ES EK D3) as [Y3 [[_ V3]|[[Z _]|[Z _]]]]; try discriminate Z.
    destruct (in_dec string_dec k (dkeys d1)) as [IK|NK].
    + destruct (keys_index _ _ IK) as (j & L & ->). rewrite (dgetd_Some _ _ _ _ (V2 j L)), (dgetd_Some _ _ _ _ (V3 j L)). unfold cin.
      now rewrite (dgetd_Some _ _ _ _ (V1 j L)).
    + unfold dgetd. rewrite (proj2 (dget_None d2 k)), (proj2 (dget_None d3 k)) by congruence. reflexivity.
  - destruct (adm_reduced_ok bases "adm_s_" s f p_a (dkeys d1) cls (POK _ _ _ EPa) EK ES NI (or_introl eq_refl)) as [A EAd].
    assert (EBd : adm_reduced bases "adm_s_" cls f p_b = Ok (List.length (dkeys d1), A)) by (rewrite <- EAd; symmetry; exact SAME).
    exact (run_sector_compose la bases s (r_C r) _ _ f p_a p_b p_c d1 d2 d3 cls _ A A ES (Rdiv_lt_0_compat _ _ PA PB) (Rdiv_lt_0_compat _ _ PB PC)
             EAd EBd (meqn_refl _ A) Oa Ob D1 D2 D3 k).
Qed.

(* ---------- selections of sectors ---------- *)
Lemma rs_sub r f eta pi po sl todo : forall C d, WetModel.run_sectors la bases r f eta pi po (SelStr "all") todo C = Ok d ->
  forall D, exists e, WetModel.run_sectors la bases r f eta pi po sl todo D = Ok e.
Proof.
  induction todo as [|s todo IH]; intros C d E D; [eexists; reflexivity|].
  destruct (rs_cons _ _ _ _ _ _ _ _ _ _ _ _ E) as [[R (ds & E1 & E2)]|[R E2]].
  - cbn [run_sectors]. destruct (dmem sectors s && selected sl s); [rewrite E1; cbn [bind]|]; eapply IH; eauto.
  - cbn [run_sectors]. destruct (dmem sectors s && selected sl s) eqn:X; [|eapply IH; eauto].
    unfold runs in R. rewrite selected_all, andb_true_r in R. rewrite R in X. discriminate.
Qed.
Theorem wet_run_select r so sl h h' w : wet_run r so (SelStr "all") h = Ok w ->
  exists w', wet_run r so sl h' = Ok w' /\
  (forall k v, dget (wc_dict w') k = Some v -> v <> 0 /\ v = wc_getitem w k /\
     (exists E, reg_get efts (r_eft r) = Ok E /\ exists s all, dget coeffs s = Some all /\ In k all /\ In s (dkeys (eft_sectors E)) /\ selected sl s = true) /\
     (exists b all, reg_get bases (r_eft r, "JMS") = Ok b /\ all_wcs b = Ok all /\ In k all)) /\
  (forall s all k, dget coeffs s = Some all -> In k all -> selected sl s = true -> wc_getitem w' k = wc_getitem w k).
Proof.
  intros E. pose proof (wet_run_inv _ _ _ _ _ _ _ _ _ E) as X.
  destruct (rs_sub r _ _ _ _ sl _ _ _ (ran_Ed X) []) as [e Ee].
  pose proof (wet_run_intro _ _ _ _ r so sl h' _ _ _ _ _ _ _ (ran_Ef X) (ran_Epi X) (ran_Epo X) (ran_nz X) (ran_Eeft X) Ee (ran_Eb X) (ran_Eall X)) as E'.
  eexists. split; [exact E'|]. set (w' := mkWC _ _ _ _ _ _) in *. pose proof (wet_run_inv _ _ _ _ _ _ _ _ _ E') as X'.
  assert (EE : ran_eft X' = ran_eft X) by (pose proof (ran_Eeft X); pose proof (ran_Eeft X'); congruence).
  assert (EB : ran_all X' = ran_all X).
  { pose proof (ran_Eb X); pose proof (ran_Eb X'). pose proof (ran_Eall X); pose proof (ran_Eall X'). congruence. }
  assert (EF : ran_f X' = ran_f X) by (pose proof (ran_Ef X); pose proof (ran_Ef X'); congruence).
  assert (EP : ran_pi X' = ran_pi X) by (pose proof (ran_Epi X); pose proof (ran_Epi X'); congruence).
  assert (EO : ran_po X' = ran_po X) by (pose proof (ran_Epo X); pose proof (ran_Epo X'); congruence).
  assert (VAL : forall s all k, dget coeffs s = Some all -> In k all -> selected sl s = true -> wc_getitem w' k = wc_getitem w k).
  { intros s all k EA I S. destruct (kmem k (ran_all X)) eqn:K.
    - destruct (in_dec string_dec s (dkeys (eft_sectors (ran_eft X)))) as [J|NJ].
      + destruct (sector_facts s all EA) as (cls & ES & _). assert (M : dmem sectors s = true) by (now rewrite dmem_dget, ES).
        destruct (ran_at _ _ _ _ _ _ _ _ X s all k EA I J) as (d & D & ->); [unfold runs; now rewrite M|exact K|].
        destruct (ran_at _ _ _ _ _ _ _ _ X' s all k EA I) as (d' & D' & ->); [now rewrite EE|unfold runs; now rewrite M, S|now rewrite EB|].
        rewrite EF, EP, EO in D'. congruence.
      + rewrite (ran_not _ _ _ _ _ _ _ _ X). 2: { left. intros s' all' A' I' J' _. apply NJ. replace s with s'; auto. eapply coeffs_disj; eauto. }
        apply (ran_not _ _ _ _ _ _ _ _ X'). left. rewrite EE. intros s' all' A' I' J' _. apply NJ. replace s with s'; auto. eapply coeffs_disj; eauto.
    - rewrite (ran_not _ _ _ _ _ _ _ _ X) by auto. apply (ran_not _ _ _ _ _ _ _ _ X'). right. congruence. }
  split; [|exact VAL]. intros k v G.
  assert (GV : wc_getitem w' k = v) by (unfold wc_getitem; now rewrite G).
  pose proof G as G0. rewrite (ran_w X') in G0. rewrite dget_dfilter in G0 by (eapply rs_wf; [apply (ran_Ed X')|apply wf_nil]).
  destruct (dget (ran_d X') k) as [v'|] eqn:DV; [|discriminate]. destruct (ceqb_spec v' 0) as [|NZ]; [discriminate|].
  destruct (kmem k (ran_all X')) eqn:K; [|discriminate]. cbn in G0. injection G0 as <-.
  destruct (runs_dec sl k (dkeys (eft_sectors (ran_eft X')))) as [(s & all & A & B & J & R)|H].
  - split; [exact NZ|]. assert (S : selected sl s = true) by (unfold runs in R; now apply andb_true_iff in R). split; [rewrite <- GV; eapply VAL; eauto|]. split.
    + exists (ran_eft X'). split; [apply (ran_Eeft X')|]. exists s, all. auto.
    + exists (ran_b X'), (ran_all X'). repeat split; [apply (ran_Eb X')|apply (ran_Eall X')|now apply kmem_In].
  - exfalso. rewrite (rs_none _ _ _ _ _ _ _ _ _ _ _ k (ran_Ed X')) in DV; [discriminate DV|]. intros s all J R A B. exact (H s all A B J R).
Qed.
End Laws.
