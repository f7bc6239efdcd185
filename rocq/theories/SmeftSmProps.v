(* C63: the SM parameters and initial values of the SMEFT class. *)
From Coq Require Import List Bool ZArith Arith Lia String Ascii Reals Lra Psatz Setoid Morphisms.
From Verif Require Import PyBase Num SymModel SymClass EftModel EftSpec EftProofs EftRound EftRound2 EftProps EftInit BasisProps NpModel NpProofs RotModel BetaSpec BetaModel BetaProofs RotProofs RotProps BetaProg BetaSM
  RgeModel RgeProofs RgeProps RealC UpProofs UpProps SmparModel SmparProofs SmparProps SmeftModel SmeftProofs SmeftProps SmeftInit.
Import ListNotations.
Local Open Scope string_scope.
Local Open Scope list_scope.
Local Open Scope R_scope.

(* ---------- specification ---------- *)
(* the masses rescaled from the vacuum expectation value that belongs to GF to 246.22 GeV *)
Definition rescaled (p : smin) (m : nat -> R) : nat -> R := fun i => v_default / vev p * m i.
(* the operators that modify the Yukawa couplings vanish *)
Definition no_yukawa_operators (C : cdictR) : Prop :=
  forall k, In k ["uphi"; "dphi"; "ephi"] -> forall i j, (i < 3)%nat -> (j < 3)%nat -> coef C k [i; j] = rc 0.
(* the external functions work for the rescaled mass matrices *)
Definition external_rescaled (msvd : cmat -> cmat * (nat -> R) * cmat) (mtakfac : cmat -> cmat * (nat -> R)) rs rp (p : smin) (K : cmat) : Prop :=
  let Mu := mm (dagm K) (diagm (rescaled p (i_mu p))) in let Md := diagm (rescaled p (i_md p)) in let Me := diagm (rescaled p (i_me p)) in
  msvd_ok msvd Mu /\ msvd_ok msvd Md /\ msvd_ok msvd Me /\
  (forall Mu' Md', meq Mu' Mu -> meq Md' Md -> rephase_ok rs (fst (fst (msvd Mu'))) (fst (fst (msvd Md'))) (snd (msvd Mu')) (snd (msvd Md'))) /\
  (forall N Me', meq Me' Me -> rephase_pmns_ok rp (fst (mtakfac N)) (fst (fst (msvd Me'))) (snd (msvd Me'))).

(* ---------- lemmas ---------- *)
Section Scale.
Add Field KFsc : (k_field CR).
Lemma rescaled_mass (p : smin) C G W (M w : cmat) : 0 < vev p -> (forall i j, (i < 3)%nat -> (j < 3)%nat -> coef C G [i; j] = yuk (vev p) M w i j) ->
  (forall i j, (i < 3)%nat -> (j < 3)%nat -> w i j = rc 0) -> (forall i j, (i < 3)%nat -> (j < 3)%nat -> coef C W [i; j] = rc 0) ->
  forall i j, (i < 3)%nat -> (j < 3)%nat -> mass C G W i j = kmul (M i j) (rc (v_default / vev p)).
Proof.
  intros Hv EG Ew EW i j Hi Hj. unfold mass. rewrite (EG i j Hi Hj), (EW i j Hi Hj). unfold yuk. rewrite (Ew i j Hi Hj).
  assert (S2 : 0 < sqrt 2) by (apply sqrt_lt_R0; lra). rewrite !rc_div by lra.
  assert (N1 : rc (sqrt 2) <> (k0 : CR)) by (intros F; apply (rc_inj _ 0) in F; lra). assert (N2 : rc 2 <> (k0 : CR)) by (intros F; apply (rc_inj _ 0) in F; lra).
  assert (N3 : rc (vev p) <> (k0 : CR)) by (intros F; apply (rc_inj _ 0) in F; lra). rewrite rc_0. field. repeat split; assumption.
Qed.
Lemma lepton_phase x c F i j : phases c -> (i < 3)%nat -> (j < 3)%nat -> (i <> j -> F = (rc 0 : CR)) -> kmul (op_phase x c [bar Fl; pln Fe] [i; j]) F = F.
Proof.
  intros PC Hi Hj Z. unfold op_phase, slot_phase, bar, pln. cbn [fst snd]. destruct (Nat.eq_dec i j) as [<-|N].
  - pose proof (PC i Hi) as U. unfold unit_phase in U. transitivity (kmul (kmul (kconj (c i)) (c i)) F); [ring|]. rewrite U. ring.
  - rewrite (Z N), rc_0. ring.
Qed.
End Scale.

Section Fix.
Variables (E : eft) (dim4 : list string) (msvd : cmat -> cmat * (nat -> R) * cmat) (mtakfac : cmat -> cmat * (nat -> R)).
Variables (rs : cmat * cmat * cmat * cmat -> cmat * cmat * cmat * cmat) (rp : cmat * cmat * cmat -> cmat * cmat * cmat) (ode : ode_solver).
Variables (brentq : (R -> R) -> R -> R -> res R) (ckm_tree : R -> R -> R -> R -> cmat) (p : smin).
Let K := ckm_tree (i_Vus p) (i_Vub p) (i_Vcb p) (i_gamma p).
Hypothesis BK : bosonic_keys (e_keys0 E).
Hypothesis LY : smeft_layout E.
Hypothesis D4 : forall k, In k dim4 <-> In k (dkeys sm_fields).
Hypothesis ODE : forall f t y, exists Y, ode f t t y = Ok (y, Y).
Hypothesis PH : physical_input p.
Hypothesis POS : 0 < i_mu p 0%nat /\ 0 < i_md p 0%nat /\ 0 < i_me p 0%nat.
Hypothesis UK : uni K.
Hypothesis SK : standard_ckm K.
Hypothesis EX : external_rescaled msvd mtakfac rs rp p K.
Lemma vpos : 0 < vev p.
Proof. apply vev_pos, PH. Qed.
Lemma ratio_pos : 0 < v_default / vev p.
Proof. apply Rdiv_lt_0_compat; [exact v_default_pos|exact vpos]. Qed.
Lemma rescaled_order m : m = i_me p \/ m = i_mu p \/ m = i_md p -> 0 < rescaled p m 0%nat /\ rescaled p m 0%nat < rescaled p m 1%nat /\ rescaled p m 1%nat < rescaled p m 2%nat.
Proof.
  intros H. destruct PH as (_ & _ & _ & _ & _ & HM). destruct (HM m H) as (_ & M1 & M2). pose proof ratio_pos as Rp. unfold rescaled.
  split; [apply Rmult_lt_0_compat; [exact Rp|destruct H as [-> | [-> | ->]]; tauto]|]. split; now apply Rmult_lt_compat_l.
Qed.
Lemma fixed Cx c sc : wfdict Cx -> fits Cx -> has_wcs Cx -> no_yukawa_operators Cx -> 0 < sc -> smeftpar brentq ckm_tree p Cx "Warsaw" = Ok c ->
  exists sm, run_sm_scale_in E dim4 msvd mtakfac rs rp ode brentq ckm_tree p sc Cx sc = Ok sm /\ wfdict sm /\ fits sm /\
    (forall k, dget sm k <> None <-> In k (dkeys sm_fields)) /\ forall k, In k (dkeys sm_fields) -> same k sm c.
Proof.
  intros WX FX HX YX Hs EP. pose proof vpos as Hv.
  destruct (layout_dict E (repeat (rc 0 : CR) 9999) LY) as (Z & EZ & PZ & _ & DZ & WZ).
  { rewrite repeat_length, (layout_size E LY). apply Nat.leb_le. vm_compute. reflexivity. }
  destruct (smeftpar_inv brentq ckm_tree p Cx c EP) as (m2 & lam & g & gp & gs & cd & cu & ce & Ed & Eu & Ee & Ec). fold K in Ec.
  assert (WC : wfdict c) by (rewrite Ec; apply knodup_NoDup; reflexivity).
  assert (FC : fits c).
  { intros k v H. rewrite Ec in H. apply dget_In in H. cbn [In sm_dict] in H.
    repeat (destruct H as [H|H]; [injection H as <- <-; eexists; split; [reflexivity|]; split; [reflexivity|]; (discriminate || eauto)|]). destruct H. }
  assert (GC : forall k, In k (dkeys sm_fields) -> dget c k <> None).
  { intros k H. rewrite Ec. cbn [In dkeys map fst sm_fields] in H. repeat (destruct H as [<-|H]; [discriminate|]). destruct H. }
  set (u := only_keys dim4 c). assert (Wu : wfdict u) by (apply wf_dfilter, WC).
  assert (Gu' : forall k, dget u k = if kmem k dim4 then dget c k else None).
  { intros k. unfold u, only_keys. rewrite dget_dfilter by exact WC. destruct (dget c k); destruct (kmem k dim4); reflexivity. }
  set (X := dupdate (dupdate Z Cx) u).
  assert (XS : forall k, In k (dkeys sm_fields) -> dget X k = dget c k).
  { intros k H. unfold X. rewrite dget_dupdate by exact Wu. rewrite Gu'. assert (Q : kmem k dim4 = true) by (apply kmem_In, D4, H). rewrite Q.
    specialize (GC k H). destruct (dget c k); [reflexivity|now contradiction GC]. }
  assert (XW : forall k, In k (dkeys wc_fields) -> dget X k = dget Cx k).
  { intros k H. unfold X. rewrite dget_dupdate by exact Wu. rewrite Gu'. assert (Q : kmem k dim4 = false).
    { apply kmem_nIn. intros Q. apply D4 in Q. revert Q H. clear. intros Q H. assert (Y : forallb (fun k => negb (kmem k (dkeys sm_fields))) (dkeys wc_fields) = true) by (vm_compute; reflexivity).
      rewrite forallb_forall in Y. specialize (Y k H). apply negb_true_iff in Y. apply kmem_nIn in Y. contradiction. }
    rewrite Q, dget_dupdate by exact WX. specialize (HX k H). destruct (dget Cx k); [reflexivity|now contradiction HX]. }
  assert (PX : smeft_point X).
  { intros k ts T. assert (IK : In k (dkeys op_fields)) by (eapply dget_Some_key; eauto). apply dkeys_split in IK as [IK|IK].
    - rewrite (XS k IK). specialize (GC k IK). destruct (dget c k) as [v|] eqn:V; [|now contradiction GC]. destruct (FC k v V) as (ts' & T' & S). rewrite T in T'. injection T' as <-. eauto.
    - rewrite (XW k IK). specialize (HX k IK). destruct (dget Cx k) as [v|] eqn:V; [|now contradiction HX]. destruct (FX k v V) as (ts' & T' & S). rewrite T in T'. injection T' as <-. eauto. }
  destruct (same_scale_point E ode X sc false LY PX Hs ODE) as (C' & EV & PC' & SV).
  assert (CS : forall k I, In k (dkeys sm_fields) -> In I (indices_of k) -> coef C' k I = coef c k I).
  { intros k I H HI. transitivity (coef X k I); [apply SV; [apply dkeys_split; auto|exact HI]|unfold coef; now rewrite (XS k H)]. }
  assert (CW : forall k I, In k (dkeys wc_fields) -> In I (indices_of k) -> coef C' k I = coef Cx k I).
  { intros k I H HI. transitivity (coef X k I); [apply SV; [apply dkeys_split; auto|exact HI]|unfold coef; now rewrite (XW k H)]. }
  assert (I2 : forall k f h, dget op_fields k = Some [f; h] -> forall i j, (i < 3)%nat -> (j < 3)%nat -> In [i; j] (indices_of k)).
  { intros k f h T i j Hi Hj. rewrite (indices_of_idxs k _ T). apply in_idxs. split; [reflexivity|]. cbn. intuition lia. }
  assert (ZW : forall k f h, In k ["uphi"; "dphi"; "ephi"] -> dget op_fields k = Some [f; h] -> forall i j, (i < 3)%nat -> (j < 3)%nat -> coef C' k [i; j] = rc 0).
  { intros k f h H T i j Hi Hj. rewrite CW; [now apply YX| |now apply (I2 k f h T)]. cbn [In] in H. repeat (destruct H as [<-|H]; [vm_compute; tauto|]). destruct H. }
  assert (ZG : forall k w, In k ["uphi"; "dphi"; "ephi"] -> getm Cx k = Ok w -> forall i j, (i < 3)%nat -> (j < 3)%nat -> w i j = rc 0).
  { intros k w H Q i j Hi Hj. rewrite <- (YX k H i j Hi Hj). unfold getm, getC, coef in *. destruct (dget Cx k); [|discriminate]. cbn [rmap] in Q. injection Q as <-. reflexivity. }
  assert (MU : meq (mass C' "Gu" "uphi") (mm (dagm K) (diagm (rescaled p (i_mu p))))).
  { split. intros i j Hi Hj. rewrite (rescaled_mass p C' "Gu" "uphi" (mm (dagm K) (diagm (i_mu p))) cu Hv); [| | |intros; eapply ZW; (reflexivity || eassumption || (cbn; tauto))|exact Hi|exact Hj].
    - rewrite !mm_diag_r by exact Hj. unfold rescaled. rewrite rc_mul. cbn. apply injective_projections; cbn; ring.
    - intros a b Ha Hb. rewrite CS; [|vm_compute; tauto|now apply (I2 "Gu" _ _ eq_refl)]. rewrite Ec. reflexivity.
    - intros a b Ha Hb. apply (ZG "uphi" cu); (exact Eu || assumption || (cbn; tauto)). }
  assert (DI : forall m i j, kmul (diagm m i j) (rc (v_default / vev p)) = diagm (rescaled p m) i j).
  { intros m i j. unfold diagm, rescaled. destruct (i =? j)%nat; [rewrite rc_mul|]; apply injective_projections; cbn; ring. }
  assert (MD : meq (mass C' "Gd" "dphi") (diagm (rescaled p (i_md p)))).
  { split. intros i j Hi Hj. rewrite (rescaled_mass p C' "Gd" "dphi" (diagm (i_md p)) cd Hv); [apply DI| | |intros; eapply ZW; (reflexivity || eassumption || (cbn; tauto))|exact Hi|exact Hj].
    - intros a b Ha Hb. rewrite CS; [|vm_compute; tauto|now apply (I2 "Gd" _ _ eq_refl)]. rewrite Ec. reflexivity.
    - intros a b Ha Hb. apply (ZG "dphi" cd); (exact Ed || assumption || (cbn; tauto)). }
  assert (ME : meq (mass C' "Ge" "ephi") (diagm (rescaled p (i_me p)))).
  { split. intros i j Hi Hj. rewrite (rescaled_mass p C' "Ge" "ephi" (diagm (i_me p)) ce Hv); [apply DI| | |intros; eapply ZW; (reflexivity || eassumption || (cbn; tauto))|exact Hi|exact Hj].
    - intros a b Ha Hb. rewrite CS; [|vm_compute; tauto|now apply (I2 "Ge" _ _ eq_refl)]. rewrite Ec. reflexivity.
    - intros a b Ha Hb. apply (ZG "ephi" ce); (exact Ee || assumption || (cbn; tauto)). }
  destruct EX as (SU & SD & SE & RS & RP).
  destruct (rescaled_order (i_mu p) ltac:(auto)) as (U0 & U1 & U2). destruct (rescaled_order (i_md p) ltac:(auto)) as (D0 & D1 & D2). destruct (rescaled_order (i_me p) ltac:(auto)) as (E0 & E1 & E2).
  destruct (C63_default_form_kept E msvd mtakfac rs rp C' (dagm K) (rescaled p (i_mu p)) (rescaled p (i_md p)) (rescaled p (i_me p)) BK PC') as (D & x & ph & ED & PD & KD & UX & PHS & VD & QD);
    [|split; [exact MD|split; [exact ME|split; [exact MU|split; [unfold ascending; lra|split; [unfold ascending; lra|split; [unfold ascending; lra|split; [now apply uni_dag|]]]]]]]|assumption..|].
  { split; [apply SU, MU|]. split; [apply SD, MD|]. split; [apply SE, ME|]. split; [now apply RS|now apply RP]. }
  { apply (standard_ckm_meq K); [now rewrite dag_dag|exact SK]. }
  pose proof (rot_wf _ _ _ _ _ _ _ ED) as WD.
  assert (GD : forall k, dget (only_keys dim4 D) k = if kmem k dim4 then dget D k else None).
  { intros k. unfold only_keys. rewrite dget_dfilter by exact WD. destruct (dget D k); destruct (kmem k dim4); reflexivity. }
  exists (only_keys dim4 D). split.
  { unfold run_sm_scale_in. rewrite EZ. cbn [bind]. rewrite EP. cbn [bind]. fold u. fold X.
    unfold rgevolve, check_initial. cbn [s_C_in s_scale_in bind fst snd]. rewrite EV. cbn [bind]. rewrite ED. reflexivity. }
  split; [now apply wf_dfilter|]. split; [|split].
  - intros k v H. rewrite GD in H. destruct (kmem k dim4); [|discriminate]. exact (point_fits D PD KD k v H).
  - intros k. rewrite GD. destruct (kmem k dim4) eqn:Q.
    + apply kmem_In, D4 in Q. split; [auto|]. intros _. assert (IK : In k (dkeys op_fields)) by (apply dkeys_split; auto).
      destruct (dget op_fields k) as [ts|] eqn:T; [|apply dget_None in T; contradiction]. destruct (PD k ts T) as (v & -> & _). discriminate.
    + apply kmem_nIn in Q. split; [congruence|]. intros H. apply D4 in H. contradiction.
  - intros k H I HI. assert (Q : kmem k dim4 = true) by (apply kmem_In, D4, H). unfold coef at 1. rewrite GD, Q. fold (coef D k I). rewrite <- (CS k I H HI).
    cbn [In dkeys map fst sm_fields] in H.
    assert (SCALAR : dget op_fields k = Some [] -> coef D k I = coef C' k I).
    { intros T. rewrite (VD k [] T I HI). cbn [op_phase]. apply kmul_1_l. }
    do 5 (destruct H as [<-|H]; [now apply SCALAR|]).
    destruct H as [<-|H]; [apply (QD "Gu" _ eq_refl); [split; reflexivity|exact HI]|]. destruct H as [<-|H]; [apply (QD "Gd" _ eq_refl); [split; reflexivity|exact HI]|].
    destruct H as [<-|[]]. rewrite (VD "Ge" _ eq_refl I HI). assert (HI' := HI). rewrite (indices_of_idxs "Ge" _ eq_refl) in HI. apply in_idxs in HI as [LI RI].
    destruct I as [|i [|j [|]]]; try discriminate LI. assert (Hi : (i < 3)%nat) by (apply RI; now left). assert (Hj : (j < 3)%nat) by (apply RI; right; now left).
    apply lepton_phase; [exact PHS|exact Hi|exact Hj|]. intros N. rewrite (CS "Ge" _ ltac:(vm_compute; tauto) HI'). rewrite Ec.
    change (yuk (vev p) (diagm (i_me p)) ce i j = rc 0). unfold yuk. rewrite (ZG "ephi" ce) by (exact Ee || assumption || (cbn; tauto)). unfold diagm. destruct (Nat.eqb_spec i j) as [F|_]; [contradiction|].
    apply injective_projections; cbn; unfold Rdiv; ring.
Qed.
End Fix.

(* ---------- theorems ---------- *)
(* Only WC instances of the Warsaw basis of SMEFT are accepted, and only the two methods. *)
Theorem C63_input_errors : forall E dim4 msvd mtakfac rs rp ode brentq ckm_tree p phase,
  (forall w b, wc_eft w <> "SMEFT" \/ wc_basis w <> "Warsaw" -> smeft_new E dim4 msvd mtakfac rs rp ode brentq ckm_tree p w b = Err ValueError) /\
  (forall self scale acc, acc <> "integrate" -> acc <> "leadinglog" ->
     smeft_run E msvd mtakfac rs rp ode self scale acc = Err ValueError /\ smeft_get_smpar E msvd ode phase self acc scale = Err ValueError).
Proof.
  intros. split.
  - intros w b H. unfold smeft_new, load_wcxf. destruct (String.eqb_spec (wc_eft w) "SMEFT") as [E1|N1]; [|reflexivity].
    destruct (String.eqb_spec (wc_basis w) "Warsaw") as [E2|N2]; [|reflexivity]. tauto.
  - intros self scale acc N1 N2. unfold smeft_run, smeft_get_smpar. destruct (String.eqb_spec acc "integrate") as [F|_]; [contradiction|].
    destruct (String.eqb_spec acc "leadinglog") as [F|_]; [contradiction|]. auto.
Qed.
(* Whether or not the SM parameters are determined, the instance holds the scale and the Wilson
   coefficients of the WC instance (as symmetrised arrays). *)
Theorem C63_initial_values : forall all real E dim4 msvd mtakfac rs rp ode brentq ckm_tree p w b self,
  smeft_util all real E -> smeft_layout E -> (forall k, In k dim4 <-> In k (dkeys sm_fields)) ->
  wfdict (wc_values w) -> (forall k, In k (dkeys (wc_values w)) -> In k all) ->
  smeft_new E dim4 msvd mtakfac rs rp ode brentq ckm_tree p w b = Ok self ->
  exists C0 C_in, wcxf2arrays_symmetrized E (wc_values w) = Ok C0 /\ s_C_in self = Some C_in /\ s_scale_in self = Some (wc_scale w) /\
    (forall k, In k (dkeys wc_fields) -> dget C_in k = dget C0 k /\ dget C0 k <> None) /\
    (forall k, ~ In k (dkeys wc_fields) -> ~ In k (dkeys sm_fields) -> dget C_in k = None) /\
    (b = false -> forall k, In k (dkeys sm_fields) -> dget C_in k = None).
Proof.
  intros all real E dim4 msvd mtakfac rs rp ode brentq ckm_tree p w b self SU LY D4 W IN H. destruct (util_ok all real E SU) as (OK & EA & _).
  assert (E1 : wc_eft w = "SMEFT").
  { destruct (string_dec (wc_eft w) "SMEFT") as [Q|N]; [exact Q|]. rewrite (proj1 (C63_input_errors E dim4 msvd mtakfac rs rp ode brentq ckm_tree p fst)) in H by auto. discriminate. }
  assert (E2 : wc_basis w = "Warsaw").
  { destruct (string_dec (wc_basis w) "Warsaw") as [Q|N]; [exact Q|]. rewrite (proj1 (C63_input_errors E dim4 msvd mtakfac rs rp ode brentq ckm_tree p fst)) in H by auto. discriminate. }
  destruct (load_ok E dim4 OK LY D4 w E1 E2 W) as (C0 & EC & F & EL); [intros k Hk; rewrite EA; now apply IN|].
  unfold smeft_new in H. rewrite EL in H. cbn [bind] in H. pose proof F as (WF & A & _).
  assert (HW : forall k, In k (dkeys wc_fields) -> dget C0 k <> None).
  { intros k Hk. apply A, warsaw_wc. intros N. apply dget_None in N. contradiction. }
  assert (HN : forall k, ~ In k (dkeys wc_fields) -> dget C0 k = None).
  { intros k Hk. destruct (dget C0 k) eqn:X; [|reflexivity]. exfalso. apply Hk. assert (Y : dget C0 k <> None) by congruence. apply A, warsaw_wc in Y.
    destruct (dget wc_fields k) eqn:T; [now apply (dget_Some_key _ _ _ T)|now contradiction Y]. }
  assert (DJ : forall k, In k (dkeys wc_fields) -> ~ In k (dkeys sm_fields)).
  { intros k Hk. assert (Y : forallb (fun k => negb (kmem k (dkeys sm_fields))) (dkeys wc_fields) = true) by (vm_compute; reflexivity).
    rewrite forallb_forall in Y. specialize (Y k Hk). apply negb_true_iff in Y. now apply kmem_nIn in Y. }
  destruct b.
  - unfold check_initial in H. cbn [s_C_in s_scale_in bind fst snd] in H. apply bind_inv in H as (sm & ES & H). injection H as <-.
    assert (KS : forall k, In k (dkeys sm) -> In k (dkeys sm_fields)).
    { intros k Hk. unfold get_sm_scale_in in ES. apply bind_inv in ES as (? & _ & ES). apply bind_inv in ES as (? & _ & ES). apply bind_inv in ES as (? & _ & ES). apply bind_inv in ES as (? & _ & ES).
      unfold run_sm_scale_in in ES. apply bind_inv in ES as (? & _ & ES). apply bind_inv in ES as (? & _ & ES). apply bind_inv in ES as (? & _ & ES). apply bind_inv in ES as (D & _ & ES).
      injection ES as <-. apply D4. exact (only_keys_In _ _ _ Hk). }
    exists C0, (dupdate C0 sm). split; [exact EC|]. split; [reflexivity|]. split; [reflexivity|]. split; [|split; [|discriminate]].
    + intros k Hk. split; [|now apply HW]. apply dget_upd_other. intros Q. apply KS in Q. exact (DJ k Hk Q).
    + intros k N1 N2. rewrite dget_upd_other by (intros Q; apply N2, KS, Q). now apply HN.
  - injection H as <-. exists C0, C0. split; [exact EC|]. split; [reflexivity|]. split; [reflexivity|]. split; [intros k Hk; split; [reflexivity|now apply HW]|].
    split; [intros k N _; now apply HN|]. intros _ k Hk. apply HN. intros Q. exact (DJ k Q Hk).
Qed.
Lemma wc_sm_disjoint k : In k (dkeys wc_fields) -> ~ In k (dkeys sm_fields).
Proof.
  intros Hk. assert (Y : forallb (fun k => negb (kmem k (dkeys sm_fields))) (dkeys wc_fields) = true) by (vm_compute; reflexivity).
  rewrite forallb_forall in Y. specialize (Y k Hk). apply negb_true_iff in Y. now apply kmem_nIn in Y.
Qed.
(* a dictionary of Wilson coefficients with SM parameters is a parameter point *)
Lemma upd_point C0 sm : wfdict C0 -> fits C0 -> has_wcs C0 -> (forall k, In k (dkeys sm_fields) -> dget C0 k = None) -> wfdict sm -> fits sm -> (forall k, dget sm k <> None <-> In k (dkeys sm_fields)) ->
  smeft_point (dupdate C0 sm) /\ wfdict (dupdate C0 sm) /\ (forall k, In k (dkeys (dupdate C0 sm)) -> In k (dkeys op_fields)) /\
  (forall k, In k (dkeys sm_fields) -> same k (dupdate C0 sm) sm) /\ (forall k, In k (dkeys wc_fields) -> same k (dupdate C0 sm) C0).
Proof.
  intros W0 F0 H0 N0 W1 F1 K1.
  assert (FU : fits (dupdate C0 sm)) by now apply fits_upd. split; [|split; [now apply wf_dupdate|split; [|split]]].
  - apply fits_point; [exact FU|]. intros k Hk. rewrite dget_dupdate by exact W1. apply dkeys_split in Hk as [Hk|Hk].
    + apply K1 in Hk. destruct (dget sm k); [discriminate|now contradiction Hk].
    + specialize (H0 k Hk). destruct (dget sm k); [discriminate|exact H0].
  - intros k Hk. destruct (dget (dupdate C0 sm) k) as [v|] eqn:V; [|apply dget_None in V; contradiction]. destruct (FU k v V) as (ts & T & _). eapply dget_Some_key; eauto.
  - intros k Hk I _. unfold coef. rewrite dget_dupdate by exact W1. apply K1 in Hk. destruct (dget sm k); [reflexivity|now contradiction Hk].
  - intros k Hk I _. unfold coef. rewrite dget_dupdate by exact W1. destruct (dget sm k) eqn:V; [|reflexivity]. exfalso. apply (wc_sm_disjoint k Hk), K1. congruence.
Qed.
Lemma same_trans (A B C : cdictR) k : same k A B -> same k B C -> same k A C.
Proof. intros H1 H2 I HI. now rewrite (H1 I HI), (H2 I HI). Qed.
Lemma scalar_getz (C C' : cdictR) k : smeft_point C -> smeft_point C' -> dget op_fields k = Some [] -> same k C' C -> getz C' k = getz C k.
Proof.
  intros P P' T S. destruct (P k [] T) as (v & V & _). destruct (P' k [] T) as (v' & V' & _).
  assert (X : coef C' k [] = coef C k []) by (apply S; rewrite (indices_of_idxs k [] T); now left). unfold getz, getC, coef in *. rewrite V, V' in *. cbn [rmap]. now rewrite X.
Qed.
Lemma matrix_getm (C C' : cdictR) k f h : smeft_point C -> smeft_point C' -> dget op_fields k = Some [f; h] -> same k C' C ->
  exists M M', getm C k = Ok M /\ getm C' k = Ok M' /\ meq M' M.
Proof.
  intros P P' T S. destruct (P k _ T) as (v & V & _). destruct (P' k _ T) as (v' & V' & _). unfold getm, getC. rewrite V, V'. cbn [rmap]. do 2 eexists. split; [reflexivity|]. split; [reflexivity|].
  split. intros i j Hi Hj. assert (X : coef C' k [i; j] = coef C k [i; j]) by (apply S; rewrite (indices_of_idxs k _ T); apply in_idxs; split; [reflexivity|]; cbn; intuition lia).
  unfold coef in X. now rewrite V, V' in X.
Qed.
Lemma sm_dict_same m2 lam g gp gs Gd Gu Ge Gd' Gu' Ge' k : meq Gd' Gd -> meq Gu' Gu -> meq Ge' Ge -> In k (dkeys sm_fields) ->
  same k (sm_dict m2 lam g gp gs Gd' Gu' Ge') (sm_dict m2 lam g gp gs Gd Gu Ge).
Proof.
  intros Ed Eu Ee H I HI. cbn [In dkeys map fst sm_fields] in H. do 5 (destruct H as [<-|H]; [reflexivity|]).
  assert (X : forall f h k, In I (indices_of k) -> dget op_fields k = Some [f; h] -> exists i j, I = [i; j] /\ (i < 3)%nat /\ (j < 3)%nat).
  { intros f h k' HI' T. rewrite (indices_of_idxs k' _ T) in HI'. apply in_idxs in HI' as [LI RI]. destruct I as [|i [|j [|]]]; try discriminate LI.
    exists i, j. split; [reflexivity|]. split; apply RI; cbn; auto. }
  destruct H as [<-|[<-|[<-|[]]]]; destruct (X _ _ _ HI eq_refl) as (i & j & -> & Hi & Hj); [change (Gu' i j = Gu i j)|change (Gd' i j = Gd i j)|change (Ge' i j = Ge i j)];
    now apply meq_at.
Qed.

(* If the Wilson coefficients are given at the electroweak scale (and the operators that modify
   the Yukawa couplings vanish), the SM parameters determined by the class reproduce all input
   values there, whatever the other coefficients are. *)
Theorem C63_smpar_consistent : forall all real E dim4 msvd mtakfac rs rp ode brentq ckm_tree p phase w C0 c accuracy,
  let K := ckm_tree (i_Vus p) (i_Vub p) (i_Vcb p) (i_gamma p) in
  smeft_util all real E -> smeft_layout E -> (forall k, In k dim4 <-> In k (dkeys sm_fields)) ->
  (forall f t y, exists Y, ode f t t y = Ok (y, Y)) -> brentq_ok brentq -> physical_input p -> 0 < i_mu p 0%nat /\ 0 < i_md p 0%nat /\ 0 < i_me p 0%nat ->
  ckm_ok phase p K -> standard_ckm K -> external_rescaled msvd mtakfac rs rp p K ->
  msvd_ok msvd (up_mass p K "Warsaw") -> msvd_ok msvd (down_mass p K "Warsaw") -> msvd_ok msvd (diagm (i_me p)) ->
  wc_eft w = "SMEFT" -> wc_basis w = "Warsaw" -> wc_scale w = scale_sm_default -> wfdict (wc_values w) -> (forall k, In k (dkeys (wc_values w)) -> In k all) ->
  wcxf2arrays_symmetrized E (wc_values w) = Ok C0 -> no_yukawa_operators C0 -> small_wcs p C0 -> smeftpar brentq ckm_tree p C0 "Warsaw" = Ok c ->
  accuracy = "integrate" \/ accuracy = "leadinglog" ->
  exists self sm, smeft_new E dim4 msvd mtakfac rs rp ode brentq ckm_tree p w true = Ok self /\
    smeft_get_smpar E msvd ode phase self accuracy scale_sm_default = Ok sm /\ forall k x, dget (sm_values p) k = Some x -> dget sm k = Some x.
Proof.
  intros all real E dim4 msvd mtakfac rs rp ode brentq ckm_tree p phase w C0 c acc K SU LY D4 ODE BQ PH POS CK SK EX SVU SVD SVE E1 E2 E3 W IN EC NY SW EP AC.
  destruct (util_ok all real E SU) as (OK & EA & BK). pose proof CK as (UK & _).
  destruct (load_ok E dim4 OK LY D4 w E1 E2 W) as (C0' & EC' & F & EL); [intros k Hk; rewrite EA; now apply IN|].
  assert (C0' = C0) by congruence. subst C0'. rewrite E3 in EL. pose proof F as (WF & A & _).
  assert (SC : 0 < scale_sm_default) by (unfold scale_sm_default; lra).
  assert (F0 : fits C0) by (apply coefficients_fits, full_coefficients, F).
  assert (HW : has_wcs C0) by (intros k Hk; apply A, warsaw_wc; intros N; apply dget_None in N; contradiction).
  assert (HN : forall k, In k (dkeys sm_fields) -> dget C0 k = None).
  { intros k Hk. destruct (dget C0 k) eqn:X; [|reflexivity]. exfalso. assert (Y : dget C0 k <> None) by congruence. apply A, warsaw_wc in Y.
    destruct (dget wc_fields k) eqn:T; [|now contradiction Y]. exact (wc_sm_disjoint k (dget_Some_key _ _ _ T) Hk). }
  destruct (fixed E dim4 msvd mtakfac rs rp ode brentq ckm_tree p BK LY D4 ODE PH POS UK SK EX C0 c _ WF F0 HW NY SC EP) as (sm1 & R1 & W1 & F1 & K1 & S1).
  destruct (upd_point C0 sm1 WF F0 HW HN W1 F1 K1) as (P1 & WU1 & KU1 & SU1 & SW1).
  (* leading log to the same scale *)
  assert (LLS : forall C, smeft_point C -> wfdict C -> (forall k, In k (dkeys C) -> In k (dkeys op_fields)) ->
    exists C_out, rgevolve_leadinglog E (mkSmeft (Some C) (Some scale_sm_default)) scale_sm_default = Ok C_out /\ smeft_point C_out /\ dkeys C_out = dkeys C /\
      forall k, In k (dkeys op_fields) -> same k C_out C).
  { intros C PC WC KC. assert (Q : scale_sm_default / scale_sm_default = 1) by (apply Rinv_r; lra).
    destruct (C33_leadinglog E [C] 0 scale_sm_default scale_sm_default ltac:(cbn; lia) PC WC KC ltac:(lra) ltac:(rewrite Q; lra)) as (D & s' & o & _ & ES & _ & DK & PD & V).
    exists (nth o s' []). unfold rgevolve_leadinglog, check_initial. cbn [s_C_in s_scale_in bind fst snd]. rewrite ES. cbn [bind fst snd]. split; [reflexivity|]. split; [exact PD|]. split; [exact DK|].
    intros k Hk I HI. rewrite (V k I Hk HI), Q, ln_1. cbn [nth]. replace (0 / (16 * PI ^ 2)) with 0 by (unfold Rdiv; ring). rewrite rc_0, kmul_0_r. apply kadd_0_r. }
  destruct (LLS _ P1 WU1 KU1) as (C2 & R2 & P2 & K2 & S2).
  assert (W2 : wfdict C2) by (unfold wfdict; rewrite K2; exact WU1).
  assert (F2 : fits C2).
  { apply (point_fits C2 P2). intros k T. apply dget_None. rewrite K2. intros Q. apply KU1 in Q. apply dget_None in T. contradiction. }
  assert (H2 : has_wcs C2).
  { intros k Hk. assert (IK : In k (dkeys op_fields)) by (apply dkeys_split; auto). destruct (dget op_fields k) as [ts|] eqn:T; [|apply dget_None in T; contradiction].
    destruct (P2 k ts T) as (v & -> & _). discriminate. }
  assert (SW2 : forall k, In k (dkeys wc_fields) -> same k C2 C0) by (intros k Hk; apply (same_trans _ _ _ _ (S2 k ltac:(apply dkeys_split; auto)) (SW1 k Hk))).
  assert (I2 : forall k f h, dget op_fields k = Some [f; h] -> forall i j, (i < 3)%nat -> (j < 3)%nat -> In [i; j] (indices_of k)).
  { intros k f h T i j Hi Hj. rewrite (indices_of_idxs k _ T). apply in_idxs. split; [reflexivity|]. cbn. intuition lia. }
  assert (NY2 : no_yukawa_operators C2).
  { intros k Hk i j Hi Hj. rewrite <- (NY k Hk i j Hi Hj). apply SW2; [|cbn [In] in Hk; destruct Hk as [<-|[<-|[<-|[]]]]; (eapply I2; [reflexivity|exact Hi|exact Hj])].
    cbn [In] in Hk. destruct Hk as [<-|[<-|[<-|[]]]]; vm_compute; tauto. }
  assert (P0 : smeft_point (dupdate C0 c)).
  { destruct (smeftpar_inv brentq ckm_tree p C0 c EP) as (m2 & lam & g & gp & gs & cd & cu & ce & _ & _ & _ & Ec).
    assert (WC : wfdict c) by (rewrite Ec; apply knodup_NoDup; reflexivity).
    apply (upd_point C0 c WF F0 HW HN WC).
    - intros k v H. rewrite Ec in H. apply dget_In in H. cbn [In sm_dict] in H.
      repeat (destruct H as [H|H]; [injection H as <- <-; eexists; split; [reflexivity|]; split; [reflexivity|]; (discriminate || eauto)|]). destruct H.
    - intros k. split; intros H.
      + destruct (dget c k) as [v|] eqn:V; [|now contradiction H]. rewrite Ec in V. apply dget_In in V. cbn [In sm_dict] in V.
        repeat (destruct V as [V|V]; [injection V as <- <-; vm_compute; tauto|]). destruct V.
      + rewrite Ec. cbn [In dkeys map fst sm_fields] in H. repeat (destruct H as [<-|H]; [discriminate|]). destruct H. }
  assert (WC : wfdict c).
  { destruct (smeftpar_inv brentq ckm_tree p C0 c EP) as (m2 & lam & g & gp & gs & cd & cu & ce & _ & _ & _ & Ec). rewrite Ec. apply knodup_NoDup. reflexivity. }
  assert (GC : forall k, dget c k <> None <-> In k (dkeys sm_fields)).
  { destruct (smeftpar_inv brentq ckm_tree p C0 c EP) as (m2 & lam & g & gp & gs & cd & cu & ce & _ & _ & _ & Ec). intros k. split; intros H.
    + destruct (dget c k) as [v|] eqn:V; [|now contradiction H]. rewrite Ec in V. apply dget_In in V. cbn [In sm_dict] in V.
      repeat (destruct V as [V|V]; [injection V as <- <-; vm_compute; tauto|]). destruct V.
    + rewrite Ec. cbn [In dkeys map fst sm_fields] in H. repeat (destruct H as [<-|H]; [discriminate|]). destruct H. }
  assert (SC0 : forall k, In k (dkeys wc_fields) -> same k (dupdate C0 c) C0).
  { intros k Hk I _. unfold coef. rewrite dget_dupdate by exact WC. destruct (dget c k) eqn:V; [|reflexivity]. exfalso. apply (wc_sm_disjoint k Hk), GC. congruence. }
  assert (GG : forall k, In k (dkeys wc_fields) -> getC (dupdate C0 c) k = getC C0 k).
  { intros k Hk. apply getC_upd; [exact WC|]. destruct (dget c k) eqn:V; [|reflexivity]. exfalso. apply (wc_sm_disjoint k Hk), GC. congruence. }
  assert (LK : like C0 C2).
  { assert (ML : forall k f h, dget op_fields k = Some [f; h] -> In k (dkeys wc_fields) -> matrix_like C0 C2 k).
    { intros k f h T Hk. destruct (matrix_getm (dupdate C0 c) C2 k f h P0 P2 T) as (M & M' & G1 & G2 & G3).
      - intros I HI. rewrite (SW2 k Hk I HI). symmetry. now apply SC0.
      - exists M, M'. split; [|auto]. unfold getm in *. now rewrite (GG k Hk) in G1. }
    split; [|split; [|split]]; [|eapply ML; [reflexivity|vm_compute; tauto]..].
    intros k Hk. assert (T : dget op_fields k = Some [] /\ In k (dkeys wc_fields)) by (cbn [In smeftpar_scalars] in Hk; repeat (destruct Hk as [<-|Hk]; [split; [reflexivity|vm_compute; tauto]|]); destruct Hk).
    destruct T as [T Hw]. transitivity (getz (dupdate C0 c) k).
    - apply (scalar_getz _ _ k P0 P2 T). intros I HI. rewrite (SW2 k Hw I HI). symmetry. now apply SC0.
    - unfold getz. now rewrite (GG k Hw). }
  destruct (smeftpar_like brentq ckm_tree p C0 C2 c LK EP) as (m2 & lam & g & gp & gs & Gd & Gu & Ge & Gd' & Gu' & Ge' & Ec & EP2 & Qd & Qu & Qe).
  destruct (fixed E dim4 msvd mtakfac rs rp ode brentq ckm_tree p BK LY D4 ODE PH POS UK SK EX C2 _ _ W2 F2 H2 NY2 SC EP2) as (sm3 & R3 & W3 & F3 & K3 & S3).
  destruct (upd_point C0 sm3 WF F0 HW HN W3 F3 K3) as (P3 & WU3 & KU3 & SU3 & SW3).
  exists (mkSmeft (Some (dupdate C0 sm3)) (Some scale_sm_default)).
  assert (NEW : smeft_new E dim4 msvd mtakfac rs rp ode brentq ckm_tree p w true = Ok (mkSmeft (Some (dupdate C0 sm3)) (Some scale_sm_default))).
  { unfold smeft_new. rewrite EL. cbn [bind]. unfold check_initial at 1. cbn [s_C_in s_scale_in bind fst snd]. unfold get_sm_scale_in. rewrite EL. cbn [bind]. rewrite R1. cbn [bind].
    unfold check_initial at 1. cbn [s_C_in s_scale_in bind fst snd]. rewrite R2. cbn [bind]. rewrite R3. reflexivity. }
  assert (EVO : exists C4, (if String.eqb acc "integrate" then rgevolve E ode (mkSmeft (Some (dupdate C0 sm3)) (Some scale_sm_default)) scale_sm_default true
        else if String.eqb acc "leadinglog" then rgevolve_leadinglog E (mkSmeft (Some (dupdate C0 sm3)) (Some scale_sm_default)) scale_sm_default
        else Err ValueError) = Ok C4 /\ smeft_point C4 /\ forall k, In k (dkeys op_fields) -> same k C4 (dupdate C0 sm3)).
  { destruct AC as [-> | ->]; cbn [String.eqb Ascii.eqb Bool.eqb].
    - destruct (same_scale_point E ode (dupdate C0 sm3) scale_sm_default true LY P3 SC ODE) as (C4 & EV & P4 & S4). exists C4. split; [exact EV|]. auto.
    - destruct (LLS _ P3 WU3 KU3) as (C4 & EV & P4 & _ & S4). exists C4. auto. }
  destruct EVO as (C4 & EV & P4 & S4).
  assert (S4' : forall k, In k (dkeys op_fields) -> same k C4 (dupdate C0 c)).
  { intros k Hk. apply (same_trans _ _ _ _ (S4 k Hk)). apply dkeys_split in Hk as [Hk|Hk].
    - apply (same_trans _ _ _ _ (SU3 k Hk)). apply (same_trans _ _ _ _ (S3 k Hk)). apply (same_trans _ c).
      + rewrite Ec. now apply sm_dict_same.
      + intros I _. unfold coef. rewrite dget_dupdate by exact WC. apply GC in Hk. destruct (dget c k); [reflexivity|now contradiction Hk].
    - intros I HI. rewrite (SW3 k Hk I HI). symmetry. now apply SC0. }
  assert (MI : forall M, meq (mm (mm (dagm idm) M) idm) M) by (intros M; rewrite dag_id, mm_id_l, mm_id_r; reflexivity).
  assert (MO : forall M, msvd_ok msvd M -> msvd_ok msvd (mm (mm (dagm idm) M) idm)) by (intros M H N HN'; apply H; rewrite HN'; apply MI).
  assert (MR : forall k f h, dget op_fields k = Some [f; h] -> matrix_rotated (dupdate C0 c) C4 k idm idm).
  { intros k f h T. destruct (matrix_getm (dupdate C0 c) C4 k f h P0 P4 T (S4' k (dget_Some_key _ _ _ T))) as (M & M' & G1 & G2 & G3). exists M, M'. split; [exact G1|]. split; [exact G2|]. now rewrite MI. }
  destruct (C46_any_flavour_basis brentq ckm_tree msvd phase p C0 "Warsaw" c C4 idm idm idm idm idm BQ PH SW CK uni_id uni_id uni_id uni_id uni_id (MO _ SVU) (MO _ SVD) (MO _ SVE) EP) as (sm & ESM & VSM).
  { split; [|repeat (split; [eapply MR; reflexivity|]); destruct (point_getm C4 "llphiphi" _ P4 eq_refl) as (l & El & _); eauto].
    intros k Hk. assert (T : dget op_fields k = Some []) by (cbn [In scalar_names] in Hk; repeat (destruct Hk as [<-|Hk]; [reflexivity|]); destruct Hk).
    apply (scalar_getz _ _ k P0 P4 T). apply S4'. eapply dget_Some_key; eauto. }
  exists sm. split; [exact NEW|]. split; [|exact VSM]. unfold smeft_get_smpar. rewrite EV. exact ESM.
Qed.
Print Assumptions C63_input_errors.
Print Assumptions C63_initial_values.
Print Assumptions C63_smpar_consistent.

(* ---------- a concrete case ---------- *)
(* smeftutil for a file of the Warsaw basis has the layout *)
Lemma layout_of_basis all real E : describes warsaw_ops all real -> eft_init all real smeft_d4 smeft_d4s = Ok E -> smeft_layout E.
Proof.
  intros D EI. destruct ex16_smeft as (_ & D4 & A & _).
  destruct (eft_init_ok warsaw_ops all real smeft_d4 smeft_d4s D D4 A) as (E' & EI' & OK & _ & G & W & _). assert (E' = E) by congruence. subst E'.
  assert (NW : forall k, In k (dkeys sm_fields) -> ~ In k (map fst warsaw_ops)).
  { intros k Hk H. apply warsaw_wc in H. destruct (dget wc_fields k) eqn:T; [|now contradiction H]. exact (wc_sm_disjoint k (dget_Some_key _ _ _ T) Hk). }
  assert (SM : forall k ts, dget op_fields k = Some ts -> In k (dkeys sm_fields) -> dget smeft_d4 k = Some (match ts with [] => None | _ => Some (map (fun _ => 3%nat) ts) end)).
  { intros k ts T H. cbn [In dkeys map fst sm_fields] in H. repeat (destruct H as [<-|H]; [injection T as <-; reflexivity|]). destruct H. }
  assert (SH : forall k ts, dget op_fields k = Some ts -> dget (e_shape E) k = Some (match ts with [] => None | _ => Some (map (fun _ => 3%nat) ts) end)).
  { intros k ts T. assert (IK : In k (dkeys op_fields)) by (eapply dget_Some_key; eauto). apply dkeys_split in IK as [IK|IK].
    - rewrite (G k (NW k IK)). now apply SM.
    - assert (H : In k (map fst warsaw_ops)) by (apply warsaw_wc; intros N; apply dget_None in N; contradiction).
      apply in_map_iff in H as ([m [c s]] & X & H). cbn [fst] in X. subst m. rewrite (ok_shape E warsaw_ops OK k c s H).
      destruct (rot_class (K := CR) (fun _ _ _ => rc 0) k c s H) as (ts' & F & S & L & _). apply SmeftInit.wc_op in F. rewrite T in F. injection F as <-.
      destruct ts as [|t ts]; destruct c; try discriminate L; cbn [op_shape]; try reflexivity; now rewrite S. }
  split; [exact W|]. split; [|exact SH]. intros k. split; intros H.
  - destruct (in_dec string_dec k (map fst warsaw_ops)) as [Y|N].
    + apply dkeys_split. right. apply warsaw_wc in Y. destruct (dget wc_fields k) eqn:T; [eapply dget_Some_key; eauto|now contradiction Y].
    + apply dkeys_split. left. specialize (G k N). destruct (dget (e_shape E) k) eqn:T; [|apply dget_None in T; contradiction]. symmetry in G.
      apply dget_Some_key in G. exact G.
  - destruct (dget op_fields k) as [ts|] eqn:T; [|apply dget_None in T; contradiction]. eapply dget_Some_key. exact (SH k ts T).
Qed.
(* masses 1, 2, 3 GeV in all sectors, a CKM matrix with three angles and a phase, and vacuum expectation value 1 *)
Definition ex63_in : smin :=
  {| i_GF := / sqrt 2; i_ae := / (4 * PI) / 4; i_as := / 10; i_Vus := 12 / 25; i_Vub := 3 / 5; i_Vcb := 12 / 25; i_gamma := 1;
     i_me := ex63m; i_mu := ex63m; i_md := ex63m; i_mW := 1; i_mh := 1 |}.
Definition ex63_ckm (a b c d : R) : cmat := ex63K.
Definition ex63_svd (M : cmat) : cmat * (nat -> R) * cmat :=
  if cx_eqb (M 0%nat 1%nat) (rc 0) then (idm, (fun i => fst (M 0%nat 0%nat : cx) * ex63m i), idm) else (dagm ex63K, (fun i => 25 / 16 * fst (M 0%nat 0%nat : cx) * ex63m i), idm).
Definition ex63_wc : wc := mkWC "SMEFT" "Warsaw" scale_sm_default [("phiG", rc (1 / 10)); ("phiB", rc (1 / 5)); ("uG_12", rc 3)].
Lemma ex63_vev : vev ex63_in = 1.
Proof.
  unfold vev. cbn [ex63_in i_GF]. assert (sqrt 2 <> 0) by (apply Rgt_not_eq, sqrt_lt_R0; lra).
  replace (1 / sqrt 2 / / sqrt 2) with 1 by (field; assumption). apply sqrt_1.
Qed.
Lemma ex63_svd_diag s M : meq M (diagm (fun i => s * ex63m i)) -> ex63_svd M = (idm, (fun i => s * ex63m i), idm).
Proof.
  intros E. unfold ex63_svd. rewrite (meq_at _ _ E 0%nat 1%nat), (meq_at _ _ E 0%nat 0%nat) by lia. cbn [diagm Nat.eqb]. destruct (cx_eqb_spec (rc 0) (rc 0)) as [_|N]; [|congruence].
  replace (fst (rc (s * ex63m 0%nat) : cx)) with s; [reflexivity|]. unfold rc. cbn [fst]. unfold ex63m. cbn [INR Nat.add]. ring.
Qed.
Lemma ex63_svd_up s M : 0 < s -> meq M (mm (dagm ex63K) (diagm (fun i => s * ex63m i))) -> ex63_svd M = (dagm ex63K, (fun i => s * ex63m i), idm).
Proof.
  intros Hs E. unfold ex63_svd. rewrite (meq_at _ _ E 0%nat 1%nat), (meq_at _ _ E 0%nat 0%nat) by lia. rewrite !mm_diag_r by lia.
  match goal with |- context [cx_eqb ?z (rc 0)] => destruct (cx_eqb_spec z (rc 0)) as [F|_] end.
  { exfalso. apply (f_equal fst) in F. cbn in F. unfold ex63m in F. cbn in F. lra. }
  assert (Q : 25 / 16 * fst (kmul (dagm ex63K 0%nat 0%nat) (rc (s * ex63m 0%nat)) : cx) = s) by (cbn; unfold ex63m; cbn; field). now rewrite Q.
Qed.
Lemma ex63_order s : 0 < s -> 0 < s * ex63m 0%nat /\ s * ex63m 0%nat < s * ex63m 1%nat /\ s * ex63m 1%nat < s * ex63m 2%nat.
Proof. intros Hs. unfold ex63m. cbn [INR Nat.add]. lra. Qed.
Lemma diagm_ext a b : (forall i, a i = b i) -> meq (diagm a) (diagm b).
Proof. intros E. split. intros i j _ _. unfold diagm. now rewrite E. Qed.
Lemma ex63_ok_diag s M0 : 0 < s -> meq M0 (diagm (fun i => s * ex63m i)) -> msvd_ok ex63_svd M0.
Proof. intros Hs E M EM. rewrite E in EM. rewrite (ex63_svd_diag s M EM). cbn [fst snd]. destruct (ex63_order s Hs) as (A & B & C). apply (svd_ext _ _ _ _ _ EM), svd_id; lra. Qed.
Lemma ex63_ok_up s M0 : 0 < s -> meq M0 (mm (dagm ex63K) (diagm (fun i => s * ex63m i))) -> msvd_ok ex63_svd M0.
Proof.
  intros Hs E M EM. rewrite E in EM. rewrite (ex63_svd_up s M Hs EM). cbn [fst snd]. destruct (ex63_order s Hs) as (A & B & C).
  apply (svd_ext _ _ _ _ _ EM), svd_left; [apply uni_dag, ex63K_uni|lra..].
Qed.
Example C63_consistent_case : exists E C0 c, smeft_util (all_of warsaw_ops) (real_of warsaw_ops) E /\ smeft_layout E /\
  physical_input ex63_in /\ (0 < i_mu ex63_in 0%nat /\ 0 < i_md ex63_in 0%nat /\ 0 < i_me ex63_in 0%nat) /\ ckm_ok (fun _ => 1) ex63_in ex63K /\ standard_ckm ex63K /\
  external_rescaled ex63_svd (fun _ => (idm, fun _ => 0)) (fun x => x) (fun x => x) ex63_in ex63K /\
  msvd_ok ex63_svd (up_mass ex63_in ex63K "Warsaw") /\ msvd_ok ex63_svd (down_mass ex63_in ex63K "Warsaw") /\ msvd_ok ex63_svd (diagm (i_me ex63_in)) /\
  wfdict (wc_values ex63_wc) /\ (forall k, In k (dkeys (wc_values ex63_wc)) -> In k (all_of warsaw_ops)) /\
  wcxf2arrays_symmetrized E (wc_values ex63_wc) = Ok C0 /\ no_yukawa_operators C0 /\ small_wcs ex63_in C0 /\
  smeftpar (fun _ _ _ => Err ValueError) ex63_ckm ex63_in C0 "Warsaw" = Ok c.
Proof.
  destruct ex16_smeft as (D & D4 & A & _). destruct (C15_basis_detected warsaw_ops _ _ _ _ D D4 A) as (E & EI & _).
  assert (SU : smeft_util (all_of warsaw_ops) (real_of warsaw_ops) E) by (split; eauto).
  destruct (util_ok _ _ E SU) as (OK & EA & BK).
  assert (W : wfdict (wc_values ex63_wc)) by (apply knodup_NoDup; reflexivity).
  assert (IN : forall k, In k (dkeys (wc_values ex63_wc)) -> In k (all_of warsaw_ops)).
  { intros k H. cbn [ex63_wc wc_values dkeys map fst In] in H. destruct H as [<-|[<-|[<-|[]]]]; apply kmem_In; vm_compute; reflexivity. }
  destruct (w2a_sym_spec E warsaw_ops OK (wc_values ex63_wc) W) as (C0 & EC & WC & KC & VC); [intros k H; rewrite EA; now apply IN|].
  pose proof PI_RGT_0 as P. assert (S2 : 0 < sqrt 2) by (apply sqrt_lt_R0; lra).
  assert (SM : forall m, m = i_me ex63_in \/ m = i_mu ex63_in \/ m = i_md ex63_in -> m = ex63m) by (intros m [-> | [-> | ->]]; reflexivity).
  pose proof ex63_ascending as (A0 & A1 & A2).
  assert (RES : forall m, m = ex63m -> forall i, rescaled ex63_in m i = v_default * ex63m i) by (intros m -> i; unfold rescaled; rewrite ex63_vev; field).
  assert (G : forall k x, In (k, (Cl0, [])) warsaw_ops -> kre (dgetd (wc_values ex63_wc) k (rc 0)) = rc x -> getz C0 k = Ok (rc x)).
  { intros k x H Q. destruct (VC k Cl0 [] H) as (v & V & S). cbn [symmetrized] in S. unfold getz, getC. rewrite V, S. cbn [rmap entry]. f_equal. exact Q. }
  assert (GZ : forall k x, In (k, (Cl0, [])) warsaw_ops -> kre (dgetd (wc_values ex63_wc) k (rc 0)) = rc x -> getre C0 k = Ok x).
  { intros k x H Q. unfold getre. rewrite (G k x H Q). reflexivity. }
  assert (Y : forall k, In (k, (Cl1, [3; 3]%nat)) warsaw_ops -> In k ["uphi"; "dphi"; "ephi"] -> exists M, getm C0 k = Ok M).
  { intros k H _. destruct (VC k _ _ H) as (v & V & _). unfold getm, getC. rewrite V. eexists. reflexivity. }
  exists E, C0.
  assert (SP : exists c, smeftpar (fun _ _ _ => Err ValueError) ex63_ckm ex63_in C0 "Warsaw" = Ok c).
  { unfold smeftpar. fold (vev ex63_in). cbn zeta. rewrite ex63_vev.
    unfold vMh2_to_m2Lambda. cbn [ex63_in i_mh i_mW i_ae i_as]. destruct (Rlt_dec 0 1) as [_|NL]; [|exfalso; lra]. destruct (Rlt_dec 0 (1 ^ 2)) as [_|NL]; [|exfalso; apply NL; lra].
    rewrite (GZ "phi" 0), (GZ "phiBox" 0), (GZ "phiD" 0), (GZ "phiG" (1 / 10)), (GZ "phiW" 0) by (vm_compute; tauto || (apply injective_projections; cbn; field)). cbn [bind].
    unfold get_gpbar. rewrite (G "phiWB" 0), (GZ "phiB" (1 / 5)) by (vm_compute; tauto || (apply injective_projections; cbn; field)). cbn [bind]. destruct (cx_eqb_spec (rc 0) (rc 0)) as [_|N]; [|congruence].
    assert (EE : sqrt (4 * PI * (/ (4 * PI) / 4)) = 1 / 2).
    { replace (4 * PI * (/ (4 * PI) / 4)) with (1 / 2 * (1 / 2)) by (field; lra). apply sqrt_square. lra. }
    rewrite EE. destruct (Rle_dec 0 ((2 * 1 / 1) ^ 2 - (1 / 2) ^ 2)) as [_|N]; [|exfalso; apply N; lra].
    destruct (Req_EM_T (sqrt ((2 * 1 / 1) ^ 2 - (1 / 2) ^ 2)) 0) as [Z|_].
    { exfalso. assert (0 < sqrt ((2 * 1 / 1) ^ 2 - (1 / 2) ^ 2)) by (apply sqrt_lt_R0; lra). lra. }
    cbn [bind String.eqb Ascii.eqb Bool.eqb]. destruct (Y "dphi") as (M1 & ->); [vm_compute; tauto|cbn; tauto|]. destruct (Y "uphi") as (M2 & ->); [vm_compute; tauto|cbn; tauto|]. destruct (Y "ephi") as (M3 & ->); [vm_compute; tauto|cbn; tauto|].
    cbn [bind]. eexists. reflexivity. }
  destruct SP as (c & SP). exists c. split; [exact SU|]. split; [exact (layout_of_basis _ _ E D EI)|].
  split. { unfold physical_input. cbn [ex63_in i_GF i_ae i_as i_mW i_mh].
    split; [now apply Rinv_0_lt_compat|]. split; [apply Rdiv_lt_0_compat; [apply Rinv_0_lt_compat|]; lra|]. split; [lra|]. split; [lra|]. split; [lra|].
    intros m Hm. rewrite (SM m Hm). lra. }
  split; [cbn [ex63_in i_mu i_md i_me]; auto|].
  split. { unfold ckm_ok. cbn [ex63_in i_Vus i_Vub i_Vcb i_gamma]. split; [apply ex63K_uni|]. split; [unfold ex63K; rewrite cabs_rc, Rabs_right by lra; reflexivity|].
    split; [|split; [unfold ex63K; rewrite cabs_rc, Rabs_right by lra; reflexivity|]].
    - unfold cabs, cx_n2, ex63K. cbn [fst snd]. replace (0 * 0 + - 3 / 5 * (- 3 / 5)) with (3 / 5 * (3 / 5)) by field. apply sqrt_square. lra.
    - split; [intros F; apply (f_equal fst) in F; cbn in F; lra|]. split; [intros F; apply (f_equal fst) in F; cbn in F; lra|reflexivity]. }
  split; [exact ex63K_standard|].
  assert (EU : meq (mm (dagm ex63K) (diagm (rescaled ex63_in (i_mu ex63_in)))) (mm (dagm ex63K) (diagm (fun i => v_default * ex63m i)))).
  { rewrite (diagm_ext _ (fun i => v_default * ex63m i)) by (apply RES; reflexivity). reflexivity. }
  assert (EDD : meq (diagm (rescaled ex63_in (i_md ex63_in))) (diagm (fun i => v_default * ex63m i))) by (apply diagm_ext, RES; reflexivity).
  assert (EEE : meq (diagm (rescaled ex63_in (i_me ex63_in))) (diagm (fun i => v_default * ex63m i))) by (apply diagm_ext, RES; reflexivity).
  pose proof v_default_pos as VP.
  assert (ON : phases (fun _ => k1)) by (intros i _; unfold unit_phase; apply injective_projections; cbn; ring).
  assert (RO : forall B, rephased B (fun _ => k1) B) by (intros B i j _ _; symmetry; apply kmul_1_r).
  split. { split; [exact (ex63_ok_up _ _ VP EU)|]. split; [exact (ex63_ok_diag _ _ VP EDD)|]. split; [exact (ex63_ok_diag _ _ VP EEE)|]. split.
    - intros Mu' Md' Hu Hd. rewrite EU in Hu. rewrite EDD in Hd. rewrite (ex63_svd_up _ _ VP Hu), (ex63_svd_diag _ _ Hd). cbn [fst snd].
      exists (fun _ => k1), (fun _ => k1). do 4 eexists. split; [reflexivity|]. split; [exact ON|]. split; [exact ON|]. split; [apply RO|]. split; [apply RO|]. split; [apply RO|]. split; [apply RO|].
      apply (standard_ckm_meq ex63K); [|exact ex63K_standard]. now rewrite dag_dag, mm_id_r.
    - intros N Me' He. exists (fun _ => k1). do 3 eexists. split; [reflexivity|]. split; [exact ON|]. split; apply RO. }
  assert (ONE : meq (diagm ex63m) (diagm (fun i => 1 * ex63m i))) by (apply diagm_ext; intros i; ring).
  split; [apply (ex63_ok_up 1); [lra|]; unfold up_mass; cbn [String.eqb Ascii.eqb Bool.eqb ex63_in i_mu]; now rewrite ONE|].
  split; [apply (ex63_ok_diag 1); [lra|exact ONE]|]. split; [apply (ex63_ok_diag 1); [lra|exact ONE]|].
  split; [exact W|]. split; [exact IN|]. split; [exact EC|]. split; [|split; [|exact SP]].
  - assert (Z : forall k, In (k, (Cl1, [3; 3]%nat)) warsaw_ops ->
      forallb (fun i => forallb (fun j => negb (dmem (wc_values ex63_wc) (label k [i; j]))) (seq 0 3)) (seq 0 3) = true ->
      forall i j, (i < 3)%nat -> (j < 3)%nat -> coef C0 k [i; j] = rc 0).
    { intros k H N i j Hi Hj. destruct (VC k _ _ H) as (v & V & (b & Q & S)).
      assert (IS : in_shape [3; 3]%nat [i; j] = true) by (destruct i as [|[|[|]]]; [| | |lia]; (destruct j as [|[|[|]]]; [| | |lia]); reflexivity).
      unfold coef. rewrite V, Q. cbn [entry]. rewrite (S _ IS). rewrite nonred_1. unfold entries. rewrite IS.
      rewrite forallb_forall in N. specialize (N i). rewrite forallb_forall in N. specialize (N ltac:(apply in_seq; lia) j ltac:(apply in_seq; lia)).
      apply negb_true_iff in N. rewrite dmem_dget in N. unfold dgetd. destruct (dget (wc_values ex63_wc) (label k [i; j])); [discriminate|reflexivity]. }
    intros k Hk i j Hi Hj. apply Z; [| |exact Hi|exact Hj]; cbn [In] in Hk; destruct Hk as [<-|[<-|[<-|[]]]]; vm_compute; tauto.
  - exists 0, 0, (1 / 10), 0, (1 / 5). rewrite ex63_vev.
    split. { exists 0, 0. split; [|split; [|split; [|field]]]; apply GZ; (vm_compute; tauto || (apply injective_projections; cbn; field)). }
    split; [left; reflexivity|]. split; [lra|].
    split; [apply GZ; (vm_compute; tauto || (apply injective_projections; cbn; field))|]. split; [lra|].
    split; [apply GZ; (vm_compute; tauto || (apply injective_projections; cbn; field))|]. split; [lra|].
    split; [apply GZ; (vm_compute; tauto || (apply injective_projections; cbn; field))|]. split; [lra|].
    assert (H : exists c s, In ("llphiphi", (c, s)) warsaw_ops) by (do 2 eexists; vm_compute; tauto). destruct H as (c' & s' & H).
    destruct (VC _ _ _ H) as (v & V & _). unfold getm, getC. rewrite V. eexists. reflexivity.
Qed.
