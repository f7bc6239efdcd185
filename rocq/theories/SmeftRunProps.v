(* C63, continued: the SMEFT class evolves between the right scales. *)
From Coq Require Import List Bool ZArith Arith Lia String Ascii Reals Lra.
From Verif Require Import PyBase Num SymModel SymClass EftModel EftSpec EftProofs EftRound EftRound2 EftProps EftInit BasisProps NpModel NpProofs RotModel BetaSpec BetaProofs BetaModel RotProofs BetaProg BetaSM RgeModel RgeProofs RgeProps RealC UpProofs UpProps SmparModel SmparProofs SmparProps
  SmeftModel SmeftProofs SmeftProps SmeftInit SmeftSmProps.
Import ListNotations.
Local Open Scope string_scope.
Local Open Scope list_scope.
Local Open Scope R_scope.

(* ---------- specification ---------- *)
(* what the external solver returns, if it returns anything, solves the RGE between the two scales *)
Definition solver_ok (E : eft) (ode : ode_solver) (newphys : bool) (mu0 mu1 : R) : Prop :=
  forall y r, ode (rge_fun E beta_prog newphys) (ln mu0) (ln mu1) y = Ok r ->
    fst r = snd r (ln mu1) /\ solution (rge_fun E beta_prog newphys) (ln mu0) (ln mu1) y (snd r).
(* C1 at mu1 is the end of a solution of 16 pi^2 dC/dln(mu) = beta(C) that starts with C0 at mu0 *)
Definition evolved (E : eft) (newphys : bool) (C0 : cdictR) (mu0 : R) (C1 : cdictR) (mu1 : R) : Prop :=
  exists G : R -> cdictR, (forall k, In k (dkeys op_fields) -> same k (G (ln mu0)) C0 /\ same k (G (ln mu1)) C1) /\
    forall t, Rmin (ln mu0) (ln mu1) <= t <= Rmax (ln mu0) (ln mu1) ->
      smeft_point (G t) /\ exists D, beta_of E beta_prog (G t) (rc 1) newphys = Ok D /\
      forall k I, In k (dkeys op_fields) -> In I (indices_of k) ->
        derivable_pt_lim (fun s => fst (coef (G s) k I)) t (fst (coef D k I) / (16 * PI ^ 2)) /\
        derivable_pt_lim (fun s => snd (coef (G s) k I)) t (snd (coef D k I) / (16 * PI ^ 2)).

Section Run.
Variables (E : eft) (dim4 : list string) (msvd : cmat -> cmat * (nat -> R) * cmat) (mtakfac : cmat -> cmat * (nat -> R)).
Variables (rs : cmat * cmat * cmat * cmat -> cmat * cmat * cmat * cmat) (rp : cmat * cmat * cmat -> cmat * cmat * cmat) (ode : ode_solver).
Variables (brentq : (R -> R) -> R -> R -> res R) (ckm_tree : R -> R -> R -> R -> cmat) (p : smin).
Hypothesis LY : smeft_layout E.
Hypothesis OR : dkeys (e_shape E) = smeft_order.
Hypothesis D4 : forall k, In k dim4 <-> In k (dkeys sm_fields).

Lemma evolve_solves C mu0 mu1 newphys C_out : smeft_point C -> 0 < mu0 -> 0 < mu1 -> solver_ok E ode newphys mu0 mu1 ->
  smeft_evolve E beta_prog ode C mu0 mu1 newphys = Ok C_out -> evolved E newphys C mu0 C_out mu1.
Proof.
  intros P L1 L2 SOL EO.
  assert (S : forall z, C_dict2array E C = Ok z -> exists Y, ode (rge_fun E beta_prog newphys) (ln mu0) (ln mu1) (view_float z) = Ok (Y (ln mu1), Y) /\
    solution (rge_fun E beta_prog newphys) (ln mu0) (ln mu1) (view_float z) Y).
  { intros z EZ. unfold smeft_evolve, smeft_evolve0 in EO. rewrite EZ, bind_Ok in EO. unfold py_log in EO.
    destruct (Rlt_dec 0 mu0) as [_|N]; [|contradiction]. rewrite bind_Ok in EO. destruct (Rlt_dec 0 mu1) as [_|N]; [|contradiction]. rewrite bind_Ok in EO.
    apply bind_inv in EO as (r & ER & _). exists (snd r). destruct (SOL _ _ ER) as [Q X]. rewrite <- Q. destruct r; auto. }
  destruct (C45_solves E ode C mu0 mu1 newphys LY OR P L1 L2 S) as (G & C' & EO' & GE & GS). rewrite EO in EO'. injection EO' as <-. exists G. auto.
Qed.
(* The SM parameters that the class assigns to the high scale are those of the end point of the
   SM running (newphys=False) from the electroweak scale, rotated to the default basis; the
   running starts from the values that reproduce the input and from the given coefficients. *)
Theorem C63_sm_run_up : forall scale_in Cx scale_sm sm,
  wfdict Cx -> fits Cx -> has_wcs Cx -> 0 < scale_sm -> 0 < scale_in -> solver_ok E ode false scale_sm scale_in ->
  run_sm_scale_in E dim4 msvd mtakfac rs rp ode brentq ckm_tree p scale_in Cx scale_sm = Ok sm ->
  exists c C_low C_high D, smeftpar brentq ckm_tree p Cx "Warsaw" = Ok c /\
    (forall k, In k (dkeys sm_fields) -> dget C_low k = dget c k) /\ (forall k, In k (dkeys wc_fields) -> dget C_low k = dget Cx k) /\
    evolved E false C_low scale_sm C_high scale_in /\
    rotate_defaultbasis E msvd mtakfac rs rp C_high = Ok D /\
    forall k, dget sm k = if kmem k (dkeys sm_fields) then dget D k else None.
Proof.
  intros si Cx ssm sm WX FX HX L1 L2 SOL H. unfold run_sm_scale_in in H.
  destruct (layout_dict E (repeat (rc 0 : CR) 9999) LY) as (Z & EZ & PZ & _ & DZ & WZ).
  { rewrite repeat_length, (layout_size E LY). apply Nat.leb_le. vm_compute. reflexivity. }
  rewrite EZ in H. cbn [bind] in H. apply bind_inv in H as (c & EP & H).
  destruct (smeftpar_inv brentq ckm_tree p Cx c EP) as (m2 & lam & g & gp & gs & cd & cu & ce & Ed & Eu & Ee & Ec).
  assert (WC : wfdict c) by (rewrite Ec; apply knodup_NoDup; reflexivity).
  assert (FC : fits c).
  { intros k v X. rewrite Ec in X. apply dget_In in X. cbn [In sm_dict] in X.
    repeat (destruct X as [X|X]; [injection X as <- <-; eexists; split; [reflexivity|]; split; [reflexivity|]; (discriminate || eauto)|]). destruct X. }
  assert (GC : forall k, In k (dkeys sm_fields) -> dget c k <> None).
  { intros k X. rewrite Ec. cbn [In dkeys map fst sm_fields] in X. repeat (destruct X as [<-|X]; [discriminate|]). destruct X. }
  set (u := only_keys dim4 c) in *. assert (Wu : wfdict u) by (apply wf_dfilter, WC).
  assert (Gu' : forall k, dget u k = if kmem k dim4 then dget c k else None).
  { intros k. unfold u, only_keys. rewrite dget_dfilter by exact WC. destruct (dget c k); destruct (kmem k dim4); reflexivity. }
  set (X := dupdate (dupdate Z Cx) u) in *.
  assert (XS : forall k, In k (dkeys sm_fields) -> dget X k = dget c k).
  { intros k Hk. unfold X. rewrite dget_dupdate by exact Wu. rewrite Gu'. assert (Q : kmem k dim4 = true) by (apply kmem_In, D4, Hk). rewrite Q.
    specialize (GC k Hk). destruct (dget c k); [reflexivity|now contradiction GC]. }
  assert (XW : forall k, In k (dkeys wc_fields) -> dget X k = dget Cx k).
  { intros k Hk. unfold X. rewrite dget_dupdate by exact Wu. rewrite Gu'. assert (Q : kmem k dim4 = false) by (apply kmem_nIn; intros Q; apply D4 in Q; exact (wc_sm_disjoint k Hk Q)).
    rewrite Q, dget_dupdate by exact WX. specialize (HX k Hk). destruct (dget Cx k); [reflexivity|now contradiction HX]. }
  assert (PX : smeft_point X).
  { intros k ts T. assert (IK : In k (dkeys op_fields)) by (eapply dget_Some_key; eauto). apply dkeys_split in IK as [IK|IK].
    - rewrite (XS k IK). specialize (GC k IK). destruct (dget c k) as [v|] eqn:V; [|now contradiction GC]. destruct (FC k v V) as (ts' & T' & S). rewrite T in T'. injection T' as <-. eauto.
    - rewrite (XW k IK). specialize (HX k IK). destruct (dget Cx k) as [v|] eqn:V; [|now contradiction HX]. destruct (FX k v V) as (ts' & T' & S). rewrite T in T'. injection T' as <-. eauto. }
  apply bind_inv in H as (Ch & EV & H). unfold rgevolve, check_initial in EV. cbn [s_C_in s_scale_in bind fst snd] in EV.
  apply bind_inv in H as (D & ED & H). injection H as <-.
  exists c, X, Ch, D. split; [exact EP|]. split; [exact XS|]. split; [exact XW|]. split; [exact (evolve_solves X ssm si false Ch PX L1 L2 SOL EV)|]. split; [exact ED|].
  intros k. unfold only_keys. rewrite dget_dfilter by exact (rot_wf _ _ _ _ _ _ _ ED).
  assert (Q : kmem k dim4 = kmem k (dkeys sm_fields)).
  { destruct (kmem k (dkeys sm_fields)) eqn:M; [apply kmem_In, D4, kmem_In, M|]. apply kmem_nIn. intros N. apply D4, kmem_In in N. congruence. }
  rewrite Q. destruct (dget D k); destruct (kmem k (dkeys sm_fields)); reflexivity.
Qed.

Lemma run_cases self sc acc w : smeft_run E msvd mtakfac rs rp ode self sc acc = Ok w ->
  exists C_out, to_wcxf E msvd mtakfac rs rp C_out sc = Ok w /\
    (acc = "integrate" /\ rgevolve E ode self sc true = Ok C_out \/ acc = "leadinglog" /\ rgevolve_leadinglog E self sc = Ok C_out).
Proof.
  unfold smeft_run. destruct (String.eqb_spec acc "integrate") as [->|_]; [|destruct (String.eqb_spec acc "leadinglog") as [->|_]; [|discriminate]];
    intros H; apply bind_inv in H as (C & E1 & E2); exists C; auto.
Qed.
Lemma integrate_ok self C si sc newphys C_out : s_C_in self = Some C -> s_scale_in self = Some si -> smeft_point C -> 0 < si -> 0 < sc -> solver_ok E ode newphys si sc ->
  rgevolve E ode self sc newphys = Ok C_out -> evolved E newphys C si C_out sc.
Proof.
  intros EC ES P L1 L2 SOL EO. unfold rgevolve, check_initial in EO. rewrite EC, ES in EO. rewrite bind_Ok in EO. cbn [fst snd] in EO.
  exact (evolve_solves C si sc newphys C_out P L1 L2 SOL EO).
Qed.
Lemma leadinglog_ok self C si sc C_out : s_C_in self = Some C -> s_scale_in self = Some si -> smeft_point C -> wfdict C -> (forall k, In k (dkeys C) -> In k (dkeys op_fields)) -> 0 < si -> 0 < sc ->
  rgevolve_leadinglog E self sc = Ok C_out ->
  exists B, beta_of E beta_prog C (rc 1) true = Ok B /\ forall k I, In k (dkeys op_fields) -> In I (indices_of k) ->
    coef C_out k I = kadd (coef C k I) (kmul (coef B k I) (rc (ln (sc / si) / (16 * PI ^ 2)))).
Proof.
  intros EC ES P W KC L1 L2 EO. unfold rgevolve_leadinglog, check_initial in EO. rewrite EC, ES in EO. rewrite bind_Ok in EO. cbn [fst snd] in EO.
  assert (RP : 0 < sc / si) by now apply Rdiv_lt_0_compat. assert (N : nth 0 [C] [] = C) by reflexivity.
  pose proof (C33_leadinglog E [C] 0 si sc ltac:(cbn; lia)) as X. rewrite N in X. specialize (X P W KC ltac:(lra) RP).
  destruct X as (B & s' & o & EB & ELL & _ & _ & _ & V). rewrite ELL, bind_Ok in EO. injection EO as <-. exists B. split; [exact EB|]. exact V.
Qed.

(* run() returns the coefficients at the scale that is asked for, in the Warsaw basis of SMEFT:
   the end point of the running (integrate) or the first term of its expansion (leadinglog),
   rotated to the default basis. *)
Theorem C63_run_result : forall self C scale_in scale accuracy w,
  s_C_in self = Some C -> s_scale_in self = Some scale_in -> smeft_point C -> wfdict C -> (forall k, In k (dkeys C) -> In k (dkeys op_fields)) ->
  0 < scale_in -> 0 < scale -> solver_ok E ode true scale_in scale ->
  smeft_run E msvd mtakfac rs rp ode self scale accuracy = Ok w ->
  wc_eft w = "SMEFT" /\ wc_basis w = "Warsaw" /\ wc_scale w = scale /\
  exists C_out D, (accuracy = "integrate" -> evolved E true C scale_in C_out scale) /\
    (accuracy = "leadinglog" -> exists B, beta_of E beta_prog C (rc 1) true = Ok B /\ forall k I, In k (dkeys op_fields) -> In I (indices_of k) ->
       coef C_out k I = kadd (coef C k I) (kmul (coef B k I) (rc (ln (scale / scale_in) / (16 * PI ^ 2))))) /\
    rotate_defaultbasis E msvd mtakfac rs rp C_out = Ok D /\ arrays2wcxf_nonred E D = Ok (wc_values w).
Proof.
  intros self C si sc acc w EC ES P W KC L1 L2 SOL H. apply run_cases in H as (C_out & H & HC). unfold to_wcxf in H.
  apply bind_inv in H as (D & ED & H). apply bind_inv in H as (d & Ed & H). injection H as <-. cbn [wc_eft wc_basis wc_scale wc_values].
  split; [reflexivity|]. split; [reflexivity|]. split; [reflexivity|]. exists C_out, D. split; [|split; [|split; [exact ED|exact Ed]]].
  - intros Q. destruct HC as [[_ EO]|[N _]]; [|congruence]. exact (integrate_ok self C si sc true C_out EC ES P L1 L2 SOL EO).
  - intros Q. destruct HC as [[N _]|[_ EO]]; [congruence|]. exact (leadinglog_ok self C si sc C_out EC ES P W KC L1 L2 EO).
Qed.

(* SMEFT(wc): the SM parameters are determined in two passes.  First they are run up with the
   coefficients of wc taken at the electroweak scale; then these coefficients and the SM
   parameters of the first pass are run down in leading-log approximation, and the result is
   used in the second pass. *)
Theorem C63_two_passes : forall w self,
  smeft_new E dim4 msvd mtakfac rs rp ode brentq ckm_tree p w true = Ok self ->
  exists C0 sm1 C_low sm2,
    load_wcxf E dim4 (mkSmeft None None) w = Ok (mkSmeft (Some C0) (Some (wc_scale w))) /\
    run_sm_scale_in E dim4 msvd mtakfac rs rp ode brentq ckm_tree p (wc_scale w) C0 scale_sm_default = Ok sm1 /\
    (smeft_point (dupdate C0 sm1) -> wfdict (dupdate C0 sm1) -> (forall k, In k (dkeys (dupdate C0 sm1)) -> In k (dkeys op_fields)) -> 0 < wc_scale w ->
      exists B, beta_of E beta_prog (dupdate C0 sm1) (rc 1) true = Ok B /\ forall k I, In k (dkeys op_fields) -> In I (indices_of k) ->
        coef C_low k I = kadd (coef (dupdate C0 sm1) k I) (kmul (coef B k I) (rc (ln (scale_sm_default / wc_scale w) / (16 * PI ^ 2))))) /\
    run_sm_scale_in E dim4 msvd mtakfac rs rp ode brentq ckm_tree p (wc_scale w) C_low scale_sm_default = Ok sm2 /\
    self = mkSmeft (Some (dupdate C0 sm2)) (Some (wc_scale w)).
Proof.
  intros w self H. unfold smeft_new in H. apply bind_inv in H as (s0 & EL & H). apply bind_inv in H as (i & EI & H). apply bind_inv in H as (sm2 & ES & H). injection H as <-.
  unfold get_sm_scale_in in ES. rewrite EL, bind_Ok in ES. apply bind_inv in ES as (sm1 & E1 & ES). rewrite EI, bind_Ok in ES. apply bind_inv in ES as (Cl & E2 & ES).
  assert (Q : s0 = mkSmeft (Some (fst i)) (Some (wc_scale w)) /\ snd i = wc_scale w).
  { unfold load_wcxf in EL. destruct (negb (String.eqb (wc_eft w) "SMEFT")); [discriminate|]. destruct (negb (String.eqb (wc_basis w) "Warsaw")); [discriminate|].
    apply bind_inv in EL as (C0 & _ & EL). injection EL as <-. cbn [check_initial s_C_in s_scale_in] in EI. injection EI as <-. auto. }
  destruct Q as [-> Q]. rewrite Q in *. exists (fst i), sm1, Cl, sm2. split; [exact EL|]. split; [exact E1|]. split; [|split; [exact ES|reflexivity]].
  intros P W KC L. apply (leadinglog_ok (mkSmeft (Some (dupdate (fst i) sm1)) (Some (wc_scale w))) _ _ _ _ eq_refl eq_refl P W KC L); [unfold scale_sm_default; lra|exact E2].
Qed.
End Run.

(* a solver that knows one solution: only m2 is not zero, and it does not run *)
Definition ex_start : list R := match C_dict2array ord_layout ex_m2only with Ok z => view_float z | Err _ => [] end.
Definition ex_ode : ode_solver := fun _ _ _ y => if list_eq_dec Req_EM_T y ex_start then Ok (y, fun _ => y) else Err ValueError.
Example C63_run_nonvacuous : smeft_layout ord_layout /\ dkeys (e_shape ord_layout) = smeft_order /\ smeft_point ex_m2only /\
  solver_ok ord_layout ex_ode true 91 1000 /\ exists C_out, rgevolve ord_layout ex_ode (mkSmeft (Some ex_m2only) (Some 91)) 1000 true = Ok C_out.
Proof.
  destruct ex44 as (LY & OR & _). pose proof (ex_pt_point (fun k => if String.eqb k "m2" then rc 1 else k0)) as P. fold ex_m2only in P.
  split; [exact LY|]. split; [exact OR|]. split; [exact P|].
  destruct (C18_dict_roundtrip CR ord_layout ex_m2only (proj1 LY) (point_has_shape _ _ LY P)) as (l & C' & D2A & LL & A2D & _ & RT).
  assert (ES : ex_start = view_float l) by (unfold ex_start; now rewrite D2A). split.
  - intros y r H. unfold ex_ode in H. destruct (list_eq_dec Req_EM_T y ex_start) as [->|_]; [|discriminate]. injection H as <-. cbn [fst snd].
    split; [reflexivity|]. split; [reflexivity|]. split; [reflexivity|]. intros t _. rewrite ES. destruct (rge_fun_m2 t l D2A) as (v & EV & Z).
    exists v. split; [exact EV|]. intros i _. rewrite Z. apply derivable_pt_lim_const.
  - exists C'. unfold rgevolve, check_initial. cbn [s_C_in s_scale_in]. rewrite bind_Ok. cbn [fst snd]. unfold smeft_evolve, smeft_evolve0. rewrite D2A, bind_Ok.
    unfold py_log. destruct (Rlt_dec 0 91) as [_|N]; [|exfalso; apply N; lra]. rewrite bind_Ok. destruct (Rlt_dec 0 1000) as [_|N]; [|exfalso; apply N; lra]. rewrite bind_Ok.
    unfold ex_ode. rewrite ES. destruct (list_eq_dec Req_EM_T (view_float l) (view_float l)) as [_|N]; [|now contradiction N]. rewrite bind_Ok. cbn [fst]. rewrite view_cf, bind_Ok. exact A2D.
Qed.
Print Assumptions C63_two_passes.
Print Assumptions C63_sm_run_up.
Print Assumptions C63_run_result.
