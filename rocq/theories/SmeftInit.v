(* Lemmas for C63: loading a WC instance and determining the SM parameters. *)
From Coq Require Import List Bool ZArith Arith Lia String Ascii Reals Lra Psatz Setoid Morphisms.
From Verif Require Import PyBase Num SymModel SymClass EftModel EftSpec EftProofs EftRound EftRound2 EftProps EftInit BasisProps NpModel NpProofs RotModel BetaSpec BetaModel BetaProofs RotProofs RotProps BetaProg BetaSM
  RgeModel RgeProofs RgeProps RealC UpProofs UpProps SmparModel SmparProofs SmparProps SmeftModel SmeftProofs SmeftProps.
Import ListNotations.
Local Open Scope string_scope.
Local Open Scope list_scope.
Local Open Scope R_scope.

Lemma dget_upd_other {V} (d e : dict string V) k : ~ In k (dkeys e) -> dget (dupdate d e) k = dget d k.
Proof.
  revert d. induction e as [|[j w] e IH]; intros d N; [reflexivity|]. cbn [dkeys map fst In] in N. change (dupdate d ((j, w) :: e)) with (dupdate (dset d j w) e).
  rewrite IH by tauto. apply dget_dset_neq. intros ->. tauto.
Qed.
Lemma only_keys_In ks C k : In k (dkeys (only_keys ks C)) -> In k ks.
Proof. unfold only_keys, dfilter, dkeys. intros H. apply in_map_iff in H as ([j v] & <- & H). apply filter_In in H as [_ H]. now apply kmem_In in H. Qed.
Lemma rot_wf E msvd mtakfac rs rp C D : rotate_defaultbasis E msvd mtakfac rs rp C = Ok D -> wfdict D.
Proof.
  unfold rotate_defaultbasis. intros H. do 7 (apply bind_inv in H as (? & _ & H)). revert H. unfold smeft_flavor_rotation.
  assert (A : forall U r ks C0 D, @rot_keys_strict CR U C r ks C0 = Ok D -> wfdict C0 -> wfdict D).
  { intros U r ks. induction ks as [|k ks IH]; intros C0 D0 H W; cbn [rot_keys_strict] in H; [now injection H as <-|].
    destruct (dget C k); [|discriminate]. apply bind_inv in H as (v & _ & H). apply (IH _ _ H). now apply wf_dset. }
  assert (B : forall U rs C0 D, @rot_all_strict CR U C rs C0 = Ok D -> wfdict C0 -> wfdict D).
  { intros U rules. induction rules as [|[ks r] rules IH]; intros C0 D0 H W; cbn [rot_all_strict] in H; [now injection H as <-|].
    apply bind_inv in H as (C1 & H1 & H). apply (IH _ _ H). exact (A _ _ _ _ _ H1 W). }
  intros H. apply (B _ _ _ _ H). constructor.
Qed.

(* every value of C has the shape of its name *)
Definition fits (C : cdictR) : Prop := forall k v, dget C k = Some v -> exists ts, dget op_fields k = Some ts /\
  vshape v = map (fun _ => 3%nat) ts /\ (ts = [] -> exists z, v = CNum z).
(* the Wilson coefficients are there *)
Definition has_wcs (C : cdictR) : Prop := forall k, In k (dkeys wc_fields) -> dget C k <> None.
Lemma fits_upd Z C : wfdict C -> fits Z -> fits C -> fits (dupdate Z C).
Proof. intros W FZ FC k v H. rewrite dget_dupdate in H by exact W. destruct (dget C k) eqn:X; [injection H as <-; now apply FC|now apply FZ]. Qed.
Lemma fits_point C : fits C -> (forall k, In k (dkeys op_fields) -> dget C k <> None) -> smeft_point C.
Proof.
  intros F H k ts T. specialize (H k (dget_Some_key _ _ _ T)). destruct (dget C k) as [v|] eqn:X; [|now contradiction H].
  destruct (F k v X) as (ts' & T' & S & Z). rewrite T in T'. injection T' as <-. exists v. auto.
Qed.
Lemma point_fits C : smeft_point C -> (forall k, dget op_fields k = None -> dget C k = None) -> fits C.
Proof.
  intros P N k v H. destruct (dget op_fields k) as [ts|] eqn:T; [|rewrite (N k T) in H; discriminate]. exists ts. split; [reflexivity|].
  destruct (P k ts T) as (v' & H' & S). rewrite H in H'. injection H' as <-. exact S.
Qed.
Lemma wc_op k ts : dget wc_fields k = Some ts -> dget op_fields k = Some ts.
Proof. intros H. apply In_dget; [exact op_fields_wf|]. unfold op_fields. apply in_app_iff. right. now apply dget_In. Qed.
Lemma coefficients_fits (C : cdictR) : coefficients C -> fits C.
Proof.
  intros H k v E. destruct (H k v E) as (ts & T & S). exists ts. split; [now apply wc_op|].
  destruct ts as [|t ts]; [destruct S as (z & ->); split; [reflexivity|eauto]|destruct S as (a & ->); split; [reflexivity|discriminate]].
Qed.
Lemma fits_getre C k v : fits C -> dget C k = Some v -> getz C k = Ok (coef C k []) /\ getre C k = Ok (fst (coef C k [] : cx)).
Proof. intros _ H. unfold getre, getz, getC, coef. rewrite H. auto. Qed.

(* loading *)
Section Load.
Variable E : eft.
Variable dim4 : list string.
Hypothesis OK : eft_ok E warsaw_ops.
Hypothesis LY : smeft_layout E.
Hypothesis D4 : forall k, In k dim4 <-> In k (dkeys sm_fields).
Lemma fill_full C : full_symmetric C -> fill_zeros E dim4 C = C.
Proof.
  intros (W & A & _). unfold fill_zeros.
  assert (G : forall l : shapes, (forall k, In k (dkeys l) -> In k (dkeys (e_shape E))) ->
    fold_left (fun C ks => if negb (dmem C (fst ks)) && negb (kmem (fst ks) dim4)
      then dset C (fst ks) (match snd ks with None => CNum (rc 0) | Some s => CArr s (fun _ => rc 0) end) else C) l C = C).
  { induction l as [|[k s] l IH]; intros IN; [reflexivity|]. cbn [fold_left fst snd].
    assert (X : negb (dmem C k) && negb (kmem k dim4) = false).
    { assert (IK : In k (dkeys op_fields)) by (apply (proj1 (proj2 LY)), IN; now left). apply dkeys_split in IK as [IK|IK].
      - apply D4, kmem_In in IK. rewrite IK. apply andb_false_r.
      - assert (M : dmem C k = true); [|now rewrite M]. assert (X : dget C k <> None) by (apply A, warsaw_wc; intros N; apply dget_None in N; contradiction). rewrite dmem_dget. destruct (dget C k); [reflexivity|now contradiction X]. }
    rewrite X. apply IH. intros k' H. apply IN. now right. }
  now apply G.
Qed.
Lemma load_ok w : wc_eft w = "SMEFT" -> wc_basis w = "Warsaw" -> wfdict (wc_values w) -> (forall k, In k (dkeys (wc_values w)) -> In k (e_all E)) ->
  exists C0, wcxf2arrays_symmetrized E (wc_values w) = Ok C0 /\ full_symmetric C0 /\ load_wcxf E dim4 (mkSmeft None None) w = Ok (mkSmeft (Some C0) (Some (wc_scale w))).
Proof.
  intros E1 E2 W IN. destruct (load E OK (wc_values w) W IN) as (C0 & EC & F). exists C0. split; [exact EC|]. split; [exact F|].
  unfold load_wcxf. rewrite E1, E2, EC. cbn [String.eqb Ascii.eqb Bool.eqb negb bind s_C_in]. now rewrite (fill_full C0 F).
Qed.
End Load.

(* running to the same scale *)
Lemma same_scale_point E (ode : ode_solver) C scale newphys : smeft_layout E -> smeft_point C -> 0 < scale -> (forall f t y, exists Y, ode f t t y = Ok (y, Y)) ->
  exists C_out, smeft_evolve E beta_prog ode C scale scale newphys = Ok C_out /\ smeft_point C_out /\ forall k, In k (dkeys op_fields) -> same k C_out C.
Proof.
  intros LY P L ODE. destruct (C18_dict_roundtrip CR E C (proj1 LY) (point_has_shape E C LY P)) as (l & C' & D2A & LL & A2D & _ & RT).
  destruct (C45_same_scale E ode C scale newphys LY P L ODE) as (C2 & E2 & S2). exists C2. split; [exact E2|]. split; [|exact S2].
  assert (X : C' = C2).
  { unfold smeft_evolve, smeft_evolve0 in E2. rewrite D2A, bind_Ok in E2. unfold py_log in E2. destruct (Rlt_dec 0 scale) as [_|N]; [|contradiction].
    rewrite !bind_Ok in E2. destruct (ODE (rge_fun E beta_prog newphys) (ln scale) (view_float l)) as (Y & Q). rewrite Q in E2. rewrite bind_Ok in E2. cbn [fst] in E2.
    rewrite view_cf, bind_Ok in E2. congruence. }
  subst C'. apply (has_shape_point E C2 LY). intros k s HS. destruct (RT k s HS) as (v & v' & V & V' & Q). exists v'. split; [exact V'|].
  destruct (point_has_shape E C LY P k s HS) as (v0 & V0 & S0). rewrite V in V0. injection V0 as <-. exact (cv_eq_shape s v v' S0 Q).
Qed.

(* smeftpar looks at some of the coefficients only *)
Definition smeftpar_scalars : list string := ["phi"; "phiBox"; "phiD"; "phiG"; "phiW"; "phiB"; "phiWB"].
Definition matrix_like (C C' : cdictR) (k : string) : Prop := exists M M', getm C k = Ok M /\ getm C' k = Ok M' /\ meq M' M.
Definition like (C C' : cdictR) : Prop :=
  (forall k, In k smeftpar_scalars -> getz C' k = getz C k) /\ matrix_like C C' "uphi" /\ matrix_like C C' "dphi" /\ matrix_like C C' "ephi".
Section Yuk.
Add Field KFyk : (k_field CR).
Lemma yuk_meq v M W W' : meq W' W -> meq (yuk v M W') (yuk v M W).
Proof. intros E. split. intros i j Hi Hj. unfold yuk. now rewrite (meq_at _ _ E i j Hi Hj). Qed.
End Yuk.
(* what smeftpar returns *)
Definition sm_dict (m2 lam g gp gs : R) (Gd Gu Ge : cmat) : cdictR :=
  [("m2", CNum (rc m2)); ("Lambda", CNum (rc lam)); ("g", CNum (rc g)); ("gp", CNum (rc gp)); ("gs", CNum (rc gs)); ("Gd", arr2 Gd); ("Gu", arr2 Gu); ("Ge", arr2 Ge)].
Lemma smeftpar_inv brentq ckm_tree p C c : smeftpar brentq ckm_tree p C "Warsaw" = Ok c ->
  exists m2 lam g gp gs cd cu ce, getm C "dphi" = Ok cd /\ getm C "uphi" = Ok cu /\ getm C "ephi" = Ok ce /\
    c = sm_dict m2 lam g gp gs (yuk (vev p) (diagm (i_md p)) cd)
      (yuk (vev p) (mm (dagm (ckm_tree (i_Vus p) (i_Vub p) (i_Vcb p) (i_gamma p))) (diagm (i_mu p))) cu) (yuk (vev p) (diagm (i_me p)) ce).
Proof.
  intros H. unfold smeftpar in H. cbn zeta in H. fold (vev p) in H. apply bind_inv in H as ((m2 & lam) & _ & H). apply bind_inv in H as (cG & _ & H). apply bind_inv in H as (cW & _ & H).
  apply bind_inv in H as (gp & _ & H). cbn [String.eqb Ascii.eqb Bool.eqb bind] in H. apply bind_inv in H as (cd & E1 & H). apply bind_inv in H as (cu & E2 & H). apply bind_inv in H as (ce & E3 & H).
  cbn [fst snd] in H. do 5 eexists. exists cd, cu, ce. split; [exact E1|]. split; [exact E2|]. split; [exact E3|].
  apply (f_equal (fun r => match r with Ok a => a | Err _ => [] end)) in H. cbn beta iota in H. symmetry. exact H.
Qed.
Lemma smeftpar_like brentq ckm_tree p C C' c : like C C' -> smeftpar brentq ckm_tree p C "Warsaw" = Ok c ->
  exists m2 lam g gp gs Gd Gu Ge Gd' Gu' Ge', c = sm_dict m2 lam g gp gs Gd Gu Ge /\
    smeftpar brentq ckm_tree p C' "Warsaw" = Ok (sm_dict m2 lam g gp gs Gd' Gu' Ge') /\ meq Gd' Gd /\ meq Gu' Gu /\ meq Ge' Ge.
Proof.
  intros (S & (cu & cu' & Eu & Eu' & Mu) & (cd & cd' & Ed & Ed' & Md) & (ce & ce' & Ee & Ee' & Me)) H.
  assert (R : forall k, In k smeftpar_scalars -> getre C' k = getre C k) by (intros k Hk; unfold getre; now rewrite (S k Hk)).
  assert (V : forall v m, vMh2_to_m2Lambda v m C' = vMh2_to_m2Lambda v m C) by (intros v m; unfold vMh2_to_m2Lambda; now rewrite !R by (cbn; tauto)).
  assert (G : forall e g v, get_gpbar brentq e g v C' = get_gpbar brentq e g v C) by (intros e g v; unfold get_gpbar; rewrite S, R by (cbn; tauto); reflexivity).
  unfold smeftpar in *. cbn zeta in *. fold (vev p) in *. rewrite V, !G, !R by (cbn; tauto). rewrite Ed', Eu', Ee'. rewrite Ed, Eu, Ee in H.
  apply bind_inv in H as ((m2 & lam) & E1 & H). apply bind_inv in H as (cG & E2 & H). apply bind_inv in H as (cW & E3 & H). apply bind_inv in H as (gp & E4 & H).
  rewrite E1, E2, E3. cbn [bind]. rewrite E4. cbn [String.eqb Ascii.eqb Bool.eqb bind fst snd] in *.
  apply (f_equal (fun r => match r with Ok a => a | Err _ => [] end)) in H. cbn beta iota in H. symmetry in H.
  do 11 eexists. split; [exact H|]. split; [reflexivity|]. split; [|split]; now apply yuk_meq.
Qed.
