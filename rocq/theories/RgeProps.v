(* C33, C44, C45: solving the SMEFT RGEs (run/smeft/rge.py).  Numbers are the complex
   numbers over Coq's reals; coef C k I is the entry I of the array C[k] (BetaSpec.v). *)
From Coq Require Import List Bool ZArith QArith Reals Arith Lia Lra String Ascii.
From Verif Require Import PyBase Num SymModel EftModel EftSpec EftProofs EftProps NpModel NpProofs BetaModel BetaProg BetaNorm BetaSpec BetaSound BetaCov BetaFacts BetaProofs BetaSM BetaProps RealC RgeModel RgeProofs RgeSolve.
Import ListNotations.
Local Open Scope string_scope.
Local Open Scope list_scope.
Local Open Scope K_scope.

Lemma bind_Ok {A B} (a : A) (f : A -> res B) : bind (Ok a) f = f a.
Proof. reflexivity. Qed.
Lemma NoDup_app_single {A} (l : list A) x : ~ In x l -> NoDup l -> NoDup (l ++ [x]).
Proof. intros NI ND. apply (NoDup_Add (Add_app x l [])). rewrite app_nil_r. auto. Qed.
Lemma rc1_neq0 : rc 1 <> 0.
Proof. intros E. apply (rc_inj 1 0) in E. lra. Qed.
Lemma py_log_pos si so : si <> 0%R -> (0 < so / si)%R -> bind (py_div so si) py_log = Ok (ln (so / si)).
Proof.
  intros N P. unfold py_div. destruct (Req_EM_T si 0) as [E|_]; [contradiction|]. cbn [bind]. unfold py_log.
  destruct (Rlt_dec 0 (so / si)); [reflexivity|contradiction].
Qed.
Lemma point_shape {K : StarField} (C : dict string (cval K)) k ts : smeft_point C -> dget op_fields k = Some ts ->
  exists v, dget C k = Some v /\ vshape v = map (fun _ => 3%nat) ts /\ (vshape v = [] -> exists z, v = CNum z).
Proof.
  intros P T. destruct (P k ts T) as (v & V & S & Z). exists v. split; [exact V|]. split; [exact S|]. intros E. apply Z.
  rewrite S in E. destruct ts; [reflexivity|discriminate].
Qed.
(* leading log with any dictionary b of beta functions that is a point *)
Lemma ll_run E (s : store) a si so np b : (a < List.length s)%nat -> smeft_point (nth a s []) -> wfdict (nth a s []) ->
  (forall k, In k (dkeys (nth a s [])) -> In k (dkeys op_fields)) -> si <> 0%R -> (0 < so / si)%R ->
  beta_of E beta_prog (nth a s []) (rc 1) np = Ok b -> smeft_point b ->
  exists s', smeft_evolve_leadinglog E beta_prog s a si so np = Ok (s', List.length s) /\
    (forall j, (j < List.length s)%nat -> nth j s' [] = nth j s []) /\
    dkeys (nth (List.length s) s' []) = dkeys (nth a s []) /\ smeft_point (nth (List.length s) s' []) /\
    (forall k I, In k (dkeys op_fields) -> In I (indices_of k) ->
       coef (nth (List.length s) s' []) k I = coef (nth a s []) k I + coef b k I * rc (ln (so / si) / (16 * PI ^ 2))).
Proof.
  intros L P W KS NZ PO EB PB. rewrite evolve_unfold.
  set (C := nth a s []) in *. set (s1 := s ++ [C]). set (o := List.length s).
  assert (N1 : nth o s1 [] = C) by (unfold s1, o; rewrite app_nth2, Nat.sub_diag by lia; reflexivity).
  assert (L1 : (o < List.length s1)%nat) by (unfold s1, o; rewrite app_length; cbn; lia).
  pose proof (py_log_pos si so NZ PO) as EL. rewrite EB, bind_Ok.
  assert (STP : forall k ts, dget op_fields k = Some ts -> exists c v, dget C k = Some c /\ ll_step b si so k c = Ok v /\ vshape v = map (fun _ => 3%nat) ts /\
     (ts = [] -> exists z, v = CNum z) /\ forall I, entry v I = kadd (entry c I) (kmul (coef b k I) (rc (ln (so / si) / sixteen_pi2)))).
  { intros k ts T. destruct (point_shape C k ts P T) as (c & Hc & Sc & Zc). destruct (point_shape b k ts PB T) as (bk & Hb & Sb & Zb).
    destruct (ll_step_val b si so _ k c bk EL Hb ltac:(congruence) Zc Zb) as (v & V & SV & ZV & EV).
    exists c, v. split; [exact Hc|]. split; [exact V|]. split; [congruence|]. split; [intros ->; apply ZV; now rewrite Sc|].
    intros I. rewrite EV. unfold coef. now rewrite Hb. }
  assert (ST : forall k c, In (k, c) C -> exists ts v, dget op_fields k = Some ts /\ ll_step b si so k c = Ok v /\ vshape v = map (fun _ => 3%nat) ts /\
     (ts = [] -> exists z, v = CNum z) /\ forall I, entry v I = kadd (entry c I) (kmul (coef b k I) (rc (ln (so / si) / sixteen_pi2)))).
  { intros k c IN. assert (KO : In k (dkeys op_fields)) by (apply KS; unfold dkeys; apply in_map_iff; exists (k, c); auto).
    destruct (dget op_fields k) as [ts|] eqn:T; [|apply dget_None in T; contradiction].
    destruct (STP k ts T) as (c' & v & Hc & R). rewrite (In_dget _ _ _ W IN) in Hc. injection Hc as <-. exists ts, v. auto. }
  destruct (ll_loop_spec b si so _ EL C s1 o L1 W) as (s' & E' & LS & OT & NK & YK & DK).
  { intros k c IN. destruct (ST k c IN) as (ts & v & _ & V & _). eauto. }
  rewrite E', bind_Ok. exists s'. split; [reflexivity|]. split; [|split; [|split]].
  - intros j LJ. rewrite OT by (unfold o; lia). unfold s1. now rewrite app_nth1.
  - rewrite DK; [now rewrite N1|]. intros k X. now rewrite N1.
  - intros k ts T. destruct (STP k ts T) as (c & v & Hc & V & S & Z & _). exists v. split; [|auto]. apply (YK k c v); [now apply dget_In|exact V].
  - intros k I KO HI. destruct (dget op_fields k) as [ts|] eqn:T; [|apply dget_None in T; contradiction].
    destruct (STP k ts T) as (c & v & Hc & V & S & Z & EV). unfold coef at 1 2. rewrite Hc, (YK k c v (dget_In _ _ _ Hc) V).
    unfold sixteen_pi2 in EV. exact (EV I).
Qed.

(* The leading-log running of a point (with any set of Wilson coefficients) adds to every
   parameter its beta function times log(scale_out/scale_in)/(16 pi^2); the input (at
   address a) and every other dictionary are left as they are. *)
Theorem C33_leadinglog : forall (E : eft) (s : store) (a : nat) (scale_in scale_out : R),
  (a < List.length s)%nat -> smeft_point (nth a s []) -> wfdict (nth a s []) ->
  (forall k, In k (dkeys (nth a s [])) -> In k (dkeys op_fields)) ->
  scale_in <> 0%R -> (0 < scale_out / scale_in)%R ->
  exists D s' o, beta_of E beta_prog (nth a s []) (rc 1) true = Ok D /\
    smeft_evolve_leadinglog E beta_prog s a scale_in scale_out true = Ok (s', o) /\
    (forall j, (j < List.length s)%nat -> nth j s' [] = nth j s []) /\
    dkeys (nth o s' []) = dkeys (nth a s []) /\ smeft_point (nth o s' []) /\
    forall k I, In k (dkeys op_fields) -> In I (indices_of k) ->
      coef (nth o s' []) k I = coef (nth a s []) k I + coef D k I * rc (ln (scale_out / scale_in) / (16 * PI ^ 2)).
Proof.
  intros E s a si so L P W KS NZ PO. destruct (C29_total CR E (nth a s []) (rc 1) P rc1_neq0) as (D & ED & PD & _).
  destruct (ll_run E s a si so true D L P W KS NZ PO ED PD) as (s' & R). exists D, s', (List.length s). split; [exact ED|exact R].
Qed.
(* Equal scales: nothing changes. *)
Theorem C33_equal_scales : forall (E : eft) (s : store) (a : nat) (scale : R),
  (a < List.length s)%nat -> smeft_point (nth a s []) -> wfdict (nth a s []) ->
  (forall k, In k (dkeys (nth a s [])) -> In k (dkeys op_fields)) -> scale <> 0%R ->
  exists s' o, smeft_evolve_leadinglog E beta_prog s a scale scale true = Ok (s', o) /\
    dkeys (nth o s' []) = dkeys (nth a s []) /\
    forall k, In k (dkeys op_fields) -> same k (nth o s' []) (nth a s []).
Proof.
  intros E s a sc L P W KS NZ. assert (Q : (sc / sc = 1)%R) by (now apply Rinv_r). 
  destruct (C33_leadinglog E s a sc sc L P W KS NZ ltac:(rewrite Q; lra)) as (D & s' & o & _ & ES & _ & DK & _ & V).
  exists s', o. split; [exact ES|]. split; [exact DK|]. intros k Hk I HI. rewrite (V k I Hk HI), Q, ln_1.
  replace (0 / (16 * PI ^ 2))%R with 0%R by (unfold Rdiv; ring). rewrite rc_0, kmul_0_r. apply kadd_0_r.
Qed.
(* The change is additive in the logarithm of the scale: from mu1 to mu3 it is the sum of
   the changes from mu1 to mu2 and from mu2 to mu3 (of the same point). *)
Theorem C33_additive : forall (E : eft) (s : store) (a : nat) (mu1 mu2 mu3 : R),
  (a < List.length s)%nat -> smeft_point (nth a s []) -> wfdict (nth a s []) ->
  (forall k, In k (dkeys (nth a s [])) -> In k (dkeys op_fields)) -> (0 < mu1)%R -> (0 < mu2)%R -> (0 < mu3)%R ->
  exists s12 o12 s23 o23 s13 o13,
    smeft_evolve_leadinglog E beta_prog s a mu1 mu2 true = Ok (s12, o12) /\
    smeft_evolve_leadinglog E beta_prog s a mu2 mu3 true = Ok (s23, o23) /\
    smeft_evolve_leadinglog E beta_prog s a mu1 mu3 true = Ok (s13, o13) /\
    forall k I, In k (dkeys op_fields) -> In I (indices_of k) ->
      coef (nth o13 s13 []) k I - coef (nth a s []) k I =
      (coef (nth o12 s12 []) k I - coef (nth a s []) k I) + (coef (nth o23 s23 []) k I - coef (nth a s []) k I).
Proof.
  intros E s a m1 m2 m3 L P W KS P1 P2 P3.
  assert (Q : forall x y, (0 < x)%R -> (0 < y)%R -> (0 < y / x)%R) by (intros; now apply Rdiv_lt_0_compat).
  destruct (C33_leadinglog E s a m1 m2 L P W KS ltac:(lra) (Q _ _ P1 P2)) as (D & s12 & o12 & ED & E12 & _ & _ & _ & V12).
  destruct (C33_leadinglog E s a m2 m3 L P W KS ltac:(lra) (Q _ _ P2 P3)) as (D' & s23 & o23 & ED' & E23 & _ & _ & _ & V23).
  rewrite ED in ED'. injection ED' as <-.
  destruct (C33_leadinglog E s a m1 m3 L P W KS ltac:(lra) (Q _ _ P1 P3)) as (D' & s13 & o13 & ED' & E13 & _ & _ & _ & V13).
  rewrite ED in ED'. injection ED' as <-.
  exists s12, o12, s23, o23, s13, o13. split; [exact E12|]. split; [exact E23|]. split; [exact E13|].
  intros k I Hk HI. rewrite (V12 k I Hk HI), (V23 k I Hk HI), (V13 k I Hk HI).
  assert (LN : (ln (m3 / m1) = ln (m2 / m1) + ln (m3 / m2))%R).
  { rewrite <- ln_mult by auto. f_equal. field. lra. }
  rewrite LN. replace ((ln (m2 / m1) + ln (m3 / m2)) / (16 * PI ^ 2))%R with (ln (m2 / m1) / (16 * PI ^ 2) + ln (m3 / m2) / (16 * PI ^ 2))%R by (unfold Rdiv; ring).
  rewrite rc_add. generalize (rc (ln (m2 / m1) / (16 * PI ^ 2))) (rc (ln (m3 / m2) / (16 * PI ^ 2))) (coef (nth a s []) k I) (coef D k I).
  intros x y c d. exact (add_ring c d x y).
Qed.
(* Without new physics in the RGEs the Wilson coefficients stay as they are. *)
Theorem C33_newphys_off : forall (E : eft) (s : store) (a : nat) (scale_in scale_out : R),
  smeft_layout E -> (a < List.length s)%nat -> smeft_point (nth a s []) -> wfdict (nth a s []) ->
  (forall k, In k (dkeys (nth a s [])) -> In k (dkeys op_fields)) ->
  scale_in <> 0%R -> (0 < scale_out / scale_in)%R ->
  exists D s' o, beta_of E beta_prog (nth a s []) (rc 1) true = Ok D /\
    smeft_evolve_leadinglog E beta_prog s a scale_in scale_out false = Ok (s', o) /\
    (forall j, (j < List.length s)%nat -> nth j s' [] = nth j s []) /\
    (forall k, In k (dkeys wc_fields) -> same k (nth o s' []) (nth a s [])) /\
    forall k I, In k (dkeys sm_fields) -> In I (indices_of k) ->
      coef (nth o s' []) k I = coef (nth a s []) k I + coef D k I * rc (ln (scale_out / scale_in) / (16 * PI ^ 2)).
Proof.
  intros E s a si so LY L P W KS NZ PO. destruct (beta_off E (nth a s []) (rc 1) LY P rc1_neq0) as (D & D0 & ED & ED0 & K0 & S0 & W0).
  assert (PD : smeft_point D0) by (exact (beta_off_point E (nth a s []) (rc 1) D0 LY P rc1_neq0 ED0)).
  destruct (ll_run E s a si so false D0 L P W KS NZ PO ED0 PD) as (s' & ES & OT & DK & PS & V).
  exists D, s', (List.length s). split; [exact ED|]. split; [exact ES|]. split; [exact OT|]. split.
  - intros k Hk I HI. assert (KO : In k (dkeys op_fields)) by (apply dkeys_split; now right).
    rewrite (V k I KO HI), (W0 k I Hk HI), kmul_0_l. apply kadd_0_r.
  - intros k I Hk HI. assert (KO : In k (dkeys op_fields)) by (apply dkeys_split; now left).
    now rewrite (V k I KO HI), (S0 k I Hk HI).
Qed.
(* An unknown parameter in the dictionary is an error, not silently kept. *)
Theorem C33_unknown_parameter : forall (E : eft) (s : store) (a : nat) (scale_in scale_out : R) (k0 : string),
  smeft_point (nth a s []) -> wfdict (nth a s []) -> In k0 (dkeys (nth a s [])) -> ~ In k0 (dkeys op_fields) ->
  scale_in <> 0%R -> (0 < scale_out / scale_in)%R ->
  smeft_evolve_leadinglog E beta_prog s a scale_in scale_out true = Err KeyError.
Proof.
  intros E s a si so k0 P W IN NI NZ PO. rewrite evolve_unfold.
  set (C := nth a s []) in *. set (s1 := s ++ [C]). set (o := List.length s).

  destruct (C29_total CR E C (rc 1) P rc1_neq0) as (D & -> & PD & NK). rewrite bind_Ok.
  pose proof (py_log_pos si so NZ PO) as EL.
  assert (G : forall items s2, (forall k c, In (k, c) items -> dget C k = Some c) -> In k0 (dkeys items) -> ll_loop D si so items s2 o = Err KeyError).
  { induction items as [|[k c] items IH]; intros s2 IC IK; [destruct IK|]. cbn [ll_loop].
    destruct (in_dec string_dec k (dkeys op_fields)) as [KO|KO].
    - destruct (dget op_fields k) as [ts|] eqn:T; [|apply dget_None in T; contradiction].
      destruct (point_shape C k ts P T) as (c' & Hc & Sc & Zc). rewrite (IC k c (or_introl eq_refl)) in Hc. injection Hc as <-.
      destruct (point_shape D k ts PD T) as (bk & Hb & Sb & Zb).
      destruct (ll_step_val D si so _ k c bk EL Hb ltac:(congruence) Zc Zb) as (v & -> & _). rewrite bind_Ok.
      apply IH; [intros; apply IC; now right|]. destruct IK as [<-|IK]; [contradiction|exact IK].
    - unfold ll_step, lookup. rewrite (NK k KO). reflexivity. }
  rewrite G; [reflexivity| |exact IN]. intros k c X. now apply In_dget.
Qed.
(* non-vacuity of C33: a point with one number h k per parameter *)
Definition mk_val {K : StarField} (z : K) (ts : list slot) : cval K :=
  match ts with [] => CNum z | _ => CArr (map (fun _ => 3%nat) ts) (fun I => if forallb (Nat.eqb 0) I then z else 0) end.
Definition ex_pt {K : StarField} (h : string -> K) : dict string (cval K) := map (fun p => (fst p, mk_val (h (fst p)) (snd p))) op_fields.
Lemma ex_pt_keys {K : StarField} (h : string -> K) : dkeys (ex_pt h) = dkeys op_fields.
Proof. unfold ex_pt, dkeys. now rewrite map_map. Qed.
Lemma ex_pt_wf {K : StarField} (h : string -> K) : wfdict (ex_pt h).
Proof. unfold wfdict. rewrite ex_pt_keys. exact op_fields_wf. Qed.
Lemma ex_pt_point {K : StarField} (h : string -> K) : smeft_point (ex_pt h).
Proof.
  intros k ts T. exists (mk_val (h k) ts). split.
  - unfold ex_pt. revert T. generalize op_fields. intros l.
    induction l as [|[j x] l IH]; cbn [dget map fst snd]; [discriminate|]. destruct (keqb_spec k j) as [<-|]; [intros [= ->]; reflexivity|exact IH].
  - destruct ts; cbn [mk_val vshape]; (split; [reflexivity|]); [eauto|discriminate].
Qed.
Definition ex33_pt : store := [ex_pt (fun k => if String.eqb k "g" then rc (1/2) else rc 0)].
Example ex33 : (0 < List.length ex33_pt)%nat /\ smeft_point (nth 0 ex33_pt []) /\ wfdict (nth 0 ex33_pt []) /\
  (forall k, In k (dkeys (nth 0 ex33_pt [])) -> In k (dkeys op_fields)) /\ (1000 <> 0)%R /\ (0 < 91 / 1000)%R.
Proof.
  unfold ex33_pt. cbn [nth List.length]. split; [lia|]. split; [apply ex_pt_point|]. split; [apply ex_pt_wf|]. split; [rewrite ex_pt_keys; auto|]. lra.
Qed.
(* ... and one with an unknown parameter *)
Example ex33_unknown : smeft_point (nth 0 [ex_pt (fun _ => rc 0) ++ [("foo", CNum (rc 1))]] []) /\
  wfdict (nth 0 [ex_pt (fun _ => rc 0) ++ [("foo", CNum (rc 1))]] []) /\
  In "foo" (dkeys (nth 0 [ex_pt (fun _ => rc 0) ++ [("foo", CNum (rc 1))]] [])) /\ ~ In "foo" (dkeys op_fields).
Proof.
  assert (NI : ~ In "foo" (dkeys op_fields)) by (apply kmem_nIn; vm_compute; reflexivity).
  assert (GA : forall (l m : dict string (cval CR)) k v, dget l k = Some v -> dget (l ++ m) k = Some v).
  { induction l as [|[j w] l IH]; intros m k v; [discriminate|]. cbn [app dget]. destruct (keqb k j); auto. }
  cbn [nth]. split; [|split; [|split; [|exact NI]]].
  - intros k ts T. destruct (ex_pt_point (fun _ => rc 0) k ts T) as (v & V & S & Z). exists v. split; [now apply GA|auto].
  - unfold wfdict, dkeys. rewrite map_app. cbn [map fst]. change (map fst (ex_pt (fun _ => rc 0))) with (dkeys (ex_pt (fun _ => rc 0))).
    rewrite ex_pt_keys. apply NoDup_app_single; [exact NI|exact op_fields_wf].
  - unfold dkeys. rewrite map_app. apply in_or_app. right. now left.
Qed.

(* ---------- C44 ---------- *)
(* the order of the parameters, as documented in util/test_smeftutil.py:95-113 *)
Definition smeft_order : list string :=
  ["g"; "gp"; "gs"; "Lambda"; "m2"; "Gu"; "Gd"; "Ge"] ++
  ["G"; "Gtilde"; "W"; "Wtilde"; "phi"; "phiBox"; "phiD"; "phiG"; "phiB"; "phiW"; "phiWB"; "phiGtilde"; "phiBtilde"; "phiWtilde"; "phiWtildeB"] ++
  ["uphi"; "dphi"; "ephi"; "eW"; "eB"; "uG"; "uW"; "uB"; "dG"; "dW"; "dB"; "phil1"; "phil3"; "phie"; "phiq1"; "phiq3"; "phiu"; "phid"; "phiud"; "llphiphi"] ++
  ["ll"; "qq1"; "qq3"; "lq1"; "lq3"; "ee"; "uu"; "dd"; "eu"; "ed"; "ud1"; "ud8"; "le"; "lu"; "ld"; "qe"; "qu1"; "qd1"; "qu8"; "qd8"; "ledq"; "quqd1"; "quqd8";
   "lequ1"; "lequ3"; "duql"; "qque"; "qqql"; "duue"].
Lemma beta_order : prog_keys beta_prog [] = smeft_order.
Proof. vm_compute. reflexivity. Qed.
(* If smeftutil lists the parameters in this order, the array returned by beta_array is the
   beta function in the layout of C_dict2array/C_array2dict: reading it back gives beta. *)
Theorem C44_layout : forall (K : StarField) (E : eft) (C : dict string (cval K)) (H : K) (newphys : bool),
  smeft_layout E -> dkeys (e_shape E) = smeft_order -> smeft_point C -> H <> 0 ->
  exists D l D', beta_of E beta_prog C H newphys = Ok D /\ beta_array E beta_prog C H newphys = Ok l /\
    C_dict2array E D = Ok l /\ C_array2dict E l = Ok D' /\ smeft_point D' /\
    forall k, In k (dkeys op_fields) -> same k D' D.
Proof. intros K E C H np LY OR. apply beta_array_layout; [exact LY|]. rewrite OR. symmetry. exact beta_order. Qed.
Definition layout_chk (E : eft) : bool :=
  knodup (dkeys (e_shape E)) && forallb (fun k => kmem k (dkeys op_fields)) (dkeys (e_shape E)) &&
  forallb (fun p => keqb (dget (e_shape E) (fst p)) (Some (layout_of (snd p)))) op_fields.
Lemma layout_chk_sound E : layout_chk E = true -> smeft_layout E.
Proof.
  unfold layout_chk. rewrite !andb_true_iff. intros [[B B1] B2]. rewrite forallb_forall in B1, B2.
  assert (SH : forall k ts, dget op_fields k = Some ts -> dget (e_shape E) k = Some (layout_of ts)).
  { intros k ts T. apply dget_In in T. specialize (B2 _ T). now apply keqb_true in B2. }
  split; [now apply knodup_NoDup|]. split; [|exact SH]. intros k. split.
  - intros X. apply B1 in X. now apply kmem_In.
  - intros X. destruct (dget op_fields k) as [ts|] eqn:T; [|apply dget_None in T; contradiction]. apply SH in T. eapply dget_Some_key; eauto.
Qed.
(* The order matters: with g and gp exchanged in the layout, the array is misread. *)
Definition swap_layout : eft := mkEft [] [] [] [] []
  (map (fun p => (fst p, layout_of (snd p))) (match op_fields with a :: b :: r => b :: a :: r | r => r end)) false.
Definition ex_g : dict string (cval QI) := ex_pt (fun k => if String.eqb k "g" then qone else 0).
Definition chk_swap (D : res (dict string (cval QI))) (l : res (list QI)) : bool :=
  match D, l with
  | Ok D, Ok l => match C_array2dict swap_layout l with Ok D' => negb (kdec (coef D' "g" []) (coef D "g" [])) | _ => false end
  | _, _ => false
  end.
Lemma chk_swap_ok : chk_swap (beta_of swap_layout beta_prog ex_g 1 true) (beta_array swap_layout beta_prog ex_g 1 true) = true.
Proof. vm_compute. reflexivity. Qed.
Lemma chk_swap_sound rD rl : chk_swap rD rl = true -> exists D l D', rD = Ok D /\ rl = Ok l /\ C_array2dict swap_layout l = Ok D' /\ coef D' "g" [] <> coef D "g" [].
Proof.
  unfold chk_swap. destruct rD as [D|]; [|discriminate]. destruct rl as [l|]; [|discriminate].
  destruct (C_array2dict swap_layout l) as [D'|] eqn:E; [|discriminate]. intros CK. exists D, l, D'. repeat split; auto.
  apply negb_true_iff in CK. now apply kdec_false in CK.
Qed.
Theorem C44_order_needed : exists (E : eft) (C : dict string (cval QI)) D l D',
  smeft_layout E /\ smeft_point C /\ beta_of E beta_prog C 1 true = Ok D /\ beta_array E beta_prog C 1 true = Ok l /\
  C_array2dict E l = Ok D' /\ coef D' "g" [] <> coef D "g" [].
Proof.
  destruct (chk_swap_sound _ _ chk_swap_ok) as (D & l & D' & E1 & E2 & E3 & N). exists swap_layout, ex_g, D, l, D'.
  split; [apply layout_chk_sound; vm_compute; reflexivity|]. split; [exact (ex_pt_point _)|]. split; [exact E1|]. split; [exact E2|]. split; [exact E3|exact N].
Qed.
Definition ord_layout : eft := mkEft [] [] [] [] []
  (map (fun k => (k, match dget op_fields k with Some ts => layout_of ts | None => None end)) smeft_order) false.
Example ex44 : smeft_layout ord_layout /\ dkeys (e_shape ord_layout) = smeft_order /\ smeft_point ex_g.
Proof. split; [apply layout_chk_sound; vm_compute; reflexivity|]. split; [vm_compute; reflexivity|exact (ex_pt_point _)]. Qed.

(* ---------- C45 ---------- *)
(* The function handed to the solver is beta/(16 pi^2), in the flat representation. *)
Theorem C45_rhs : forall (E : eft) (newphys : bool) (t : R) (z : list CR) (C : dict string (cval CR)),
  smeft_layout E -> dkeys (e_shape E) = smeft_order -> C_array2dict E z = Ok C ->
  exists D w F, beta_of E beta_prog C (rc 1) newphys = Ok D /\
    rge_fun E beta_prog newphys t (view_float z) = Ok (view_float w) /\ C_array2dict E w = Ok F /\
    forall k I, In k (dkeys op_fields) -> In I (indices_of k) -> coef F k I = coef D k I * rc (1 / (16 * PI ^ 2)).
Proof.
  intros E np t z C LY OR EC.
  assert (LZ : (shape_size (e_shape E) <= List.length z)%nat).
  { destruct (Nat.le_gt_cases (shape_size (e_shape E)) (List.length z)) as [L|L]; [exact L|].
    destruct (C18_short_array_rejected CR E z (proj1 LY) L) as (e & X). congruence. }
  destruct (layout_dict E z LY LZ) as (C0 & E0 & P & _). rewrite EC in E0. injection E0 as <-.
  destruct (C44_layout CR E C (rc 1) np LY OR P rc1_neq0) as (D & b & D' & ED & EB & DA & AD & PD & SD).
  assert (LB : (shape_size (e_shape E) <= List.length b)%nat).
  { destruct (Nat.le_gt_cases (shape_size (e_shape E)) (List.length b)) as [L|L]; [exact L|].
    destruct (C18_short_array_rejected CR E b (proj1 LY) L) as (e & X). congruence. }
  set (w := map (fun x => kmul x (rc (/ sixteen_pi2)) : CR) b).
  assert (LW : (shape_size (e_shape E) <= List.length w)%nat) by (unfold w; now rewrite map_length).
  destruct (layout_dict E w LY LW) as (F & EF & PF & _). exists D, w, F. split; [exact ED|]. split; [|split; [exact EF|]].
  - unfold rge_fun. rewrite view_cf, bind_Ok, EC, bind_Ok, EB, bind_Ok. unfold w. now rewrite view_float_scale.
  - intros k I Hk HI. rewrite <- (SD k Hk I HI). destruct (dget op_fields k) as [ts|] eqn:T; [|apply dget_None in T; contradiction].
    destruct (coef_position E w F k ts I LY LW EF T HI) as [_ ->]. destruct (coef_position E b D' k ts I LY LB AD T HI) as [B ->].
    unfold w. rewrite (nth_indep _ 0 (kmul 0 (rc (/ sixteen_pi2)) : CR)) by (now rewrite map_length).
    rewrite (map_nth (fun x => kmul x (rc (/ sixteen_pi2)) : CR)). unfold sixteen_pi2, Rdiv. now rewrite Rmult_1_l.
Qed.
(* A solver that returns the start value when there is nothing to integrate: running to the
   same scale gives the point back. *)
Theorem C45_same_scale : forall (E : eft) (ode : ode_solver) (C : dict string (cval CR)) (scale : R) (newphys : bool),
  smeft_layout E -> smeft_point C -> (0 < scale)%R -> (forall f t y, exists Y, ode f t t y = Ok (y, Y)) ->
  exists C_out, smeft_evolve E beta_prog ode C scale scale newphys = Ok C_out /\
    forall k, In k (dkeys op_fields) -> same k C_out C.
Proof.
  intros E ode C sc np LY P L ODE. destruct (C18_dict_roundtrip CR E C (proj1 LY) (point_has_shape E C LY P)) as (l & C' & D2A & LL & A2D & _ & RT).
  unfold smeft_evolve, smeft_evolve0. rewrite D2A, bind_Ok. unfold py_log. destruct (Rlt_dec 0 sc) as [_|N]; [|contradiction].
  rewrite !bind_Ok. destruct (ODE (rge_fun E beta_prog np) (ln sc) (view_float l)) as (Y & ->). rewrite bind_Ok. cbn [fst].
  rewrite view_cf, bind_Ok. exists C'. split; [exact A2D|].
  intros k Hk I HI. destruct (dget op_fields k) as [ts|] eqn:T; [|apply dget_None in T; contradiction].
  pose proof LY as (_ & _ & SH). destruct (RT k _ (SH k ts T)) as (v & v' & V & V' & Q). unfold coef. rewrite V, V'. symmetry.
  destruct (P k ts T) as (v0 & V0 & S0 & _). rewrite V in V0. injection V0 as <-. now apply (cv_eq_entry k ts).
Qed.
(* Y solves y' = f(t, y) between t0 and t1 with the start value y0 *)
Definition solution (f : R -> list R -> res (list R)) (t0 t1 : R) (y0 : list R) (Y : R -> list R) : Prop :=
  Y t0 = y0 /\ (forall t, List.length (Y t) = List.length y0) /\
  forall t, (Rmin t0 t1 <= t <= Rmax t0 t1)%R -> exists v, f t (Y t) = Ok v /\
    forall i, (i < List.length y0)%nat -> derivable_pt_lim (fun s => nth i (Y s) 0%R) t (nth i v 0%R).
(* If the solver solves the differential equation it is given, smeft_evolve solves the RGE
   16 pi^2 dC/dln(mu) = beta(C) from C at scale_in to its result at scale_out. *)
Theorem C45_solves : forall (E : eft) (ode : ode_solver) (C : dict string (cval CR)) (scale_in scale_out : R) (newphys : bool),
  smeft_layout E -> dkeys (e_shape E) = smeft_order -> smeft_point C -> (0 < scale_in)%R -> (0 < scale_out)%R ->
  (forall z, C_dict2array E C = Ok z -> exists Y,
     ode (rge_fun E beta_prog newphys) (ln scale_in) (ln scale_out) (view_float z) = Ok (Y (ln scale_out), Y) /\
     solution (rge_fun E beta_prog newphys) (ln scale_in) (ln scale_out) (view_float z) Y) ->
  exists (G : R -> dict string (cval CR)) C_out, smeft_evolve E beta_prog ode C scale_in scale_out newphys = Ok C_out /\
    (forall k, In k (dkeys op_fields) -> same k (G (ln scale_in)) C /\ same k (G (ln scale_out)) C_out) /\
    forall t, (Rmin (ln scale_in) (ln scale_out) <= t <= Rmax (ln scale_in) (ln scale_out))%R ->
      smeft_point (G t) /\ exists D, beta_of E beta_prog (G t) (rc 1) newphys = Ok D /\
      forall k I, In k (dkeys op_fields) -> In I (indices_of k) ->
        derivable_pt_lim (fun s => fst (coef (G s) k I)) t (fst (coef D k I) / (16 * PI ^ 2))%R /\
        derivable_pt_lim (fun s => snd (coef (G s) k I)) t (snd (coef D k I) / (16 * PI ^ 2))%R.
Proof.
  intros E ode C si so np LY OR P LI LO SOL.
  destruct (C18_dict_roundtrip CR E C (proj1 LY) (point_has_shape E C LY P)) as (l & C' & D2A & LL & A2D & _ & RT).
  destruct (SOL l D2A) as (Y & EY & Y0 & YL & YS). set (n := shape_size (e_shape E)) in *.
  set (G := fun t => match view_complex (Y t) with Ok z => match C_array2dict E z with Ok d => d | Err _ => [] end | Err _ => [] end).
  assert (HG : forall t, exists z, view_complex (Y t) = Ok z /\ List.length z = n /\ C_array2dict E z = Ok (G t) /\ smeft_point (G t)).
  { intros t. destruct (view_even n (Y t)) as (z & Ez & Lz); [rewrite YL, view_float_length, LL; reflexivity|].
    destruct (layout_dict E z LY) as (d & Ed & Pd & _); [unfold n in Lz; lia|].
    exists z. unfold G. rewrite Ez, Ed. auto. }
  destruct (HG (ln so)) as (zo & Ezo & Lzo & Azo & Pzo).
  exists G, (G (ln so)). split; [|split].
  - unfold smeft_evolve, smeft_evolve0. rewrite D2A, bind_Ok. unfold py_log. destruct (Rlt_dec 0 si) as [_|N]; [|contradiction].
    destruct (Rlt_dec 0 so) as [_|N]; [|contradiction]. rewrite !bind_Ok, EY, bind_Ok. cbn [fst]. rewrite Ezo, bind_Ok. exact Azo.
  - intros k Hk. split; [|now intros ? ?]. intros I HI.
    assert (GI : G (ln si) = C') by (unfold G; rewrite Y0, view_cf, A2D; reflexivity). rewrite GI.
    destruct (dget op_fields k) as [ts|] eqn:T; [|apply dget_None in T; contradiction].
    pose proof LY as (_ & _ & SH). destruct (RT k _ (SH k ts T)) as (v & v' & V & V' & Q). unfold coef. rewrite V, V'. symmetry.
    destruct (P k ts T) as (v0 & V0 & S0 & _). rewrite V in V0. injection V0 as <-. now apply (cv_eq_entry k ts).
  - intros t Ht. destruct (HG t) as (z & Ez & Lz & Az & Pz). split; [exact Pz|].
    destruct (C45_rhs E np t z (G t) LY OR Az) as (D & w & F & ED & EF & AF & CF). exists D. split; [exact ED|].
    destruct (YS t Ht) as (v & Ev & Dv). rewrite <- (view_fc _ _ Ez), EF in Ev. injection Ev as <-.
    intros k I Hk HI. destruct (dget op_fields k) as [ts|] eqn:T; [|apply dget_None in T; contradiction].
    assert (LW : (n <= List.length w)%nat).
    { destruct (Nat.le_gt_cases n (List.length w)) as [L|L]; [exact L|]. destruct (C18_short_array_rejected CR E w (proj1 LY) L) as (e & X). congruence. }
    specialize (CF k I Hk HI). destruct (coef_position E w F k ts I LY LW AF T HI) as [BW CW]. rewrite CW in CF.
    set (p := position (e_shape E) k I) in *.
    assert (CG : forall s, fst (coef (G s) k I) = nth (2 * p) (Y s) 0%R /\ snd (coef (G s) k I) = nth (2 * p + 1) (Y s) 0%R /\ (p < n)%nat).
    { intros s. destruct (HG s) as (y & Ey & Ly & Ay & _). destruct (coef_position E y (G s) k ts I LY) as [B E1]; [unfold n in Ly; lia|exact Ay|exact T|exact HI|].
      fold p in B, E1. rewrite E1, <- (view_fc _ _ Ey). destruct (view_float_nth y p) as [-> ->]. rewrite <- Ly. auto. }
    assert (BP : (p < n)%nat) by apply (CG t).
    assert (LV : List.length (view_float l) = (2 * n)%nat) by (rewrite view_float_length, LL; reflexivity).
    destruct (view_float_nth w p) as [W0 W1].
    assert (FD : (fst (coef D k I) / (16 * PI ^ 2))%R = fst (nth p w (k0 : CR))) by (rewrite CF; cbn; unfold Rdiv; ring).
    assert (SD : (snd (coef D k I) / (16 * PI ^ 2))%R = snd (nth p w (k0 : CR))) by (rewrite CF; cbn; unfold Rdiv; ring).
    rewrite FD, SD, <- W0, <- W1. split.
    + apply (derivable_ext (fun s => nth (2 * p) (Y s) 0%R)); [intros s; symmetry; apply CG|]. apply Dv. lia.
    + apply (derivable_ext (fun s => nth (2 * p + 1) (Y s) 0%R)); [intros s; symmetry; apply CG|]. apply Dv. lia.
Qed.

(* non-vacuity: with m2 the only non-zero parameter, beta vanishes and the constant curve is
   the solution from 91 to 1000 *)
Lemma beta_m2_only : all_entries (beta_nf true) (all_but "m2") = true.
Proof. vm_compute. reflexivity. Qed.
Definition ex_m2only : dict string (cval CR) := ex_pt (fun k => if String.eqb k "m2" then rc 1 else 0).
Definition const_ode : ode_solver := fun _ _ _ y => Ok (y, fun _ => y).
Lemma ex_pt_coef {K : StarField} (h : string -> K) k ts I : dget op_fields k = Some ts -> h k = 0 -> coef (ex_pt h) k I = 0.
Proof.
  intros T Z. unfold coef. assert (G : dget (ex_pt h) k = Some (mk_val (h k) ts)).
  { unfold ex_pt. revert T. generalize op_fields. intros l.
    induction l as [|[j x] l IH]; cbn [dget map fst snd]; [discriminate|]. destruct (keqb_spec k j) as [<-|]; [intros [= ->]; reflexivity|exact IH]. }
  rewrite G, Z. destruct ts; [reflexivity|]. cbn [mk_val entry]. now destruct (forallb (Nat.eqb 0) I).
Qed.
Lemma rge_fun_m2 t z : C_dict2array ord_layout ex_m2only = Ok z ->
  exists w, rge_fun ord_layout beta_prog true t (view_float z) = Ok w /\ forall i, nth i w 0%R = 0%R.
Proof.
  intros EZ. destruct ex44 as (LY & OR & _). pose proof (ex_pt_point (fun k => if String.eqb k "m2" then rc 1 else 0)) as P. fold ex_m2only in P.
  destruct (C18_dict_roundtrip CR ord_layout ex_m2only (proj1 LY) (point_has_shape _ _ LY P)) as (l & C' & D2A & LL & A2D & _ & RT).
  rewrite EZ in D2A. injection D2A as <-.
  destruct (layout_dict ord_layout z LY) as (C0 & E0 & P0 & _); [lia|]. rewrite A2D in E0. injection E0 as <-.
  destruct (beta_vanish ord_layout C' (rc 1) "m2" beta_m2_only P0 rc1_neq0) as (D & ED & ZD).
  { intros k ts I T N HI. pose proof LY as (_ & _ & SH). destruct (RT k _ (SH k ts T)) as (v & v' & V & V' & Q).
    destruct (P k ts T) as (v0 & V0 & S0 & _). rewrite V in V0. injection V0 as <-.
    pose proof (cv_eq_entry k ts v v' I T S0 Q HI) as EE. unfold coef. rewrite V', <- EE.
    pose proof (ex_pt_coef (fun k => if String.eqb k "m2" then rc 1 else 0) k ts I T) as X. fold ex_m2only in X. unfold coef in X. rewrite V in X.
    apply X. destruct (String.eqb_spec k "m2"); [contradiction|reflexivity]. }
  destruct (C44_layout CR ord_layout C' (rc 1) true LY OR P0 rc1_neq0) as (D0 & b & D' & ED0 & EB & DA & AD & PD & SD).
  rewrite ED in ED0. injection ED0 as <-.
  assert (ZB : forall x, In x b -> x = (0 : CR)).
  { destruct (C29_total CR ord_layout C' (rc 1) P0 rc1_neq0) as (D1 & ED1 & PD1 & _). rewrite ED in ED1. injection ED1 as <-.
    exact (zero_array ord_layout D b LY PD1 ZD DA). }
  unfold rge_fun. rewrite view_cf, bind_Ok, A2D, bind_Ok, EB, bind_Ok. eexists. split; [reflexivity|].
  assert (ZV : forall x, In x (view_float b) -> x = 0%R).
  { intros x X. unfold view_float in X. apply in_flat_map in X as (w & Hw & X). apply ZB in Hw. subst w. cbn in X. destruct X as [<-|[<-|[]]]; reflexivity. }
  intros i. destruct (nth_in_or_default i (map (fun x => x / sixteen_pi2)%R (view_float b)) 0%R) as [IN|E]; [|exact E].
  apply in_map_iff in IN as (x & <- & X). apply ZV in X. subst x. unfold Rdiv. ring.
Qed.
Example ex45 : smeft_layout ord_layout /\ dkeys (e_shape ord_layout) = smeft_order /\ smeft_point ex_m2only /\
  (forall f t y, exists Y, const_ode f t t y = Ok (y, Y)) /\
  (forall z, C_dict2array ord_layout ex_m2only = Ok z -> exists Y,
     const_ode (rge_fun ord_layout beta_prog true) (ln 91) (ln 1000) (view_float z) = Ok (Y (ln 1000), Y) /\
     solution (rge_fun ord_layout beta_prog true) (ln 91) (ln 1000) (view_float z) Y).
Proof.
  destruct ex44 as (LY & OR & _). split; [exact LY|]. split; [exact OR|]. split; [exact (ex_pt_point _)|]. split; [intros f t y; now exists (fun _ => y)|].
  intros z EZ. exists (fun _ => view_float z). split; [reflexivity|]. split; [reflexivity|]. split; [reflexivity|].
  intros t _. destruct (rge_fun_m2 t z EZ) as (w & Ew & Zw). exists w. split; [exact Ew|]. intros i _. rewrite Zw. apply derivable_pt_lim_const.
Qed.

Print Assumptions C33_leadinglog.
Print Assumptions C33_equal_scales.
Print Assumptions C33_additive.
Print Assumptions C33_newphys_off.
Print Assumptions C33_unknown_parameter.
Print Assumptions C44_layout.
Print Assumptions C44_order_needed.
Print Assumptions C45_rhs.
Print Assumptions C45_same_scale.
Print Assumptions C45_solves.
