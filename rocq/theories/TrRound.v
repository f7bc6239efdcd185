(* Round trips between the bases WET/JMS, WET/Bern, WET/flavio and WET/FlavorKit. *)
From Coq Require Import List Bool ZArith QArith Arith Lia String Ascii.
From Verif Require Import PyBase Num Lin SymModel SymClass SymSpec EftModel EftSpec EftProofs EftLabels EftRound EftInit JmsModel JmsSpec JmsProofs JmsArrays JmsProps
  TrLang TrData TrBlocks TrModel TrNorm TrSpec AdmData BasisProps TrProofs TrValues.
Import ListNotations.
Local Open Scope string_scope.
Local Open Scope list_scope.

Lemma incl_b (a b : list string) : forallb (fun k => kmem k b) a = true -> incl a b.
Proof. intros H k HK. rewrite forallb_forall in H. apply kmem_In. now apply H. Qed.
Section Round.
Context {K : StarField}.
Local Open Scope K_scope.
Add Field KFtr : (k_field K).
Variable p : tpar K.
Hypothesis PO : par_ok p.
Variable all : list string.
Variable real : string -> bool.
Hypothesis D : describes jms_ops all real.
Variable js : dict string (list string).
Variable bern_wcs flavio_wcs : list string.
Hypothesis HB : incl bern_keys bern_wcs.
Hypothesis HF : incl flavio_keys flavio_wcs.
Notation bview := (wview bern_wcs).
Notation fview := (wview flavio_wcs).

Lemma bern_in (C : dict string K) k : In k bern_keys -> bview C k = view C k.
Proof. intros H. unfold wview. apply HB, kmem_In in H. now rewrite H. Qed.
Lemma flavio_in (C : dict string K) k : In k flavio_keys -> fview C k = view C k.
Proof. intros H. unfold wview. apply HF, kmem_In in H. now rewrite H. Qed.

Lemma holds_dval rho d ks e : keys_ok d ks = true -> (forall k, In k ks -> dget (dval p rho d) k = Some (e k)) -> holds (dval p rho d) ks e.
Proof.
  intros KO H k. destruct (kmem k ks) eqn:E.
  - apply H. now apply kmem_In.
  - rewrite dget_dval. rewrite (keys_ok_dget d ks k KO) in E. destruct (dget d k); [discriminate|reflexivity].
Qed.
(* what each translator returns *)
Lemma val_j2b (C : dict string K) d : J2B = Some d -> JMS_to_Bern p all js C None = Ok (dval p (view C) d).
Proof. intros H. exact (from_jms_val p PO all real D js _ C d H). Qed.
Lemma val_b2j (C : dict string K) d : B2J = Some d -> Bern_to_JMS p all bern_wcs C = Ok (dval p (bview C) d).
Proof. intros H. exact (flat_val p PO all real D bern_keys bern_wcs _ C d HB H). Qed.
Lemma val_b2f (C : dict string K) d : B2F = Some d -> Bern_to_flavio p all bern_wcs C = Ok (dval p (bview C) d).
Proof. intros H. exact (flat_val p PO all real D bern_keys bern_wcs _ C d HB H). Qed.
Lemma val_f2b (C : dict string K) d : F2B = Some d -> flavio_to_Bern p all flavio_wcs C = Ok (dval p (fview C) d).
Proof. intros H. exact (flat_val p PO all real D flavio_keys flavio_wcs _ C d HF H). Qed.
Lemma val_f2j (C : dict string K) d : F2J = Some d -> flavio_to_JMS p all flavio_wcs C None = Ok (dval p (fview C) d).
Proof. intros H. exact (flat_val p PO all real D flavio_keys flavio_wcs _ C d HF H). Qed.
Lemma val_j2f (C : dict string K) d : J2F = Some d -> JMS_to_flavio p all js C None = Ok (dupdate (dval p (view C) d) (cond (dlep None) C)).
Proof.
  intros H. destruct (jms_rel p PO all real D js C) as (Ca & E & R). unfold JMS_to_flavio, from_jms. rewrite E. cbn [bind].
  unfold p_JMS_to_flavio. pose proof (srun_all p PO all real D _ _ _ _ d R H) as X.
  exact (run_upd_app p all (JMS_to_flavio_parts None) (PCond (dlep None)) (mkEnv C Ca) _ X).
Qed.
Lemma cond_wf l (C : dict string K) : wfdict (cond l C).
Proof.
  unfold cond. assert (G : forall d, wfdict d -> wfdict (fold_left (fun d jf => match dget C (fst jf) with Some v => dset d (snd jf) v | None => d end) l d)).
  { induction l as [|x l IH]; intros d W; cbn [fold_left]; [exact W|]. apply IH. destruct (dget C (fst x)); [now apply wf_dset|exact W]. }
  apply G. constructor.
Qed.
Lemma lfv_nodup : NoDup (map snd lfv_tab) /\ NoDup (map fst lfv_tab).
Proof.
  pose proof jf_keys as H. unfold jf_keys_ok in H. apply andb_prop in H as [H _]. apply andb_prop in H as [H B]. apply andb_prop in H as [_ A].
  split; now apply knodup_NoDup.
Qed.
Lemma lfv_in k : dget (swap_pairs lfv_tab) k = None <-> ~ In k flavio_lfv.
Proof.
  pose proof jf_keys as H. unfold jf_keys_ok in H. apply andb_prop in H as [H L]. apply andb_prop in H as [H _]. apply andb_prop in H as [H _].
  rewrite forallb_forall in H, L. split; intros X.
  - intros Y. apply L in Y. apply kmem_In in Y. apply dget_None in X. apply X. unfold swap_pairs, dkeys. now rewrite map_map.
  - apply dget_None. intros Y. apply X. unfold swap_pairs, dkeys in Y. rewrite map_map in Y. apply in_map_iff in Y as (x & E & Hx).
    specialize (H x Hx). apply andb_prop in H as [_ H]. cbn in E. subst. now apply kmem_In.
Qed.
Lemma lfv_main k : In k flavio_lfv -> ~ In k flavio_main.
Proof.
  pose proof jf_keys as H. unfold jf_keys_ok in H. apply andb_prop in H as [H L]. apply andb_prop in H as [H _]. apply andb_prop in H as [H _].
  rewrite forallb_forall in H, L. intros X. apply L, kmem_In, in_map_iff in X as (x & E & Hx). specialize (H x Hx).
  apply andb_prop in H as [H _]. apply negb_true_iff in H. subst. now apply kmem_nIn.
Qed.
Lemma jf_get (C : dict string K) d k : J2F = Some d -> keys_ok d flavio_main = true ->
  dget (dupdate (dval p (view C) d) (cond (dlep None) C)) k =
  match dget (swap_pairs lfv_tab) k with Some j => dget C j | None => dget (dval p (view C) d) k end.
Proof.
  intros H KO. rewrite dget_dupdate by apply cond_wf. change (dlep None) with lfv_tab. rewrite cond_get by apply lfv_nodup.
  destruct (dget (swap_pairs lfv_tab) k) as [j|] eqn:E; [|reflexivity]. destruct (dget C j); [reflexivity|].
  rewrite dget_dval. pose proof (keys_ok_dget d flavio_main k KO) as X. destruct (dget d k); [|reflexivity].
  exfalso. apply kmem_In in X. apply (lfv_main k); [|exact X]. destruct (in_dec string_dec k flavio_lfv) as [Y|Y]; [exact Y|]. apply lfv_in in Y. congruence.
Qed.
Lemma jf_view (C : dict string K) d k : J2F = Some d -> keys_ok d flavio_main = true ->
  view (dupdate (dval p (view C) d) (cond (dlep None) C)) k = lval p (view C) (look (jf_form d) k).
Proof.
  intros H KO. unfold view at 1, dgetd. rewrite (jf_get C d k H KO). unfold look, dgetd, jf_form.
  assert (AP : forall (a b : dict string lf), dget (a ++ b) k = match dget a k with Some l => Some l | None => dget b k end).
  { induction a as [|[x l] a IH]; intros b; [reflexivity|]. cbn [app dget]. destruct (keqb k x); [reflexivity|apply IH]. }
  assert (TB : dget (map (fun x => (snd x, lkey (fst x))) lfv_tab) k = match dget (swap_pairs lfv_tab) k with Some j => Some (lkey j) | None => None end).
  { generalize lfv_tab. induction d0 as [|[x y] l IH]; [reflexivity|]. cbn [map swap_pairs dget fst snd]. destruct (keqb k y); [reflexivity|exact IH]. }
  rewrite AP, TB, dget_dval. pose proof (keys_ok_dget d flavio_main k KO) as X. destruct (dget (swap_pairs lfv_tab) k) as [j|] eqn:E.
  - destruct (dget d k).
    + exfalso. apply kmem_In in X. apply (lfv_main k); [|exact X]. destruct (in_dec string_dec k flavio_lfv) as [Y|Y]; [exact Y|]. apply lfv_in in Y. congruence.
    + rewrite lval_key. reflexivity.
  - now destruct (dget d k).
Qed.

Lemma jf_dgetd (C : dict string K) d k : J2F = Some d -> keys_ok d flavio_main = true ->
  dgetd (dupdate (dval p (view C) d) (cond (dlep None) C)) k 0 = lval p (view C) (look (jf_form d) k).
Proof.
  intros H KO. unfold dgetd at 1. rewrite (jf_get C d k H KO). unfold look, dgetd at 1, jf_form.
  assert (AP : forall (a b : dict string lf), dget (a ++ b) k = match dget a k with Some l => Some l | None => dget b k end).
  { induction a as [|[x l] a IH]; intros b; [reflexivity|]. cbn [app dget]. destruct (keqb k x); [reflexivity|apply IH]. }
  assert (TB : dget (map (fun x => (snd x, lkey (fst x))) lfv_tab) k = match dget (swap_pairs lfv_tab) k with Some j => Some (lkey j) | None => None end).
  { generalize lfv_tab. induction d0 as [|[x y] l IH]; [reflexivity|]. cbn [map swap_pairs dget fst snd]. destruct (keqb k y); [reflexivity|exact IH]. }
  rewrite AP, TB, dget_dval. pose proof (keys_ok_dget d flavio_main k KO) as X. destruct (dget (swap_pairs lfv_tab) k) as [j|] eqn:E.
  - destruct (dget d k).
    + exfalso. apply kmem_In in X. apply (lfv_main k); [|exact X]. destruct (in_dec string_dec k flavio_lfv) as [Y|Y]; [exact Y|]. apply lfv_in in Y. congruence.
    + rewrite lval_key. reflexivity.
  - now destruct (dget d k).
Qed.

Lemma jf_main (C : dict string K) d k : J2F = Some d -> keys_ok d flavio_main = true -> In k flavio_main ->
  dgetd (dupdate (dval p (view C) d) (cond (dlep None) C)) k 0 = lval p (view C) (look d k).
Proof.
  intros H KO M. unfold dgetd. rewrite (jf_get C d k H KO).
  assert (E : ~ In k flavio_lfv) by (intros X; now apply (lfv_main k)). apply lfv_in in E. rewrite E.
  rewrite dget_dval. unfold look, dgetd. now destruct (dget d k).
Qed.
Lemma incl_fm : incl flavio_bern flavio_main. Proof. apply incl_b. vm_cast_no_check (eq_refl true). Qed.

(* ---------- Bern and JMS ---------- *)
Lemma round_BJB (C : dict string K) : exists J B, Bern_to_JMS p all bern_wcs C = Ok J /\ JMS_to_Bern p all js J None = Ok B /\ holds B bern_keys (fun k => dgetd C k 0).
Proof.
  pose proof chk_BJB_ok as H. apply with2_some in H as (b2j & j2b & E1 & E2 & H).
  destruct get_forms as (j2b' & b2j' & ? & ? & ? & ? & F). pose proof (f_j2b _ _ _ _ _ _ F) as X. rewrite E2 in X. injection X as <-.
  eexists. eexists. split; [exact (val_b2j C _ E1)|]. split; [exact (val_j2b _ _ E2)|].
  apply (holds_dval _ _ _ _ (k_j2b _ _ _ _ _ _ F)). intros k HK.
  rewrite (sub_ok_val p PO (look b2j) j2b bern_keys lkey (bview C)); [|exact H|intros k'; apply view_dval|exact HK].
  rewrite lval_key. now rewrite bern_in.
Qed.
Lemma round_JBJ (C : dict string K) : incl bern_keys bern_wcs -> exists B J, JMS_to_Bern p all js C None = Ok B /\ Bern_to_JMS p all bern_wcs B = Ok J /\
  holds J (of_sectors bern_sectors) (fun k => dgetd C k 0).
Proof.
  intros _. pose proof chk_JBJ_ok as H. apply with2_some in H as (j2b & b2j & E1 & E2 & H).
  destruct get_forms as (? & b2j' & ? & ? & ? & ? & F). pose proof (f_b2j _ _ _ _ _ _ F) as X. rewrite E2 in X. injection X as <-.
  pose proof (f_j2b _ _ _ _ _ _ F) as X. rewrite E1 in X. injection X as <-.
  eexists. eexists. split; [exact (val_j2b C _ E1)|]. split; [exact (val_b2j _ _ E2)|].
  apply (holds_dval _ _ _ _ (k_b2j _ _ _ _ _ _ F)). intros k HK.
  rewrite (sub_ok_val p PO (look j2b) b2j (of_sectors bern_sectors) lkey (view C)); [now rewrite lval_key|exact H| |exact HK].
  intros k'. unfold wview. destruct (kmem k' bern_wcs) eqn:W; [apply view_dval|]. unfold look, dgetd.
  pose proof (keys_ok_dget j2b bern_keys k' (k_j2b _ _ _ _ _ _ F)) as Y. destruct (dget j2b k'); [|reflexivity].
  exfalso. apply kmem_In, HB, kmem_In in Y. congruence.
Qed.
(* ---------- flavio and JMS ---------- *)
Lemma round_FJF (C : dict string K) : exists J B, flavio_to_JMS p all flavio_wcs C None = Ok J /\ JMS_to_flavio p all js J None = Ok B /\ holds B flavio_keys (fun k => dgetd C k 0).
Proof.
  pose proof chk_FJF_ok as H. apply with2_some in H as (f2j & j2f & E1 & E2 & H). apply andb_prop in H as [H L].
  destruct get_forms as (? & ? & j2f' & ? & ? & ? & F). pose proof (f_j2f _ _ _ _ _ _ F) as X. rewrite E2 in X. injection X as <-.
  eexists. eexists. split; [exact (val_f2j C _ E1)|]. split; [exact (val_j2f _ _ E2)|].
  intros k. rewrite (jf_get _ j2f k E2 (k_j2f _ _ _ _ _ _ F)).
  destruct (dget (swap_pairs lfv_tab) k) as [j|] eqn:E.
  - assert (In k flavio_lfv) by (destruct (in_dec string_dec k flavio_lfv) as [Y|Y]; [exact Y|]; apply lfv_in in Y; congruence).
    assert (I : In k flavio_keys) by (apply in_or_app; now right). pose proof I as I2. apply kmem_In in I2. rewrite I2.
    rewrite forallb_forall in L. apply dget_In in E. unfold swap_pairs in E. apply in_map_iff in E as ((j', f') & E & IN). injection E as -> ->.
    specialize (L _ IN). cbn [fst snd] in L. rewrite dget_dval. destruct (dget f2j j); [|discriminate].
    rewrite (lval_eqb p _ _ _ L), lval_key. now rewrite flavio_in.
  - apply lfv_in in E. unfold flavio_keys. destruct (kmem k (flavio_main ++ flavio_lfv)) eqn:M.
    + apply kmem_In in M. assert (IM : In k flavio_main) by (apply in_app_or in M; tauto).
      rewrite (sub_ok_val p PO (look f2j) j2f flavio_main lkey (fview C)); [|exact H|intros k'; apply view_dval|exact IM].
      rewrite lval_key. now rewrite flavio_in.
    + apply kmem_nIn in M. rewrite dget_dval. pose proof (keys_ok_dget j2f flavio_main k (k_j2f _ _ _ _ _ _ F)) as Y.
      destruct (dget j2f k); [|reflexivity]. exfalso. apply M, in_or_app. left. now apply kmem_In.
Qed.
Lemma round_JFJ (C : dict string K) : exists B J, JMS_to_flavio p all js C None = Ok B /\ flavio_to_JMS p all flavio_wcs B None = Ok J /\
  holds J (of_sectors flavio_sectors) (fun k => if kmem k semileptonic_tensors then 0 else dgetd C k 0).
Proof.
  pose proof chk_JFJ_ok as H. apply with2_some in H as (j2f & f2j & E1 & E2 & H).
  destruct get_forms as (? & ? & ? & ? & ? & ? & F). pose proof (f_f2j _ _ _ _ _ _ F) as X. rewrite E2 in X. injection X as <-.
  pose proof (f_j2f _ _ _ _ _ _ F) as X. rewrite E1 in X. injection X as <-. pose proof (k_j2f _ _ _ _ _ _ F) as KO.
  eexists. eexists. split; [exact (val_j2f C _ E1)|]. split; [exact (val_f2j _ _ E2)|].
  apply (holds_dval _ _ _ _ (k_f2j _ _ _ _ _ _ F)). intros k HK.
  rewrite (sub_ok_val p PO (look (jf_form j2f)) f2j (of_sectors flavio_sectors) _ (view C) _ k H); [| |exact HK].
  - destruct (kmem k semileptonic_tensors); [reflexivity|]. now rewrite lval_key.
  - intros k'. unfold wview. destruct (kmem k' flavio_wcs) eqn:W; [now apply jf_view|]. rewrite <- jf_view by assumption.
    unfold view at 1, dgetd. rewrite (jf_get C j2f k' E1 KO). assert (NK : ~ In k' flavio_keys).
    { intros X. apply HF, kmem_In in X. congruence. }
    assert (E : ~ In k' flavio_lfv) by (intros X; apply NK, in_or_app; now right). apply lfv_in in E. rewrite E, dget_dval.
    pose proof (keys_ok_dget j2f flavio_main k' KO) as Y. destruct (dget j2f k'); [|reflexivity].
    exfalso. apply NK, in_or_app. left. now apply kmem_In.
Qed.
(* ---------- flavio and Bern ---------- *)
Lemma wview_dval rho d ks wcs k : keys_ok d ks = true -> incl ks wcs -> wview wcs (dval p rho d) k = lval p rho (look d k).
Proof.
  intros KO I. unfold wview. destruct (kmem k wcs) eqn:W; [apply view_dval|]. unfold look, dgetd. pose proof (keys_ok_dget d ks k KO) as Y.
  destruct (dget d k); [|reflexivity]. exfalso. apply kmem_In, I, kmem_In in Y. congruence.
Qed.
Lemma incl_bf : incl bern_flavio bern_keys. Proof. apply incl_b. vm_cast_no_check (eq_refl true). Qed.
Lemma incl_fb : incl flavio_bern flavio_keys. Proof. apply incl_b. vm_cast_no_check (eq_refl true). Qed.
Lemma round_FBF (C : dict string K) : exists B F, flavio_to_Bern p all flavio_wcs C = Ok B /\ Bern_to_flavio p all bern_wcs B = Ok F /\
  holds F flavio_bern (fun k => if kmem k sd_lfv then 0 else dgetd C k 0).
Proof.
  pose proof chk_FBF_ok as H. apply with2_some in H as (f2b & b2f & E1 & E2 & H).
  destruct get_forms as (? & ? & ? & ? & ? & ? & F). pose proof (f_f2b _ _ _ _ _ _ F) as X. rewrite E1 in X. injection X as <-.
  pose proof (f_b2f _ _ _ _ _ _ F) as X. rewrite E2 in X. injection X as <-.
  eexists. eexists. split; [exact (val_f2b C _ E1)|]. split; [exact (val_b2f _ _ E2)|].
  apply (holds_dval _ _ _ _ (k_b2f _ _ _ _ _ _ F)). intros k HK.
  rewrite (sub_ok_val p PO (look f2b) b2f flavio_bern _ (fview C) _ k H); [| |exact HK].
  - destruct (kmem k sd_lfv); [reflexivity|]. rewrite lval_key. now rewrite flavio_in by (now apply incl_fb).
  - intros k'. apply (wview_dval _ _ _ _ _ (k_f2b _ _ _ _ _ _ F)). intros y X. apply HB. now apply incl_bf.
Qed.
Lemma tensor_in k n : dget bern_tensors k = Some n -> In n bern_keys.
Proof.
  intros H. apply dget_In in H. assert (X : forallb (fun x => kmem (snd x) bern_keys) bern_tensors = true) by (vm_cast_no_check (eq_refl true)).
  rewrite forallb_forall in X. specialize (X _ H). now apply kmem_In.
Qed.
Lemma round_BFB (C : dict string K) : exists F B, Bern_to_flavio p all bern_wcs C = Ok F /\ flavio_to_Bern p all flavio_wcs F = Ok B /\
  holds B bern_flavio (fun k => match dget bern_tensors k with Some n => kZ 16 * dgetd C n 0 | None => dgetd C k 0 end).
Proof.
  pose proof chk_BFB_ok as H. apply with2_some in H as (b2f & f2b & E1 & E2 & H).
  destruct get_forms as (? & ? & ? & ? & ? & ? & F). pose proof (f_b2f _ _ _ _ _ _ F) as X. rewrite E1 in X. injection X as <-.
  pose proof (f_f2b _ _ _ _ _ _ F) as X. rewrite E2 in X. injection X as <-.
  eexists. eexists. split; [exact (val_b2f C _ E1)|]. split; [exact (val_f2b _ _ E2)|].
  apply (holds_dval _ _ _ _ (k_f2b _ _ _ _ _ _ F)). intros k HK.
  rewrite (sub_ok_val p PO (look b2f) f2b bern_flavio _ (bview C) _ k H); [| |exact HK].
  - destruct (dget bern_tensors k) as [n|] eqn:E.
    + rewrite lval_scale, lval_key, bern_in by (now apply (tensor_in k)). assert (X : @kQ K 16 = kZ 16) by (unfold kQ; cbn [Qnum Qden kpos]; change (kpos 1) with (1 : K); generalize (@kZ K 16); intros y; field; apply k_1_neq_0). now rewrite X.
    + rewrite lval_key. now rewrite bern_in by (now apply incl_bf).
  - intros k'. apply (wview_dval _ _ _ _ _ (k_b2f _ _ _ _ _ _ F)). intros y X. apply HF. now apply incl_fb.
Qed.
(* ---------- the two ways around ---------- *)
Lemma way_JBF (C : dict string K) : exists B F1 F2, JMS_to_Bern p all js C None = Ok B /\ Bern_to_flavio p all bern_wcs B = Ok F1 /\ JMS_to_flavio p all js C None = Ok F2 /\
  holds F1 flavio_bern (fun k => dgetd F2 k 0).
Proof.
  pose proof chk_JBF_ok as H. apply with3_some in H as (j2b & b2f & j2f & E1 & E2 & E3 & H).
  destruct get_forms as (? & ? & ? & ? & ? & ? & F). pose proof (f_b2f _ _ _ _ _ _ F) as X. rewrite E2 in X. injection X as <-.
  pose proof (f_j2b _ _ _ _ _ _ F) as X. rewrite E1 in X. injection X as <-. pose proof (f_j2f _ _ _ _ _ _ F) as X. rewrite E3 in X. injection X as <-.
  pose proof (k_j2f _ _ _ _ _ _ F) as KO.
  eexists. eexists. eexists. split; [exact (val_j2b C _ E1)|]. split; [exact (val_b2f _ _ E2)|]. split; [exact (val_j2f C _ E3)|].
  apply (holds_dval _ _ _ _ (k_b2f _ _ _ _ _ _ F)). intros k HK.
  rewrite (sub_ok_val p PO (look j2b) b2f flavio_bern _ (view C) _ k H); [| |exact HK].
  - apply (f_equal Some). symmetry. apply (jf_main C j2f k E3 KO). now apply incl_fm.
  - intros k'. now apply (wview_dval _ _ _ _ _ (k_j2b _ _ _ _ _ _ F)).
Qed.
Lemma way_FJB (C : dict string K) : exists J B1 B2, flavio_to_JMS p all flavio_wcs C None = Ok J /\ JMS_to_Bern p all js J None = Ok B1 /\ flavio_to_Bern p all flavio_wcs C = Ok B2 /\
  forall k, In k bern_flavio -> dget B1 k = dget B2 k.
Proof.
  pose proof chk_FJB_ok as H. apply with3_some in H as (f2j & j2b & f2b & E1 & E2 & E3 & H).
  destruct get_forms as (? & ? & ? & ? & ? & ? & F). pose proof (f_f2b _ _ _ _ _ _ F) as X. rewrite E3 in X. injection X as <-.
  eexists. eexists. eexists. split; [exact (val_f2j C _ E1)|]. split; [exact (val_j2b _ _ E2)|]. split; [exact (val_f2b C _ E3)|].
  intros k HK. rewrite (sub_ok_val p PO (look f2j) j2b bern_flavio _ (fview C) _ k H); [| |exact HK].
  - rewrite dget_dval. unfold look, dgetd. apply kmem_In in HK. rewrite (keys_ok_dget f2b _ k (k_f2b _ _ _ _ _ _ F)) in HK. destruct (dget f2b k); [reflexivity|discriminate].
  - intros k'. apply view_dval.
Qed.
Lemma way_BJF (C : dict string K) : exists J F1 F2, Bern_to_JMS p all bern_wcs C = Ok J /\ JMS_to_flavio p all js J None = Ok F1 /\ Bern_to_flavio p all bern_wcs C = Ok F2 /\
  forall k, In k flavio_bern -> dget F1 k = dget F2 k.
Proof.
  pose proof chk_BJF_ok as H. apply with3_some in H as (b2j & j2f & b2f & E1 & E2 & E3 & H).
  destruct get_forms as (? & ? & ? & ? & ? & ? & F). pose proof (f_b2f _ _ _ _ _ _ F) as X. rewrite E3 in X. injection X as <-.
  pose proof (f_j2f _ _ _ _ _ _ F) as X. rewrite E2 in X. injection X as <-. pose proof (k_j2f _ _ _ _ _ _ F) as KO.
  eexists. eexists. eexists. split; [exact (val_b2j C _ E1)|]. split; [exact (val_j2f _ _ E2)|]. split; [exact (val_b2f C _ E3)|].
  intros k HK. rewrite (jf_get _ j2f k E2 KO).
  assert (M : In k flavio_main) by now apply incl_fm.
  assert (E : ~ In k flavio_lfv) by (intros X; now apply (lfv_main k)). apply lfv_in in E. rewrite E.
  rewrite (sub_ok_val p PO (look b2j) j2f flavio_bern _ (bview C) _ k H); [| |exact HK].
  - rewrite dget_dval. unfold look, dgetd. apply kmem_In in HK. rewrite (keys_ok_dget b2f _ k (k_b2f _ _ _ _ _ _ F)) in HK. destruct (dget b2f k); [reflexivity|discriminate].
  - intros k'. apply view_dval.
Qed.
End Round.
