(* Lemmas about the WCxf model. *)
From Coq Require Import List Bool String Ascii ZArith Lia.
From Verif Require Import PyBase Num WcxfModel.
Import ListNotations.
Local Open Scope string_scope.

(* ---------- registries ---------- *)
Section Reg.
Context {N I : Type} `{EqKey N}.
Implicit Types (r : registry N I) (ops : list (reg_op N I)).

Definition reg_wf r := wfdict (reg_dict r).
Lemma reg_step_wf r o : reg_wf r -> reg_wf (reg_step r o).
Proof.
  unfold reg_wf; destruct o; simpl; intros W.
  - now apply wf_dset.
  - unfold reg_del. destruct r as [d|]; simpl in *; [|exact W].
    destruct (dmem d n); simpl; [now apply wf_ddel|exact W].
  - apply wf_nil.
Qed.
Lemma reg_run_wf ops r : reg_wf r -> reg_wf (reg_run r ops).
Proof. revert r; induction ops as [|o ops IH]; intros r W; simpl; auto. apply IH. now apply reg_step_wf. Qed.

Lemma reg_get_step r o n : reg_wf r ->
  (forall i, reg_get (reg_step r o) n = Ok i <->
   match o with
   | RCreate m j => if keqb n m then j = i else reg_get r n = Ok i
   | RDel m => if keqb n m then False else reg_get r n = Ok i
   | RClear => False
   end).
Proof.
  intros W i. destruct o as [m j|m|]; simpl.
  - unfold reg_get, reg_create. rewrite dget_dset. destruct (keqb n m).
    + split; [intros E; injection E; auto|intros ->; reflexivity].
    + destruct r as [d|]; simpl; [reflexivity|split; discriminate].
  - unfold reg_del. destruct r as [d|]; simpl.
    + destruct (dmem d m) eqn:M; simpl.
      * rewrite (dget_ddel d m n W). destruct (keqb n m); [split; [discriminate|tauto]|reflexivity].
      * destruct (keqb n m) eqn:E; [|reflexivity]. apply keqb_true in E; subst m.
        rewrite dmem_dget in M. destruct (dget d n); [discriminate|]. split; [discriminate|tauto].
    + destruct (keqb n m); split; [discriminate|tauto|discriminate|discriminate].
  - split; [discriminate|tauto].
Qed.
End Reg.

(* ---------- values ---------- *)
Section Values.
Context {K : StarField}.
Local Open Scope K_scope.
Lemma to_number_complex_dict (z : K) : to_number (to_complex_dict z) = z.
Proof.
  unfold to_complex_dict. destruct (kdec_spec K (kim z) 0) as [E|E]; simpl.
  - apply kre_of_real. now apply kim_zero_iff.
  - apply kre_im.
Qed.
Lemma dict2values_roundtrip (d : dict string K) : dmap (fun _ => to_number) (dict2values d) = d.
Proof.
  unfold dict2values, dmap. rewrite map_map. simpl.
  rewrite <- (map_id d) at 2. apply map_ext. intros [k v]; simpl. now rewrite to_number_complex_dict.
Qed.
Lemma wc_dict_mk e b s (d : dict string K) x h :
  wc_dict (mkWC e b s (dict2values d) x h) = d.
Proof. apply dict2values_roundtrip. Qed.
Lemma to_complex_dict_real (z : K) : kreal z <-> exists x, to_complex_dict z = VNum x.
Proof.
  unfold to_complex_dict. destruct (kdec_spec K (kim z) 0) as [E|E].
  - split; [eauto|intros _; now apply kim_zero_iff].
  - split; [intros R; exfalso; apply E; now apply kim_zero_iff|intros [x X]; discriminate].
Qed.
End Values.

(* ---------- Basis ---------- *)
Section BasisL.
Context {K : StarField}.
Implicit Types (r : basis_reg K).
Lemma sec_wcs_In (s : sectable K) wc :
  In wc (sec_wcs s) <-> exists sec t, In (sec, t) s /\ In wc (dkeys t).
Proof.
  unfold sec_wcs. rewrite in_flat_map. split.
  - intros ([sec t] & I & J). eauto.
  - intros (sec & t & I & J). exists (sec, t); auto.
Qed.
End BasisL.

(* ---------- dump / load ---------- *)
Section DL.
Context {V : Type}.
Implicit Types (o d : attrs V).
Lemma dget_without ks d k : wfdict d -> dget (without ks d) k = if kmem k ks then None else dget d k.
Proof.
  intros W. unfold without. rewrite dget_dfilter by exact W.
  destruct (dget d k) as [v|]; destruct (kmem k ks); reflexivity.
Qed.
Lemma wf_without ks d : wfdict d -> wfdict (without ks d).
Proof. apply wf_dfilter. Qed.
Lemma dump_spec o p : wfdict o -> dump o = Ok p ->
  wfdict p /\ forall k, dget p k = if private k then None else dget o k.
Proof.
  unfold dump. destruct (kmem "" (dkeys o)); [discriminate|]. intros W E; injection E as <-.
  split; [now apply wf_dfilter|]. intros k. rewrite dget_dfilter by exact W.
  destruct (dget o k), (private k); reflexivity.
Qed.
End DL.

(* ---------- specifications used by the property statements ---------- *)
(* the live instance under a name after a history (most recent operation first) *)
Fixpoint live {N I} `{EqKey N} (hist : list (reg_op N I)) (n : N) : option I :=
  match hist with
  | [] => None
  | RCreate m i :: older => if keqb n m then Some i else live older n
  | RDel m :: older => if keqb n m then None else live older n
  | RClear :: _ => None
  end.

Section C05.
Context {N I : Type} `{EqKey N}.
Lemma reg_get_live_gen (hist : list (reg_op N I)) n i :
  reg_get (reg_run None (rev hist)) n = Ok i <-> live hist n = Some i.
Proof.
  revert n i; induction hist as [|o hist IH]; intros n i.
  - simpl. split; discriminate.
  - simpl rev. unfold reg_run. rewrite fold_left_app. simpl fold_left.
    change (fold_left reg_step (rev hist) None) with (reg_run (None : registry N I) (rev hist)).
    rewrite reg_get_step by (apply reg_run_wf; exact wf_nil).
    destruct o as [m j|m|]; simpl.
    + destruct (keqb n m); [split; congruence|apply IH].
    + destruct (keqb n m); [split; [tauto|discriminate]|apply IH].
    + split; [tauto|discriminate].
Qed.
Lemma reg_get_live (ops : list (reg_op N I)) n i :
  reg_get (reg_run None ops) n = Ok i <-> live (rev ops) n = Some i.
Proof. rewrite <- reg_get_live_gen, rev_involutive. reflexivity. Qed.
Lemma reg_get_err (ops : list (reg_op N I)) n e :
  reg_get (reg_run None ops) n = Err e -> live (rev ops) n = None /\ (e = KeyError \/ e = AttributeError).
Proof.
  intros E. split.
  - destruct (live (rev ops) n) as [i|] eqn:L; [|reflexivity].
    apply reg_get_live in L. congruence.
  - unfold reg_get in E. destruct (reg_run None ops) as [d|]; [|injection E; auto].
    destruct (dget d n); [discriminate|injection E; auto].
Qed.
Lemma reg_get_attribute_error (ops : list (reg_op N I)) n :
  reg_get (reg_run None ops) n = Err AttributeError <->
  forall o, In o ops -> exists m, o = RDel m.
Proof.
  assert (G : forall r : registry N I, reg_run r ops = None <->
            r = None /\ forall o, In o ops -> exists m, o = RDel m).
  { induction ops as [|o ops IH]; intros r; simpl.
    - split; [intros ->; split; [reflexivity|tauto]|intros [-> _]; reflexivity].
    - rewrite IH. destruct o as [m j|m|]; simpl.
      + split; [intros [E _]; discriminate|intros [_ F]; exfalso].
        destruct (F _ (or_introl eq_refl)) as [x X]; discriminate.
      + unfold reg_del. destruct r as [d|]; simpl.
        * destruct (dmem d m); simpl; (split; intros [E _]; discriminate).
        * split; intros [_ F]; (split; [reflexivity|]); intros o O; auto.
          destruct O as [<-|O]; [eauto|auto].
      + split; [intros [E _]; discriminate|intros [_ F]; exfalso].
        destruct (F _ (or_introl eq_refl)) as [x X]; discriminate. }
  specialize (G None). split.
  - intros E. apply G. unfold reg_get in E. destruct (reg_run None ops) as [d|]; [|reflexivity].
    destruct (dget d n); discriminate.
  - intros F. assert (E : reg_run None ops = None) by (apply G; auto). now rewrite E.
Qed.
Lemma reg_names_live (ops : list (reg_op N I)) l :
  reg_names (reg_run None ops) = Ok l ->
  NoDup l /\ forall n, In n l <-> live (rev ops) n <> None.
Proof.
  intros E. pose proof (reg_run_wf ops None wf_nil) as W.
  pose proof (fun n i => reg_get_live ops n i) as G.
  destruct (reg_run None ops) as [d|]; simpl in *; [|discriminate].
  injection E as <-. split; [exact W|]. intros n. split.
  - intros I1. destruct (dget d n) as [i|] eqn:D; [|apply dget_None in D; contradiction].
    specialize (G n i). simpl in G. rewrite D in G. destruct G as [G _]. rewrite G by reflexivity. discriminate.
  - intros L. destruct (live (rev ops) n) as [i|] eqn:Li; [|congruence].
    apply G in Li. simpl in Li. destruct (dget d n) eqn:D; [|discriminate].
    eapply dget_Some_key; eauto.
Qed.
End C05.

Section C05b.
Context {K : StarField} {I : Type}.
Lemma known_bases_spec (e : EFT K) (ops : list (reg_op (string * string) I)) l :
  known_bases e (reg_run None ops) = Ok l ->
  NoDup l /\ forall b, In b l <-> live (rev ops) (eft_name e, b) <> None.
Proof.
  unfold known_bases. destruct (reg_names (reg_run None ops)) as [ns|] eqn:E; simpl; [|discriminate].
  intros F; injection F as <-. apply reg_names_live in E as [ND G]. split.
  - clear G. induction ns as [|[a b] ns IH]; simpl; [constructor|].
    inversion ND as [|? ? N ND']; subst. specialize (IH ND').
    destruct (String.eqb_spec a (eft_name e)) as [->|n]; simpl; auto.
    constructor; auto. intros J. apply in_map_iff in J as ([c d] & X & Y). simpl in X; subst d.
    apply filter_In in Y as [Y Z]. simpl in Z. apply String.eqb_eq in Z. subst c. auto.
  - intros b. rewrite <- G. split.
    + intros J. apply in_map_iff in J as ([c d] & X & Y). simpl in X; subst d.
      apply filter_In in Y as [Y Z]. simpl in Z. apply String.eqb_eq in Z. now subst c.
    + intros J. apply in_map_iff. exists (eft_name e, b). split; [reflexivity|].
      apply filter_In. split; [exact J|]. simpl. apply String.eqb_refl.
Qed.
Lemma known_translators_spec (e : EFT K) (ops : list (reg_op tname I)) l :
  eft_known_translators e (reg_run None ops) = Ok l ->
  NoDup l /\ forall t, In t l <-> fst (fst t) = eft_name e /\ live (rev ops) t <> None.
Proof.
  unfold eft_known_translators. destruct (reg_names (reg_run None ops)) as [ns|] eqn:E; simpl; [|discriminate].
  intros F; injection F as <-. apply reg_names_live in E as [ND G]. split; [now apply NoDup_filter|].
  intros t. rewrite filter_In, G. rewrite String.eqb_eq. tauto.
Qed.
Lemma basis_translators_spec (b : Basis K) (ops : list (reg_op tname I)) from to :
  basis_known_translators b (reg_run None ops) = Ok (from, to) ->
  (forall t, In t from <-> fst (fst t) = b_eft b /\ snd (fst t) = b_basis b /\ live (rev ops) t <> None) /\
  (forall t, In t to <-> fst (fst t) = b_eft b /\ snd t = b_basis b /\ live (rev ops) t <> None).
Proof.
  unfold basis_known_translators. destruct (reg_names (reg_run None ops)) as [ns|] eqn:E; simpl; [|discriminate].
  intros F; injection F as <- <-. apply reg_names_live in E as [ND G].
  split; intros t; rewrite filter_In, G, andb_true_iff, !String.eqb_eq; tauto.
Qed.
End C05b.

Section C0x.
Context {K : StarField} {P : Type}.
Local Open Scope K_scope.

(* C02 *)
Lemma dget_nonzero (d : dict string K) k : wfdict d ->
  match dget (dfilter nonzero d) k with Some v => v | None => 0 end =
  match dget d k with Some v => v | None => 0 end.
Proof.
  intros W. rewrite dget_dfilter by exact W. destruct (dget d k) as [v|]; [|reflexivity].
  unfold nonzero. destruct (kdec_spec K v 0); simpl; congruence.
Qed.
Lemma translate_spec (tr : tr_reg K P) w b params secs h f out :
  b <> wc_basis w ->
  reg_get tr ((wc_eft w, wc_basis w), b) = Ok f ->
  f (wc_dict w) (wc_scale w) params secs = Ok out -> wfdict out ->
  exists w', wc_translate tr w b params secs h = Ok w' /\
    wc_eft w' = wc_eft w /\ wc_basis w' = b /\ wc_scale w' = wc_scale w /\
    (forall k, In k (dkeys (wc_values w')) -> wc_getitem w' k <> 0) /\
    (forall k, wc_getitem w' k = match dget out k with Some v => v | None => 0 end).
Proof.
  intros NB G F W. unfold wc_translate. destruct (String.eqb_spec b (wc_basis w)); [congruence|].
  simpl keqb. destruct (String.eqb_spec b (wc_basis w)) as [|_]; [congruence|].
  rewrite G. unfold translator_translate. rewrite F. simpl bind. eexists; split; [reflexivity|].
  simpl. repeat split; try reflexivity.
  - intros k I. unfold wc_getitem. rewrite wc_dict_mk.
    unfold dict2values in I. rewrite dkeys_dmap in I.
    destruct (dget (dfilter nonzero out) k) as [v|] eqn:E; [|apply dget_None in E; contradiction].
    rewrite dget_dfilter in E by exact W. destruct (dget out k) as [u|]; [|discriminate].
    unfold nonzero in E. destruct (kdec_spec K u 0); simpl in E; [discriminate|congruence].
  - intros k. unfold wc_getitem. rewrite wc_dict_mk. now apply dget_nonzero.
Qed.
Lemma match_spec (ma : ma_reg K P) w e b params h f out :
  (e, b) <> (wc_eft w, wc_basis w) ->
  reg_get ma (((wc_eft w, wc_basis w), e), b) = Ok f ->
  f (wc_dict w) (wc_scale w) params = Ok out -> wfdict out ->
  exists w', wc_match ma w e b params h = Ok w' /\
    wc_eft w' = e /\ wc_basis w' = b /\ wc_scale w' = wc_scale w /\
    (forall k, In k (dkeys (wc_values w')) -> wc_getitem w' k <> 0) /\
    (forall k, wc_getitem w' k = match dget out k with Some v => v | None => 0 end).
Proof.
  intros NB G F W. unfold wc_match. destruct (keqb e (wc_eft w) && keqb b (wc_basis w)) eqn:E0.
  { exfalso. apply NB. apply andb_true_iff in E0 as [X Y].
    apply keqb_true in X. apply keqb_true in Y. congruence. }
  rewrite G. unfold matcher_match. rewrite F. simpl bind. eexists; split; [reflexivity|].
  simpl. repeat split; try reflexivity.
  - intros k I. unfold wc_getitem. rewrite wc_dict_mk.
    unfold dict2values in I. rewrite dkeys_dmap in I.
    destruct (dget (dfilter nonzero out) k) as [v|] eqn:E; [|apply dget_None in E; contradiction].
    rewrite dget_dfilter in E by exact W. destruct (dget out k) as [u|]; [|discriminate].
    unfold nonzero in E. destruct (kdec_spec K u 0); simpl in E; [discriminate|congruence].
  - intros k. unfold wc_getitem. rewrite wc_dict_mk. now apply dget_nonzero.
Qed.

(* C03 *)
Lemma wc_validate_ok (er : eft_reg K) (br : basis_reg K) w :
  wc_validate er br w = Ok tt <->
  (exists e, reg_get er (wc_eft w) = Ok e) /\
  (exists b s, reg_get br (wc_eft w, wc_basis w) = Ok b /\ b_sectors b = Some s /\
     forall k, In k (dkeys (wc_values w)) -> exists sec t, In (sec, t) s /\ In k (dkeys t)).
Proof.
  unfold wc_validate. destruct (reg_get er (wc_eft w)) as [e|]; [|split; [discriminate|intros [[? ?] _]; discriminate]].
  destruct (reg_get br (wc_eft w, wc_basis w)) as [b|];
    [|split; [discriminate|intros [_ (? & ? & ? & _)]; discriminate]].
  unfold all_wcs. destruct (b_sectors b) as [s|] eqn:S; simpl.
  - destruct (forallb (fun k => kmem k (sec_wcs s)) (dkeys (wc_values w))) eqn:F.
    + split; [intros _|reflexivity]. split; [eauto|]. exists b, s. repeat split; auto.
      intros k I. rewrite forallb_forall in F. apply F, kmem_In, sec_wcs_In in I. exact I.
    + split; [discriminate|]. intros [_ (b' & s' & E1 & E2 & G)]. exfalso.
      injection E1 as <-. rewrite S in E2; injection E2 as <-.
      assert (T : forallb (fun k => kmem k (sec_wcs s)) (dkeys (wc_values w)) = true).
      { apply forallb_forall. intros k I. apply kmem_In, sec_wcs_In. auto. }
      congruence.
  - split; [discriminate|]. intros [_ (b' & s' & E1 & E2 & G)]. injection E1 as <-. congruence.
Qed.
Lemma wc_validate_assert (er : eft_reg K) (br : basis_reg K) w :
  wc_validate er br w = Err AssertionError ->
  exists b s, reg_get br (wc_eft w, wc_basis w) = Ok b /\ b_sectors b = Some s /\
     exists k, In k (dkeys (wc_values w)) /\ ~ exists sec t, In (sec, t) s /\ In k (dkeys t).
Proof.
  unfold wc_validate. destruct (reg_get er (wc_eft w)) as [e|]; [|discriminate].
  destruct (reg_get br (wc_eft w, wc_basis w)) as [b|]; [|discriminate].
  unfold all_wcs. destruct (b_sectors b) as [s|] eqn:S; simpl; [|discriminate].
  destruct (forallb (fun k => kmem k (sec_wcs s)) (dkeys (wc_values w))) eqn:F; [discriminate|].
  intros _. exists b, s. repeat split; auto.
  assert (G : forall l, forallb (fun k => kmem k (sec_wcs s)) l = false ->
     exists k, In k l /\ kmem k (sec_wcs s) = false).
  { induction l as [|x l IH]; simpl; [discriminate|]. destruct (kmem x (sec_wcs s)) eqn:M; simpl.
    - intros E. destruct (IH E) as (k & I & J). eauto.
    - intros _. exists x. auto. }
  destruct (G _ F) as (k & I & J). exists k. split; [exact I|].
  rewrite <- sec_wcs_In. now apply kmem_nIn.
Qed.
Lemma wc_validate_value (er : eft_reg K) (br : basis_reg K) w :
  wc_validate er br w = Err ValueError <->
  (forall e, reg_get er (wc_eft w) <> Ok e) \/ (forall b, reg_get br (wc_eft w, wc_basis w) <> Ok b).
Proof.
  unfold wc_validate. destruct (reg_get er (wc_eft w)) as [e|] eqn:E.
  - destruct (reg_get br (wc_eft w, wc_basis w)) as [b|] eqn:B.
    + split.
      * unfold all_wcs. destruct (b_sectors b); simpl; [|discriminate].
        destruct (forallb _ _); discriminate.
      * intros [H1|H1]; exfalso; eapply H1; reflexivity.
    + split; [|reflexivity]. intros _. right. intros b. discriminate.
  - split; [|reflexivity]. intros _. left. intros e'. discriminate.
Qed.

(* C04 *)
Lemma basis_init_inherit (r : basis_reg K) eft basis secs p extra pb ps :
  p <> basis -> wfdict secs ->
  reg_get r (eft, p) = Ok pb -> b_sectors pb = Some ps ->
  exists b s, snd (basis_init r eft basis secs (Some p) extra) = Ok b /\
    b_sectors b = Some s /\
    (forall sec, dget s sec = match dget secs sec with Some t => Some t | None => dget ps sec end) /\
    reg_get (fst (basis_init r eft basis secs (Some p) extra)) (eft, basis) = Ok b /\
    (forall n, n <> (eft, basis) ->
       reg_get (fst (basis_init r eft basis secs (Some p) extra)) n = reg_get r n \/
       exists e', reg_get r n = Err e').
Proof.
  intros N W G S. unfold basis_init.
  assert (NE : keqb (eft, p) (eft, basis) = false) by (apply keqb_neq; congruence).
  assert (G1 : forall h : Basis K, reg_get (reg_create r (eft, basis) h) (eft, p) = Ok pb).
  { intros h. unfold reg_get, reg_create. rewrite dget_dset, NE.
    unfold reg_get in G. destruct r as [d|]; [|discriminate]. exact G. }
  rewrite G1, S. cbn [fst snd]. eexists; eexists. repeat split.
  - intros sec. now apply dget_dupdate.
  - unfold reg_get, reg_create. cbn [reg_dict]. now rewrite dget_dset_eq.
  - intros n Nn. unfold reg_get, reg_create. cbn [reg_dict].
    rewrite !dget_dset_neq by exact Nn. destruct r as [d|]; [left; reflexivity|right; eauto].
Qed.
Lemma basis_init_parent_missing (r : basis_reg K) eft basis secs p extra :
  snd (basis_init r eft basis secs (Some p) extra) = Err ValueError <->
  p = basis \/ (forall pb ps, reg_get r (eft, p) = Ok pb -> b_sectors pb <> Some ps).
Proof.
  unfold basis_init. destruct (keqb (eft, p) (eft, basis)) eqn:E.
  - apply keqb_true in E. injection E as ->.
    unfold reg_get, reg_create. rewrite dget_dset_eq. cbn. split; auto.
  - apply keqb_false in E. assert (NP : p <> basis) by congruence.
    assert (G1 : forall h : Basis K, forall x, reg_get (reg_create r (eft, basis) h) (eft, p) = Ok x <-> reg_get r (eft, p) = Ok x).
    { intros h x. unfold reg_get, reg_create. rewrite dget_dset_neq by congruence.
      destruct r as [d|]; simpl; [reflexivity|split; discriminate]. }
    destruct (reg_get (reg_create r (eft, basis) (mkBasis eft basis None (Some p) extra)) (eft, p)) as [pb|] eqn:R.
    + apply G1 in R. destruct (b_sectors pb) as [ps|] eqn:S; simpl.
      * split; [discriminate|]. intros [?|F]; [congruence|]. exfalso. eapply F; eauto.
      * split; [|reflexivity]. intros _. right. intros pb' ps' R'. congruence.
    + simpl. split; [|reflexivity]. intros _. right. intros pb' ps' R'.
      apply (G1 (mkBasis eft basis None (Some p) extra)) in R'. congruence.
Qed.
Lemma basis_init_failure_pollutes (r : basis_reg K) eft basis secs p extra e :
  snd (basis_init r eft basis secs (Some p) extra) = Err e ->
  exists h, reg_get (fst (basis_init r eft basis secs (Some p) extra)) (eft, basis) = Ok h /\ b_sectors h = None.
Proof.
  unfold basis_init.
  destruct (reg_get (reg_create r (eft, basis) (mkBasis eft basis None (Some p) extra)) (eft, p)) as [pb|] eqn:R.
  - destruct (b_sectors pb) as [ps|]; [discriminate|]. intros _. eexists.
    cbn [fst]. unfold reg_get, reg_create. rewrite dget_dset_eq. split; reflexivity.
  - intros _. eexists. cbn [fst]. unfold reg_get, reg_create. rewrite dget_dset_eq. split; reflexivity.
Qed.

(* C06 *)
Lemma nodup_flat_map (s : sectable K) sec1 t1 sec2 t2 wc :
  wfdict s -> NoDup (sec_wcs s) ->
  In (sec1, t1) s -> In (sec2, t2) s -> In wc (dkeys t1) -> In wc (dkeys t2) -> sec1 = sec2.
Proof.
  unfold sec_wcs. induction s as [|[a t] s IH]; simpl; [tauto|].
  intros W ND. inversion W as [|? ? NI W']; subst.
  assert (DJ : forall x, In x (dkeys t) -> In x (flat_map (fun s => dkeys (snd s)) s) -> False).
  { clear - ND. intros x. revert ND. generalize (dkeys t) as l, (flat_map (fun s : string * dict string (jval K) => dkeys (snd s)) s) as m.
    induction l as [|y l IH]; simpl; [tauto|]. intros m ND [->|I] J; inversion ND; subst.
    - apply H1. apply in_or_app; auto.
    - eapply IH; eauto. }
  assert (ND2 : NoDup (flat_map (fun s => dkeys (snd s)) s)).
  { clear - ND. induction (dkeys t) as [|y l IH]; simpl in *; auto. inversion ND; auto. }
  intros I1 I2 J1 J2.
  destruct I1 as [E1|I1], I2 as [E2|I2].
  - injection E1 as <- <-; injection E2 as <- <-; reflexivity.
  - exfalso. injection E1 as <- <-. apply (DJ wc J1). apply in_flat_map. exists (sec2, t2); auto.
  - exfalso. injection E2 as <- <-. apply (DJ wc J2). apply in_flat_map. exists (sec1, t1); auto.
  - eapply IH; eauto.
Qed.
Lemma basis_validate_ok (er : eft_reg K) (b : Basis K) :
  basis_validate er b = Ok tt <->
  exists e s, reg_get er (b_eft b) = Ok e /\ b_sectors b = Some s /\
    (forall sec, In sec (dkeys s) -> In sec (dkeys (eft_sectors e))) /\ NoDup (sec_wcs s).
Proof.
  unfold basis_validate. destruct (reg_get er (b_eft b)) as [e|];
    [|split; [discriminate|intros (? & ? & ? & _); discriminate]].
  destruct (b_sectors b) as [s|]; [|split; [discriminate|intros (? & ? & _ & ? & _); discriminate]].
  destruct (forallb (fun s => dmem (eft_sectors e) s) (dkeys s)) eqn:F.
  - destruct (knodup (sec_wcs s)) eqn:D.
    + split; [intros _|reflexivity]. exists e, s. repeat split; auto.
      * intros sec I. rewrite forallb_forall in F. apply F in I. now apply kmem_In in I.
      * now apply knodup_NoDup.
    + split; [discriminate|]. intros (e' & s' & E1 & E2 & _ & ND). injection E2 as <-.
      apply knodup_NoDup in ND. congruence.
  - split; [discriminate|]. intros (e' & s' & E1 & E2 & G & ND). injection E1 as <-. injection E2 as <-.
    assert (T : forallb (fun s => dmem (eft_sectors e) s) (dkeys s) = true).
    { apply forallb_forall. intros sec I. apply kmem_In. auto. }
    congruence.
Qed.
End C0x.

(* C07 *)
Section C07.
Context {V : Type}.
Local Opaque private.
Lemma kmem_cons_false {A} `{EqKey A} (k a : A) l : kmem k (a :: l) = false -> keqb k a = false /\ kmem k l = false.
Proof. simpl. apply orb_false_iff. Qed.

Ltac kcase k s := destruct (String.eqb_spec k s) as [->|?].

Lemma load_wc_get tofloat none rnd (d o : attrs V) : wfdict d -> load_wc tofloat none rnd d = Ok o ->
  exists e b s s' v, dget d "eft" = Some e /\ dget d "basis" = Some b /\ dget d "scale" = Some s /\
    dget d "values" = Some v /\ tofloat s = Ok s' /\ wfdict o /\
    forall k, dget o k =
      if kmem k ["eft"; "basis"; "scale"; "values"] then
        dget [("eft", e); ("basis", b); ("scale", s'); ("values", v)] k
      else match dget d k with Some x => Some x
           | None => dget [("_dict", none); ("_df", none); ("_hash", rnd)] k end.
Proof.
  intros W. unfold load_wc, arg.
  destruct (dget d "eft") as [e|]; cbn [bind]; [|discriminate].
  destruct (dget d "basis") as [b|]; cbn [bind]; [|discriminate].
  destruct (dget d "scale") as [s|]; cbn [bind]; [|discriminate].
  destruct (dget d "values") as [v|]; cbn [bind]; [|discriminate].
  destruct (tofloat s) as [s'|] eqn:T; cbn [bind]; [|discriminate].
  intros E; injection E as <-. exists e, b, s, s', v. repeat split; auto.
  - apply wf_dupdate. apply knodup_NoDup. reflexivity.
  - intros k. unfold set_extra. rewrite dget_dupdate by now apply wf_without.
    rewrite dget_without by exact W.
    destruct (kmem k ["eft"; "basis"; "scale"; "values"]) eqn:M.
    + kcase k "eft"; [reflexivity|]. kcase k "basis"; [reflexivity|].
      kcase k "scale"; [reflexivity|]. kcase k "values"; [reflexivity|].
      exfalso. apply kmem_In in M. simpl in M. intuition congruence.
    + destruct (dget d k); [reflexivity|].
      apply kmem_cons_false in M as [M1 M]. apply kmem_cons_false in M as [M2 M].
      apply kmem_cons_false in M as [M3 M]. apply kmem_cons_false in M as [M4 _].
      cbn [dget]. rewrite M1, M2, M3, M4. reflexivity.
Qed.
Lemma wc_dump_load tofloat none rnd rnd' (d o p : attrs V) :
  (forall x y, tofloat x = Ok y -> tofloat y = Ok y) ->
  wfdict d -> load_wc tofloat none rnd d = Ok o -> dump o = Ok p ->
  exists o', load_wc tofloat none rnd' p = Ok o' /\
    forall k, private k = false -> dget o' k = dget o k.
Proof.
  intros TF W L D. destruct (load_wc_get _ _ _ _ _ W L) as (e & b & s & s' & v & _ & _ & _ & _ & T & Wo & G).
  destruct (dump_spec _ _ Wo D) as [Wp Gp].
  assert (P : forall k, In k ["eft"; "basis"; "scale"; "values"] -> private k = false).
  { intros k I. simpl in I. repeat (destruct I as [<-|I]; [reflexivity|]). destruct I. }
  assert (X1 : dget p "eft" = Some e) by (rewrite Gp, G, P; [reflexivity|simpl; auto]).
  assert (X2 : dget p "basis" = Some b) by (rewrite Gp, G, P; [reflexivity|simpl; auto]).
  assert (X3 : dget p "scale" = Some s') by (rewrite Gp, G, P; [reflexivity|simpl; auto]).
  assert (X4 : dget p "values" = Some v) by (rewrite Gp, G, P; [reflexivity|simpl; auto]).
  assert (E : exists o', load_wc tofloat none rnd' p = Ok o').
  { unfold load_wc, arg. rewrite X1, X2, X3, X4. simpl. rewrite (TF _ _ T). simpl. eauto. }
  destruct E as [o' E]. exists o'. split; [exact E|].
  destruct (load_wc_get _ _ _ _ _ Wp E) as (e2 & b2 & s2 & s2' & v2 & Y1 & Y2 & Y3 & Y4 & T2 & _ & G2).
  assert (e2 = e) by congruence. assert (b2 = b) by congruence.
  assert (s2 = s') by congruence. assert (v2 = v) by congruence. subst.
  assert (s2' = s') by (rewrite (TF _ _ T) in T2; congruence). subst.
  intros k Pk. rewrite G2, G. destruct (kmem k ["eft"; "basis"; "scale"; "values"]) eqn:M; [reflexivity|].
  rewrite Gp, Pk, G, M. destruct (dget d k); [reflexivity|].
  assert (Q : dget [("_dict", none); ("_df", none); ("_hash", rnd)] k = None).
  { kcase k "_dict"; [discriminate Pk|]. kcase k "_df"; [discriminate Pk|]. kcase k "_hash"; [discriminate Pk|].
    simpl. destruct (String.eqb_spec k "_dict"); [congruence|]. destruct (String.eqb_spec k "_df"); [congruence|].
    destruct (String.eqb_spec k "_hash"); [congruence|reflexivity]. }
  rewrite Q.
  kcase k "_dict"; [discriminate Pk|]. kcase k "_df"; [discriminate Pk|]. kcase k "_hash"; [discriminate Pk|].
  simpl. destruct (String.eqb_spec k "_dict"); [congruence|]. destruct (String.eqb_spec k "_df"); [congruence|].
  destruct (String.eqb_spec k "_hash"); [congruence|reflexivity].
Qed.

Lemma load_basis_get mkname none ps mg (d o : attrs V) : wfdict d ->
  load_basis mkname none ps mg d = Ok o ->
  exists e b s s', dget d "eft" = Some e /\ dget d "basis" = Some b /\ dget d "sectors" = Some s /\
    match dget d "parent" with
    | None => s' = s
    | Some p => exists t, ps e p = Some t /\ s' = mg t s
    end /\ wfdict o /\
    forall k, dget o k =
      if keqb k "_all_wcs" then Some none else
      if kmem k ["eft"; "basis"; "sectors"] then
        dget [("eft", e); ("basis", b); ("sectors", s')] k
      else match dget d k with Some x => Some x | None => dget [("_name", mkname e b)] k end.
Proof.
  intros W. unfold load_basis, arg.
  destruct (dget d "eft") as [e|]; cbn [bind]; [|discriminate].
  destruct (dget d "basis") as [b|]; cbn [bind]; [|discriminate].
  destruct (dget d "sectors") as [s|]; cbn [bind]; [|discriminate].
  set (o0 := set_extra _ _).
  assert (W0 : wfdict o0).
  { apply wf_dupdate. apply knodup_NoDup. reflexivity. }
  assert (G0 : forall k, dget o0 k = if kmem k ["eft"; "basis"; "sectors"] then
        dget [("eft", e); ("basis", b)] k
      else match dget d k with Some x => Some x | None => dget [("_name", mkname e b)] k end).
  { intros k. unfold o0, set_extra. rewrite dget_dupdate by now apply wf_without.
    rewrite dget_without by exact W.
    destruct (kmem k ["eft"; "basis"; "sectors"]) eqn:M.
    - kcase k "eft"; [reflexivity|]. kcase k "basis"; [reflexivity|]. kcase k "sectors"; [reflexivity|].
      exfalso. apply kmem_In in M. simpl in M. intuition congruence.
    - destruct (dget d k); [reflexivity|].
      apply kmem_cons_false in M as [M1 M]. apply kmem_cons_false in M as [M2 M].
      cbn [dget]. rewrite M1, M2. reflexivity. }
  assert (FIN : forall s', wfdict (dset (dset o0 "sectors" s') "_all_wcs" none) /\
     forall k, dget (dset (dset o0 "sectors" s') "_all_wcs" none) k =
      if keqb k "_all_wcs" then Some none else
      if kmem k ["eft"; "basis"; "sectors"] then
        dget [("eft", e); ("basis", b); ("sectors", s')] k
      else match dget d k with Some x => Some x | None => dget [("_name", mkname e b)] k end).
  { intros s'. split; [repeat apply wf_dset; exact W0|]. intros k.
    rewrite dget_dset. destruct (keqb k "_all_wcs"); [reflexivity|].
    rewrite dget_dset. destruct (keqb k "sectors") eqn:Ks.
    + apply keqb_true in Ks; subst k. reflexivity.
    + rewrite G0. destruct (kmem k ["eft"; "basis"; "sectors"]) eqn:M; [|reflexivity].
      cbn [dget]. rewrite Ks. reflexivity. }
  assert (P0 : dget o0 "parent" = dget d "parent").
  { rewrite G0. simpl. destruct (dget d "parent"); reflexivity. }
  rewrite P0. destruct (dget d "parent") as [p|].
  - destruct (ps e p) as [t|] eqn:Pt; [|discriminate]. intros E; injection E as <-.
    destruct (FIN (mg t s)) as [F1 F2]. exists e, b, s, (mg t s). repeat split; eauto.
  - intros E; injection E as <-. destruct (FIN s) as [F1 F2]. exists e, b, s, s. repeat split; auto.
Qed.
Lemma basis_dump_load mkname none ps mg (d o p : attrs V) :
  (forall e q t s, ps e q = Some t -> mg t (mg t s) = mg t s) ->
  wfdict d -> load_basis mkname none ps mg d = Ok o -> dump o = Ok p ->
  exists o', load_basis mkname none ps mg p = Ok o' /\
    forall k, private k = false -> dget o' k = dget o k.
Proof.
  intros ID W L D.
  destruct (load_basis_get _ _ _ _ _ _ W L) as (e & b & s & s' & _ & _ & _ & PP & Wo & G).
  destruct (dump_spec _ _ Wo D) as [Wp Gp].
  assert (P : forall k, In k ["eft"; "basis"; "sectors"; "parent"] -> private k = false).
  { intros k I. simpl in I. repeat (destruct I as [<-|I]; [reflexivity|]). destruct I. }
  assert (X1 : dget p "eft" = Some e) by (rewrite Gp, G, P; [reflexivity|simpl; auto]).
  assert (X2 : dget p "basis" = Some b) by (rewrite Gp, G, P; [reflexivity|simpl; auto]).
  assert (X3 : dget p "sectors" = Some s') by (rewrite Gp, G, P; [reflexivity|simpl; auto]).
  assert (X4 : dget p "parent" = dget d "parent").
  { rewrite Gp, G, P by (simpl; auto). simpl. destruct (dget d "parent"); reflexivity. }
  assert (E : exists o', load_basis mkname none ps mg p = Ok o').
  { unfold load_basis, arg. rewrite X1, X2, X3. cbn [bind].
    set (o0 := set_extra _ _).
    assert (Y : dget o0 "parent" = dget d "parent").
    { unfold o0, set_extra. rewrite dget_dupdate by now apply wf_without.
      rewrite dget_without by exact Wp. simpl. rewrite X4. destruct (dget d "parent"); reflexivity. }
    rewrite Y. destruct (dget d "parent") as [q|]; [|eauto].
    destruct PP as (t & Pt & _). rewrite Pt. eauto. }
  destruct E as [o' E]. exists o'. split; [exact E|].
  destruct (load_basis_get _ _ _ _ _ _ Wp E) as (e2 & b2 & s2 & s2' & Y1 & Y2 & Y3 & PP2 & _ & G2).
  assert (e2 = e) by congruence. assert (b2 = b) by congruence. assert (s2 = s') by congruence. subst.
  assert (s2' = s').
  { rewrite X4 in PP2. destruct (dget d "parent") as [q|]; [|exact PP2].
    destruct PP as (t & Pt & ->). destruct PP2 as (t2 & Pt2 & ->).
    assert (t2 = t) by congruence. subst. eapply ID; eauto. }
  subst. intros k Pk. rewrite G2, G. destruct (keqb k "_all_wcs"); [reflexivity|].
  destruct (kmem k ["eft"; "basis"; "sectors"]) eqn:M; [reflexivity|].
  rewrite Gp, Pk, G, M. 
  destruct (keqb k "_all_wcs") eqn:A1; [apply keqb_true in A1; subst k; discriminate Pk|].
  destruct (dget d k); [reflexivity|].
  assert (Q : keqb k "_name" = false).
  { apply keqb_neq. intros ->. discriminate Pk. }
  cbn [dget]. rewrite !Q. reflexivity.
Qed.

Lemma load_eft_get (d o : attrs V) : wfdict d -> load_eft d = Ok o ->
  exists e s, dget d "eft" = Some e /\ dget d "sectors" = Some s /\ wfdict o /\
    forall k, dget o k =
      if kmem k ["eft"; "sectors"] then dget [("eft", e); ("sectors", s)] k
      else match dget d k with Some x => Some x | None => dget [("_name", e)] k end.
Proof.
  intros W. unfold load_eft, arg.
  destruct (dget d "eft") as [e|]; cbn [bind]; [|discriminate].
  destruct (dget d "sectors") as [s|]; cbn [bind]; [|discriminate].
  intros E; injection E as <-. exists e, s. repeat split; auto.
  - apply wf_dupdate. apply knodup_NoDup. reflexivity.
  - intros k. unfold set_extra. rewrite dget_dupdate by now apply wf_without.
    rewrite dget_without by exact W. destruct (kmem k ["eft"; "sectors"]) eqn:M.
    + kcase k "eft"; [reflexivity|]. kcase k "sectors"; [reflexivity|].
      exfalso. apply kmem_In in M. simpl in M. intuition congruence.
    + destruct (dget d k); [reflexivity|].
      apply kmem_cons_false in M as [M1 M]. apply kmem_cons_false in M as [M2 _].
      cbn [dget]. rewrite M1, M2. reflexivity.
Qed.
Lemma eft_dump_load (d o p : attrs V) :
  wfdict d -> load_eft d = Ok o -> dump o = Ok p ->
  exists o', load_eft p = Ok o' /\ forall k, private k = false -> dget o' k = dget o k.
Proof.
  intros W L D. destruct (load_eft_get _ _ W L) as (e & s & _ & _ & Wo & G).
  destruct (dump_spec _ _ Wo D) as [Wp Gp].
  assert (X1 : dget p "eft" = Some e) by (rewrite Gp, G; reflexivity).
  assert (X2 : dget p "sectors" = Some s) by (rewrite Gp, G; reflexivity).
  assert (E : exists o', load_eft p = Ok o') by (unfold load_eft, arg; rewrite X1, X2; simpl; eauto).
  destruct E as [o' E]. exists o'. split; [exact E|].
  destruct (load_eft_get _ _ Wp E) as (e2 & s2 & Y1 & Y2 & _ & G2).
  assert (e2 = e) by congruence. assert (s2 = s) by congruence. subst.
  intros k Pk. rewrite G2, G. destruct (kmem k ["eft"; "sectors"]) eqn:M; [reflexivity|].
  rewrite Gp, Pk, G, M. destruct (dget d k); [reflexivity|].
  assert (Q : keqb k "_name" = false) by (apply keqb_neq; intros ->; discriminate Pk).
  cbn [dget]. rewrite !Q. reflexivity.
Qed.
End C07.
