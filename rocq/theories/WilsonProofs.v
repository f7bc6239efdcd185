(* Lemmas about WilsonModel.v *)
From Coq Require Import List Bool String Ascii ZArith Lia.
From Verif Require Import PyBase Num WcxfModel WcxfProofs WilsonModel.
Import ListNotations.
Local Open Scope string_scope.

Ltac kk := repeat (progress (cbn [dget]; rewrite ?keqb_refl)); cbn [dget].
Section Cache.
Context {K : StarField}.
Implicit Types (c : cache K) (w x y : WC K).

Lemma get_nil sec scale eft basis : get_cache (K:=K) [] sec scale eft basis = None.
Proof. reflexivity. Qed.

Lemma get_set_same c sec scale eft basis w :
  get_cache (set_cache c sec scale eft basis w) sec scale eft basis = Some w.
Proof.
  unfold get_cache, set_cache.
  destruct (dget c eft) as [c1|]; [|rewrite dget_dset_eq; kk; reflexivity].
  destruct (dget c1 scale) as [c2|]; [|rewrite !dget_dset_eq; kk; reflexivity].
  destruct (dget c2 basis) as [c3|]; rewrite !dget_dset_eq; [reflexivity|].
  kk; reflexivity.
Qed.

Lemma get_set c sec scale eft basis w sec' scale' eft' basis' :
  get_cache (set_cache c sec scale eft basis w) sec' scale' eft' basis' =
  if keqb eft' eft && keqb scale' scale && keqb basis' basis && keqb sec' sec then Some w
  else get_cache c sec' scale' eft' basis'.
Proof.
  unfold get_cache, set_cache.
  destruct (keqb_spec eft' eft) as [->|NE].
  2:{ cbn [andb]. destruct (dget c eft) as [c1|]; [destruct (dget c1 scale) as [c2|]; [destruct (dget c2 basis) as [c3|]|]|];
      now rewrite dget_dset_neq. }
  destruct (keqb_spec scale' scale) as [->|NS].
  2:{ cbn [andb]. destruct (dget c eft) as [c1|].
      - destruct (dget c1 scale) as [c2|]; [destruct (dget c2 basis) as [c3|]|];
          now rewrite dget_dset_eq, dget_dset_neq.
      - rewrite dget_dset_eq. cbn [dget]. now apply keqb_neq in NS as ->. }
  destruct (keqb_spec basis' basis) as [->|NB].
  2:{ cbn [andb]. destruct (dget c eft) as [c1|].
      - destruct (dget c1 scale) as [c2|]; [destruct (dget c2 basis) as [c3|]|];
          rewrite !dget_dset_eq.
        + now rewrite dget_dset_neq.
        + now rewrite dget_dset_neq.
        + cbn [dget]. now apply keqb_neq in NB as ->.
      - rewrite dget_dset_eq. cbn [dget]. rewrite keqb_refl. cbn [dget]. now apply keqb_neq in NB as ->. }
  destruct (keqb_spec sec' sec) as [->|NC]; cbn [andb].
  { destruct (dget c eft) as [c1|]; [destruct (dget c1 scale) as [c2|]; [destruct (dget c2 basis) as [c3|]|]|];
      rewrite ?dget_dset_eq; kk; reflexivity. }
  destruct (dget c eft) as [c1|]; [destruct (dget c1 scale) as [c2|]; [destruct (dget c2 basis) as [c3|]|]|];
    rewrite ?dget_dset_eq; rewrite ?dget_dset_neq by assumption; kk;
    try reflexivity; apply keqb_neq in NC; try rewrite NC; reflexivity.
Qed.
End Cache.

(* ---- computations that do not touch the cache ---- *)
Section Pure.
Context {K : StarField}.
Definition nocache {A} (m : M (K:=K) A) : Prop := exists r l, forall c, m c = ((r, c), l).
Lemma nc_ret {A} (x : A) : nocache (ret x). Proof. now exists (Ok x), []. Qed.
Lemma nc_raise {A} e : nocache (raise (A:=A) e). Proof. now exists (Err e), []. Qed.
Lemma nc_lift {A} (r : res A) : nocache (lift r). Proof. now exists r, []. Qed.
Lemma nc_log e : nocache (log e). Proof. now exists (Ok tt), [e]. Qed.
Lemma nc_bind {A B} (m : M A) (f : A -> M B) :
  nocache m -> (forall a, nocache (f a)) -> nocache (mbind m f).
Proof.
  intros (r & l & E) F. destruct r as [a|e].
  - destruct (F a) as (r' & l' & E'). exists r', (l ++ l')%list. intros c. unfold mbind.
    now rewrite E, E'.
  - exists (Err e), l. intros c. unfold mbind. now rewrite E.
Qed.
Lemma nc_if {A} (b : bool) (m m' : M A) : nocache m -> nocache m' -> nocache (if b then m else m').
Proof. now destruct b. Qed.
Variable W : world K.
Ltac nc := repeat first [apply nc_if | apply nc_bind; [|intros ?] | apply nc_ret | apply nc_raise | apply nc_lift | apply nc_log].
Lemma nc_translate w b p s : nocache (translateM W w b p s).
Proof. unfold translateM. nc. Qed.
Lemma nc_match w e b p : nocache (matchM W w e b p).
Proof. unfold matchM. nc. Qed.
Lemma nc_smeft w s a : nocache (smeft_runM W w s a).
Proof. unfold smeft_runM. nc. Qed.
Lemma nc_winit w : nocache (wet_init w).
Proof. unfold wet_init. nc. Qed.
Lemma nc_wet w o s sec : nocache (wet_runM W w o s sec).
Proof. unfold wet_runM. nc. Qed.
Lemma nc_ew o w : nocache (ew_match W o w).
Proof.
  unfold ew_match. apply nc_if; [apply nc_match|].
  apply nc_bind; [apply nc_translate|intros]. apply nc_bind; [apply nc_smeft|intros]. apply nc_match.
Qed.
(* computations that store their result under a given key *)
Definition stores sec scale eft basis (m : M (K:=K) (WC K)) : Prop :=
  exists r l, forall c,
    m c = ((r, match r with Ok out => set_cache c sec scale eft basis out | Err _ => c end), l).
Lemma st_bind {A} sec scale eft basis (m : M A) f :
  nocache m -> (forall a, stores sec scale eft basis (f a)) -> stores sec scale eft basis (mbind m f).
Proof.
  intros (r & l & E) F. destruct r as [a|e].
  - destruct (F a) as (r' & l' & E'). exists r', (l ++ l')%list. intros c. unfold mbind. now rewrite E, E'.
  - exists (Err e), l. intros c. unfold mbind. now rewrite E.
Qed.
Lemma st_store sec scale eft basis out :
  stores sec scale eft basis (mbind (setM sec scale eft basis out) (fun _ => ret out)).
Proof. exists (Ok out), []. intros c. reflexivity. Qed.
Lemma st_raise sec scale eft basis e : stores sec scale eft basis (raise e).
Proof. exists (Err e), []. reflexivity. Qed.
Lemma st_wet_part o w scale eft basis sec : stores sec scale eft basis (wet_part W o w scale eft basis sec).
Proof.
  unfold wet_part.
  repeat match goal with
  | |- stores _ _ _ _ (if ?b then _ else _) => destruct b eqn:?
  end;
  repeat match goal with H : _ && _ = true |- _ => apply andb_true_iff in H as [? ?] end;
  repeat match goal with H : keqb _ _ = true |- _ => apply keqb_true in H end; subst;
  repeat first [apply st_store | apply st_raise
    | apply st_bind; [first [apply nc_wet|apply nc_match|apply nc_translate|apply nc_winit]|intros ?]].
Qed.
Definition val {A} (m : M (K:=K) A) : res A := fst (fst (m [])).
Lemma nc_val {A} (m : M A) c : nocache m -> fst (fst (m c)) = val m.
Proof. intros (r & l & E). unfold val. now rewrite !E. Qed.
Lemma nc_cache {A} (m : M A) c : nocache m -> snd (fst (m c)) = c.
Proof. intros (r & l & E). now rewrite !E. Qed.
Lemma nc_eq {A} (m : M A) c : nocache m -> fst (m c) = (val m, c).
Proof. intros (r & l & E). unfold val. now rewrite !E. Qed.
Lemma bind_fst {A B} (m : M A) (f : A -> M B) c :
  nocache m -> fst (mbind m f c) = match val m with Ok a => fst (f a c) | Err e => (Err e, c) end.
Proof.
  intros (r & l & E). unfold val, mbind. rewrite !E. simpl. destruct r; [|reflexivity].
  now destruct (f a c).
Qed.
Lemma bind_get {B} sec (scale : K) eft basis (f : option (WC K) -> M B) c :
  fst (mbind (getM sec scale eft basis) f c) = fst (f (get_cache c sec scale eft basis) c).
Proof. unfold mbind, getM. now destruct (f _ c). Qed.
Lemma bind_set {B} sec scale eft basis (w : WC K) (f : unit -> M B) c :
  fst (mbind (setM sec scale eft basis w) f c) = fst (f tt (set_cache c sec scale eft basis w)).
Proof. unfold mbind, setM. now destruct (f _ _). Qed.
Lemma st_eq sec scale eft basis m c : stores sec scale eft basis m ->
  fst (m c) = (val m, match val m with Ok out => set_cache c sec scale eft basis out | Err _ => c end).
Proof. intros (r & l & E). unfold val. now rewrite !E. Qed.
Lemma val_bind {A B} (m : M A) (f : A -> M B) : nocache m -> val (mbind m f) = bind (val m) (fun a => val (f a)).
Proof. intros N. unfold val at 1. rewrite bind_fst by assumption. unfold val. now destruct (fst (fst (m []))). Qed.
Lemma val_ret {A} (a : A) : val (ret a) = Ok a. Proof. reflexivity. Qed.
Lemma val_lift {A} (r : res A) : val (lift r) = r. Proof. reflexivity. Qed.
Lemma val_translate w b p s : val (translateM W w b p s) = wc_translate (w_tr W) w b p s 0.
Proof. reflexivity. Qed.
Lemma val_match w e b p : val (matchM W w e b p) = wc_match (w_ma W) w e b p 0.
Proof. reflexivity. Qed.
End Pure.

(* ---- the cacheless reading of match_run ---- *)
Section Transparent.
Context {K : StarField}.
Variable W : world K.
Notation P := (dict string K).

(* same contents: metadata and every coefficient *)
Definition deq {V} (d d' : dict string V) : Prop := wfdict d /\ wfdict d' /\ forall k, dget d k = dget d' k.
Definition weqv (w w' : WC K) : Prop :=
  wc_eft w = wc_eft w' /\ wc_basis w = wc_basis w' /\ wc_scale w = wc_scale w' /\ deq (wc_dict w) (wc_dict w').
Definition reqv {A} (R : A -> A -> Prop) (r r' : res A) : Prop :=
  match r, r' with Ok a, Ok b => R a b | Err e, Err e' => e = e' | _, _ => False end.

Lemma deq_sym {V} (d d' : dict string V) : deq d d' -> deq d' d.
Proof. intros (A & B & C). repeat split; auto. Qed.
Lemma deq_trans {V} (a b c : dict string V) : deq a b -> deq b c -> deq a c.
Proof. intros (A & B & C) (D & E & F). repeat split; auto. intros. now rewrite C. Qed.
Lemma weqv_sym w w' : weqv w w' -> weqv w' w.
Proof. intros (A & B & C & D). repeat split; auto; try apply D; try (symmetry; apply D). Qed.
Lemma weqv_trans a b c : weqv a b -> weqv b c -> weqv a c.
Proof.
  intros (A & B & C & D) (A' & B' & C' & D'). split; [congruence|]. split; [congruence|].
  split; [congruence|]. eapply deq_trans; eauto.
Qed.
Lemma reqv_sym (r r' : res (WC K)) : reqv weqv r r' -> reqv weqv r' r.
Proof. destruct r, r'; simpl; auto. apply weqv_sym. Qed.
Lemma reqv_trans (a b c : res (WC K)) : reqv weqv a b -> reqv weqv b c -> reqv weqv a c.
Proof. destruct a, b, c; simpl; try tauto; try congruence. apply weqv_trans. Qed.

(* the registered functions and the numerical WET evolution return dictionaries
   that depend only on the contents of the dictionary they are given *)
Record extensional : Prop := {
  x_tr : forall n f, reg_get (w_tr W) n = Ok f -> forall d d' s p sec,
      deq d d' -> reqv deq (f d s p sec) (f d' s p sec);
  x_ma : forall n f, reg_get (w_ma W) n = Ok f -> forall d d' s p,
      deq d d' -> reqv deq (f d s p) (f d' s p);
  x_smeft : forall d d' s s' a, deq d d' -> reqv deq (w_smeft W d s s' a) (w_smeft W d' s s' a);
  x_wet : forall e d d' s s' qe qc sec, deq d d' ->
      reqv deq (w_wet W e d s s' qe qc sec) (w_wet W e d' s s' qe qc sec) }.
Hypothesis EXT : extensional.

Lemma deq_filter (f : string -> K -> bool) d d' : deq d d' -> deq (dfilter f d) (dfilter f d').
Proof.
  intros (A & B & C). repeat split; try now apply wf_dfilter. intros k.
  rewrite !dget_dfilter by assumption. now rewrite C.
Qed.
Lemma weqv_mk e b s d d' h x : deq d d' -> weqv (mkWC e b s (dict2values d) x h) (mkWC e b s (dict2values d') x h).
Proof. intros D. repeat split; auto; rewrite !wc_dict_mk; apply D. Qed.

Lemma translate_ext w w' b p s : weqv w w' ->
  reqv weqv (wc_translate (w_tr W) w b p s 0) (wc_translate (w_tr W) w' b p s 0).
Proof.
  intros (A & B & C & D). unfold wc_translate. rewrite <- A, <- B.
  destruct (keqb b (wc_basis w)); [now repeat split; try apply D|].
  destruct (reg_get (w_tr W) _) as [f|] eqn:R; [|reflexivity].
  unfold translator_translate. pose proof (x_tr EXT _ _ R _ _ (wc_scale w) p s D) as X.
  rewrite <- C. destruct (f (wc_dict w) _ _ _), (f (wc_dict w') _ _ _); try contradiction; [|exact X].
  simpl. apply weqv_mk. now apply deq_filter.
Qed.
Lemma match_ext w w' e b p : weqv w w' ->
  reqv weqv (wc_match (w_ma W) w e b p 0) (wc_match (w_ma W) w' e b p 0).
Proof.
  intros (A & B & C & D). unfold wc_match. rewrite <- A, <- B.
  destruct (keqb e (wc_eft w) && keqb b (wc_basis w)); [now repeat split; try apply D|].
  destruct (reg_get (w_ma W) _) as [f|] eqn:R; [|reflexivity].
  unfold matcher_match. pose proof (x_ma EXT _ _ R _ _ (wc_scale w) p D) as X.
  rewrite <- C. destruct (f (wc_dict w) _ _), (f (wc_dict w') _ _); try contradiction; [|exact X].
  simpl. apply weqv_mk. now apply deq_filter.
Qed.
Lemma val_wet w o s sec : val (wet_runM W w o s sec) =
  if negb (kmem (wc_eft w) ["WET"; "WET-4"; "WET-3"]) then Err AttributeError else
  bind (w_wet W (wc_eft w) (wc_dict w) (wc_scale w) s (op_qed o) (op_qcd o) sec) (fun d =>
  bind (reg_get (w_br W) (wc_eft w, "JMS")) (fun b => bind (all_wcs b) (fun wcs =>
  Ok (mkWC (wc_eft w) "JMS" s
         (dict2values (dfilter (fun k v => negb (kdec v k0) && kmem k wcs) d)) [] 0)))).
Proof.
  unfold wet_runM. destruct (negb _); [reflexivity|].
  unfold val, mbind, log, lift, ret; simpl.
  destruct (w_wet _ _ _ _ _ _ _); [|reflexivity]. simpl.
  destruct (reg_get _ _); [|reflexivity]. simpl. destruct (all_wcs _); reflexivity.
Qed.
Lemma wet_ext w w' o s sec : weqv w w' -> reqv weqv (val (wet_runM W w o s sec)) (val (wet_runM W w' o s sec)).
Proof.
  intros (A & B & C & D). rewrite !val_wet, <- A, <- C. destruct (negb _); [reflexivity|].
  pose proof (x_wet EXT (wc_eft w) _ _ (wc_scale w) s (op_qed o) (op_qcd o) sec D) as X.
  destruct (w_wet W _ (wc_dict w) _ _ _ _ _), (w_wet W _ (wc_dict w') _ _ _ _ _); try contradiction; [|exact X].
  simpl. destruct (reg_get _ _); [|reflexivity]. simpl. destruct (all_wcs _); [|reflexivity]. simpl.
  apply weqv_mk. now apply deq_filter.
Qed.
Lemma init_ext w w' : weqv w w' -> val (wet_init w) = val (wet_init w').
Proof. intros (A & B & C & D). unfold wet_init. now rewrite B. Qed.

Lemma reqv_bind (r r' : res (WC K)) f g : reqv weqv r r' -> (forall a b, weqv a b -> reqv weqv (f a) (g b)) ->
  reqv weqv (bind r f) (bind r' g).
Proof. destruct r, r'; simpl; try tauto; try congruence. intros R F. now apply F. Qed.

Lemma val_store sec s e b out : val (mbind (setM (K:=K) sec s e b out) (fun _ => ret out)) = Ok out.
Proof. reflexivity. Qed.
Lemma part_ext o w w' scale eft basis sec : weqv w w' ->
  reqv weqv (val (wet_part W o w scale eft basis sec)) (val (wet_part W o w' scale eft basis sec)).
Proof.
  intros E. pose proof E as (A & _). unfold wet_part. rewrite <- A.
  assert (TAIL : forall a b e, weqv a b ->
    reqv weqv (val (mbind (translateM W a basis (Some (parameters W o)) sec)
                 (fun out => mbind (setM sec scale e basis out) (fun _ => ret out))))
              (val (mbind (translateM W b basis (Some (parameters W o)) sec)
                 (fun out => mbind (setM sec scale e basis out) (fun _ => ret out))))).
  { intros a b e AB. rewrite !val_bind by apply nc_translate. rewrite !val_translate.
    apply reqv_bind; [now apply translate_ext|]. intros x y XY. now rewrite !val_store. }
  repeat match goal with |- reqv _ (val (if ?b then _ else _)) _ => destruct b end;
  repeat match goal with
  | |- reqv _ (val (mbind (wet_runM _ _ _ _ _) _)) _ =>
      rewrite !val_bind by apply nc_wet; apply reqv_bind; [now apply wet_ext|intros ? ? ?]
  | |- reqv _ (val (mbind (matchM _ _ _ _ _) _)) _ =>
      rewrite !val_bind by apply nc_match; rewrite !val_match; apply reqv_bind; [now apply match_ext|intros ? ? ?]
  | H : weqv ?a ?b |- reqv _ (val (mbind (wet_init ?a) _)) _ =>
      rewrite (val_bind (wet_init a)), (val_bind (wet_init b)) by apply nc_winit; rewrite (init_ext _ _ H); destruct (val (wet_init b)); cbn [bind]; [|exact eq_refl]
  end; try (now apply TAIL). exact eq_refl.
Qed.

Definition answer0 (o : opts K) w scale eft basis sec : res (WC K) := val (match_run W o w scale eft basis sec).
Definition cache_ok (o : opts K) (w : WC K) (c : cache K) : Prop :=
  forall sec scale eft basis x, get_cache c sec scale eft basis = Some x ->
    exists y, answer0 o w scale eft basis sec = Ok y /\ weqv x y.

Lemma cache_ok_set o w c sec scale eft basis x y :
  cache_ok o w c -> answer0 o w scale eft basis sec = Ok y -> weqv x y ->
  cache_ok o w (set_cache c sec scale eft basis x).
Proof.
  intros C A E s' sc' e' b' z. rewrite get_set.
  destruct (keqb e' eft && keqb sc' scale && keqb b' basis && keqb s' sec) eqn:Q; [|apply C].
  repeat match goal with H : _ && _ = true |- _ => apply andb_true_iff in H as [? ?] end.
  repeat match goal with H : keqb _ _ = true |- _ => apply keqb_true in H end; subst.
  intros X; injection X as <-. eauto.
Qed.

(* SMEFT translators to Warsaw ignore the sector selection *)
Definition smeft_sector_blind : Prop :=
  forall b f, reg_get (w_tr W) (("SMEFT", b), "Warsaw") = Ok f ->
    forall d s p sec, f d s p sec = f d s p None.
(* WET evolution from the matching scale to itself changes nothing *)
Definition ew_neutral (w : WC K) : Prop :=
  forall o x, val (ew_match W o w) = Ok x ->
    exists y, val (wet_runM W x o (op_ew o) None) = Ok y /\ weqv x y.

Lemma weqv_refl w : wfdict (wc_values w) -> weqv w w.
Proof. intros WF. repeat split; unfold wc_dict; now apply wf_dmap. Qed.

Lemma ok_weqv_refl (r : res (WC K)) x : reqv weqv r r -> r = Ok x -> weqv x x.
Proof. intros R E. now rewrite E in R. Qed.

Lemma val_smeft w s acc : val (smeft_runM W w s acc) =
  if negb (keqb (wc_eft w) "SMEFT") then Err ValueError
  else if negb (keqb (wc_basis w) "Warsaw") then Err ValueError else
  bind (if kmem acc ["integrate"; "leadinglog"] then w_smeft W (wc_dict w) (wc_scale w) s acc else Err ValueError)
   (fun d => Ok (mkWC "SMEFT" "Warsaw" s (dict2values d) [] 0)).
Proof.
  unfold smeft_runM. destruct (negb _); [reflexivity|]. destruct (negb _); [reflexivity|].
  unfold val, mbind, log, lift, ret; cbn [fst snd]. destruct (kmem acc _); [|reflexivity].
  destruct (w_smeft _ _ _ _ _); reflexivity.
Qed.
Lemma smeft_ext w w' s acc : weqv w w' -> reqv weqv (val (smeft_runM W w s acc)) (val (smeft_runM W w' s acc)).
Proof.
  intros (A & B & C & D). rewrite !val_smeft, <- A, <- B, <- C.
  destruct (negb _); [reflexivity|]. destruct (negb _); [reflexivity|].
  destruct (kmem acc _); [|reflexivity].
  pose proof (x_smeft EXT _ _ (wc_scale w) s acc D) as X.
  destruct (w_smeft W (wc_dict w) _ _ _), (w_smeft W (wc_dict w') _ _ _); try contradiction; [|exact X].
  simpl. now apply weqv_mk.
Qed.

Lemma ew_shape o w x : val (ew_match W o w) = Ok x -> wc_eft w = "SMEFT" -> wc_eft x = "WET" /\ wc_basis x = "JMS".
Proof.
  intros E S. unfold ew_match in E.
  assert (MM : forall w' p, wc_eft w' = "SMEFT" -> forall x, wc_match (w_ma W) w' "WET" "JMS" p 0 = Ok x ->
     wc_eft x = "WET" /\ wc_basis x = "JMS").
  { intros w' p S' y. unfold wc_match. rewrite S'. simpl.
    destruct (reg_get _ _); [|discriminate]. unfold matcher_match. destruct (a _ _ _); [|discriminate].
    simpl. intros Q; injection Q as <-. auto. }
  destruct (keqb _ _).
  - rewrite val_match in E. eapply MM; eauto.
  - rewrite val_bind in E by apply nc_translate. destruct (val _) as [w1|]; [|discriminate]. simpl in E.
    rewrite val_bind in E by apply nc_smeft. rewrite val_smeft in E.
    destruct (negb _); [discriminate|]. destruct (negb _); [discriminate|].
    destruct (kmem (op_accuracy o) _); [|discriminate]. destruct (w_smeft _ _ _ _ _); [|discriminate]. cbn [bind] in E.
    rewrite val_match in E. eapply MM; [|exact E]. reflexivity.
Qed.

Lemma translate_basis w b p s h x : wc_translate (w_tr W) w b p s h = Ok x ->
  wc_basis x = b /\ wc_eft x = wc_eft w /\ wc_scale x = wc_scale w.
Proof.
  unfold wc_translate. destruct (keqb_spec b (wc_basis w)) as [->|].
  - intros E; injection E as <-; auto.
  - destruct (reg_get _ _); [|discriminate]. unfold translator_translate.
    destruct (a _ _ _ _); [|discriminate]. simpl. intros E; injection E as <-. auto.
Qed.

(* fresh answers by branch *)
Lemma answer0_unfold o w scale eft basis sec :
  answer0 o w scale eft basis sec =
  if keqb (wc_basis w) basis && keqb (wc_eft w) eft && keqb scale (wc_scale w) then Ok w
  else if keqb (wc_eft w) eft && keqb scale (wc_scale w) then
    wc_translate (w_tr W) w basis (Some (parameters W o)) sec 0
  else if keqb (wc_eft w) "SMEFT" then
    if keqb eft "SMEFT" then
      bind (wc_translate (w_tr W) w "Warsaw" (Some (parameters W o)) sec 0) (fun w1 =>
      bind (val (smeft_runM W w1 scale (op_accuracy o))) (fun w2 =>
      wc_translate (w_tr W) w2 basis None None 0))
    else
      bind (val (ew_match W o w)) (fun x => bind (val (wet_init x)) (fun _ =>
      val (wet_part W o x scale eft basis sec)))
  else if kmem (wc_eft w) ["WET"; "WET-4"; "WET-3"] then
    bind (wc_translate (w_tr W) w "JMS" (Some (parameters W o)) sec 0) (fun w1 =>
    bind (val (wet_init w1)) (fun _ => val (wet_part W o w1 scale eft basis sec)))
  else Err ValueError.
Proof.
  unfold answer0, val at 1, match_run. rewrite bind_get, get_nil.
  destruct (_ && _ && _); [reflexivity|]. destruct (_ && _); [|destruct (keqb (wc_eft w) "SMEFT")].
  - rewrite bind_fst by apply nc_translate. rewrite val_translate. now destruct (wc_translate _ _ _ _ _ _).
  - destruct (keqb eft "SMEFT").
    + rewrite bind_fst by apply nc_translate. rewrite val_translate.
      destruct (wc_translate _ _ _ _ _ _); [|reflexivity]. cbn [bind].
      rewrite bind_fst by apply nc_smeft. destruct (val _); [|reflexivity]. cbn [bind].
      rewrite bind_fst by apply nc_translate. rewrite val_translate. now destruct (wc_translate _ _ _ _ _ _).
    + rewrite bind_get, get_nil.
      rewrite bind_fst by apply nc_ew. destruct (val (ew_match _ _ _)) as [x|]; [|reflexivity]. cbn [bind].
      rewrite bind_set.
      rewrite bind_fst by apply nc_winit. destruct (val (wet_init x)); [|reflexivity]. cbn [bind].
      now rewrite (st_eq _ _ _ _ _ _ (st_wet_part W o x scale eft basis sec)).
  - destruct (kmem _ _); [|reflexivity].
    rewrite bind_fst by apply nc_translate. rewrite val_translate.
    destruct (wc_translate _ _ _ _ _ _) as [w1|]; [|reflexivity]. cbn [bind].
    rewrite bind_fst by apply nc_winit. destruct (val (wet_init w1)); [|reflexivity]. cbn [bind].
    now rewrite (st_eq _ _ _ _ _ _ (st_wet_part W o w1 scale eft basis sec)).
Qed.

Lemma translate_wf w b p s x : wfdict (wc_values w) -> wc_translate (w_tr W) w b p s 0 = Ok x -> weqv x x.
Proof. intros WF. apply ok_weqv_refl. apply translate_ext. now apply weqv_refl. Qed.
Lemma translate_refl w b p s : weqv w w -> reqv weqv (wc_translate (w_tr W) w b p s 0) (wc_translate (w_tr W) w b p s 0).
Proof. apply translate_ext. Qed.
Lemma ew_refl o w : weqv w w -> reqv weqv (val (ew_match W o w)) (val (ew_match W o w)).
Proof.
  intros R. unfold ew_match. destruct (keqb _ _).
  - rewrite val_match. now apply match_ext.
  - rewrite val_bind by apply nc_translate. rewrite val_translate. apply reqv_bind; [now apply translate_ext|].
    intros a b AB. rewrite (val_bind (smeft_runM W a _ _)), (val_bind (smeft_runM W b _ _)) by apply nc_smeft.
    apply reqv_bind; [now apply smeft_ext|]. intros. rewrite !val_match. now apply match_ext.
Qed.
Lemma answer0_refl o w scale eft basis sec : weqv w w ->
  reqv weqv (answer0 o w scale eft basis sec) (answer0 o w scale eft basis sec).
Proof.
  intros R. rewrite answer0_unfold.
  destruct (_ && _ && _); [exact R|]. destruct (_ && _); [now apply translate_ext|].
  destruct (keqb (wc_eft w) "SMEFT").
  - destruct (keqb eft "SMEFT").
    + apply reqv_bind; [now apply translate_ext|]. intros a b AB.
      apply reqv_bind; [now apply smeft_ext|]. intros. now apply translate_ext.
    + apply reqv_bind; [now apply ew_refl|]. intros a b AB. rewrite (init_ext _ _ AB).
      destruct (val (wet_init b)); [|exact eq_refl]. cbn [bind]. now apply part_ext.
  - destruct (kmem _ _); [|exact eq_refl]. apply reqv_bind; [now apply translate_ext|]. intros a b AB.
    rewrite (init_ext _ _ AB). destruct (val (wet_init b)); [|exact eq_refl]. cbn [bind]. now apply part_ext.
Qed.

Hypothesis BLIND : smeft_sector_blind.

Lemma ew_entry o w z : ew_neutral w -> wc_eft w = "SMEFT" -> val (ew_match W o w) = Ok z ->
  exists y, answer0 o w (op_ew o) "WET" "JMS" None = Ok y /\ weqv z y.
Proof.
  intros NEU S E. destruct (NEU o z E) as (y & R & Q).
  destruct (ew_shape _ _ _ E S) as [A B]. exists y. split; [|exact Q].
  rewrite answer0_unfold, S, E. cbn -[wet_part wet_init val]. rewrite andb_false_r. cbn -[wet_part wet_init val].
  unfold wet_init. rewrite B. cbn -[wet_part val]. cbn [bind ret val fst].
  unfold wet_part. rewrite A. cbn -[val mbind wet_runM translateM setM].
  rewrite val_bind by apply nc_wet. rewrite R. cbn [bind].
  rewrite val_bind by apply nc_translate. rewrite val_translate. unfold wc_translate.
  destruct Q as (_ & QB & _). rewrite <- QB, B. reflexivity.
Qed.

Lemma translate_blind w p sec : wc_eft w = "SMEFT" ->
  wc_translate (w_tr W) w "Warsaw" p sec 0 = wc_translate (w_tr W) w "Warsaw" p None 0.
Proof.
  intros S. unfold wc_translate. destruct (keqb _ _); [reflexivity|]. rewrite S.
  destruct (reg_get _ _) as [f|] eqn:R; [|reflexivity]. unfold translator_translate. now rewrite (BLIND _ _ R).
Qed.

Lemma step_ok o w c scale eft basis sec :
  ew_neutral w -> weqv w w -> cache_ok o w c ->
  reqv weqv (fst (fst (match_run W o w scale eft basis sec c))) (answer0 o w scale eft basis sec) /\
  cache_ok o w (snd (fst (match_run W o w scale eft basis sec c))).
Proof.
  intros NEU R OK.
  destruct (get_cache c sec scale eft basis) as [x|] eqn:G.
  { unfold match_run. rewrite bind_get, G. simpl. split; [|exact OK].
    destruct (OK _ _ _ _ _ G) as (y & A & E). now rewrite A. }
  pose proof (answer0_refl o w scale eft basis sec R) as RR.
  pose proof (answer0_unfold o w scale eft basis sec) as U.
  unfold match_run. rewrite bind_get, G.
  destruct (keqb (wc_basis w) basis && keqb (wc_eft w) eft && keqb scale (wc_scale w)) eqn:C1.
  { rewrite U. split; [exact R|exact OK]. }
  destruct (keqb (wc_eft w) eft && keqb scale (wc_scale w)) eqn:C2.
  { rewrite bind_fst by apply nc_translate. rewrite val_translate.
    destruct (wc_translate _ _ _ _ _ _) as [out|e] eqn:T.
    - rewrite bind_set. cbn [ret fst snd]. rewrite U in *. split; [exact RR|].
      eapply cache_ok_set; eauto.
    - cbn [fst snd]. rewrite U. split; [exact eq_refl|exact OK]. }
  destruct (keqb_spec (wc_eft w) "SMEFT") as [S|NS].
  - destruct (keqb_spec eft "SMEFT") as [->|NE].
    + rewrite bind_fst by apply nc_translate. rewrite val_translate.
      destruct (wc_translate (w_tr W) w _ _ _ _) as [w1|e] eqn:T1; [|cbn [fst snd]; rewrite U; split; [exact eq_refl|exact OK]].
      rewrite bind_fst by apply nc_smeft. cbn [bind] in U.
      destruct (val (smeft_runM _ _ _ _)) as [w2|e] eqn:T2; [|cbn [fst snd]; rewrite U; split; [exact eq_refl|exact OK]].
      rewrite bind_fst by apply nc_translate. rewrite val_translate. cbn [bind] in U.
      destruct (wc_translate (w_tr W) w2 _ _ _ _) as [out|e] eqn:T3; [|cbn [fst snd]; rewrite U; split; [exact eq_refl|exact OK]].
      rewrite bind_set. cbn [ret fst snd]. rewrite U in *. split; [exact RR|].
      destruct (translate_basis _ _ _ _ _ _ T3) as (B & _). rewrite B.
      eapply (cache_ok_set _ _ _ _ _ _ _ _ out); [exact OK| |exact RR].
      rewrite answer0_unfold, C1, C2, S.
      replace (keqb "SMEFT" "SMEFT") with true by reflexivity.
      rewrite <- (translate_blind w _ sec S), T1. cbn [bind]. rewrite T2. cbn [bind]. exact T3.
    + rewrite bind_get.
      (* the coefficients matched at the electroweak scale *)
      assert (EW : forall f : WC K -> M (WC K),
        (exists e, val (ew_match W o w) = Err e /\
           fst (mbind (match get_cache c None (op_ew o) "WET" "JMS" with Some x => ret x | None => ew_match W o w end) f c)
           = (Err e, c)) \/
        (exists x z y, val (ew_match W o w) = Ok z /\ weqv x z /\
           answer0 o w (op_ew o) "WET" "JMS" None = Ok y /\ weqv x y /\
           fst (mbind (match get_cache c None (op_ew o) "WET" "JMS" with Some x => ret x | None => ew_match W o w end) f c)
           = fst (f x c))).
      { intros f. destruct (get_cache c None (op_ew o) "WET" "JMS") as [x|] eqn:H.
        - right. destruct (OK _ _ _ _ _ H) as (y & A & E).
          destruct (val (ew_match W o w)) as [z|e] eqn:Z.
          + destruct (ew_entry o w z NEU S Z) as (y' & A' & E').
            assert (y' = y) by congruence. subst y'.
            exists x, z, y. repeat split; auto; try apply (weqv_trans _ _ _ E (weqv_sym _ _ E')); try apply E.
            unfold mbind, ret. now destruct (f x c).
          + exfalso. rewrite answer0_unfold, Z, S in A. cbn in A. rewrite andb_false_r in A. discriminate.
        - rewrite bind_fst by apply nc_ew. destruct (val (ew_match W o w)) as [z|e] eqn:Z.
          + right. destruct (ew_entry o w z NEU S Z) as (y' & A' & E').
            exists z, z, y'. repeat split; auto; try apply E'; try apply (weqv_trans _ _ _ E' (weqv_sym _ _ E')).
          + left. eauto. }
      destruct (EW (fun wew => mbind (setM None (op_ew o) (wc_eft wew) (wc_basis wew) wew) (fun _ =>
                 mbind (wet_init wew) (fun _ => wet_part W o wew scale eft basis sec)))) as
        [(e & Z & EQ)|(x & z & y & Z & XZ & A & XY & EQ)]; rewrite EQ; clear EQ EW.
      * cbn [fst snd]. rewrite U, Z. split; [exact eq_refl|exact OK].
      * rewrite Z in U. cbn [bind] in U.
        destruct (ew_shape _ _ _ Z S) as [ZE ZB].
        assert (XE : wc_eft x = "WET") by (destruct XZ as (Q & _); congruence).
        assert (XB : wc_basis x = "JMS") by (destruct XZ as (_ & Q & _); congruence).
        rewrite bind_set, XE, XB.
        assert (OK' : cache_ok o w (set_cache c None (op_ew o) "WET" "JMS" x)) by (eapply cache_ok_set; eauto).
        rewrite bind_fst by apply nc_winit. rewrite (init_ext _ _ XZ).
        destruct (val (wet_init z)); [|cbn [fst snd]; rewrite U; split; [exact eq_refl|exact OK']].
        cbn [bind] in U.
        rewrite (st_eq _ _ _ _ _ _ (st_wet_part W o x scale eft basis sec)). cbn [fst snd].
        pose proof (part_ext o x z scale eft basis sec XZ) as PE. rewrite <- U in PE.
        split; [exact PE|].
        destruct (val (wet_part W o x scale eft basis sec)) as [out|e]; [|exact OK'].
        destruct (answer0 o w scale eft basis sec) as [y'|] eqn:Y; [|contradiction].
        eapply cache_ok_set; eauto.
  - destruct (kmem (wc_eft w) _); [|cbn [raise fst snd]; rewrite U; split; [exact eq_refl|exact OK]].
    rewrite bind_fst by apply nc_translate. rewrite val_translate.
    destruct (wc_translate (w_tr W) w _ _ _ _) as [w1|e]; [|cbn [fst snd]; rewrite U; split; [exact eq_refl|exact OK]].
    cbn [bind] in U. rewrite bind_fst by apply nc_winit.
    destruct (val (wet_init w1)); [|cbn [fst snd]; rewrite U; split; [exact eq_refl|exact OK]].
    cbn [bind] in U. rewrite (st_eq _ _ _ _ _ _ (st_wet_part W o w1 scale eft basis sec)). cbn [fst snd].
    rewrite <- U. split; [exact RR|].
    destruct (answer0 o w scale eft basis sec) as [y'|] eqn:Y; [|exact OK].
    eapply cache_ok_set; eauto.
Qed.
End Transparent.

(* ---- histories ---- *)
Section History.
Context {K : StarField}.
Variable W : world K.
Variable pf : string -> option K.

Lemma cache_ok_nil o w : cache_ok W o w [].
Proof. intros sec scale eft basis x. now rewrite get_nil. Qed.

Lemma history_ok w ops : extensional W -> smeft_sector_blind W -> ew_neutral W w -> wfdict (wc_values w) ->
  forall s, s_wc s = w -> (forall o, typed_options (s_opts s) = Some o -> cache_ok W o w (s_cache s)) ->
  let s' := wrun W pf s ops in
  s_wc s' = w /\ forall o, typed_options (s_opts s') = Some o -> cache_ok W o w (s_cache s').
Proof.
  intros EXT BL NEU WF. induction ops as [|op ops IH]; intros s SW OK; [split; assumption|].
  unfold wrun. cbn [fold_left]. apply IH.
  - destruct op; simpl; auto. destruct (accept _ _ _); simpl; auto.
  - destruct op as [scale eft basis sec|key v|]; cbn [wstep].
    + cbn [s_opts s_cache]. intros o T. unfold run_request. rewrite T, SW.
      apply step_ok; auto. now apply weqv_refl.
    + destruct (accept pf key v); [|assumption]. intros. apply cache_ok_nil.
    + intros. apply cache_ok_nil.
Qed.

Lemma transparent w opts0 ops scale eft basis sec :
  extensional W -> smeft_sector_blind W -> ew_neutral W w -> wfdict (wc_values w) ->
  let s := wrun W pf (mkW w opts0 []) ops in
  reqv weqv (answer W s scale eft basis sec) (answer W (mkW w (s_opts s) []) scale eft basis sec).
Proof.
  intros EXT BL NEU WF s.
  destruct (history_ok w ops EXT BL NEU WF (mkW w opts0 []) eq_refl) as [A B].
  { intros. apply cache_ok_nil. }
  fold s in A, B. unfold answer, run_request. cbn [s_opts s_wc s_cache].
  destruct (typed_options (s_opts s)) as [o|] eqn:T; [|exact eq_refl].
  rewrite A. destruct (step_ok W EXT BL o w (s_cache s) scale eft basis sec NEU (weqv_refl w WF) (B o eq_refl)) as [E _].
  exact E.
Qed.

(* inputs below the electroweak scale: no assumption needed, and exact *)
Definition cache_exact (o : opts K) (w : WC K) (c : cache K) : Prop :=
  forall sec scale eft basis x, get_cache c sec scale eft basis = Some x ->
    answer0 W o w scale eft basis sec = Ok x.
Lemma cache_exact_nil o w : cache_exact o w [].
Proof. intros sec scale eft basis x. now rewrite get_nil. Qed.
Lemma cache_exact_set o w c sec scale eft basis x :
  cache_exact o w c -> answer0 W o w scale eft basis sec = Ok x ->
  cache_exact o w (set_cache c sec scale eft basis x).
Proof.
  intros C A s' sc' e' b' z. rewrite get_set.
  destruct (keqb e' eft && keqb sc' scale && keqb b' basis && keqb s' sec) eqn:Q; [|apply C].
  repeat match goal with H : _ && _ = true |- _ => apply andb_true_iff in H as [? ?] end.
  repeat match goal with H : keqb _ _ = true |- _ => apply keqb_true in H end; subst.
  intros X; injection X as <-. assumption.
Qed.
Lemma step_exact o w c scale eft basis sec : wc_eft w <> "SMEFT" -> cache_exact o w c ->
  fst (fst (match_run W o w scale eft basis sec c)) = answer0 W o w scale eft basis sec /\
  cache_exact o w (snd (fst (match_run W o w scale eft basis sec c))).
Proof.
  intros NS OK.
  destruct (get_cache c sec scale eft basis) as [x|] eqn:G.
  { unfold match_run. rewrite bind_get, G. simpl. split; [|exact OK]. symmetry. now apply OK. }
  pose proof (answer0_unfold W o w scale eft basis sec) as U.
  unfold match_run. rewrite bind_get, G.
  destruct (keqb (wc_basis w) basis && keqb (wc_eft w) eft && keqb scale (wc_scale w)) eqn:C1.
  { rewrite U. split; [reflexivity|exact OK]. }
  destruct (keqb (wc_eft w) eft && keqb scale (wc_scale w)) eqn:C2.
  { rewrite bind_fst by apply nc_translate. rewrite val_translate.
    destruct (wc_translate _ _ _ _ _ _) as [out|e] eqn:T.
    - rewrite bind_set. cbn [ret fst snd]. split; [now rewrite U|]. apply cache_exact_set; auto.
    - cbn [fst snd]. rewrite U. split; [exact eq_refl|exact OK]. }
  apply keqb_neq in NS. rewrite NS in *.
  destruct (kmem (wc_eft w) _); [|cbn [raise fst snd]; rewrite U; split; [exact eq_refl|exact OK]].
  rewrite bind_fst by apply nc_translate. rewrite val_translate.
  destruct (wc_translate (w_tr W) w _ _ _ _) as [w1|e]; [|cbn [fst snd]; rewrite U; split; [exact eq_refl|exact OK]].
  cbn [bind] in U. rewrite bind_fst by apply nc_winit.
  destruct (val (wet_init w1)); [|cbn [fst snd]; rewrite U; split; [exact eq_refl|exact OK]].
  cbn [bind] in U. rewrite (st_eq _ _ _ _ _ _ (st_wet_part W o w1 scale eft basis sec)). cbn [fst snd].
  split; [congruence|].
  destruct (val (wet_part W o w1 scale eft basis sec)) as [y'|] eqn:Y; [|exact OK].
  apply cache_exact_set; auto.
Qed.
Lemma transparent_wet w opts0 ops scale eft basis sec : wc_eft w <> "SMEFT" ->
  let s := wrun W pf (mkW w opts0 []) ops in
  answer W s scale eft basis sec = answer W (mkW w (s_opts s) []) scale eft basis sec.
Proof.
  intros NS.
  assert (H : forall ops s, s_wc s = w -> (forall o, typed_options (s_opts s) = Some o -> cache_exact o w (s_cache s)) ->
    s_wc (wrun W pf s ops) = w /\ forall o, typed_options (s_opts (wrun W pf s ops)) = Some o -> cache_exact o w (s_cache (wrun W pf s ops))).
  { clear ops. induction ops as [|op ops IH]; intros s SW OK; [split; assumption|].
    unfold wrun. cbn [fold_left]. apply IH.
    - destruct op; simpl; auto. destruct (accept _ _ _); simpl; auto.
    - destruct op as [sc e b sc'|key v|]; cbn [wstep].
      + cbn [s_opts s_cache]. intros o T. unfold run_request. rewrite T, SW. exact (proj2 (step_exact o w _ _ _ _ _ NS (OK o T))).
      + destruct (accept pf key v); [|assumption]. intros; apply cache_exact_nil.
      + intros; apply cache_exact_nil. }
  intros s. destruct (H ops (mkW w opts0 []) eq_refl) as [A B].
  { intros; apply cache_exact_nil. }
  fold s in A, B. unfold answer, run_request. cbn [s_opts s_wc s_cache].
  destruct (typed_options (s_opts s)) as [o|] eqn:T; [|exact eq_refl]. rewrite A.
  apply (step_exact o w (s_cache s) scale eft basis sec NS (B o eq_refl)).
Qed.
End History.

(* ---- result metadata, thresholds and parameters ---- *)
Section Path.
Context {K : StarField}.
Variable W : world K.
Definition evs {A} (m : M (K:=K) A) : list (event K) := snd (m []).
Lemma ev_bind {A B} (m : M A) (f : A -> M B) c : nocache m ->
  snd (mbind m f c) = (evs m ++ match val m with Ok a => snd (f a c) | Err _ => [] end)%list.
Proof.
  intros (r & l & E). unfold evs, val, mbind. rewrite !E. simpl. destruct r; simpl.
  - destruct (f a c). reflexivity.
  - now rewrite app_nil_r.
Qed.
Lemma ev_get {B} sec (scale : K) eft basis (f : option (WC K) -> M B) c :
  snd (mbind (getM sec scale eft basis) f c) = snd (f (get_cache c sec scale eft basis) c).
Proof. unfold mbind, getM. now destruct (f _ c). Qed.
Lemma ev_set {B} sec (scale : K) eft basis (w : WC K) (f : unit -> M B) c :
  snd (mbind (setM sec scale eft basis w) f c) = snd (f tt (set_cache c sec scale eft basis w)).
Proof. unfold mbind, setM. now destruct (f _ _). Qed.
Lemma evs_translate w b p s : evs (translateM W w b p s) = [EvTranslate (wc_eft w) (wc_basis w) b p].
Proof. reflexivity. Qed.
Lemma evs_match w e b p : evs (matchM W w e b p) = [EvMatch (wc_eft w) e (wc_scale w) p].
Proof. reflexivity. Qed.
Lemma evs_winit (w : WC K) : evs (wet_init w) = [].
Proof. unfold wet_init. now destruct (keqb _ _). Qed.
Lemma evs_wet w o s sec : evs (wet_runM W w o s sec) =
  if kmem (wc_eft w) ["WET"; "WET-4"; "WET-3"] then [EvWetRun (wc_eft w) (wc_scale w) s None] else [].
Proof.
  unfold wet_runM. destruct (kmem _ _); [|reflexivity]. cbn [negb].
  unfold evs, mbind, log, lift, ret; cbn [fst snd].
  destruct (w_wet _ _ _ _ _ _ _); [|reflexivity]. destruct (reg_get _ _); [|reflexivity].
  destruct (all_wcs _); reflexivity.
Qed.
Lemma evs_smeft w s a : exists l, evs (smeft_runM W w s a) = l /\ (l = [] \/ l = [EvSmeftRun (wc_scale w) s None]).
Proof.
  eexists; split; [reflexivity|]. unfold smeft_runM. destruct (negb _); [now left|]. destruct (negb _); [now left|]. right.
  unfold evs, mbind, log, lift, ret; cbn [fst snd]. destruct (kmem a _); [destruct (w_smeft _ _ _ _ _)|]; reflexivity.
Qed.

(* the matching steps taken: (from, to, scale) *)
Definition match_step := (string * string * K)%type.
Fixpoint matches (l : list (event K)) : list match_step :=
  match l with
  | [] => []
  | EvMatch a b s _ :: l' => (a, b, s) :: matches l'
  | _ :: l' => matches l'
  end.
Lemma matches_app l l' : matches (l ++ l')%list = (matches l ++ matches l')%list.
Proof. induction l as [|[] l IH]; simpl; auto. now rewrite IH. Qed.

(* the thresholds, from high to low, with their matching scales *)
Definition thresholds (o : opts K) : list match_step :=
  [(("SMEFT", "WET"), op_ew o); (("WET", "WET-4"), op_mb o); (("WET-4", "WET-3"), op_mc o)].
(* the steps leading down from one EFT to another, if there is a way *)
Fixpoint path (from to : string) (l : list match_step) : option (list match_step) :=
  if keqb from to then Some []
  else match l with
       | [] => None
       | ((a, b), s) :: l' =>
           if keqb from a then option_map (cons ((a, b), s)) (path b to l') else path from to l'
       end.

Lemma wet_meta w o s sec x : val (wet_runM W w o s sec) = Ok x ->
  wc_eft x = wc_eft w /\ wc_basis x = "JMS" /\ wc_scale x = s /\ kmem (wc_eft w) ["WET"; "WET-4"; "WET-3"] = true.
Proof.
  rewrite val_wet. destruct (kmem _ _); [|discriminate]. cbn [negb].
  destruct (w_wet _ _ _ _ _ _ _); [|discriminate]. cbn [bind]. destruct (reg_get _ _); [|discriminate]. cbn [bind].
  destruct (all_wcs _); [|discriminate]. cbn [bind]. intros E; injection E as <-. auto.
Qed.
Lemma match_meta w e b p x : val (matchM W w e b p) = Ok x ->
  wc_eft x = e /\ wc_basis x = b /\ wc_scale x = wc_scale w.
Proof.
  rewrite val_match. unfold wc_match. destruct (keqb e (wc_eft w) && keqb b (wc_basis w)) eqn:E.
  - intros Q; injection Q as <-. apply andb_true_iff in E as [X Y].
    apply keqb_true in X. apply keqb_true in Y. auto.
  - destruct (reg_get _ _); [|discriminate]. unfold matcher_match. destruct (a _ _ _); [|discriminate].
    cbn [bind]. intros Q; injection Q as <-. auto.
Qed.
Lemma translate_meta w b p s x : val (translateM W w b p s) = Ok x ->
  wc_eft x = wc_eft w /\ wc_basis x = b /\ wc_scale x = wc_scale w.
Proof. rewrite val_translate. intros E. apply translate_basis in E. tauto. Qed.
Lemma smeft_meta w s a x : val (smeft_runM W w s a) = Ok x ->
  wc_eft x = "SMEFT" /\ wc_basis x = "Warsaw" /\ wc_scale x = s.
Proof.
  rewrite val_smeft. destruct (negb _); [discriminate|]. destruct (negb _); [discriminate|].
  destruct (kmem a _); [|discriminate]. destruct (w_smeft _ _ _ _ _); [|discriminate].
  cbn [bind]. intros E; injection E as <-. auto.
Qed.

Ltac nc1 := first [apply nc_wet|apply nc_match|apply nc_translate|apply nc_winit|apply nc_smeft|apply nc_ew].

Lemma part_meta o w scale eft basis sec out :
  val (wet_part W o w scale eft basis sec) = Ok out ->
  wc_eft out = eft /\ wc_basis out = basis /\ wc_scale out = scale /\
  kmem (wc_eft w) ["WET"; "WET-4"; "WET-3"] = true /\
  path (wc_eft w) eft (thresholds o) = Some (matches (snd (wet_part W o w scale eft basis sec []))).
Proof.
  unfold wet_part.
  repeat match goal with |- val (if ?b then _ else _) = _ -> _ => destruct b eqn:? end;
  repeat match goal with H : _ && _ = true |- _ => apply andb_true_iff in H as [? ?] end;
  repeat match goal with H : keqb _ _ = true |- _ => apply keqb_true in H end; subst;
  repeat match goal with
  | |- val (mbind (setM _ _ _ _ _) _) = _ -> _ => rewrite val_store, ev_set
  | |- val (mbind ?m ?f) = _ -> _ =>
      rewrite (val_bind m f) by nc1; rewrite (ev_bind m f) by nc1;
      let E := fresh "E" in destruct (val m) eqn:E; cbn [bind]; [|discriminate]
  end; try discriminate;
  repeat match goal with
  | H : val (wet_runM _ _ _ _ _) = Ok _ |- _ => apply wet_meta in H as (? & ? & ? & ?)
  | H : val (matchM _ _ _ _ _) = Ok _ |- _ => apply match_meta in H as (? & ? & ?)
  | H : val (translateM _ _ _ _ _) = Ok _ |- _ => apply translate_meta in H as (? & ? & ?)
  end; intros Q; injection Q as <-;
  rewrite ?evs_wet, ?evs_match, ?evs_translate, ?evs_winit;
  repeat match goal with H : kmem ?x _ = true |- context [kmem ?x _] => rewrite H end;
  cbn [app matches snd ret];
  repeat match goal with
  | H : wc_eft ?x = _ |- context [wc_eft ?x] => rewrite H
  | H : wc_basis ?x = _ |- context [wc_basis ?x] => rewrite H
  | H : wc_scale ?x = _ |- context [wc_scale ?x] => rewrite H
  end; repeat split; try congruence.
  - match goal with H : kmem ?x _ = true |- path ?x ?x _ = _ => clear -H; unfold path, thresholds; now rewrite keqb_refl end.
Qed.

Lemma path_refl e l : path e e l = Some [].
Proof. destruct l as [|[[a b] s] l]; simpl; change (String.eqb e e) with (keqb e e); now rewrite keqb_refl. Qed.
Lemma path_smeft o eft : eft <> "SMEFT" ->
  path "SMEFT" eft (thresholds o) = option_map (cons (("SMEFT", "WET"), op_ew o)) (path "WET" eft (thresholds o)).
Proof.
  intros N. unfold thresholds. set (t := [_; _]).
  assert (E : forall x y : string, keqb x y = String.eqb x y) by reflexivity.
  cbn [path]. destruct (keqb_spec "SMEFT" eft) as [<-|_]; [congruence|].
  replace (keqb "SMEFT" "SMEFT") with true by reflexivity.
  replace (keqb "WET" "SMEFT") with false by reflexivity.
  destruct (keqb_spec "WET" eft) as [<-|]; [|reflexivity]. now rewrite path_refl.
Qed.

Definition cache_meta (o : opts K) (w : WC K) (c : cache K) : Prop :=
  forall sec scale eft basis x, get_cache c sec scale eft basis = Some x ->
    wc_eft x = eft /\ wc_basis x = basis /\ wc_scale x = scale /\
    exists l, path (wc_eft w) eft (thresholds o) = Some l.
Lemma cache_meta_nil o w : cache_meta o w [].
Proof. intros sec scale eft basis x. now rewrite get_nil. Qed.
Lemma cache_meta_set o w c sec scale eft basis x l :
  cache_meta o w c -> wc_eft x = eft -> wc_basis x = basis -> wc_scale x = scale ->
  path (wc_eft w) eft (thresholds o) = Some l ->
  cache_meta o w (set_cache c sec scale eft basis x).
Proof.
  intros C A1 A2 A3 A4 s' sc' e' b' z. rewrite get_set.
  destruct (keqb e' eft && keqb sc' scale && keqb b' basis && keqb s' sec) eqn:Q; [|apply C].
  repeat match goal with H : _ && _ = true |- _ => apply andb_true_iff in H as [? ?] end.
  repeat match goal with H : keqb _ _ = true |- _ => apply keqb_true in H end; subst.
  intros X; injection X as <-. eauto.
Qed.

(* events of a storing computation do not depend on the cache *)
Lemma st_ev sec scale eft basis (m : M (K:=K) (WC K)) c : stores sec scale eft basis m -> snd (m c) = snd (m []).
Proof. intros (r & l & E). now rewrite !E. Qed.

Lemma ew_meta o w x : wc_eft w = "SMEFT" -> val (ew_match W o w) = Ok x ->
  wc_eft x = "WET" /\ wc_basis x = "JMS" /\ wc_scale x = op_ew o /\
  matches (evs (ew_match W o w)) = [(("SMEFT", "WET"), op_ew o)].
Proof.
  intros S. unfold ew_match. destruct (keqb_spec (wc_scale w) (op_ew o)) as [E|N].
  - intros V. destruct (match_meta _ _ _ _ _ V) as (A & B & C). repeat split; auto; [congruence|].
    rewrite evs_match. cbn [matches]. now rewrite S, E.
  - rewrite (val_bind (translateM _ _ _ _ _)) by nc1. unfold evs. rewrite ev_bind by nc1.
    destruct (val (translateM _ _ _ _ _)) as [w1|] eqn:V1; [|discriminate]. cbn [bind].
    rewrite (val_bind (smeft_runM _ _ _ _)) by nc1. rewrite (ev_bind (smeft_runM _ _ _ _)) by nc1.
    destruct (val (smeft_runM _ _ _ _)) as [w2|] eqn:V2; [|discriminate]. cbn [bind].
    intros V. destruct (match_meta _ _ _ _ _ V) as (A & B & C).
    destruct (smeft_meta _ _ _ _ V2) as (A2 & B2 & C2). repeat split; auto; [congruence|].
    rewrite evs_translate, !matches_app. cbn [matches app].
    destruct (evs_smeft w1 (op_ew o) (op_accuracy o)) as (l & -> & [->| ->]); cbn [matches app];
      change (snd (matchM W w2 "WET" "JMS" (Some (matching_parameters W o)) [])) with (evs (matchM W w2 "WET" "JMS" (Some (matching_parameters W o))));
      rewrite evs_match; cbn [matches]; now rewrite A2, C2.
Qed.

Lemma part_cache_meta o w x scale eft basis sec c l :
  cache_meta o w c -> (forall l', path (wc_eft x) eft (thresholds o) = Some l' -> path (wc_eft w) eft (thresholds o) = Some (l ++ l')%list) ->
  cache_meta o w (snd (fst (wet_part W o x scale eft basis sec c))).
Proof.
  intros C P. rewrite (st_eq _ _ _ _ _ _ (st_wet_part W o x scale eft basis sec)). cbn [fst snd].
  destruct (val _) as [out|] eqn:V; [|exact C].
  destruct (part_meta _ _ _ _ _ _ _ V) as (A1 & A2 & A3 & A4 & A5).
  eapply cache_meta_set; eauto.
Qed.

Lemma suffix_nil {A} (l : list A) : exists pre, l = (pre ++ [])%list.
Proof. exists l. now rewrite app_nil_r. Qed.

Lemma run_meta o w c scale eft basis sec : cache_meta o w c ->
  let '((r, c'), ev) := match_run W o w scale eft basis sec c in
  cache_meta o w c' /\
  forall out, r = Ok out ->
    wc_eft out = eft /\ wc_basis out = basis /\ wc_scale out = scale /\
    exists l pre, path (wc_eft w) eft (thresholds o) = Some l /\ l = (pre ++ matches ev)%list /\
      (c = [] -> pre = []).
Proof.
  intros CM.
  destruct (match_run W o w scale eft basis sec c) as [[r c'] ev] eqn:MR.
  assert (Hf : (r, c') = fst (match_run W o w scale eft basis sec c)) by now rewrite MR.
  assert (Hs : ev = snd (match_run W o w scale eft basis sec c)) by now rewrite MR.
  clear MR. unfold match_run in Hf, Hs. rewrite bind_get in Hf. rewrite ev_get in Hs.
  destruct (get_cache c sec scale eft basis) as [x|] eqn:G.
  { cbn in Hf, Hs. injection Hf as -> ->. subst ev. split; [exact CM|]. intros out Q; injection Q as <-.
    destruct (CM _ _ _ _ _ G) as (A & B & C & l & D). repeat split; auto.
    exists l, l. repeat split; auto; [now rewrite app_nil_r|]. intros ->. now rewrite get_nil in G. }
  destruct (keqb (wc_basis w) basis && keqb (wc_eft w) eft && keqb scale (wc_scale w)) eqn:C1.
  { cbn in Hf, Hs. injection Hf as -> ->. subst ev. split; [exact CM|]. intros out Q; injection Q as <-.
    apply andb_true_iff in C1 as [C1 Q3]. apply andb_true_iff in C1 as [Q1 Q2].
    apply keqb_true in Q1. apply keqb_true in Q2. apply keqb_true in Q3. repeat split; auto.
    exists [], []. rewrite Q2, path_refl. auto. }
  destruct (keqb (wc_eft w) eft && keqb scale (wc_scale w)) eqn:C2.
  { rewrite bind_fst in Hf by nc1. rewrite ev_bind in Hs by nc1.
    apply andb_true_iff in C2 as [Q2 Q3]. apply keqb_true in Q2. apply keqb_true in Q3.
    destruct (val (translateM _ _ _ _ _)) as [out|e] eqn:T.
    - rewrite bind_set in Hf. rewrite ev_set in Hs. cbn in Hf. injection Hf as -> ->.
      destruct (translate_meta _ _ _ _ _ T) as (A & B & C). split.
      + eapply cache_meta_set; eauto; try congruence. rewrite Q2. apply path_refl.
      + intros o' Q; injection Q as <-. repeat split; try congruence. exists [], [].
        rewrite Q2, path_refl. subst ev. rewrite evs_translate. auto.
    - injection Hf as -> ->. split; [exact CM|discriminate]. }
  destruct (keqb_spec (wc_eft w) "SMEFT") as [S|NS].
  - destruct (keqb_spec eft "SMEFT") as [->|NE].
    + rewrite bind_fst in Hf by nc1. rewrite ev_bind in Hs by nc1.
      destruct (val (translateM _ _ _ _ _)) as [w1|e] eqn:T1; [|injection Hf as -> ->; split; [exact CM|discriminate]].
      rewrite bind_fst in Hf by nc1. rewrite ev_bind in Hs by nc1.
      destruct (val (smeft_runM _ _ _ _)) as [w2|e] eqn:T2; [|injection Hf as -> ->; split; [exact CM|discriminate]].
      rewrite bind_fst in Hf by nc1. rewrite ev_bind in Hs by nc1.
      destruct (val (translateM _ w2 _ _ _)) as [out|e] eqn:T3; [|injection Hf as -> ->; split; [exact CM|discriminate]].
      rewrite bind_set in Hf. rewrite ev_set in Hs. cbn in Hf. injection Hf as -> ->.
      destruct (smeft_meta _ _ _ _ T2) as (A2 & B2 & C2').
      destruct (translate_meta _ _ _ _ _ T3) as (A & B & C). split.
      * eapply cache_meta_set; eauto; try congruence. rewrite S. apply path_refl.
      * intros o' Q; injection Q as <-. repeat split; try congruence. exists [], [].
        rewrite S, path_refl. subst ev. rewrite !evs_translate.
        destruct (evs_smeft w1 scale (op_accuracy o)) as (l & -> & [->| ->]); auto.
    + rewrite bind_get in Hf. rewrite ev_get in Hs.
      pose proof (path_smeft o eft NE) as PS.
      assert (PS' : path (wc_eft w) eft (thresholds o) = option_map (cons (("SMEFT", "WET"), op_ew o)) (path "WET" eft (thresholds o))) by (rewrite S; exact PS).
      clear PS. rename PS' into PS.
      assert (PW : path (wc_eft w) "WET" (thresholds o) = Some [(("SMEFT", "WET"), op_ew o)]) by (rewrite S; reflexivity).
      destruct (get_cache c None (op_ew o) "WET" "JMS") as [x|] eqn:H.
      * destruct (CM _ _ _ _ _ H) as (XE & XB & XS & _).
        assert (HB : forall B (f : WC K -> M B), mbind (ret x) f c = f x c).
        { intros. unfold mbind, ret. destruct (f x c) as [[? ?] ?]. reflexivity. }
        rewrite HB in Hf, Hs. rewrite bind_set in Hf. rewrite ev_set in Hs.
        rewrite bind_fst in Hf by nc1. rewrite ev_bind in Hs by nc1. rewrite XE, XB in *.
        rewrite evs_winit in Hs. cbn [app] in Hs.
        assert (CM' : cache_meta o w (set_cache c None (op_ew o) "WET" "JMS" x)).
        { eapply cache_meta_set; eauto. }
        destruct (val (wet_init x)) as [u|e]; [|injection Hf as -> ->; split; [exact CM'|discriminate]].
        split.
        { replace c' with (snd (fst (wet_part W o x scale eft basis sec (set_cache c None (op_ew o) "WET" "JMS" x)))) by (now rewrite <- Hf).
          apply (part_cache_meta o w x scale eft basis sec _ [(("SMEFT", "WET"), op_ew o)]); auto.
          intros l'. rewrite XE. intros E. rewrite PS, E. reflexivity. }
        intros out ->.
        assert (V : val (wet_part W o x scale eft basis sec) = Ok out).
        { rewrite (st_eq _ _ _ _ _ _ (st_wet_part W o x scale eft basis sec)) in Hf. now injection Hf. }
        destruct (part_meta _ _ _ _ _ _ _ V) as (A1 & A2 & A3 & A4 & A5). repeat split; auto.
        rewrite XE in A5. rewrite A5 in PS. eexists; exists [(("SMEFT", "WET"), op_ew o)]. split; [exact PS|].
        split; [|intros ->; now rewrite get_nil in H].
        subst ev. rewrite (st_ev _ _ _ _ _ (set_cache _ _ _ _ _ _) (st_wet_part W o x scale eft basis sec)). reflexivity.
      * rewrite bind_fst in Hf by nc1. rewrite ev_bind in Hs by nc1.
        destruct (val (ew_match W o w)) as [x|e] eqn:Z; [|injection Hf as -> ->; split; [exact CM|discriminate]].
        destruct (ew_meta _ _ _ S Z) as (XE & XB & XS & XM).
        rewrite bind_set in Hf. rewrite ev_set in Hs.
        rewrite bind_fst in Hf by nc1. rewrite (ev_bind (wet_init x)) in Hs by nc1. rewrite XE, XB in *.
        rewrite evs_winit in Hs. cbn [app] in Hs.
        assert (CM' : cache_meta o w (set_cache c None (op_ew o) "WET" "JMS" x)).
        { eapply cache_meta_set; eauto. }
        destruct (val (wet_init x)) as [u|e]; [|injection Hf as -> ->; split; [exact CM'|discriminate]].
        split.
        { replace c' with (snd (fst (wet_part W o x scale eft basis sec (set_cache c None (op_ew o) "WET" "JMS" x)))) by (now rewrite <- Hf).
          apply (part_cache_meta o w x scale eft basis sec _ [(("SMEFT", "WET"), op_ew o)]); auto.
          intros l'. rewrite XE. intros E. rewrite PS, E. reflexivity. }
        intros out ->.
        assert (V : val (wet_part W o x scale eft basis sec) = Ok out).
        { rewrite (st_eq _ _ _ _ _ _ (st_wet_part W o x scale eft basis sec)) in Hf. now injection Hf. }
        destruct (part_meta _ _ _ _ _ _ _ V) as (A1 & A2 & A3 & A4 & A5). repeat split; auto.
        rewrite XE in A5. rewrite A5 in PS. eexists; exists []. split; [exact PS|].
        split; [|auto].
        subst ev. rewrite matches_app, XM.
        rewrite (st_ev _ _ _ _ _ (set_cache _ _ _ _ _ _) (st_wet_part W o x scale eft basis sec)). reflexivity.
  - destruct (kmem (wc_eft w) _); [|cbn in Hf; injection Hf as -> ->; split; [exact CM|discriminate]].
    rewrite bind_fst in Hf by nc1. rewrite ev_bind in Hs by nc1.
    destruct (val (translateM _ _ _ _ _)) as [w1|e] eqn:T1; [|injection Hf as -> ->; split; [exact CM|discriminate]].
    destruct (translate_meta _ _ _ _ _ T1) as (E1 & B1 & S1).
    rewrite bind_fst in Hf by nc1. rewrite (ev_bind (wet_init w1)) in Hs by nc1.
    rewrite evs_winit, evs_translate in Hs. cbn [app] in Hs.
    destruct (val (wet_init w1)) as [u|e]; [|injection Hf as -> ->; split; [exact CM|discriminate]].
    split.
    { replace c' with (snd (fst (wet_part W o w1 scale eft basis sec c))) by (now rewrite <- Hf).
      apply (part_cache_meta o w w1 scale eft basis sec _ []); auto. intros l'. rewrite E1. auto. }
    intros out ->.
    assert (V : val (wet_part W o w1 scale eft basis sec) = Ok out).
    { rewrite (st_eq _ _ _ _ _ _ (st_wet_part W o w1 scale eft basis sec)) in Hf. now injection Hf. }
    destruct (part_meta _ _ _ _ _ _ _ V) as (A1 & A2 & A3 & A4 & A5). repeat split; auto.
    rewrite E1 in A5. eexists; exists []. split; [exact A5|]. split; [|auto].
    subst ev. cbn [matches].
    rewrite (st_ev _ _ _ _ _ c (st_wet_part W o w1 scale eft basis sec)). reflexivity.
Qed.

Lemma history_meta pf w ops s : s_wc s = w ->
  (forall o, typed_options (s_opts s) = Some o -> cache_meta o w (s_cache s)) ->
  s_wc (wrun W pf s ops) = w /\
  forall o, typed_options (s_opts (wrun W pf s ops)) = Some o -> cache_meta o w (s_cache (wrun W pf s ops)).
Proof.
  revert s. induction ops as [|op ops IH]; intros s SW OK; [split; assumption|].
  unfold wrun. cbn [fold_left]. apply IH.
  - destruct op; simpl; auto. destruct (accept _ _ _); simpl; auto.
  - destruct op as [sc e b sc'|key v|]; cbn [wstep].
    + cbn [s_opts s_cache]. intros o T. unfold run_request. rewrite T, SW.
      pose proof (run_meta o w (s_cache s) sc e b sc' (OK o T)) as R.
      destruct (match_run _ _ _ _ _ _ _ _) as [[r c'] ev]. apply R.
    + destruct (accept pf key v); [|assumption]. intros; apply cache_meta_nil.
    + intros; apply cache_meta_nil.
Qed.

(* asking for a higher EFT *)
Lemma upward_value_error o w c scale eft basis sec :
  path (wc_eft w) eft (thresholds o) = None -> cache_meta o w c ->
  (exists x, val (translateM W w "JMS" (Some (parameters W o)) sec) = Ok x) ->
  fst (fst (match_run W o w scale eft basis sec c)) = Err ValueError \/ wc_eft w = "SMEFT".
Proof.
  intros P CM (x & T). destruct (keqb_spec (wc_eft w) "SMEFT") as [S|NS]; [now right|left].
  unfold match_run. rewrite bind_get.
  destruct (get_cache c sec scale eft basis) as [y|] eqn:G.
  { destruct (CM _ _ _ _ _ G) as (_ & _ & _ & l & D). congruence. }
  assert (NE : wc_eft w <> eft) by (intros Q; rewrite Q, path_refl in P; discriminate).
  pose proof NE as NE'. apply keqb_neq in NE. rewrite NE, andb_false_r. cbn [andb].
  apply keqb_neq in NS. rewrite NS.
  destruct (kmem _ _) eqn:KM; [|reflexivity].
  rewrite bind_fst by nc1. rewrite T. rewrite bind_fst by nc1.
  destruct (translate_meta _ _ _ _ _ T) as (E1 & B1 & S1).
  unfold wet_init. rewrite B1. cbn -[wet_part fst]. 
  rewrite (st_eq _ _ _ _ _ _ (st_wet_part W o x scale eft basis sec)). cbn [fst].
  unfold wet_part. rewrite E1.
  destruct (keqb_spec eft (wc_eft w)) as [Q|_]; [congruence|].
  destruct (keqb eft "WET-4" && keqb (wc_eft w) "WET") eqn:Q1.
  { apply andb_true_iff in Q1 as [Q1 Q2]. apply keqb_true in Q1. apply keqb_true in Q2.
    rewrite Q1, Q2 in P. discriminate. }
  destruct (keqb eft "WET-3" && keqb (wc_eft w) "WET-4") eqn:Q3.
  { apply andb_true_iff in Q3 as [Q4 Q5]. apply keqb_true in Q4. apply keqb_true in Q5.
    rewrite Q4, Q5 in P. discriminate. }
  destruct (keqb eft "WET-3" && keqb (wc_eft w) "WET") eqn:Q6; [|reflexivity].
  apply andb_true_iff in Q6 as [Q4 Q5]. apply keqb_true in Q4. apply keqb_true in Q5.
  rewrite Q4, Q5 in P. discriminate.
Qed.
End Path.
