(* Properties C01-C07: the WCxf layer (wilson/wcxf/classes.py). *)
From Coq Require Import List Bool String Ascii ZArith QArith.
From Verif Require Import PyBase Num WcxfModel WcxfProofs.
Import ListNotations.
Local Open Scope string_scope.

(* ---- C01 ---- *)
(* dict2values then .dict is the identity on dictionaries (keys, order, values) *)
Theorem C01_values_roundtrip :
  forall (K : StarField) (d : dict string K) eft basis scale extra h,
    wc_dict (mkWC eft basis scale (dict2values d) extra h) = d.
Proof. intros; apply wc_dict_mk. Qed.
Print Assumptions C01_values_roundtrip.

(* zero imaginary part <-> stored as a plain number; otherwise both parts are stored, and are real *)
Theorem C01_encoding_shape :
  forall (K : StarField) (z : K),
    (kreal z -> to_complex_dict z = VNum z) /\
    (~ kreal z -> exists re im, to_complex_dict z = VReIm (Some re) (Some im) /\
                                kreal re /\ kreal im /\ (re + ki * im)%K = z).
Proof.
  intros K z. unfold to_complex_dict. destruct (kdec_spec K (kim z) k0) as [E|E].
  - apply kim_zero_iff in E. split; [intros _; now rewrite kre_of_real|contradiction].
  - split; [intros R; apply kim_zero_iff in R; contradiction|]. intros _.
    exists (kre z), (kim z). repeat split; [apply kre_real|apply kim_real|apply kre_im].
Qed.
Print Assumptions C01_encoding_shape.

Theorem C01_missing_is_zero :
  forall (K : StarField) (w : WC K) k,
    ~ In k (dkeys (wc_values w)) -> wc_getitem w k = k0.
Proof.
  intros K w k N. unfold wc_getitem. assert (E : dget (wc_dict w) k = None).
  { apply dget_None. unfold wc_dict. now rewrite dkeys_dmap. }
  now rewrite E.
Qed.
Print Assumptions C01_missing_is_zero.

Example C01_ex : to_complex_dict (qi 3 (1#2)) <> VNum (qi 3 (1#2)) /\
  to_number (K:=QI) (to_complex_dict (qi 3 (1#2))) = qi 3 (1#2).
Proof.
  split; [unfold to_complex_dict; destruct (kdec (kim (qi 3 (1#2))) k0) eqn:E; [vm_compute in E; discriminate|discriminate]
         |apply to_number_complex_dict].
Qed.

(* ---- C02 ---- *)
Theorem C02_translate :
  forall (K : StarField) (P : Type) (tr : tr_reg K P) w b params secs h f out,
    b <> wc_basis w ->
    reg_get tr ((wc_eft w, wc_basis w), b) = Ok f ->
    f (wc_dict w) (wc_scale w) params secs = Ok out -> wfdict out ->
    exists w', wc_translate tr w b params secs h = Ok w' /\
      wc_eft w' = wc_eft w /\ wc_basis w' = b /\ wc_scale w' = wc_scale w /\
      (forall k, In k (dkeys (wc_values w')) -> wc_getitem w' k <> k0) /\
      (forall k, wc_getitem w' k = match dget out k with Some v => v | None => k0 end).
Proof. intros; eapply translate_spec; eauto. Qed.
Print Assumptions C02_translate.

Theorem C02_match :
  forall (K : StarField) (P : Type) (ma : ma_reg K P) w e b params h f out,
    (e, b) <> (wc_eft w, wc_basis w) ->
    reg_get ma (((wc_eft w, wc_basis w), e), b) = Ok f ->
    f (wc_dict w) (wc_scale w) params = Ok out -> wfdict out ->
    exists w', wc_match ma w e b params h = Ok w' /\
      wc_eft w' = e /\ wc_basis w' = b /\ wc_scale w' = wc_scale w /\
      (forall k, In k (dkeys (wc_values w')) -> wc_getitem w' k <> k0) /\
      (forall k, wc_getitem w' k = match dget out k with Some v => v | None => k0 end).
Proof. intros; eapply match_spec; eauto. Qed.
Print Assumptions C02_match.

(* same target: the very same object (wc_hash identifies objects) *)
Theorem C02_identity :
  forall (K : StarField) (P : Type) (tr : tr_reg K P) (ma : ma_reg K P) w params secs h,
    wc_translate tr w (wc_basis w) params secs h = Ok w /\
    wc_match ma w (wc_eft w) (wc_basis w) params h = Ok w.
Proof. intros. unfold wc_translate, wc_match. rewrite !keqb_refl. auto. Qed.
Print Assumptions C02_identity.

(* no registered function: ValueError; a failing function: its exception *)
Theorem C02_errors :
  forall (K : StarField) (P : Type) (tr : tr_reg K P) (ma : ma_reg K P) w b e params secs h,
    (b <> wc_basis w ->
       (forall f, reg_get tr ((wc_eft w, wc_basis w), b) <> Ok f) ->
       wc_translate tr w b params secs h = Err ValueError) /\
    ((e, b) <> (wc_eft w, wc_basis w) ->
       (forall f, reg_get ma (((wc_eft w, wc_basis w), e), b) <> Ok f) ->
       wc_match ma w e b params h = Err ValueError) /\
    (forall f x, b <> wc_basis w -> reg_get tr ((wc_eft w, wc_basis w), b) = Ok f ->
       f (wc_dict w) (wc_scale w) params secs = Err x ->
       wc_translate tr w b params secs h = Err x).
Proof.
  intros. unfold wc_translate, wc_match. repeat split.
  - intros N F. apply keqb_neq in N. rewrite N.
    destruct (reg_get tr _) as [f|] eqn:R; [exfalso; eapply F; eauto|reflexivity].
  - intros N F. destruct (keqb e (wc_eft w) && keqb b (wc_basis w)) eqn:E.
    { exfalso. apply andb_true_iff in E as [X Y]. apply keqb_true in X. apply keqb_true in Y. congruence. }
    destruct (reg_get ma _) as [f|] eqn:R; [exfalso; eapply F; eauto|reflexivity].
  - intros f x N R E. apply keqb_neq in N. rewrite N, R. unfold translator_translate. rewrite E. reflexivity.
Qed.
Print Assumptions C02_errors.

(* a translator doubling x, cancelling y and adding z *)
Definition ex_tfun : tfun QI unit := fun d s p secs =>
  Ok [("x", kadd (dgetd d "x" k0) (dgetd d "x" k0)); ("y", k0); ("z", qi 0 1)].
Definition ex_tr : tr_reg QI unit := reg_create None (("SMEFT", "A"), "B") ex_tfun.
Definition ex_wc : WC QI := mkWC "SMEFT" "A" (qi 100 0) (dict2values [("x", qi 1 (1#2)); ("y", qi 7 0)]) [] 1.
Example C02_ex : exists w', wc_translate ex_tr ex_wc "B" None None 2 = Ok w' /\
  dkeys (wc_values w') = ["x"; "z"] /\ wc_getitem w' "x" = qi 2 1.
Proof.
  eexists; split; [reflexivity|]. split; [reflexivity|].
  apply kdec_true. vm_compute. reflexivity.
Qed.

(* ---- C03 ---- *)
Theorem C03_validate :
  forall (K : StarField) (er : eft_reg K) (br : basis_reg K) w,
    wc_validate er br w = Ok tt <->
    (exists e, reg_get er (wc_eft w) = Ok e) /\
    (exists b s, reg_get br (wc_eft w, wc_basis w) = Ok b /\ b_sectors b = Some s /\
       forall k, In k (dkeys (wc_values w)) -> exists sec t, In (sec, t) s /\ In k (dkeys t)).
Proof. intros; apply wc_validate_ok. Qed.
Print Assumptions C03_validate.
Theorem C03_validate_value_error :
  forall (K : StarField) (er : eft_reg K) (br : basis_reg K) w,
    wc_validate er br w = Err ValueError <->
    (forall e, reg_get er (wc_eft w) <> Ok e) \/ (forall b, reg_get br (wc_eft w, wc_basis w) <> Ok b).
Proof. intros; apply wc_validate_value. Qed.
Print Assumptions C03_validate_value_error.
Theorem C03_validate_unknown_key :
  forall (K : StarField) (er : eft_reg K) (br : basis_reg K) w,
    wc_validate er br w = Err AssertionError ->
    exists b s, reg_get br (wc_eft w, wc_basis w) = Ok b /\ b_sectors b = Some s /\
       exists k, In k (dkeys (wc_values w)) /\ ~ exists sec t, In (sec, t) s /\ In k (dkeys t).
Proof. intros; eapply wc_validate_assert; eauto. Qed.
Print Assumptions C03_validate_unknown_key.

Definition ex_er : eft_reg QI := reg_create None "SMEFT" (mkEFT "SMEFT" [("dB=0", JNull)] []).
Definition ex_br : basis_reg QI :=
  fst (basis_init None "SMEFT" "A" [("dB=0", [("x", JNull); ("y", JNull)])] None []).
Example C03_ex : wc_validate ex_er ex_br ex_wc = Ok tt /\
  wc_validate ex_er ex_br (mkWC "SMEFT" "A" k1 [("q", VNum k1)] [] 1) = Err AssertionError /\
  wc_validate ex_er ex_br (mkWC "SMEFT" "Z" k1 [] [] 1) = Err ValueError.
Proof. vm_compute. auto. Qed.

(* ---- C04 ---- *)
Theorem C04_inheritance :
  forall (K : StarField) (r : basis_reg K) eft basis secs p extra pb ps,
    p <> basis -> wfdict secs ->
    reg_get r (eft, p) = Ok pb -> b_sectors pb = Some ps ->
    exists b s, snd (basis_init r eft basis secs (Some p) extra) = Ok b /\
      b_sectors b = Some s /\
      (forall sec, dget s sec = match dget secs sec with Some t => Some t | None => dget ps sec end) /\
      reg_get (fst (basis_init r eft basis secs (Some p) extra)) (eft, basis) = Ok b /\
      (forall n, n <> (eft, basis) ->
         reg_get (fst (basis_init r eft basis secs (Some p) extra)) n = reg_get r n \/
         exists e', reg_get r n = Err e').
Proof. intros; eapply basis_init_inherit; eauto. Qed.
Print Assumptions C04_inheritance.
Theorem C04_parent_missing_error :
  forall (K : StarField) (r : basis_reg K) eft basis secs p extra,
    snd (basis_init r eft basis secs (Some p) extra) = Err ValueError <->
    p = basis \/ (forall pb ps, reg_get r (eft, p) = Ok pb -> b_sectors pb <> Some ps).
Proof. intros; apply basis_init_parent_missing. Qed.
Print Assumptions C04_parent_missing_error.
(* the second half of C04 is false of the code: a failed construction leaves a
   half-built instance in the registry (and destroys a good basis of that name) *)
Theorem C04_failure_atomic_refuted :
  (forall (K : StarField) (r : basis_reg K) eft basis secs p extra e,
    snd (basis_init r eft basis secs (Some p) extra) = Err e ->
    exists h, reg_get (fst (basis_init r eft basis secs (Some p) extra)) (eft, basis) = Ok h /\
              b_sectors h = None) /\
  (exists (r : basis_reg QI) eft basis secs p extra b,
    reg_get r (eft, basis) = Ok b /\ b_sectors b <> None /\
    snd (basis_init r eft basis secs (Some p) extra) = Err ValueError /\
    reg_get (fst (basis_init r eft basis secs (Some p) extra)) (eft, basis) <> Ok b).
Proof.
  split; [intros; eapply basis_init_failure_pollutes; eauto|].
  exists ex_br, "SMEFT", "A", [], "nope", []. eexists. split; [reflexivity|].
  repeat split; discriminate.
Qed.
Print Assumptions C04_failure_atomic_refuted.
Example C04_ex : exists b, snd (basis_init ex_br "SMEFT" "C" [("new", [("w", JNull)])] (Some "A") []) = Ok b /\
  all_wcs b = Ok ["x"; "y"; "w"].
Proof. eexists; split; reflexivity. Qed.

(* ---- C05 ---- *)
Theorem C05_registry_last_wins :
  forall (N I : Type) (EN : EqKey N) (ops : list (reg_op N I)) n,
    (forall i, reg_get (reg_run None ops) n = Ok i <-> live (rev ops) n = Some i) /\
    (forall e, reg_get (reg_run None ops) n = Err e ->
       live (rev ops) n = None /\ (e = KeyError \/ e = AttributeError)) /\
    (reg_get (reg_run None ops) n = Err AttributeError <->
       forall o, In o ops -> exists m, o = RDel m).
Proof.
  intros. split; [|split].
  - intros; apply reg_get_live.
  - intros; now apply reg_get_err.
  - apply reg_get_attribute_error.
Qed.
Print Assumptions C05_registry_last_wins.
Theorem C05_known_bases :
  forall (K : StarField) (I : Type) (e : EFT K) (ops : list (reg_op (string * string) I)) l,
    known_bases e (reg_run None ops) = Ok l ->
    NoDup l /\ forall b, In b l <-> live (rev ops) (eft_name e, b) <> None.
Proof. intros; now apply known_bases_spec. Qed.
Print Assumptions C05_known_bases.
Theorem C05_known_translators :
  forall (K : StarField) (I : Type) (e : EFT K) (b : Basis K) (ops : list (reg_op tname I)),
    (forall l, eft_known_translators e (reg_run None ops) = Ok l ->
       NoDup l /\ forall t, In t l <-> fst (fst t) = eft_name e /\ live (rev ops) t <> None) /\
    (forall from to, basis_known_translators b (reg_run None ops) = Ok (from, to) ->
       (forall t, In t from <-> fst (fst t) = b_eft b /\ snd (fst t) = b_basis b /\ live (rev ops) t <> None) /\
       (forall t, In t to <-> fst (fst t) = b_eft b /\ snd t = b_basis b /\ live (rev ops) t <> None)).
Proof. intros. split; intros; [now apply known_translators_spec|now apply basis_translators_spec]. Qed.
Print Assumptions C05_known_translators.
Example C05_ex :
  let ops := [RCreate "a" 1; RCreate "b" 2; RDel "a"; RCreate "b" 3; RDel "z"] in
  reg_get (reg_run None ops) "b" = Ok 3 /\ reg_get (reg_run None ops) "a" = Err KeyError /\
  reg_names (reg_run None ops) = Ok ["b"].
Proof. repeat split. Qed.

(* ---- C06 ---- *)
Theorem C06_basis_validate :
  forall (K : StarField) (er : eft_reg K) (b : Basis K),
    (basis_validate er b = Ok tt <->
       exists e s, reg_get er (b_eft b) = Ok e /\ b_sectors b = Some s /\
         (forall sec, In sec (dkeys s) -> In sec (dkeys (eft_sectors e))) /\ NoDup (sec_wcs s)) /\
    (forall wcs, all_wcs b = Ok wcs -> forall wc, In wc wcs <->
       exists s sec t, b_sectors b = Some s /\ In (sec, t) s /\ In wc (dkeys t)) /\
    (basis_validate er b = Ok tt -> forall s, b_sectors b = Some s -> wfdict s ->
       forall sec1 t1 sec2 t2 wc, In (sec1, t1) s -> In (sec2, t2) s ->
         In wc (dkeys t1) -> In wc (dkeys t2) -> sec1 = sec2).
Proof.
  intros. split; [apply basis_validate_ok|split].
  - unfold all_wcs. destruct (b_sectors b) as [s|] eqn:S; [|discriminate]. intros wcs E; injection E as <-.
    intros wc. rewrite sec_wcs_In. split.
    + intros (sec & t & I1 & I2). exists s, sec, t. auto.
    + intros (s' & sec & t & E & I1 & I2). injection E as <-. eauto.
  - intros V s S W sec1 t1 sec2 t2 wc. apply basis_validate_ok in V as (e & s' & _ & S' & _ & ND).
    assert (s' = s) by congruence. subst. apply nodup_flat_map; auto.
Qed.
Print Assumptions C06_basis_validate.
Example C06_ex : basis_validate ex_er (mkBasis "SMEFT" "A" (Some [("dB=0", [("x", JNull); ("y", JNull)])]) None []) = Ok tt /\
  basis_validate ex_er (mkBasis "SMEFT" "A" (Some [("dB=1", [("x", JNull)])]) None []) = Err ValueError.
Proof. split; reflexivity. Qed.

(* ---- C07 ---- *)
(* public attribute: a name that does not start with '_' *)
Theorem C07_wc_dump_load :
  forall (V : Type) (tofloat : V -> res V) (none rnd rnd' : V) (d o p : attrs V),
    (forall x y, tofloat x = Ok y -> tofloat y = Ok y) ->
    wfdict d -> load_wc tofloat none rnd d = Ok o -> dump o = Ok p ->
    (forall k, dget p k = if private k then None else dget o k) /\
    exists o', load_wc tofloat none rnd' p = Ok o' /\
      forall k, private k = false -> dget o' k = dget o k.
Proof.
  intros V tofloat none rnd rnd' d o p TF W L D. split.
  - destruct (load_wc_get _ _ _ _ _ W L) as (e & b & s & s' & v & _ & _ & _ & _ & T & Wo & G).
    apply (dump_spec _ _ Wo D).
  - eapply wc_dump_load; eauto.
Qed.
Print Assumptions C07_wc_dump_load.
Theorem C07_eft_dump_load :
  forall (V : Type) (d o p : attrs V),
    wfdict d -> load_eft d = Ok o -> dump o = Ok p ->
    exists o', load_eft p = Ok o' /\ forall k, private k = false -> dget o' k = dget o k.
Proof. intros; eapply eft_dump_load; eauto. Qed.
Print Assumptions C07_eft_dump_load.

(* sectors of a child basis: `parent.copy()` then `update` on JSON objects *)
Definition jmerge {K} (a b : jval K) : jval K :=
  match a, b with JObj x, JObj y => JObj (dupdate x y) | _, _ => b end.
Theorem C07_basis_dump_load :
  forall (K : StarField) (mkname : jval K -> jval K -> jval K) (none : jval K)
         (parent_sectors : jval K -> jval K -> option (jval K)) (d o p : attrs (jval K)),
    (forall e q t, parent_sectors e q = Some t -> exists x, t = JObj x /\ wfdict x) ->
    wfdict d -> load_basis mkname none parent_sectors jmerge d = Ok o -> dump o = Ok p ->
    exists o', load_basis mkname none parent_sectors jmerge p = Ok o' /\
      forall k, private k = false -> dget o' k = dget o k.
Proof.
  intros K mkname none ps d o p PS W L D. eapply basis_dump_load; eauto.
  intros e q t s T. destruct (PS _ _ _ T) as (x & -> & Wx).
  unfold jmerge. destruct s; try reflexivity. now rewrite dupdate_absorb.
Qed.
Print Assumptions C07_basis_dump_load.
Example C07_ex : exists o p, 
  load_wc (V:=jval QI) (fun x => Ok x) JNull (JNum k0)
    [("values", JObj []); ("eft", JStr "WET"); ("scale", JNum k1); ("basis", JStr "JMS"); ("metadata", JStr "hi")] = Ok o
  /\ dump o = Ok p /\ dkeys p = ["eft"; "basis"; "scale"; "values"; "metadata"].
Proof. eexists; eexists; repeat split. Qed.
