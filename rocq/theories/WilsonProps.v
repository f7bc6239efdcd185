(* Properties C03 (construction) and C08-C13: the Wilson class (wilson/classes.py). *)
From Coq Require Import List Bool String Ascii ZArith QArith Lia.
From Verif Require Import PyBase Num WcxfModel WcxfProofs WilsonModel WilsonProofs OptionProofs.
Import ListNotations.
Local Open Scope string_scope.

(* ---- C03: construction ---- *)
Theorem C03_construct :
  forall (K : StarField) (W : world K) er defaults d scale eft basis h,
    (exists s, wilson_init W er defaults d scale eft basis h = Ok s) <->
    (exists e, reg_get er eft = Ok e) /\
    (exists b s, reg_get (w_br W) (eft, basis) = Ok b /\ b_sectors b = Some s /\
       forall k, In k (dkeys d) -> exists sec t, In (sec, t) s /\ In k (dkeys t)).
Proof.
  intros. unfold wilson_init.
  assert (KE : dkeys (dict2values d) = dkeys d) by (unfold dict2values; apply dkeys_dmap).
  pose proof (wc_validate_ok er (w_br W) (mkWC eft basis scale (dict2values d) [] h)) as V.
  cbn [wc_eft wc_basis wc_values] in V. rewrite KE in V. rewrite <- V.
  destruct (wc_validate _ _ _) as [[]|]; simpl; split; intros H; try reflexivity; try discriminate; eauto.
  destruct H; discriminate.
Qed.
Print Assumptions C03_construct.

(* ---- C08 ---- *)
(* [extensional]: registered functions read their dictionary by key;
   [smeft_sector_blind]: SMEFT->Warsaw translators ignore `sectors` (true of the
   translators in the package); [ew_neutral]: evolving the matched coefficients from
   the matching scale to itself returns them. *)
Theorem C08_cache_transparent_partial :
  forall (K : StarField) (W : world K) pf w opts0 history scale eft basis sec,
    extensional W -> smeft_sector_blind W -> ew_neutral W w -> wfdict (wc_values w) ->
    let s := wrun W pf (mkW w opts0 []) history in
    reqv weqv (answer W s scale eft basis sec)
              (answer W (mkW w (s_opts s) []) scale eft basis sec).
Proof. intros; now apply transparent. Qed.
Print Assumptions C08_cache_transparent_partial.

(* coefficients given below the electroweak scale: no condition at all, and the
   answer is the same object contents in the same order *)
Theorem C08_cache_transparent_wet :
  forall (K : StarField) (W : world K) pf w opts0 history scale eft basis sec,
    wc_eft w <> "SMEFT" ->
    let s := wrun W pf (mkW w opts0 []) history in
    answer W s scale eft basis sec = answer W (mkW w (s_opts s) []) scale eft basis sec.
Proof. intros; now apply transparent_wet. Qed.
Print Assumptions C08_cache_transparent_wet.

(* a small world: one matcher SMEFT/Warsaw -> WET/JMS, identity evolution *)
Definition toy_basis (e : string) (ks : list string) : basis_reg QI :=
  fst (basis_init None e "JMS" [("all", map (fun k => (k, JNull)) ks)] None []).
Definition toy_match (key : string) : ma_reg QI (dict string QI) :=
  reg_create None ((("SMEFT", "Warsaw"), "WET"), "JMS") (fun d s p => Ok [(key, dgetd d "x" k0)]).
Definition toy_world (key : string) (kill : bool) : world QI :=
  mkWorld None (toy_match key) (toy_basis "WET" ["a"; "b"])
    (fun d s s' acc => Ok [("x", dgetd d "x" k0)])
    (fun e d s s' qe qc sec => Ok (if kill then [] else [("a", dgetd d "a" k0)])) [].
Definition toy_options : dict string (oval QI) := builtin_options (qi 91 0) (qi 4 0) (qi 1 0).
Definition toy_wc : WC QI := mkWC "SMEFT" "Warsaw" (qi 1000 0) (dict2values [("x", qi 3 (1#2))]) [] 7.
Definition no_floats : string -> option QI := fun _ => None.

Lemma toy_ext key kill : extensional (toy_world key kill).
Proof.
  assert (D : forall key k (d d' : dict string QI), deq d d' -> deq [(key, dgetd d k k0)] [(key, dgetd d' k k0)]).
  { intros ky k d d' (A & B & C). unfold dgetd. rewrite C. repeat split; constructor; simpl; auto; constructor. }
  split.
  - discriminate.
  - intros n f R d d' s p E. unfold toy_world, w_ma, toy_match, reg_create, reg_get in R. cbn [reg_dict dset dget] in R.
    destruct (keqb n _); [|discriminate]. injection R as <-. simpl. now apply D.
  - intros d d' s s' a E. simpl. now apply D.
  - intros e d d' s s' qe qc sec E. simpl. destruct kill; [|now apply D]. repeat split; constructor.
Qed.
Lemma toy_neutral : ew_neutral (toy_world "a" false) toy_wc.
Proof.
  assert (MM : forall w p x, wc_eft w = "SMEFT" -> wc_basis w = "Warsaw" ->
     wc_match (w_ma (toy_world "a" false)) w "WET" "JMS" p 0 = Ok x ->
     exists v, x = mkWC "WET" "JMS" (wc_scale w) (dict2values (dfilter nonzero [("a", v)])) [] 0).
  { intros w p x E B. unfold wc_match. rewrite E, B. cbn. intros Q; injection Q as <-. eexists. reflexivity. }
  assert (AA : forall o v, exists y,
      val (wet_runM (toy_world "a" false) (mkWC "WET" "JMS" (op_ew o) (dict2values (dfilter nonzero [("a", v)])) [] 0) o (op_ew o) None) = Ok y /\
      weqv (mkWC "WET" "JMS" (op_ew o) (dict2values (dfilter nonzero [("a", v)])) [] 0) y).
  { intros o v. rewrite val_wet. cbn [negb kmem wc_eft]. eexists. split; [reflexivity|].
    unfold weqv. cbn [wc_eft wc_basis wc_scale]. rewrite !wc_dict_mk.
    do 3 (split; [reflexivity|]).
    unfold dfilter at 1 3. cbn [filter fst snd nonzero]. unfold nonzero.
    destruct (kdec_spec QI v k0) as [->|N].
    - cbn. repeat split; constructor.
    - cbn [negb dgetd dget]. change (keqb "a" "a") with true. cbv iota.
      unfold dfilter. cbn [filter fst snd].
      change (dgetd [("a", v)] "a" k0) with v.
      change (kmem "a" _) with true.
      destruct (kdec v k0) eqn:Q; [apply kdec_true in Q; contradiction|]. cbn [negb andb].
      repeat split; repeat constructor; intros []. }
  intros o x. unfold ew_match. destruct (keqb_spec (wc_scale toy_wc) (op_ew o)) as [E|N].
  - rewrite val_match. intros H. destruct (MM toy_wc _ _ eq_refl eq_refl H) as (v & ->). rewrite E. apply AA.
  - assert (TR : forall W' p s, wc_translate (w_tr W') toy_wc "Warsaw" p s 0 = Ok toy_wc) by reflexivity.
    rewrite val_bind by apply nc_translate. rewrite val_translate, TR. cbn [bind].
    rewrite val_bind by apply nc_smeft. rewrite val_smeft.
    change (negb (keqb (wc_eft toy_wc) "SMEFT")) with false.
    change (negb (keqb (wc_basis toy_wc) "Warsaw")) with false. cbv iota.
    destruct (kmem (op_accuracy o) _); [|discriminate].
    match goal with |- context [w_smeft ?W ?d ?a ?b ?c] => set (sm := w_smeft W d a b c); assert (SE : exists d', sm = Ok d') by (eexists; reflexivity) end.
    destruct SE as (d' & ->). cbn [bind]. rewrite val_match. intros H.
    destruct (MM (mkWC "SMEFT" "Warsaw" (op_ew o) (dict2values d') [] 0) _ _ eq_refl eq_refl H) as (v & ->). apply AA.
Qed.
Lemma toy_blind key kill : smeft_sector_blind (toy_world key kill).
Proof. intros b f. discriminate. Qed.
Lemma answer_at {A} (r : res A) (P : A -> Prop) (t : A -> bool) :
  (forall a, t a = true -> P a) -> match r with Ok a => t a | Err _ => false end = true -> exists a, r = Ok a /\ P a.
Proof. destruct r; [eauto|discriminate]. Qed.
Example C08_ex :
  extensional (toy_world "a" false) /\ smeft_sector_blind (toy_world "a" false) /\
  ew_neutral (toy_world "a" false) toy_wc /\
  let s := wrun (toy_world "a" false) no_floats (mkW toy_wc toy_options [])
             [WMatchRun (qi 50 0) "WET" "JMS" None; WSetOption "qed_order" (PNum (qi 0 0)); WMatchRun (qi 60 0) "WET" "JMS" None] in
  s_cache s <> [] /\
  exists w', answer (toy_world "a" false) s (qi 91 0) "WET" "JMS" None = Ok w' /\ wc_getitem w' "a" <> k0.
Proof.
  split; [apply toy_ext|]. split; [apply toy_blind|]. split; [apply toy_neutral|].
  set (s := wrun _ _ _ _). split.
  { intros E. assert (Q : (match s_cache s with [] => true | _ => false end) = false) by (vm_compute; reflexivity).
    rewrite E in Q. discriminate. }
  apply (answer_at _ _ (fun w' => negb (kdec (wc_getitem w' "a") k0))); [|vm_compute; reflexivity].
  intros w' E. apply kdec_false. now destruct (kdec _ _).
Qed.

(* Without the neutrality of the evolution the cache is visible: a coefficient
   that the matcher produces and the WET evolution drops is returned by
   match_run(matching scale, 'WET', 'JMS') only if another WET request came first. *)
Theorem C08_cache_visible_refuted :
  exists (W : world QI) w opts0 history scale eft basis sec w1 w2,
    extensional W /\ smeft_sector_blind W /\ wfdict (wc_values w) /\
    let s := wrun W no_floats (mkW w opts0 []) history in
    s_opts s = opts0 /\
    answer W s scale eft basis sec = Ok w1 /\
    answer W (mkW w opts0 []) scale eft basis sec = Ok w2 /\
    exists k, wc_getitem w1 k <> wc_getitem w2 k.
Proof.
  exists (toy_world "exotic" true), toy_wc, toy_options, [WMatchRun (qi 50 0) "WET" "JMS" None],
    (qi 91 0), "WET", "JMS", None.
  set (W := toy_world "exotic" true). set (s := wrun _ _ _ _).
  destruct (answer_at (answer W s (qi 91 0) "WET" "JMS" None) (fun w => wc_getitem w "exotic" <> k0)
              (fun w' => negb (kdec (wc_getitem w' "exotic") k0))) as (w1 & E1 & G1).
  { intros w' E. apply kdec_false. now destruct (kdec _ _). }
  { vm_compute; reflexivity. }
  destruct (answer_at (answer W (mkW toy_wc toy_options []) (qi 91 0) "WET" "JMS" None) (fun w => wc_getitem w "exotic" = k0)
              (fun w' => kdec (wc_getitem w' "exotic") k0)) as (w2 & E2 & G2).
  { intros w' E. now apply kdec_true. }
  { vm_compute; reflexivity. }
  exists w1, w2. split; [apply toy_ext|]. split; [apply toy_blind|].
  split; [unfold toy_wc; repeat constructor; intros []|].
  split; [reflexivity|]. split; [exact E1|]. split; [exact E2|].
  exists "exotic". congruence.
Qed.
Print Assumptions C08_cache_visible_refuted.

(* ---- C09 ---- *)
(* [sopt h i key]: value of the last accepted set_option of key on object i in the
   history h (latest event first), else the class default in force when object i
   was created; see OptionProofs.v.  Histories without in-place mutation of a
   returned dictionary. *)
Theorem C09_options_last_set :
  forall (K : StarField) (pf : string -> option K) c_ew c_mb c_mc (h : list (oop K)) i key,
    Forall no_mutation h ->
    o_get (o_run pf (o_init c_ew c_mb c_mc) (rev h)) i key =
      if Nat.ltb i (ninst h) then
        match sopt pf c_ew c_mb c_mc h i key with Some v => Ok v | None => Err KeyError end
      else Err AttributeError.
Proof. intros; now apply options_spec. Qed.
Print Assumptions C09_options_last_set.
Theorem C09_options_valid :
  forall (K : StarField) (pf : string -> option K) c_ew c_mb c_mc (h : list (oop K)) i key v,
    kreal c_ew -> kreal c_mb -> kreal c_mc -> Forall no_mutation h ->
    o_get (o_run pf (o_init c_ew c_mb c_mc) (rev h)) i key = Ok v -> valid_option pf key v.
Proof.
  intros K pf c1 c2 c3 h i key v R1 R2 R3 F E. rewrite options_spec in E by assumption.
  destruct (Nat.ltb _ _); [|discriminate]. destruct (sopt _ _ _ _ h i key) eqn:S; [|discriminate].
  injection E as <-. revert S. apply sopt_valid; assumption.
Qed.
Print Assumptions C09_options_valid.
Theorem C09_rejected_changes_nothing :
  forall (K : StarField) (pf : string -> option K) (s : ostate K) op,
    (forall e, snd (o_step pf s op) = Err e -> fst (o_step pf s op) = s) /\
    (forall i key v, op = OSet i key v -> ~ In key option_names -> exists e, snd (o_step pf s op) = Err e) /\
    (forall i key v, op = OSet i key v -> snd (o_step pf s op) = Ok tt -> exists x, valid_option pf key x).
Proof.
  intros. repeat split.
  - intros; eapply failed_set_noop; eauto.
  - intros i key v -> N. simpl. destruct (nth_error _ _); [|simpl; eauto]. destruct (accept pf key v) eqn:A; [|simpl; eauto].
    exfalso. apply N. eapply valid_name, accept_valid; eauto.
  - intros i key v ->. simpl. destruct (nth_error _ _); [|discriminate]. destruct (accept pf key v) eqn:A; [|discriminate].
    intros _. exists a. eapply accept_valid; eauto.
Qed.
Print Assumptions C09_rejected_changes_nothing.
(* mutating the dictionary returned by get_option reaches other objects and the
   class default *)
Theorem C09_private_refuted :
  exists (h : list (oop QI)) v,
    o_get (o_run no_floats (o_init (qi 91 0) (qi 4 0) (qi 1 0)) [ONew; ONew]) 1 "parameters" = Ok (ODict []) /\
    o_get (o_run no_floats (o_init (qi 91 0) (qi 4 0) (qi 1 0)) ([ONew; ONew] ++ [OMutate 0 "m_b" v])%list) 1 "parameters"
      = Ok (ODict [("m_b", v)]) /\
    o_get (o_run no_floats (o_init (qi 91 0) (qi 4 0) (qi 1 0)) ([ONew; ONew] ++ [OMutate 0 "m_b" v; ONew])%list) 2 "parameters"
      = Ok (ODict [("m_b", v)]) /\ Forall no_mutation h.
Proof. exists [ONew; ONew], (qi 5 0). repeat split; repeat constructor. Qed.
Print Assumptions C09_private_refuted.
Example C09_ex :
  let h := rev [ONew; OSet 0 "qed_order" (PNum (qi 0 0)); OSetDefault "qed_order" (PNum (qi 7 0));
                OSetDefault "mb_matchingscale" (PNum (qi 5 0)); ONew; OSet 1 "qed_order" (PStr "no")] in
  Forall no_mutation h /\
  o_get (o_run no_floats (o_init (qi 91 0) (qi 4 0) (qi 1 0)) (rev h)) 0 "qed_order" = Ok (ONum (qi 0 0)) /\
  o_get (o_run no_floats (o_init (qi 91 0) (qi 4 0) (qi 1 0)) (rev h)) 1 "qed_order" = Ok (ONum k1) /\
  o_get (o_run no_floats (o_init (qi 91 0) (qi 4 0) (qi 1 0)) (rev h)) 0 "mb_matchingscale" = Ok (ONum (qi 4 0)) /\
  o_get (o_run no_floats (o_init (qi 91 0) (qi 4 0) (qi 1 0)) (rev h)) 1 "mb_matchingscale" = Ok (ONum (qi 5 0)).
Proof. split; [repeat constructor|]. repeat split. Qed.

(* ---- C10 ---- *)
(* d uses 'delta' (and possibly also 'gamma'), d' is the same dictionary with the
   value under 'gamma' only *)
Theorem C10_delta_is_gamma :
  forall (K : StarField) (pf : string -> option K) (d d' : dict string (pyval K)) x,
    wfdict d -> wfdict d' -> dget d "delta" = Some x ->
    dget d' "delta" = None -> dget d' "gamma" = Some x ->
    (forall k, k <> "delta" -> k <> "gamma" -> dget d' k = dget d k) ->
    match accept pf "parameters" (PDict d), accept pf "parameters" (PDict d') with
    | Ok (ODict p), Ok (ODict p') => forall k, dget p k = dget p' k
    | Err e, Err e' => e = e'
    | _, _ => False
    end.
Proof. intros. exact (delta_alias pf d d' x H H0 H1 H2 H3 H4). Qed.
Print Assumptions C10_delta_is_gamma.
(* and hence the same parameters reach the calculation *)
Theorem C10_same_parameters :
  forall (K : StarField) (W : world K) (o o' : opts K),
    wfdict (op_params o) -> wfdict (op_params o') ->
    (forall k, dget (op_params o) k = dget (op_params o') k) ->
    forall k, dget (parameters W o) k = dget (parameters W o') k.
Proof. intros K W o o' A B E k. rewrite !parameters_look by assumption. now rewrite E. Qed.
Print Assumptions C10_same_parameters.
Theorem C10_no_delta_untouched :
  forall (K : StarField) key (v : pyval K),
    (forall d, v = PDict d -> dget d "delta" = None) ->
    (exists e, rename_delta key v = Err e) \/ rename_delta key v = Ok v.
Proof. intros; now apply no_delta_untouched. Qed.
Print Assumptions C10_no_delta_untouched.
Example C10_ex : accept no_floats "parameters" (PDict [("delta", PNum (qi 1 0)); ("gamma", PNum (qi 2 0)); ("Vus", PNum (qi 3 0))])
  = Ok (ODict [("gamma", qi 1 0); ("Vus", qi 3 0)]).
Proof. reflexivity. Qed.

(* ---- C11 ---- *)
(* false of the code: no history of calls ever changes the hash *)
Theorem C11_hash_ignores_options_refuted :
  forall (K : StarField) (W : world K) (H : Type) (hash : nat -> list string -> H) pf ops s,
    (forall k, In k option_names -> In k (dkeys (s_opts s))) ->
    wilson_hash hash (wrun W pf s ops) = wilson_hash hash s.
Proof. intros; now apply hash_constant. Qed.
Print Assumptions C11_hash_ignores_options_refuted.
Example C11_ex :
  let s := mkW toy_wc toy_options [] in
  let s' := wrun (toy_world "a" false) no_floats s [WSetOption "qed_order" (PNum (qi 0 0))] in
  (forall k, In k option_names -> In k (dkeys (s_opts s))) /\
  s_opts s' <> s_opts s /\ dget (s_opts s') "qed_order" = Some (ONum (qi 0 0)).
Proof.
  intros s s'. split; [intros k I; exact I|].
  assert (R : dget (s_opts s') "qed_order" = Some (ONum (qi 0 0))) by reflexivity. split; [|exact R].
  intros E. rewrite E in R. assert (Q := R).
  change (Some (ONum (K:=QI) k1) = Some (ONum (qi 0 0))) in Q. discriminate Q.
Qed.
(* what does hold: the hash depends on the coefficient object *)
Theorem C11_hash_of_coefficients_partial :
  forall (K : StarField) (H : Type) (hash : nat -> list string -> H) (s s' : wstate K),
    (forall a b l l', hash a l = hash b l' -> a = b /\ l = l') ->
    wc_hash (s_wc s) <> wc_hash (s_wc s') -> wilson_hash hash s <> wilson_hash hash s'.
Proof. intros K H hash s s' INJ N E. apply INJ in E as [E _]. contradiction. Qed.
Print Assumptions C11_hash_of_coefficients_partial.

(* ---- C12 ---- *)
(* [path a b (thresholds o)]: the steps from EFT a down to EFT b in the chain
   SMEFT -(ew)-> WET -(mb)-> WET-4 -(mc)-> WET-3; [matches]: matching steps taken
   (the ones before a cached intermediate result are not repeated). *)
Theorem C12_requested_metadata_and_thresholds :
  forall (K : StarField) (W : world K) pf w opts0 history scale eft basis sec o out,
    let s := wrun W pf (mkW w opts0 []) history in
    typed_options (s_opts s) = Some o ->
    answer W s scale eft basis sec = Ok out ->
    wc_eft out = eft /\ wc_basis out = basis /\ wc_scale out = scale /\
    exists steps before,
      path (wc_eft w) eft (thresholds o) = Some steps /\
      steps = (before ++ matches (snd (run_request W s scale eft basis sec)))%list /\
      (history = [] -> before = []).
Proof.
  intros K W pf w opts0 history scale eft basis sec o out s T A.
  destruct (history_meta W pf w history (mkW w opts0 []) eq_refl) as [SW CM].
  { intros; apply cache_meta_nil. }
  fold s in SW, CM. specialize (CM o T).
  unfold answer, run_request in *. rewrite T, SW in *.
  pose proof (run_meta W o w (s_cache s) scale eft basis sec CM) as R.
  destruct (match_run _ _ _ _ _ _ _ _) as [[r c'] ev]. simpl in A. destruct R as [_ R].
  destruct (R out A) as (A1 & A2 & A3 & l & pre & P1 & P2 & P3). repeat split; auto.
  exists l, pre. repeat split; auto. intros ->. apply P3. reflexivity.
Qed.
Print Assumptions C12_requested_metadata_and_thresholds.
Theorem C12_never_upwards :
  forall (K : StarField) (W : world K) pf w opts0 history scale eft basis sec o,
    let s := wrun W pf (mkW w opts0 []) history in
    typed_options (s_opts s) = Some o ->
    path (wc_eft w) eft (thresholds o) = None ->
    (forall out, answer W s scale eft basis sec <> Ok out) /\
    (wc_eft w <> "SMEFT" ->
     (exists x, wc_translate (w_tr W) w "JMS" (Some (parameters W o)) sec 0 = Ok x) ->
     answer W s scale eft basis sec = Err ValueError).
Proof.
  intros K W pf w opts0 history scale eft basis sec o s T P.
  destruct (history_meta W pf w history (mkW w opts0 []) eq_refl) as [SW CM].
  { intros; apply cache_meta_nil. }
  fold s in SW, CM. specialize (CM o T).
  unfold answer, run_request. rewrite T, SW. split.
  - intros out A. pose proof (run_meta W o w (s_cache s) scale eft basis sec CM) as R.
    destruct (match_run _ _ _ _ _ _ _ _) as [[r c'] ev]. simpl in A. destruct R as [_ R].
    destruct (R out A) as (_ & _ & _ & l & pre & P1 & _). congruence.
  - intros NS X. destruct (upward_value_error W o w (s_cache s) scale eft basis sec P CM X) as [E|E]; [exact E|contradiction].
Qed.
Print Assumptions C12_never_upwards.
(* the paths, and the absence of upward ones *)
Example C12_paths : forall (K : StarField) (o : opts K),
  path "SMEFT" "WET-3" (thresholds o) =
    Some [(("SMEFT", "WET"), op_ew o); (("WET", "WET-4"), op_mb o); (("WET-4", "WET-3"), op_mc o)] /\
  path "WET" "WET-4" (thresholds o) = Some [(("WET", "WET-4"), op_mb o)] /\
  path "WET" "SMEFT" (thresholds o) = None /\ path "WET-4" "WET" (thresholds o) = None /\
  path "WET-3" "WET-4" (thresholds o) = None /\ path "WET-3" "SMEFT" (thresholds o) = None.
Proof. intros. repeat split. Qed.
Example C12_ex :
  let s := mkW toy_wc toy_options [] in
  exists out, answer (toy_world "a" false) s (qi 50 0) "WET" "JMS" None = Ok out /\
  matches (snd (run_request (toy_world "a" false) s (qi 50 0) "WET" "JMS" None)) = [(("SMEFT", "WET"), qi 91 0)].
Proof. eexists; split; reflexivity. Qed.

(* ---- C13 ---- *)
(* user parameters over defaults *)
Theorem C13_parameters_partial :
  forall (K : StarField) (W : world K) (o : opts K) w scale eft basis sec c,
    wc_eft w <> "SMEFT" \/ eft <> "SMEFT" \/ scale = wc_scale w -> wfdict (op_params o) ->
    forall ev, In ev (snd (match_run W o w scale eft basis sec c)) ->
      match ev with
      | EvTranslate _ _ _ p => exists q, p = Some q /\ forall k,
          dget q k = match dget (op_params o) k with Some v => Some v | None => dget (w_p W) k end
      | EvMatch _ _ _ p => exists q, p = Some q /\ forall k,
          dget q k = if keqb k "loop_order" then Some (op_order o)
                     else match dget (op_params o) k with Some v => Some v | None => dget (w_p W) k end
      | EvSmeftRun _ _ _ | EvWetRun _ _ _ _ => True
      end.
Proof.
  intros K W o w scale eft basis sec c N WF ev I.
  pose proof (params_ok W o w scale eft basis sec N c) as F. rewrite Forall_forall in F. specialize (F ev I).
  destruct ev; simpl in F; auto; rewrite F; eexists; split; try reflexivity; intros k.
  - now apply parameters_look.
  - now apply matching_parameters_look.
Qed.
Print Assumptions C13_parameters_partial.
(* false of the code for running (never given any parameters) and for the
   final translation of SMEFT -> SMEFT requests *)
Theorem C13_every_step_refuted :
  (forall (K : StarField) (W : world K) (o : opts K) w scale eft basis sec c ev,
     In ev (snd (match_run W o w scale eft basis sec c)) ->
     match ev with EvSmeftRun _ _ p | EvWetRun _ _ _ p => p = None | _ => True end) /\
  (exists (W : world QI) (o : opts QI) w scale basis,
     op_params o = [("m_W", qi 80 0)] /\
     In (EvTranslate "SMEFT" "Warsaw" basis None) (snd (match_run W o w scale "SMEFT" basis None []))).
Proof.
  split.
  - intros K W o w scale eft basis sec c ev I.
    pose proof (run_gets_none W o w scale eft basis sec c) as F. rewrite Forall_forall in F. exact (F ev I).
  - exists (toy_world "a" false), (mkOpts "integrate" (qi 1 0) (qi 1 0) (qi 0 0) (qi 91 0) (qi 4 0) (qi 1 0) [("m_W", qi 80 0)]),
      toy_wc, (qi 500 0), "Higgs-Warsaw up".
    split; [reflexivity|]. first [left; reflexivity | right; left; reflexivity | right; right; left; reflexivity].
Qed.
Print Assumptions C13_every_step_refuted.
