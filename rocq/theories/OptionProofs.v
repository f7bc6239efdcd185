(* Lemmas about the option machinery and the parameters handed to each step *)
From Coq Require Import List Bool String Ascii ZArith Lia.
From Verif Require Import PyBase Num WcxfModel WcxfProofs WilsonModel WilsonProofs.
Import ListNotations.
Local Open Scope string_scope.

Section Opt.
Context {K : StarField}.
Variable pf : string -> option K.
Variables (c_ew c_mb c_mc : K).
Notation builtin := (builtin_options c_ew c_mb c_mc).
Notation init := (o_init c_ew c_mb c_mc).
Implicit Types (h : list (oop K)).

(* ---- specification: options as a function of the history (latest first) ---- *)
Fixpoint ninst h : nat :=
  match h with [] => 0 | ONew :: h' => S (ninst h') | _ :: h' => ninst h' end.
(* class default of key after the history *)
Fixpoint sdef h (key : string) : option (oval K) :=
  match h with
  | [] => dget builtin key
  | OSetDefault k v :: h' =>
      if keqb k key then match accept pf k v with Ok x => Some x | Err _ => sdef h' key end else sdef h' key
  | _ :: h' => sdef h' key
  end.
(* option key of object i after the history *)
Fixpoint sopt h (i : nat) (key : string) : option (oval K) :=
  match h with
  | [] => None
  | ONew :: h' => if Nat.eqb i (ninst h') then sdef h' key else sopt h' i key
  | OSet j k v :: h' =>
      if Nat.eqb i j && keqb k key then
        match accept pf k v with Ok x => if Nat.ltb i (ninst h') then Some x else None | Err _ => sopt h' i key end
      else sopt h' i key
  | _ :: h' => sopt h' i key
  end.
Definition no_mutation (op : oop K) : Prop := match op with OMutate _ _ _ => False | _ => True end.

(* ---- which values are admissible ---- *)
Definition valid_option (key : string) (v : oval K) : Prop :=
  (key = "smeft_accuracy" /\ (v = OStr "integrate" \/ v = OStr "leadinglog")) \/
  ((key = "qed_order" \/ key = "qcd_order" \/ key = "smeft_matching_order") /\ (v = ONum k0 \/ v = ONum k1)) \/
  ((key = "smeft_matchingscale" \/ key = "mb_matchingscale" \/ key = "mc_matchingscale") /\
     exists x, v = ONum x /\ (kreal x \/ exists s, pf s = Some x)) \/
  (key = "parameters" /\ exists d, v = ODict d /\
     forall k x, In (k, x) d -> kreal x \/ exists s, pf s = Some x).

Lemma coerce_valid v x : coerce_float pf v = Ok x -> kreal x \/ exists s, pf s = Some x.
Proof.
  destruct v; simpl; try discriminate.
  - destruct (krealb_spec x0); [|discriminate]. intros E; injection E as <-. now left.
  - destruct (pf s) eqn:P; [|discriminate]. intros E; injection E as <-. right; eauto.
Qed.
Lemma coerce_dict_valid d r : coerce_dict pf d = Ok r -> forall k x, In (k, x) r -> kreal x \/ exists s, pf s = Some x.
Proof.
  revert r. induction d as [|[k v] d IH]; intros r E; simpl in E; [injection E as <-; intros ? ? []|].
  destruct (coerce_float pf v) as [x|] eqn:C; [|discriminate]. simpl in E.
  destruct (coerce_dict pf d) as [r'|]; [|discriminate]. simpl in E. injection E as <-.
  intros j y [Q|I]; [injection Q as <- <-; eapply coerce_valid; eauto|eapply IH; eauto].
Qed.
Lemma schema_valid key v x : option_schema pf key v = Ok x -> valid_option key x.
Proof.
  unfold option_schema, valid_option. destruct (keqb_spec key "smeft_accuracy") as [->|_].
  - destruct v; try discriminate. destruct (kmem s _) eqn:M; [|discriminate]. intros E; injection E as <-.
    apply kmem_In in M. simpl in M. left. split; [reflexivity|]. destruct M as [<-|[<-|[]]]; auto.
  - destruct (kmem key order_keys) eqn:M.
    + destruct v; try discriminate. destruct (kdec x0 k0 || kdec x0 k1) eqn:D; [|discriminate].
      intros E; injection E as <-. apply kmem_In in M. right; left. split; [simpl in M; intuition|].
      apply orb_true_iff in D as [D|D]; apply kdec_true in D; subst; auto.
    + destruct (kmem key scale_keys) eqn:M2.
      * destruct (coerce_float pf v) eqn:C; [|discriminate]. simpl. intros E; injection E as <-.
        apply kmem_In in M2. right; right; left. split; [simpl in M2; intuition|]. eapply coerce_valid in C; eauto.
      * destruct (keqb_spec key "parameters") as [->|_]; [|discriminate]. destruct v; try discriminate.
        destruct (coerce_dict pf d) eqn:C; [|discriminate]. simpl. intros E; injection E as <-.
        right; right; right. split; [reflexivity|]. eexists; split; [reflexivity|]. eapply coerce_dict_valid; eauto.
Qed.
Lemma accept_schema key v x : accept pf key v = Ok x -> exists v', rename_delta key v = Ok v' /\ option_schema pf key v' = Ok x.
Proof. unfold accept. destruct (rename_delta key v) as [v'|]; [|discriminate]. simpl. eauto. Qed.
Lemma accept_valid key v x : accept pf key v = Ok x -> valid_option key x.
Proof. intros E. apply accept_schema in E as (v' & _ & E). eapply schema_valid; eauto. Qed.

Definition option_names : list string :=
  ["smeft_accuracy"; "qed_order"; "qcd_order"; "smeft_matching_order"; "smeft_matchingscale";
   "mb_matchingscale"; "mc_matchingscale"; "parameters"].
Lemma valid_name key v : valid_option key v -> In key option_names.
Proof. unfold valid_option, option_names. simpl. intuition. Qed.
Lemma builtin_keys : dkeys builtin = option_names. Proof. reflexivity. Qed.
Lemma builtin_valid key v : kreal c_ew -> kreal c_mb -> kreal c_mc -> dget builtin key = Some v -> valid_option key v.
Proof.
  intros R1 R2 R3 E. apply dget_In in E. unfold valid_option. simpl in E.
  decompose [or] E; try contradiction;
    match goal with H : (_, _) = (_, _) |- _ => injection H as <- <- end.
  - auto.
  - right; left; auto 6.
  - right; left; auto 6.
  - right; left; auto 6.
  - right; right; left; split; [auto|eauto].
  - right; right; left; split; [auto|eauto].
  - right; right; left; split; [auto|eauto].
  - right; right; right; split; [auto|]. eexists; split; [reflexivity|]. intros ? ? [].
Qed.

(* ---- heap invariant ---- *)
Definition sok (hp : list (dict string K)) (v : sval K) : Prop :=
  match v with SRef l => l < List.length hp | _ => True end.
Lemma deref_ext hp d v : sok hp v -> deref (hp ++ [d])%list v = deref hp v.
Proof. destruct v; simpl; auto. intros L. now rewrite app_nth1. Qed.
Lemma alloc_spec hp x hp' sv : alloc hp x = (hp', sv) ->
  deref hp' sv = x /\ sok hp' sv /\ (forall v, sok hp v -> sok hp' v /\ deref hp' v = deref hp v).
Proof.
  destruct x; simpl; intros E; injection E as <- <-; simpl; repeat split; auto.
  - rewrite app_nth2 by lia. now rewrite Nat.sub_diag.
  - rewrite app_length. simpl. lia.
  - destruct v; simpl in *; auto. rewrite app_length. simpl. lia.
  - now apply deref_ext.
Qed.
Definition dok (hp : list (dict string K)) (o : dict string (sval K)) : Prop := forall k v, dget o k = Some v -> sok hp v.
Definition look hp (o : dict string (sval K)) key := option_map (deref hp) (dget o key).

Record inv (s : ostate K) h : Prop := {
  i_dok : dok (o_heap s) (o_defaults s);
  i_iok : forall i o, nth_error (o_insts s) i = Some o -> dok (o_heap s) o;
  i_def : forall key, look (o_heap s) (o_defaults s) key = sdef h key;
  i_len : List.length (o_insts s) = ninst h;
  i_opt : forall i o, nth_error (o_insts s) i = Some o -> forall key, look (o_heap s) o key = sopt h i key;
  i_names : forall key, In key option_names <-> dget (o_defaults s) key <> None;
  i_inames : forall i o, nth_error (o_insts s) i = Some o -> forall key, In key option_names <-> dget o key <> None }.

Lemma inv_init : inv init [].
Proof.
  split.
  - intros k v E. apply dget_In in E. simpl in E.
    decompose [or] E; try contradiction; match goal with H : (_, _) = (_, _) |- _ => injection H as <- <- end; simpl; auto; lia.
  - intros [|i] o; discriminate.
  - intros key. unfold look, sdef, builtin_options, o_init. cbn -[String.eqb].
    repeat match goal with |- context [if ?b then _ else _] => destruct b; [reflexivity|] end. reflexivity.
  - reflexivity.
  - intros [|i] o; discriminate.
  - intros key. unfold o_init. split.
    + intros I E. apply dget_None in E. now apply E.
    + intros N. destruct (dget _ key) eqn:E; [|congruence]. apply dget_Some_key in E. exact E.
  - intros [|i] o; discriminate.
Qed.

Lemma nth_replace {A} i j (x : A) l : i < List.length l ->
  nth_error (replace_nth i x l) j = if Nat.eqb j i then Some x else nth_error l j.
Proof.
  unfold replace_nth. revert i j. induction l as [|a l IH]; intros [|i] [|j] L; simpl in *; try lia; auto.
  apply IH. lia.
Qed.
Lemma len_replace {A} i (x : A) l : i < List.length l -> List.length (replace_nth i x l) = List.length l.
Proof.
  unfold replace_nth. revert i. induction l as [|a l IH]; intros [|i] L; simpl in *; try lia; auto.
  f_equal. apply IH. lia.
Qed.

Lemma look_alloc hp hp' o key : dok hp o -> (forall v, sok hp v -> sok hp' v /\ deref hp' v = deref hp v) ->
  look hp' o key = look hp o key.
Proof.
  intros D E. unfold look. destruct (dget o key) as [v|] eqn:G; [|reflexivity]. simpl.
  f_equal. apply E. eapply D; eauto.
Qed.
Lemma dok_alloc hp hp' o : dok hp o -> (forall v, sok hp v -> sok hp' v /\ deref hp' v = deref hp v) -> dok hp' o.
Proof. intros D E k v G. apply E. eapply D; eauto. Qed.
Lemma dok_set hp o key sv : dok hp o -> sok hp sv -> dok hp (dset o key sv).
Proof. intros D S k v. rewrite dget_dset. destruct (keqb k key); [intros E; injection E as <-; auto|apply D]. Qed.
Lemma names_set (o : dict string (sval K)) key sv : In key option_names ->
  (forall k, In k option_names <-> dget o k <> None) -> forall k, In k option_names <-> dget (dset o key sv) k <> None.
Proof.
  intros I N k. rewrite dget_dset. destruct (keqb_spec k key) as [->|]; [|apply N]. split; [discriminate|auto].
Qed.

Lemma inv_step s h op : no_mutation op -> inv s h -> inv (fst (o_step pf s op)) (op :: h).
Proof.
  intros NM I. destruct I as [D1 D2 DF LN OP NA NI]. destruct op as [|i key v|key v|i p x]; simpl in NM; [| | |contradiction].
  - (* ONew *)
    simpl. split; cbn [o_heap o_defaults o_insts]; auto.
    + intros i o E. destruct (Nat.lt_ge_cases i (List.length (o_insts s))) as [L|L].
      * rewrite nth_error_app1 in E by assumption. eauto.
      * rewrite nth_error_app2 in E by assumption. destruct (i - _) as [|[|]]; simpl in E; try discriminate.
        injection E as <-. assumption.
    + rewrite app_length. simpl. lia.
    + intros i o E key. cbn [sopt]. destruct (Nat.lt_ge_cases i (List.length (o_insts s))) as [L|L].
      * rewrite nth_error_app1 in E by assumption.
        replace (Nat.eqb i (ninst h)) with false by (symmetry; apply Nat.eqb_neq; lia). eauto.
      * rewrite nth_error_app2 in E by assumption. destruct (i - _) as [|[|]] eqn:Q; simpl in E; try discriminate.
        injection E as <-. replace (Nat.eqb i (ninst h)) with true by (symmetry; apply Nat.eqb_eq; lia). apply DF.
    + intros i o E. destruct (Nat.lt_ge_cases i (List.length (o_insts s))) as [L|L].
      * rewrite nth_error_app1 in E by assumption. eauto.
      * rewrite nth_error_app2 in E by assumption. destruct (i - _) as [|[|]]; simpl in E; try discriminate.
        injection E as <-. assumption.
  - (* OSet *)
    simpl o_step. destruct (nth_error (o_insts s) i) as [opts|] eqn:NE.
    2:{ cbn [fst]. split; cbn [sdef ninst]; auto. intros j o E k. cbn [sopt].
        assert (L : nth_error (o_insts s) i <> None -> False) by congruence.
        destruct (Nat.eqb_spec j i) as [->|]; [congruence|]. cbn [andb]. eauto. }
    assert (L : i < List.length (o_insts s)) by (apply nth_error_Some; congruence).
    destruct (accept pf key v) as [x|e] eqn:AC.
    2:{ cbn [fst]. split; cbn [sdef ninst]; auto. intros j o E k. cbn [sopt].
        destruct (Nat.eqb j i && keqb key k) eqn:Q; [|eauto]. rewrite AC. eauto. }
    destruct (alloc (o_heap s) x) as [hp sv] eqn:AL. destruct (alloc_spec _ _ _ _ AL) as (A1 & A2 & A3).
    pose proof (valid_name _ _ (accept_valid _ _ _ AC)) as KN.
    cbn [fst]. split; cbn [o_heap o_defaults o_insts ninst]; auto.
    + eapply dok_alloc; eauto.
    + intros j o. rewrite nth_replace by assumption. destruct (Nat.eqb_spec j i) as [->|].
      * intros E; injection E as <-. apply dok_set; auto. eapply dok_alloc; eauto.
      * intros E. eapply dok_alloc; eauto.
    + intros k. cbn [sdef]. rewrite (look_alloc (o_heap s)); auto.
    + simpl. now rewrite len_replace.
    + intros j o. rewrite nth_replace by assumption. intros E k. cbn [sopt].
      destruct (Nat.eqb_spec j i) as [->|NJ]; cbn [andb].
      * injection E as <-. destruct (keqb_spec key k) as [<-|NK].
        -- rewrite AC. replace (Nat.ltb i (ninst h)) with true by (symmetry; apply Nat.ltb_lt; lia).
           unfold look. rewrite dget_dset_eq. simpl. now rewrite A1.
        -- unfold look. rewrite dget_dset_neq by congruence. fold (look hp opts k).
           rewrite (look_alloc (o_heap s)); eauto.
      * rewrite (look_alloc (o_heap s)); eauto.
    + intros j o. rewrite nth_replace by assumption. destruct (Nat.eqb_spec j i) as [->|].
      * intros E; injection E as <-. apply names_set; eauto.
      * eauto.
  - (* OSetDefault *)
    simpl o_step. destruct (accept pf key v) as [x|e] eqn:AC.
    2:{ cbn [fst]. split; cbn [sdef ninst]; auto. intros k. cbn [sdef]. destruct (keqb key k) eqn:Q; [|auto]. rewrite AC. auto. }
    destruct (alloc (o_heap s) x) as [hp sv] eqn:AL. destruct (alloc_spec _ _ _ _ AL) as (A1 & A2 & A3).
    pose proof (valid_name _ _ (accept_valid _ _ _ AC)) as KN.
    cbn [fst]. split; cbn [o_heap o_defaults o_insts ninst]; auto.
    + apply dok_set; auto. eapply dok_alloc; eauto.
    + intros j o E. eapply dok_alloc; eauto.
    + intros k. cbn [sdef]. unfold look. rewrite dget_dset. destruct (keqb_spec k key) as [->|NK].
      * rewrite keqb_refl, AC. simpl. now rewrite A1.
      * destruct (keqb_spec key k) as [|_]; [congruence|]. fold (look hp (o_defaults s) k).
        rewrite (look_alloc (o_heap s)); auto.
    + intros j o E k. cbn [sopt]. rewrite (look_alloc (o_heap s)); eauto.
    + now apply names_set.
Qed.

Lemma inv_run h : Forall no_mutation h -> inv (o_run pf init (rev h)) h.
Proof.
  induction h as [|op h IH]; intros F; [apply inv_init|].
  inversion F as [|? ? F1 F2]; subst. simpl rev. unfold o_run. rewrite fold_left_app. simpl.
  apply inv_step; auto.
Qed.

Lemma options_spec h i key : Forall no_mutation h ->
  o_get (o_run pf init (rev h)) i key =
  if Nat.ltb i (ninst h) then match sopt h i key with Some v => Ok v | None => Err KeyError end
  else Err AttributeError.
Proof.
  intros F. destruct (inv_run h F) as [D1 D2 DF LN OP NA NI]. unfold o_get.
  destruct (nth_error _ i) as [o|] eqn:NE.
  - assert (L : i < ninst h) by (rewrite <- LN; apply nth_error_Some; congruence).
    apply Nat.ltb_lt in L. rewrite L. rewrite <- (OP _ _ NE key). unfold look, dgetd.
    destruct (dget o key) as [v|] eqn:G.
    + destruct (dget (o_defaults _) key) eqn:G2; [reflexivity|]. exfalso.
      assert (In key option_names) by (apply (NI _ _ NE); congruence). apply NA in H. congruence.
    + destruct (dget (o_defaults _) key) eqn:G2; [|reflexivity]. exfalso.
      assert (In key option_names) by (apply NA; congruence). apply (NI _ _ NE) in H. congruence.
  - apply nth_error_None in NE. rewrite LN in NE. apply Nat.ltb_ge in NE. now rewrite NE.
Qed.

Lemma sdef_valid h key v : kreal c_ew -> kreal c_mb -> kreal c_mc -> sdef h key = Some v -> valid_option key v.
Proof.
  intros R1 R2 R3. induction h as [|op h IH]; cbn [sdef]; [now apply builtin_valid|].
  destruct op; auto. destruct (keqb_spec key0 key) as [->|]; auto.
  destruct (accept pf key v0) eqn:A; auto. intros E; injection E as <-. eapply accept_valid; eauto.
Qed.
Lemma sopt_valid h i key v : kreal c_ew -> kreal c_mb -> kreal c_mc -> sopt h i key = Some v -> valid_option key v.
Proof.
  intros R1 R2 R3. induction h as [|op h IH]; cbn [sopt]; [discriminate|].
  destruct op as [|j k x|k x|j p x]; auto.
  - destruct (Nat.eqb i _); auto. now apply sdef_valid.
  - destruct (Nat.eqb i j); cbn [andb]; auto. destruct (keqb_spec k key) as [->|]; auto.
    destruct (accept pf key x) eqn:A; auto. destruct (Nat.ltb _ _); [|discriminate].
    intros E; injection E as <-. eapply accept_valid; eauto.
Qed.
Lemma failed_set_noop s op e : snd (o_step pf s op) = Err e -> fst (o_step pf s op) = s.
Proof.
  destruct op; simpl; try discriminate.
  - destruct (nth_error _ _); [|reflexivity]. destruct (accept _ _ _); [|reflexivity]. destruct (alloc _ _). discriminate.
  - destruct (accept _ _ _); [|reflexivity]. destruct (alloc _ _). discriminate.
  - destruct (nth_error _ _); [|reflexivity]. destruct (dgetd _ _ _); [reflexivity|reflexivity|discriminate].
Qed.

(* ---- delta / gamma ---- *)
Lemma coerce_dict_look d : wfdict d ->
  match coerce_dict pf d with
  | Ok r => forall k, dget r k = match dget d k with
                                 | Some v => match coerce_float pf v with Ok x => Some x | Err _ => None end
                                 | None => None end
  | Err e => e = Invalid /\ exists k v, dget d k = Some v /\ coerce_float pf v = Err Invalid
  end /\ (forall r, coerce_dict pf d = Ok r -> forall k v, dget d k = Some v -> exists x, coerce_float pf v = Ok x).
Proof.
  assert (CE : forall v e, coerce_float pf v = Err e -> e = Invalid).
  { intros v e. destruct v; simpl; try congruence; [destruct (krealb x)|destruct (pf s)]; congruence. }
  induction d as [|[j v] d IH]; intros WF; simpl.
  - split; [reflexivity|]. intros r _ k v; discriminate.
  - inversion WF as [|? ? N WF']; subst. destruct (IH WF') as [IH1 IH2]. clear IH.
    destruct (coerce_float pf v) as [x|e] eqn:C; simpl.
    + destruct (coerce_dict pf d) as [r|e'] eqn:CD; simpl.
      * split.
        -- intros k. change (String.eqb k j) with (keqb k j). destruct (keqb_spec k j) as [->|]; [now rewrite C|apply IH1].
        -- intros r' E k w. change (String.eqb k j) with (keqb k j). destruct (keqb_spec k j) as [->|]; [|eapply IH2; eauto].
           intros Q; injection Q as <-. eauto.
      * split; [|discriminate]. destruct IH1 as (-> & k & w & G & F). split; [reflexivity|]. exists k, w. split; [|exact F].
        change (String.eqb k j) with (keqb k j). destruct (keqb_spec k j) as [->|]; [|exact G].
        exfalso. apply N. eapply dget_Some_key; eauto.
    + split; [|discriminate]. pose proof (CE _ _ C) as ->. split; [reflexivity|]. exists j, v.
      change (String.eqb j j) with (keqb j j). rewrite keqb_refl. auto.
Qed.

Definition peqv (r r' : res (oval K)) : Prop :=
  match r, r' with
  | Ok (ODict p), Ok (ODict p') => forall k, dget p k = dget p' k
  | Err e, Err e' => e = e'
  | _, _ => False
  end.
Lemma coerce_ext d d' : wfdict d -> wfdict d' -> (forall k, dget d k = dget d' k) ->
  peqv (rmap ODict (coerce_dict pf d)) (rmap ODict (coerce_dict pf d')).
Proof.
  intros W1 W2 E. destruct (coerce_dict_look d W1) as [A1 B1]. destruct (coerce_dict_look d' W2) as [A2 B2].
  destruct (coerce_dict pf d) as [r|], (coerce_dict pf d') as [r'|]; simpl.
  - intros k. now rewrite A1, A2, E.
  - destruct A2 as (_ & k & v & G & C). rewrite <- E in G. destruct (B1 _ eq_refl _ _ G). congruence.
  - destruct A1 as (_ & k & v & G & C). rewrite E in G. destruct (B2 _ eq_refl _ _ G). congruence.
  - destruct A1 as (-> & _), A2 as (-> & _). reflexivity.
Qed.
Lemma delta_alias d d' x : wfdict d -> wfdict d' -> dget d "delta" = Some x ->
  dget d' "delta" = None -> dget d' "gamma" = Some x ->
  (forall k, k <> "delta" -> k <> "gamma" -> dget d' k = dget d k) ->
  peqv (accept pf "parameters" (PDict d)) (accept pf "parameters" (PDict d')).
Proof.
  intros W1 W2 E1 E2 E3 E4. unfold accept, rename_delta.
  replace (keqb "parameters" "parameters") with true by reflexivity.
  rewrite E1, E2. unfold bind, option_schema. simpl (keqb "parameters" _). simpl (kmem "parameters" _). cbn iota.
  apply coerce_ext; auto.
  - apply wf_ddel. now apply wf_dset.
  - intros k. rewrite dget_ddel by now apply wf_dset. destruct (keqb_spec k "delta") as [->|ND]; [congruence|].
    rewrite dget_dset. destruct (keqb_spec k "gamma") as [->|NG]; [congruence|]. symmetry. auto.
Qed.
Lemma no_delta_untouched key (v : pyval K) : (forall d, v = PDict d -> dget d "delta" = None) ->
  (exists e, rename_delta key v = Err e) \/ rename_delta key v = Ok v.
Proof.
  intros N. unfold rename_delta. destruct (keqb key "parameters"); [|now right].
  destruct v; simpl; eauto. - destruct (contains "delta" s); eauto. - rewrite (N d eq_refl). now right.
Qed.
End Opt.

(* ---- parameters handed to the steps ---- *)
Section Params.
Context {K : StarField}.
Variable W : world K.
Definition allev {A} (Q : event K -> Prop) (m : M (K:=K) A) : Prop := forall c, Forall Q (snd (m c)).
Lemma ae_bind {A B} Q (m : M A) (f : A -> M B) : allev Q m -> (forall a, allev Q (f a)) -> allev Q (mbind m f).
Proof.
  intros M1 F c. unfold mbind. specialize (M1 c). destruct (m c) as [[r c'] l]. destruct r as [a|e]; [|exact M1].
  specialize (F a c'). destruct (f a c'). simpl in *. apply Forall_app; auto.
Qed.
Lemma ae_ret {A} Q (x : A) : allev Q (ret x). Proof. intros c. constructor. Qed.
Lemma ae_raise {A} Q e : allev Q (raise (A:=A) e). Proof. intros c. constructor. Qed.
Lemma ae_lift {A} Q (r : res A) : allev Q (lift r). Proof. intros c. constructor. Qed.
Lemma ae_log (Q : event K -> Prop) e : Q e -> allev Q (log e). Proof. intros q c. repeat constructor. exact q. Qed.
Lemma ae_get Q sec s e b : allev Q (getM sec s e b). Proof. intros c. constructor. Qed.
Lemma ae_set Q sec s e b w : allev Q (setM sec s e b w). Proof. intros c. constructor. Qed.
Lemma ae_if {A} Q (b : bool) (m m' : M A) : allev Q m -> allev Q m' -> allev Q (if b then m else m').
Proof. now destruct b. Qed.

Definition good_params (o : opts K) (ev : event K) : Prop :=
  match ev with
  | EvTranslate _ _ _ p => p = Some (parameters W o)
  | EvMatch _ _ _ p => p = Some (matching_parameters W o)
  | EvSmeftRun _ _ _ | EvWetRun _ _ _ _ => True
  end.
Ltac ae := repeat first [apply ae_if | apply ae_bind; [|intros ?] | apply ae_ret | apply ae_raise | apply ae_lift
                         | apply ae_get | apply ae_set | apply ae_log; simpl; reflexivity | apply ae_log; exact I].
Lemma params_ok o w scale eft basis sec : wc_eft w <> "SMEFT" \/ eft <> "SMEFT" \/ scale = wc_scale w ->
  allev (good_params o) (match_run W o w scale eft basis sec).
Proof.
  intros N. unfold match_run. apply ae_bind; [apply ae_get|]. intros [x|]; [apply ae_ret|].
  apply ae_if; [apply ae_ret|]. unfold translateM, smeft_runM, matchM, ew_match, wet_init, wet_part, wet_runM.
  destruct (keqb (wc_eft w) eft && keqb scale (wc_scale w)) eqn:Q; [ae|].
  destruct (keqb_spec (wc_eft w) "SMEFT") as [E|NE].
  - destruct (keqb_spec eft "SMEFT") as [->|NF].
    { exfalso. destruct N as [N|[N|N]]; try congruence. subst. rewrite E, !keqb_refl in Q. discriminate. }
    apply ae_bind; [apply ae_get|]. intros [x|].
    + ae.
    + unfold matchM, translateM, smeft_runM. ae.
  - ae.
Qed.
Lemma parameters_look o k : wfdict (op_params o) ->
  dget (parameters W o) k = match dget (op_params o) k with Some v => Some v | None => dget (w_p W) k end.
Proof. intros WF. unfold parameters. now rewrite dget_dupdate. Qed.
Lemma matching_parameters_look o k : wfdict (op_params o) ->
  dget (matching_parameters W o) k =
  if keqb k "loop_order" then Some (op_order o)
  else match dget (op_params o) k with Some v => Some v | None => dget (w_p W) k end.
Proof. intros WF. unfold matching_parameters. rewrite dget_dset. destruct (keqb k _); [reflexivity|]. now apply parameters_look. Qed.

(* running steps never get any parameters *)
Definition run_params (ev : event K) : Prop :=
  match ev with EvSmeftRun _ _ p | EvWetRun _ _ _ p => p = None | _ => True end.
Lemma run_gets_none o w scale eft basis sec : allev run_params (match_run W o w scale eft basis sec).
Proof.
  unfold match_run. apply ae_bind; [apply ae_get|]. intros [x|]; [apply ae_ret|].
  unfold translateM, smeft_runM, matchM, ew_match, wet_init, wet_part, wet_runM. ae.
  destruct a as [x|]; [ae|]. unfold matchM, translateM, smeft_runM; ae.
Qed.
End Params.

(* ---- hash ---- *)
Section Hash.
Context {K : StarField}.
Variable W : world K.
Lemma hash_constant {H} (hash : nat -> list string -> H) pf ops s :
  (forall k, In k option_names -> In k (dkeys (s_opts s))) ->
  wilson_hash hash (wrun W pf s ops) = wilson_hash hash s.
Proof.
  revert s. induction ops as [|op ops IH]; intros s N; [reflexivity|].
  unfold wrun. cbn [fold_left]. fold (wrun W pf (wstep W pf s op) ops).
  assert (E : dkeys (s_opts (wstep W pf s op)) = dkeys (s_opts s) /\ s_wc (wstep W pf s op) = s_wc s).
  { destruct op; simpl; auto. destruct (accept pf key v) eqn:A; simpl; auto. split; [|reflexivity].
    rewrite dkeys_dset. replace (dmem (s_opts s) key) with true; [reflexivity|]. symmetry. apply kmem_In, N.
    eapply valid_name, accept_valid; eauto. }
  destruct E as [E1 E2]. rewrite IH.
  - unfold wilson_hash. now rewrite E1, E2.
  - intros k. rewrite E1. auto.
Qed.
End Hash.
