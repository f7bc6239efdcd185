(* Proofs about the tree-level matching formulas (TreeModel.tree_at) for any numbers. *)
From Coq Require Import List Bool ZArith Arith Lia String Ascii Field.
From Verif Require Import PyBase Num SymModel EftModel EftProofs NpModel NpProofs BetaSpec BetaModel TreeProg TreeModel TreeElem TreeSpec.
Import ListNotations.
Local Open Scope string_scope.
Local Open Scope list_scope.

Section Gen.
Context {K : StarField}.
Local Open Scope K_scope.
Lemma kZ_morph : ring_morph (R := K) 0 1 kadd kmul ksub kopp eq 0%Z 1%Z Z.add Z.mul Z.sub Z.opp Z.eqb kZ.
Proof.
  constructor; intros; auto using kZ_add, kZ_mul, kZ_sub, kZ_opp.
  apply Z.eqb_eq in H. now subst.
Qed.
End Gen.
Ltac kz_const t :=
  match t with
  | @kZ _ ?n => let b := isZcst n in match b with true => constr:(n) | _ => constr:(NotConstant) end
  | _ => constr:(NotConstant)
  end.

Section Tree.
Context {K : StarField}.
Local Open Scope K_scope.
Add Field KFtp : (k_field K) (morphism (kZ_morph (K := K)), constants [kz_const]).
Notation cdict := (dict string (cval K)).

(* ---------- points ---------- *)
Definition ck (k : string) : option nat :=
  if String.eqb k "phiudDag" then Some 2%nat else match dget wc_fields k with Some ts => Some (List.length ts) | None => None end.
Definition cfun (c : string -> idx -> K) (k : string) (I : idx) : K :=
  if String.eqb k "phiudDag" then (c "phiud" [nth 1 I 0%nat; nth 0 I 0%nat])^* else c k I.

Lemma wc_rep (C : cdict) k ts : wc_point C -> dget wc_fields k = Some ts ->
  exists v, dget C k = Some v /\ rep v (List.length ts) (coef C k).
Proof.
  intros W G. destruct (W k ts G) as (v & D & S & Z). exists v. split; [exact D|]. unfold coef. rewrite D.
  destruct ts as [|t ts]; cbn [List.length] in *.
  - destruct (Z eq_refl) as (z & ->). now apply rep_num.
  - destruct v as [z|s a]; [discriminate S|]. cbn [vshape] in S. subst s. apply rep_arr. reflexivity.
Qed.
(* dictionaries with the same coefficients *)
Definition agree (C C' : cdict) : Prop := forall k ts, dget wc_fields k = Some ts -> dget C' k = dget C k.
Lemma wc_agree C C' : wc_point C -> agree C C' -> wc_point C'.
Proof. intros W A k ts G. rewrite (A k ts G). exact (W k ts G). Qed.
Lemma coef_agree C C' k ts : agree C C' -> dget wc_fields k = Some ts -> coef C' k = coef C k.
Proof. intros A G. unfold coef. now rewrite (A k ts G). Qed.
Lemma agree_refl C : agree C C. Proof. now intros k ts G. Qed.
Lemma agree_set C C' k v : agree C C' -> dget wc_fields k = None -> agree C (dset C' k v).
Proof. intros A N j ts G. rewrite dget_dset. destruct (keqb_spec j k) as [->|]; [congruence|]. exact (A j ts G). Qed.

Lemma dag_dipoles_ok C ks : (forall k, In k ks -> dget wc_fields (k ++ "Dag")%string = None) ->
  forall D, agree C D -> exists D', dag_dipoles ks D = Ok D' /\ agree C D'.
Proof.
  induction ks as [|k ks IH]; intros N D A; cbn [dag_dipoles]; [eauto|].
  assert (N' : forall x, In x ks -> dget wc_fields (x ++ "Dag")%string = None) by (intros; apply N; now right).
  destruct (dmem D k) eqn:M; [|now apply IH].
  unfold dag2, getk, lookup. rewrite dmem_dget in M. destruct (dget D k) as [v|]; [|discriminate M]. cbn [bind].
  apply IH; [exact N'|]. apply agree_set; [exact A|]. apply N. now left.
Qed.
Lemma dag_four_ok C ks : wc_point C -> (forall k, In k ks -> (exists t1 t2 t3 t4, dget wc_fields k = Some [t1; t2; t3; t4]) /\
    dget wc_fields (k ++ "Dag")%string = None /\ (k ++ "Dag")%string <> "phiudDag") ->
  forall D, agree C D -> exists D', dag_four ks D = Ok D' /\ agree C D' /\ dget D' "phiudDag" = dget D "phiudDag".
Proof.
  intros W. induction ks as [|k ks IH]; intros N D A; cbn [dag_four]; [eauto|].
  destruct (N k (or_introl eq_refl)) as ((t1 & t2 & t3 & t4 & G) & N1 & N2).
  destruct (wc_rep D k _ (wc_agree C D W A) G) as (v & GV & RV). unfold getk, lookup. rewrite GV. cbn [bind].
  destruct (rep_einsum "rpts" (fst (parse_spec "rpts")) (snd (parse_spec "rpts")) [v] [coef D k]) as (u & U & _);
    [reflexivity|reflexivity|cbn; auto|].
  rewrite U. cbn [bind]. destruct (IH (fun x H => N x (or_intror H)) (dset D (k ++ "Dag")%string (np_conj u))) as (D' & E & A' & P).
  { now apply agree_set. }
  exists D'. split; [exact E|]. split; [exact A'|]. rewrite P, dget_dset.
  destruct (keqb_spec "phiudDag" (k ++ "Dag")%string) as [E1|]; [|reflexivity]. now rewrite E1 in N2.
Qed.
Lemma daggers_ok C : wc_point C -> exists C', daggers C = Ok C' /\
  forall k r, ck k = Some r -> exists v, dget C' k = Some v /\ rep v r (cfun (coef C) k).
Proof.
  intros W. unfold daggers. destruct (dag_dipoles_ok C dag_keys) with (D := C) as (D & E & A).
  { intros k Hk. cbn in Hk. repeat (destruct Hk as [<-|Hk]; [reflexivity|]). destruct Hk. }
  { apply agree_refl. }
  rewrite E. cbn [bind]. unfold dag2. destruct (wc_rep D "phiud" _ (wc_agree C D W A) eq_refl) as (v & GV & RV).
  unfold getk, lookup. rewrite GV. cbn [bind].
  destruct (dag_four_ok C ["ledq"; "lequ1"; "lequ3"; "quqd1"; "quqd8"] W) with (D := dset D "phiudDag" (np_T (np_conj v))) as (D' & E' & A' & P).
  { intros k Hk. cbn in Hk. repeat (destruct Hk as [<-|Hk]; [repeat split; [do 4 eexists; reflexivity|discriminate]|]). destruct Hk. }
  { apply agree_set; [exact A|reflexivity]. }
  exists D'. split; [exact E'|]. intros k r. unfold ck, cfun. destruct (String.eqb_spec k "phiudDag") as [->|NE].
  - intros R. injection R as <-. exists (np_T (np_conj v)). rewrite P, dget_dset_eq. split; [reflexivity|].
    eapply rep_ext; [exact (rep_T _ _ (rep_conj _ _ _ RV))|]. intros I HI. cbn beta.
    now rewrite (coef_agree C D "phiud" _ A eq_refl).
  - destruct (dget wc_fields k) as [ts|] eqn:G; [|discriminate]. intros R. injection R as <-.
    destruct (wc_rep D' k ts (wc_agree C D' W A') G) as (w & GW & RW). exists w. split; [exact GW|].
    now rewrite <- (coef_agree C D' k ts A' G).
Qed.

(* ---------- the environment ---------- *)
Section Env.
Variables sqrt2 mW mZ vT g1 : K.
Definition lk (x : string) : option nat :=
  if String.eqb x "kd" then Some 2%nat else if String.eqb x "kdkd" then Some 4%nat else if String.eqb x "zeros" then Some 4%nat
  else if kmem x ["Nc"; "sqrt2"; "mW"; "mZ"; "vT"; "g1bar"] then Some 0%nat else None.
Definition lfun (x : string) (I : idx) : K :=
  if String.eqb x "kd" then delta (nth 0 I 0%nat) (nth 1 I 0%nat)
  else if String.eqb x "kdkd" then delta (nth 0 I 0%nat) (nth 1 I 0%nat) * delta (nth 2 I 0%nat) (nth 3 I 0%nat)
  else if String.eqb x "Nc" then kZ 3 else if String.eqb x "sqrt2" then sqrt2 else if String.eqb x "mW" then mW
  else if String.eqb x "mZ" then mZ else if String.eqb x "vT" then vT else if String.eqb x "g1bar" then g1 else 0.
Definition nzv (x : string) : bool := kmem x ["Nc"; "sqrt2"; "mZ"; "vT"].
Lemma env_ok : exists L, tree_env sqrt2 mW mZ vT g1 = Ok L /\
  forall x r, lk x = Some r -> exists v, dget L x = Some v /\ rep v r (lfun x).
Proof.
  pose proof (rep_eye (K := K)) as RE.
  destruct (rep_einsum (K := K) "pr,st" (fst (parse_spec "pr,st")) (snd (parse_spec "pr,st")) [np_eye 3; np_eye 3]
     [fun I => if Nat.eqb (nth 0 I 0%nat) (nth 1 I 0%nat) then 1 else 0; fun I => if Nat.eqb (nth 0 I 0%nat) (nth 1 I 0%nat) then 1 else 0])
    as (u & U & RU); [reflexivity|reflexivity|cbn; auto|].
  unfold tree_env. rewrite U. cbn [bind]. eexists. split; [reflexivity|].
  intros x r. unfold lk, lfun. destruct (String.eqb_spec x "kd") as [->|].
  { intros R. injection R as <-. eexists. split; [reflexivity|]. eapply rep_ext; [exact RE|]. reflexivity. }
  destruct (String.eqb_spec x "kdkd") as [->|].
  { intros R. injection R as <-. exists u. split; [reflexivity|]. eapply rep_ext; [exact RU|]. intros I HI.
    replace (parse_spec "pr,st") with ([["p"; "r"]; ["s"; "t"]]%char, ["p"; "r"; "s"; "t"]%char) by reflexivity.
    apply in_idxs in HI as [HL _]. destruct I as [|i0 [|i1 [|i2 [|i3 [|]]]]]; try discriminate HL.
    cbn. unfold delta. destruct (Nat.eqb i0 i1), (Nat.eqb i2 i3); unfold ksum; cbn; ring. }
  destruct (String.eqb_spec x "zeros") as [->|].
  { intros R. injection R as <-. exists zeros4. split; [reflexivity|]. apply (rep_arr 3 (fun _ => 0)). reflexivity. }
  destruct (kmem x _) eqn:M; [|discriminate]. intros R. injection R as <-. apply kmem_In in M. cbn in M.
  repeat (destruct M as [<-|M]; [eexists; split; [reflexivity|]; now apply rep_num|]). destruct M.
Qed.
Hypotheses (NS : sqrt2 <> 0) (NZ : mZ <> 0) (NV : vT <> 0).
Lemma nzv_ok x : nzv x = true -> lfun x [] <> 0.
Proof.
  unfold nzv. intros M. apply kmem_In in M. cbn in M.
  destruct M as [<-|[<-|[<-|[<-|[]]]]]; [|exact NS|exact NZ|exact NV]. cbv [lfun String.eqb Ascii.eqb Bool.eqb]. apply kZ_neq0. lia.
Qed.
Definition value (C : cdict) (e : ex) (I : idx) : K := elem ck lk (cfun (coef C)) lfun nzv e I.

Lemma exec_rep (C' L : cdict) cf lf :
  (forall k r, ck k = Some r -> exists v, dget C' k = Some v /\ rep v r (cf k)) ->
  (forall x r, lk x = Some r -> exists v, dget L x = Some v /\ rep v r (lf x)) ->
  (forall x, nzv x = true -> lf x [] <> 0) ->
  forall p c0, NoDup (map fst p) -> (forall k e, In (k, e) p -> rank_ex ck lk nzv e <> None) ->
  exists c, exec_tree C' L p c0 = Ok c /\
    (forall k e r, In (k, e) p -> rank_ex ck lk nzv e = Some r -> exists v, dget c k = Some v /\ rep v r (elem ck lk cf lf nzv e)) /\
    (forall k, ~ In k (map fst p) -> dget c k = dget c0 k).
Proof.
  intros HC HL HN. induction p as [|[k e] p IH]; intros c0 ND R; cbn [exec_tree].
  { exists c0. repeat split; auto. intros ? ? ? []. }
  cbn [map fst] in ND. inversion_clear ND as [|? ? NI ND'].
  destruct (rank_ex ck lk nzv e) as [r|] eqn:RE; [|exfalso; exact (R k e (or_introl eq_refl) RE)].
  destruct (eval_elem ck lk cf lf nzv C' L HC HL HN e r RE) as (v & EV & RV). rewrite EV. cbn [bind].
  destruct (IH (dset c0 k v) ND' (fun a b H => R a b (or_intror H))) as (c & EX & V & O).
  exists c. split; [exact EX|]. split.
  - intros a b q [E|H] RB; [|now apply (V a b q)]. injection E as <- <-.
    rewrite RE in RB. injection RB as <-. exists v. split; [|exact RV]. rewrite O by exact NI. apply dget_dset_eq.
  - intros a NA. cbn [map fst In] in NA. rewrite O by tauto. apply dget_dset_neq. intros ->. tauto.
Qed.
Definition ranks_ok : bool :=
  knodup (map fst tree_prog) && forallb (fun ke => match rank_ex ck lk nzv (snd ke) with Some _ => true | None => false end) tree_prog.
Lemma ranks : ranks_ok = true. Proof. vm_cast_no_check (eq_refl true). Qed.

Lemma tree_at_ok C : wc_point C -> exists c, tree_at sqrt2 mW mZ vT g1 C = Ok c /\
  forall k e r, In (k, e) tree_prog -> rank_ex ck lk nzv e = Some r -> exists v, dget c k = Some v /\ rep v r (value C e).
Proof.
  intros W. unfold tree_at. destruct env_ok as (L & -> & HL). destruct (daggers_ok C W) as (C' & -> & HC). cbn [bind].
  pose proof ranks as R. unfold ranks_ok in R. apply andb_true_iff in R as [R1 R2].
  destruct (exec_rep C' L _ _ HC HL nzv_ok tree_prog []) as (c & E & V & _).
  { now apply knodup_NoDup. }
  { intros k e H. rewrite forallb_forall in R2. specialize (R2 _ H). cbn [snd] in R2. now destruct (rank_ex ck lk nzv e). }
  exists c. split; [exact E|exact V].
Qed.
End Env.
End Tree.
