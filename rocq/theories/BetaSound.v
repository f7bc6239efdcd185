(* The normal forms compute what the program of beta.py computes. *)
From Coq Require Import List Bool ZArith QArith Arith Lia String Ascii.
From Verif Require Import PyBase Num SymModel EftModel EftProofs NpModel NpProofs BetaModel BetaNorm.
Import ListNotations.
Local Open Scope list_scope.

Section Sound.
Context {K : StarField}.
Local Open Scope K_scope.
Add Field KFbs : (k_field K).
Notation cdict := (dict string (cval K)).

(* the value of each factor at the point C, HIGHSCALE = H *)
Definition venv (C : cdict) (H : K) (f : fname) (I : idx) : K :=
  match f with
  | FC k => match dget C k with Some v => entry v I | None => 0 end
  | FI3 => if Nat.eqb (nth 0 I 0%nat) (nth 1 I 0%nat) then 1 else 0
  | FH => H
  | FHinv => kinv H
  end.

(* C holds a value of the right rank for every parameter *)
Definition well_shaped (rk : string -> option nat) (C : cdict) : Prop :=
  forall k r, rk k = Some r ->
    exists v, dget C k = Some v /\ vshape v = repeat 3%nat r /\ (r = 0%nat -> exists z, v = CNum z).

Variable rk : string -> option nat.
Variable C : cdict.
Variable H : K.
Hypothesis HC : well_shaped rk C.
Hypothesis HH : H <> 0.
Notation V := (venv C H).

Definition means (v : cval K) (n : nform) : Prop := wf_n n /\ rep v (fst n) (nval V n).
Definition locals_ok (L : cdict) (N : dict string nform) : Prop :=
  forall x n, dget N x = Some n -> exists v, dget L x = Some v /\ means v n.

Lemma pos_of_lt c l : In c l -> (pos_of c l < List.length l)%nat.
Proof.
  induction l as [|x l IH]; [intros []|]. intros I. cbn [pos_of List.length].
  destruct (Ascii.eqb_spec c x); [lia|]. destruct I as [->|I]; [congruence|]. specialize (IH I). lia.
Qed.
Lemma in_env c ins out : In c (List.concat ins) -> In c (out ++ summed_letters ins out).
Proof.
  intros I. apply in_app_iff. destruct (kmem c out) eqn:M; [left; now apply kmem_In|right].
  unfold summed_letters. apply filter_In. split; [|now rewrite M]. unfold uniq_chars. apply uniq_chars_in. now right.
Qed.
Lemma nein_sound s n n' (ops : list (cval K)) fs :
  nein s n = Some n' -> wf_n n -> ops_ok (fst (parse_spec s)) ops fs ->
  (forall env vals, ein_fun env vals (fst (parse_spec s)) fs =
     nval V n (map (fun l => nth l vals 0%nat) (map (fun c => pos_of c env) (List.concat (fst (parse_spec s)))))) ->
  exists u, np_einsum s ops = Ok u /\ means u n'.
Proof.
  unfold nein. destruct (parse_spec s) as [ins out] eqn:PS. cbn [fst]. intros E W OK EQ.
  destruct (Nat.eqb_spec (fst n) (List.length (List.concat ins))) as [LN|]; [|discriminate].
  destruct (forallb _ out && knodup out) eqn:CK; [|discriminate]. injection E as <-.
  assert (LR : List.length (map (fun c => pos_of c (out ++ summed_letters ins out)) (List.concat ins)) = fst n)
    by (rewrite map_length; congruence).
  assert (RR : forall l, In l (map (fun c => pos_of c (out ++ summed_letters ins out)) (List.concat ins)) ->
     (l < List.length out + List.length (summed_letters ins out))%nat).
  { intros l I. apply in_map_iff in I as (c & <- & I). rewrite <- app_length. apply pos_of_lt. now apply in_env. }
  destruct (rep_einsum s ins out ops fs PS CK OK) as (u & -> & R). exists u. split; [reflexivity|].
  split; [now apply nrelabel_wf|]. refine (rep_ext _ _ _ _ R _). intros O HO. apply idxs_length in HO.
  rewrite nrelabel_val by auto. apply ksum_ext. intros x _. apply EQ.
Qed.

Lemma np_div_ok (v : cval K) (y : K) : y <> 0 -> np_div v (CNum y) = np_map2 kdiv v (CNum y).
Proof. intros N. unfold np_div. destruct (kdec_spec K y 0); [contradiction|reflexivity]. Qed.

Lemma kpow_inv (z : K) k : z <> 0 -> kpow z k <> 0 /\ kinv (kpow z k) = kpow (kinv z) k.
Proof.
  intros N. induction k as [|k [A B]]; cbn [kpow].
  - split; [apply k_1_neq_0|]. field. apply k_1_neq_0.
  - split; [now apply kmul_neq_0|]. rewrite <- B. field. now split.
Qed.
Lemma map_pos_app (env : list ascii) (vals : idx) (a b : list ascii) :
  map (fun l => nth l vals 0%nat) (map (fun c => pos_of c env) (a ++ b)) =
  map (fun c => nth (pos_of c env) vals 0%nat) a ++ map (fun c => nth (pos_of c env) vals 0%nat) b.
Proof. now rewrite !map_map, map_app. Qed.

Theorem norm_sound L N e n : locals_ok L N -> norm rk N e = Some n -> exists v, eval C L e = Ok v /\ means v n.
Proof.
  intros HL. revert n.
  induction e as [z|z|k|x|a IHa b IHb|a IHa b IHb|a IHa|a IHa b IHb|a IHa b IHb|a IHa k|a IHa b IHb|a IHa|a IHa|a IHa
                 |s a IHa|s a IHa b IHb|s a IHa b IHb c IHc]; intros n E; cbn [norm eval] in E |- *.
  - injection E as <-. eexists. split; [reflexivity|]. split; [apply nnum_wf|]. apply rep_num. rewrite nnum_val.
    unfold kc. rewrite kQ_0. unfold kQ. cbn [Qnum Qden]. change (kpos (K:=K) 1) with (1 : K). field. apply k_1_neq_0.
  - injection E as <-. eexists. split; [reflexivity|]. split; [apply nnum_wf|]. apply rep_num. rewrite nnum_val.
    unfold kc. rewrite kQ_0. unfold kQ. cbn [Qnum Qden]. change (kpos (K:=K) 1) with (1 : K). field. apply k_1_neq_0.
  - destruct (rk k) as [r|] eqn:R; [|discriminate]. injection E as <-. destruct (HC k r R) as (v & G & S & Z).
    exists v. unfold lookup. rewrite G. split; [reflexivity|]. split; [apply nvar_wf|]. split; [exact S|]. split; [exact Z|].
    intros I HI. cbn [nvar fst] in *. rewrite nvar_val by (now apply idxs_length). cbn [venv]. now rewrite G.
  - destruct (HL x n E) as (v & G & M). exists v. unfold lookup. now rewrite G.
  - destruct (norm rk N a) as [x|]; [|discriminate]. destruct (norm rk N b) as [y|]; [|discriminate]. cbn [obind] in E.
    destruct (Nat.eqb_spec (fst x) (fst y)) as [R|]; [|discriminate]. injection E as <-.
    destruct (IHa x eq_refl) as (v & -> & Wv & Rv). destruct (IHb y eq_refl) as (w & -> & Ww & Rw). cbn [bind].
    rewrite <- R in Rw. destruct (rep_map2 kadd v w _ _ _ Rv Rw) as (u & E & Ru). exists u. split; [exact E|].
    split; [now apply nadd_wf|]. refine (rep_ext _ _ _ _ Ru _). intros I _. now rewrite nadd_val.
  - destruct (norm rk N a) as [x|]; [|discriminate]. destruct (norm rk N b) as [y|]; [|discriminate]. cbn [obind] in E.
    destruct (Nat.eqb_spec (fst x) (fst y)) as [R|]; [|discriminate]. injection E as <-.
    destruct (IHa x eq_refl) as (v & -> & Wv & Rv). destruct (IHb y eq_refl) as (w & -> & Ww & Rw). cbn [bind].
    rewrite <- R in Rw. destruct (rep_map2 ksub v w _ _ _ Rv Rw) as (u & E & Ru). exists u. split; [exact E|].
    split; [apply nadd_wf; [exact R|assumption|now apply nscale_wf]|]. refine (rep_ext _ _ _ _ Ru _). intros I _.
    rewrite nadd_val, nscale_val. unfold kc. change (-1 # 1)%Q with (Qopp 1). rewrite kQ_opp, kQ_0, kQ_1. ring.
  - destruct (norm rk N a) as [x|]; [|discriminate]. injection E as <-. destruct (IHa x eq_refl) as (v & -> & Wv & Rv).
    eexists. split; [reflexivity|]. split; [now apply nscale_wf|]. refine (rep_ext _ _ _ _ (rep_neg _ _ _ Rv) _).
    intros I _. rewrite nscale_val. unfold kc. change (-1 # 1)%Q with (Qopp 1). rewrite kQ_opp, kQ_0, kQ_1. ring.
  - destruct (norm rk N a) as [x|]; [|discriminate]. destruct (norm rk N b) as [y|]; [|discriminate]. cbn [obind] in E.
    destruct (Nat.eqb (fst x) 0 || Nat.eqb (fst y) 0)%bool eqn:R; [|discriminate]. injection E as <-.
    destruct (IHa x eq_refl) as (v & -> & Wv & Rv). destruct (IHb y eq_refl) as (w & -> & Ww & Rw). cbn [bind].
    apply orb_true_iff in R as [R|R]; apply Nat.eqb_eq in R.
    + rewrite R in Rv. destruct (rep_scale_l kmul v w _ _ _ Rv Rw) as (u & E & Ru). exists u. split; [exact E|].
      split; [now apply nouter_wf|]. cbn [nouter fst]. rewrite R. cbn [Nat.add]. refine (rep_ext _ _ _ _ Ru _).
      intros I HI. apply idxs_length in HI. rewrite <- (nouter_val V x y [] I) by auto. unfold nouter. now rewrite R.
    + rewrite R in Rw. destruct (rep_scale_r kmul v w _ _ _ Rv Rw) as (u & E & Ru). exists u. split; [exact E|].
      split; [now apply nouter_wf|]. cbn [nouter fst]. rewrite R, Nat.add_0_r. refine (rep_ext _ _ _ _ Ru _).
      intros I HI. apply idxs_length in HI. rewrite <- (nouter_val V x y I []) by auto. rewrite app_nil_r. unfold nouter. now rewrite R.
  - destruct b as [z| | | | | | | | |b' k| | | | | | | ]; try discriminate.
    + destruct (Z.eqb_spec z 0) as [|NZ]; [discriminate|]. destruct (norm rk N a) as [x|]; [|discriminate]. injection E as <-.
      destruct (IHa x eq_refl) as (v & -> & Wv & Rv). cbn [bind eval].
      assert (KZ : kZ z <> (0 : K)) by (intros Q; apply NZ, (kZ_inj0 (K:=K)), Q).
      rewrite np_div_ok by exact KZ.
      destruct (rep_scale_r kdiv v (CNum (kZ z)) _ _ (fun _ => kZ z) Rv) as (u & E & Ru); [now apply rep_num|].
      exists u. split; [exact E|]. split; [now apply nscale_wf|]. refine (rep_ext _ _ _ _ Ru _). intros I _.
      rewrite nscale_val. unfold kc. rewrite kQ_0, kQ_red'.
      assert (QI : kQ (/ (z # 1)) = kinv (kZ z) :> K).
      { apply (kmul_cancel_l (kZ z)); [exact KZ|]. rewrite kinv_r by exact KZ.
        replace (kZ z) with (kQ (z # 1) : K) at 1
          by (unfold kQ; cbn [Qnum Qden]; change (kpos (K:=K) 1) with (1 : K); field; apply k_1_neq_0).
        rewrite <- kQ_mul. rewrite <- kQ_1. apply kQ_Qeq. field. intros Q. apply NZ. unfold Qeq in Q. cbn in Q. lia. }
      rewrite QI. field. exact KZ.
    + destruct b' as [| | |x| | | | | | | | | | | | | ]; try discriminate.
      destruct (dget N x) as [[[|r] [|[q q' [|mb] [|[[[| | |] [|]] [|]] [|]]] [|]]]|] eqn:G; try discriminate.
      destruct (Qeq_bool q 1 && Qeq_bool q' 0)%bool eqn:Q1; [|discriminate].
      apply andb_true_iff in Q1 as [Q1 Q2]. apply Qeq_bool_iff in Q1, Q2.
      destruct (norm rk N a) as [y|]; [|discriminate]. injection E as <-.
      destruct (IHa y eq_refl) as (v & -> & Wv & Rv). cbn [bind eval].
      destruct (HL x _ G) as (h & GL & Wh & Rh). unfold lookup. rewrite GL. cbn [rmap].
      apply rep_0 in Rh. cbn [fst snd] in Rh. subst h.
      assert (VH : nval V (0%nat, [mkM q q' 0 [(FH, false, [])]]) [] = H).
      { unfold nval, mval. cbn. unfold kc, ksum, kprod, fval. cbn. rewrite (kQ_Qeq _ _ Q1), (kQ_Qeq _ _ Q2), kQ_0, kQ_1. ring. }
      match goal with |- context [CNum ?t] => replace t with H by (symmetry; exact VH) end. cbn [np_pow bind]. destruct (kpow_inv H k HH) as [NZ INV].
      rewrite np_div_ok by exact NZ.
      destruct (rep_scale_r kdiv v (CNum (kpow H k)) _ _ (fun _ => kpow H k) Rv) as (u & E & Ru); [now apply rep_num|].
      exists u. split; [exact E|]. destruct (npow_val V (nvar FHinv 0) k eq_refl (nvar_wf _ _)) as (P0 & P1 & P2).
      split; [now apply nouter_wf|]. cbn [nouter fst]. rewrite P0, Nat.add_0_r. refine (rep_ext _ _ _ _ Ru _).
      intros I HI. apply idxs_length in HI.
      transitivity (nval V (nouter y (npow (nvar FHinv 0) k)) (I ++ [])).
      2:{ rewrite app_nil_r. unfold nouter. now rewrite P0, Nat.add_0_r. }
      rewrite nouter_val by auto. rewrite P2, nvar_val by reflexivity. cbn [venv]. rewrite <- INV. field. exact NZ.
  - destruct (norm rk N a) as [x|]; [|discriminate]. cbn [obind] in E.
    destruct (Nat.eqb_spec (fst x) 0) as [R|]; [|discriminate]. injection E as <-.
    destruct (IHa x eq_refl) as (v & -> & Wv & Rv). rewrite R in Rv. apply rep_0 in Rv. subst v. eexists. split; [reflexivity|].
    destruct (npow_val V x k R Wv) as (P0 & P1 & P2). split; [exact P1|]. rewrite P0. apply rep_num. now rewrite P2.
  - destruct (norm rk N a) as [x|]; [|discriminate]. destruct (norm rk N b) as [y|]; [|discriminate]. cbn [obind] in E.
    destruct (Nat.eqb (fst x) 2 && Nat.eqb (fst y) 2)%bool eqn:R; [|discriminate]. injection E as <-.
    apply andb_true_iff in R as [Rx Ry]. apply Nat.eqb_eq in Rx, Ry.
    destruct (IHa x eq_refl) as (v & -> & Wv & Rv). destruct (IHb y eq_refl) as (w & -> & Ww & Rw). cbn [bind].
    rewrite Rx in Rv. rewrite Ry in Rw. destruct (rep_matmul v w _ _ Rv Rw) as (u & -> & Ru). exists u. split; [reflexivity|].
    assert (LL : List.length [0;2;2;1]%nat = fst (nouter x y)) by (cbn [nouter fst List.length]; lia).
    assert (RR : forall l, In l [0;2;2;1]%nat -> (l < 2 + 1)%nat) by (intros l [<-|[<-|[<-|[<-|[]]]]]; lia).
    split; [apply nrelabel_wf; auto; now apply nouter_wf|].
    refine (rep_ext _ _ _ _ Ru _). intros I HI. apply in_idxs_2 in HI as (i & j & -> & _).
    rewrite nrelabel_val by (auto using nouter_wf). apply ksum_ext. intros s Hs. apply idxs_length in Hs.
    destruct s as [|k [|]]; try discriminate. cbn [map app nth].
    change [i; k; k; j] with ([i; k] ++ [k; j]). rewrite nouter_val by auto. reflexivity.
  - destruct (norm rk N a) as [x|]; [|discriminate]. injection E as <-. destruct (IHa x eq_refl) as (v & -> & Wv & Rv).
    eexists. split; [reflexivity|]. split; [now apply nconj_wf|]. refine (rep_ext _ _ _ _ (rep_conj _ _ _ Rv) _).
    intros I _. now rewrite nconj_val.
  - destruct (norm rk N a) as [x|]; [|discriminate]. cbn [obind] in E. destruct (Nat.eqb_spec (fst x) 2) as [R|]; [|discriminate].
    injection E as <-. destruct (IHa x eq_refl) as (v & -> & Wv & Rv). rewrite R in Rv. eexists. split; [reflexivity|].
    assert (RR : forall l, In l [1;0]%nat -> (l < 2 + 0)%nat) by (intros l [<-|[<-|[]]]; lia).
    split; [apply nrelabel_wf; auto|]. refine (rep_ext _ _ _ _ (rep_T _ _ Rv) _). intros I HI.
    apply in_idxs_2 in HI as (i & j & -> & _). rewrite nrelabel_val by auto. rewrite idxs_0. cbn [map app nth].
    unfold ksum. cbn [fold_right]. ring.
  - destruct (norm rk N a) as [x|]; [|discriminate]. cbn [obind] in E. destruct (Nat.eqb_spec (fst x) 2) as [R|]; [|discriminate].
    injection E as <-. destruct (IHa x eq_refl) as (v & -> & Wv & Rv). rewrite R in Rv. cbn [bind].
    destruct (rep_trace v _ Rv) as (u & -> & Ru). exists u. split; [reflexivity|].
    assert (RR : forall l, In l [0;0]%nat -> (l < 0 + 1)%nat) by (intros l [<-|[<-|[]]]; lia).
    split; [apply nrelabel_wf; auto|]. refine (rep_ext _ _ _ _ Ru _). intros I HI. destruct HI as [<-|[]].
    rewrite nrelabel_val by auto. apply ksum_ext. intros s Hs. apply idxs_length in Hs.
    destruct s as [|k [|]]; try discriminate. reflexivity.
  - destruct (norm rk N a) as [x|]; [|discriminate]. cbn [obind] in E.
    destruct (keqb_spec (ein_ranks s) [fst x]) as [R|]; [|discriminate].
    destruct (IHa x eq_refl) as (v & -> & Wv & Rv). cbn [bind]. unfold ein_ranks in R.
    destruct (fst (parse_spec s)) as [|l1 [|]] eqn:PS; try discriminate. injection R as R1.
    apply (nein_sound s x n [v] [nval V x]); rewrite ?PS; auto.
    + cbn. rewrite R1. auto.
    + intros env vals. cbn [ein_fun List.concat]. rewrite app_nil_r, map_map. ring.
  - destruct (norm rk N a) as [x|]; [|discriminate]. destruct (norm rk N b) as [y|]; [|discriminate]. cbn [obind] in E.
    destruct (keqb_spec (ein_ranks s) [fst x; fst y]) as [R|]; [|discriminate].
    destruct (IHa x eq_refl) as (v & -> & Wv & Rv). destruct (IHb y eq_refl) as (w & -> & Ww & Rw). cbn [bind]. unfold ein_ranks in R.
    destruct (fst (parse_spec s)) as [|l1 [|l2 [|]]] eqn:PS; try discriminate. injection R as R1 R2.
    apply (nein_sound s (nouter x y) n [v; w] [nval V x; nval V y]); rewrite ?PS; auto using nouter_wf.
    + cbn. rewrite R1, R2. auto.
    + intros env vals. cbn [ein_fun List.concat]. rewrite app_nil_r, map_pos_app, nouter_val by (rewrite ?map_length; auto). ring.
  - destruct (norm rk N a) as [x|]; [|discriminate]. destruct (norm rk N b) as [y|]; [|discriminate].
    destruct (norm rk N c) as [z|]; [|discriminate]. cbn [obind] in E.
    destruct (keqb_spec (ein_ranks s) [fst x; fst y; fst z]) as [R|]; [|discriminate].
    destruct (IHa x eq_refl) as (v & -> & Wv & Rv). destruct (IHb y eq_refl) as (w & -> & Ww & Rw).
    destruct (IHc z eq_refl) as (t & -> & Wt & Rt). cbn [bind]. unfold ein_ranks in R.
    destruct (fst (parse_spec s)) as [|l1 [|l2 [|l3 [|]]]] eqn:PS; try discriminate. injection R as R1 R2 R3.
    apply (nein_sound s (nouter x (nouter y z)) n [v; w; t] [nval V x; nval V y; nval V z]); rewrite ?PS; auto using nouter_wf.
    + cbn. rewrite R1, R2, R3. auto.
    + intros env vals. cbn [ein_fun List.concat]. rewrite app_nil_r, map_pos_app, map_app.
      rewrite nouter_val, nouter_val by (cbn [nouter fst]; rewrite ?app_length, ?map_length; auto using nouter_wf; lia). ring.
Qed.

Lemma exec_sound (E : eft) newphys p : forall L N B M R, locals_ok L N -> locals_ok B M ->
  (forall k, dget M k = None -> dget B k = None) ->
  norm_stmts rk newphys p N M = Some R -> newphys = true ->
  exists D, exec_stmts E newphys C p L B = Ok D /\ locals_ok D R /\ (forall k, dget R k = None -> dget D k = None).
Proof.
  induction p as [|[x e|k e|] p IH]; intros L N B M R HL HB HN E0 NP; cbn [norm_stmts exec_stmts] in *.
  - injection E0 as <-. exists B. auto.
  - destruct (norm rk N e) as [n|] eqn:En; [|discriminate]. cbn [obind] in E0.
    destruct (norm_sound L N e n HL En) as (v & -> & Mv). cbn [bind]. apply (IH _ _ _ _ _ ) with (3 := HN) (4 := E0); auto.
    intros y m. rewrite !dget_dset. destruct (keqb y x); [|apply HL]. intros [= <-]. eauto.
  - destruct (norm rk N e) as [n|] eqn:En; [|discriminate]. cbn [obind] in E0.
    destruct (norm_sound L N e n HL En) as (v & -> & Mv). cbn [bind]. apply (IH _ _ _ _ _ HL) with (3 := E0); auto.
    + intros y m. rewrite !dget_dset. destruct (keqb y k); [|apply HB]. intros [= <-]. eauto.
    + intros y. rewrite !dget_dset. destruct (keqb y k); [discriminate|apply HN].
  - rewrite NP in *. eapply IH; eauto.
Qed.
(* without new physics: the statements before the return *)
Lemma exec_sound_SM (E : eft) p Z : C_array2dict E (repeat 0 (Z.to_nat 5000)) = Ok Z ->
  forall L N B M R, locals_ok L N -> locals_ok B M ->
  (forall k, dget M k = None -> dget B k = None) -> wfdict B ->
  norm_stmts rk false p N M = Some R -> In SReturnUnlessNP p ->
  exists D, exec_stmts E false C p L B = Ok (dupdate Z D) /\ wfdict D /\ locals_ok D R /\ (forall k, dget R k = None -> dget D k = None).
Proof.
  intros EZ. induction p as [|[x e|k e|] p IH]; intros L N B M R HL HB HN WB E0 IN; cbn [norm_stmts exec_stmts] in *.
  - destruct IN.
  - destruct IN as [IN|IN]; [discriminate|].
    destruct (norm rk N e) as [n|] eqn:En; [|discriminate]. cbn [obind] in E0.
    destruct (norm_sound L N e n HL En) as (v & -> & Mv). cbn [bind]. apply (IH _ _ _ _ _ ) with (3 := HN) (5 := E0); auto.
    intros y m. rewrite !dget_dset. destruct (keqb y x); [|apply HL]. intros [= <-]. eauto.
  - destruct IN as [IN|IN]; [discriminate|].
    destruct (norm rk N e) as [n|] eqn:En; [|discriminate]. cbn [obind] in E0.
    destruct (norm_sound L N e n HL En) as (v & -> & Mv). cbn [bind]. apply (IH _ _ _ _ _ HL) with (4 := E0); auto.
    + intros y m. rewrite !dget_dset. destruct (keqb y k); [|apply HB]. intros [= <-]. eauto.
    + intros y. rewrite !dget_dset. destruct (keqb y k); [discriminate|apply HN].
    + now apply wf_dset.
  - injection E0 as <-. rewrite EZ. cbn [bind]. exists B. auto.
Qed.
Lemma locals_init : locals_ok [("HIGHSCALE"%string, CNum H); ("I3"%string, np_eye 3)] norm_locals.
Proof.
  intros x n. unfold norm_locals. cbn [dget]. destruct (keqb x "HIGHSCALE"%string).
  - intros [= <-]. eexists. split; [reflexivity|]. split; [apply nvar_wf|]. apply rep_num. now rewrite nvar_val.
  - destruct (keqb x "I3"%string); [|discriminate]. intros [= <-]. eexists. split; [reflexivity|]. split; [apply nvar_wf|].
    refine (rep_ext _ _ _ _ rep_eye _). intros I HI. cbn [fst nvar] in HI. rewrite nvar_val by (now apply idxs_length). reflexivity.
Qed.
(* beta(C, H): every entry of the result is the value of its normal form *)
Theorem beta_sound (E : eft) p R : norm_beta rk true p = Some R ->
  exists D, beta_of E p C H true = Ok D /\ locals_ok D R /\ (forall k, dget R k = None -> dget D k = None).
Proof.
  intros NB. unfold beta_of. eapply exec_sound; [apply locals_init| | |exact NB|reflexivity]; [intros x n; discriminate|reflexivity].
Qed.
Theorem beta_sound_SM (E : eft) p R Z : C_array2dict E (repeat 0 (Z.to_nat 5000)) = Ok Z ->
  In SReturnUnlessNP p -> norm_beta rk false p = Some R ->
  exists D, beta_of E p C H false = Ok (dupdate Z D) /\ wfdict D /\ locals_ok D R /\ (forall k, dget R k = None -> dget D k = None).
Proof.
  intros EZ IN NB. unfold beta_of. eapply exec_sound_SM; [exact EZ|apply locals_init| | | |exact NB|exact IN];
    [intros x n; discriminate|reflexivity|apply wf_nil].
Qed.
End Sound.
