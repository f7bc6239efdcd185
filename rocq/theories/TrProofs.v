(* The value of every translator of translate/wet.py as a linear form of its input, computed
   symbolically (TrNorm.v) and compared. *)
From Coq Require Import List Bool ZArith QArith Arith Lia String Ascii.
From Verif Require Import PyBase Num Lin SymModel SymClass SymSpec EftModel EftSpec EftProofs EftLabels EftRound EftInit JmsModel JmsSpec JmsProofs JmsArrays JmsProps
  TrLang TrData TrBlocks TrModel TrNorm TrFast TrSpec AdmData BasisProps.
Import ListNotations.
Local Open Scope string_scope.
Local Open Scope list_scope.

Definition alljms : list string := Eval vm_compute in all_of jms_ops.
Definition nonred (n : string) (c : cls) (I : idx) : bool := nonredundant c I.
Definition jenv (sm : string -> cls -> idx -> bool) : senv := mkSenv [] false (sarrays jms_ops sm lkey).
Definition fenv (ks : list string) : senv := mkSenv (map (fun k => (k, lkey k)) ks) false no_arr.
Definition J2B := srun alljms p_JMS_to_Bern (jenv nonred).
Definition J2E := srun alljms p_JMS_to_EOS (jenv nonred).
Definition J2FF := srun alljms p_JMS_to_FormFlavor (jenv nonred).
Definition J2F := srun alljms (PUpd (JMS_to_flavio_parts None)) (jenv nonred).
Definition B2J := srun alljms p_Bern_to_JMS (fenv bern_keys).
Definition B2F := srun alljms p_Bern_to_flavio (fenv bern_keys).
Definition F2J := srun alljms (p_flavio_to_JMS None) (fenv flavio_keys).
Definition F2B := srun alljms p_flavio_to_Bern (fenv flavio_keys).

(* unfold these names, rather than srun, when comparing terms *)
Strategy expand [J2B J2E J2FF J2F B2J B2F F2J F2B].

Definition look (d : dict string lf) (k : string) : lf := dgetd d k [].

(* ---------- the symmetrisation and the programs depend on the set of names only ---------- *)
Section AllExt.
Context {K : StarField}.
Local Open Scope K_scope.
Variables all all' : list string.
Hypothesis A : forall k, kmem k all = kmem k all'.
Lemma jms_entry_ext op (v : K) : jms_entry all op v = jms_entry all' op v.
Proof.
  unfold jms_entry. rewrite A. destruct (negb (has_us op) || kmem op all'); [reflexivity|].
  destruct (split_us op) as [|n [|ind [|]]]; try reflexivity.
  destruct (in_class Cl5 n); [reflexivity|]. destruct (in_class Cl41 n); [reflexivity|].
  destruct (in_class Cl4 n); [|reflexivity]. unfold unpack4. destruct (list_ascii_of_string ind) as [|? [|? [|? [|? [|]]]]]; try reflexivity.
  all: try (now rewrite !A).
Qed.
Lemma fold_ext {X Y} (f g : Y -> X -> Y) l : (forall y x, f y x = g y x) -> forall y, fold_left f l y = fold_left g l y.
Proof. intros H. induction l as [|x l IH]; intros y; cbn [fold_left]; [reflexivity|]. now rewrite H, IH. Qed.
Lemma symmetrize_ext (C : dict string K) : symmetrize_JMS_dict all C = symmetrize_JMS_dict all' C.
Proof. unfold symmetrize_JMS_dict. apply fold_ext. intros y kv. now rewrite jms_entry_ext. Qed.
Lemma run_ext (p : tpar K) P : forall E, run p all P E = run p all' P E.
Proof.
  induction P as [f|a b IHa IHb|a IH|f|c|l IH|s a IH|a s IH|h|l|e] using prog_nest; intros E; cbn [run]; try reflexivity.
  - rewrite IHa. destruct (run p all' a E); [apply IHb|reflexivity].
  - rewrite IH. destruct (run p all' a E); [apply symmetrize_ext|reflexivity].
  - generalize (@nil (string * K)). induction IH as [|q r Hq _ IHr]; intros d; [reflexivity|]. rewrite Hq. destruct (run p all' q E); [apply IHr|reflexivity].
  - now rewrite IH.
  - now rewrite IH.
Qed.
End AllExt.

(* ---------- providing more coefficients does not change the entries that were there ---------- *)
Section Mono.
Definition cands (c : cls) (J : idx) : list idx :=
  match c with
  | Cl5 => [J; perm_herm J]
  | Cl41 => [J; perm_curr J]
  | Cl4 => [J; perm_curr J; perm_herm J; perm_curr (perm_herm J)]
  | Cl71 => [J; perm_12 J]
  | _ => [J]
  end.
Definition chk_cands : bool :=
  forallb (fun c => forallb (fun J => forallb (fun I => forallb (fun I' =>
    negb (nonredundant c I) || negb (nonredundant c I') || keqb I I') (cands c J)) (cands c J)) (indices c)) four.
Lemma chk_cands_ok : chk_cands = true. Proof. vm_cast_no_check (eq_refl true). Qed.
Lemma sfill_ext c (a b : idx -> option lf) J : (forall I, In I (cands c J) -> a I = b I) -> sfill_of c a J = sfill_of c b J.
Proof.
  intros H. unfold sfill_of, sfill, cands in *. destruct c; rewrite ?H by (simpl; tauto); try reflexivity.
Qed.
Lemma sfill_none c (a : idx -> option lf) J : (forall I, In I (cands c J) -> a I = None) -> sfill_of c a J = None.
Proof. intros H. unfold sfill_of, sfill, cands in *. destruct c; rewrite ?H by (simpl; tauto); reflexivity. Qed.
Lemma sarrays_mono (sp : list opspec) (sm sm' : string -> cls -> idx -> bool) g n ix l :
  (forall n c s I, In (n, (c, s)) sp -> c <> Cl0 -> in_shape s I = true -> sm n c I = true -> sm' n c I = true) ->
  (forall n c s I, In (n, (c, s)) sp -> c <> Cl0 -> in_shape s I = true -> sm' n c I = true -> nonredundant c I = true) ->
  sarrays sp sm g n ix = Some l -> sarrays sp sm' g n ix = Some l.
Proof.
  intros M0 N0 H. unfold sarrays in *. destruct (dget sp n) as [[c s]|] eqn:EN; [|discriminate]. apply dget_In in EN.
  destruct (keqb_spec c Cl0) as [|NC]; [discriminate|]. destruct (norm_index (full_shape c) ix) as [J|] eqn:EJ; [|discriminate].
  destruct (Nat.eqb_spec (List.length J) (rank c)) as [LJ|]; cbn [negb] in *; [|discriminate].
  pose proof (full_indices c J (norm_index_shape (rank c) ix J EJ LJ)) as HJ.
  rewrite <- H. destruct (existsb (fun I => in_shape s I && sm n c I) (cands c J)) eqn:EX.
  - apply existsb_exists in EX as (I0 & HI0 & E0). apply andb_prop in E0 as [S0 E0]. apply sfill_ext. intros I HI.
    destruct (in_shape s I) eqn:SI; cbn [andb]; [|reflexivity]. destruct (sm n c I) eqn:E1; [now rewrite (M0 n c s I EN NC SI E1)|].
    destruct (sm' n c I) eqn:E2; [|reflexivity]. exfalso.
    assert (I = I0).
    { destruct (kmem c four) eqn:CF.
      - apply kmem_In in CF. pose proof chk_cands_ok as X. unfold chk_cands in X. rewrite forallb_forall in X. specialize (X c CF). cbv beta in X.
        rewrite forallb_forall in X. specialize (X J HJ). cbv beta in X. rewrite forallb_forall in X. specialize (X I HI). cbv beta in X.
        rewrite forallb_forall in X. specialize (X I0 HI0). cbv beta in X.
        rewrite (N0 n c s I EN NC SI E2), (N0 n c s I0 EN NC S0 (M0 n c s I0 EN NC S0 E0)) in X. cbn [negb orb] in X.
        now apply keqb_true in X.
      - assert (cands c J = [J]) as E by (destruct c; try reflexivity; discriminate). rewrite E in *. destruct HI as [<-|[]], HI0 as [<-|[]]. reflexivity. }
    subst. congruence.
  - exfalso. rewrite sfill_none in H; [discriminate|]. intros I HI. destruct (in_shape s I && sm n c I) eqn:E; [|reflexivity].
    assert (X : existsb (fun I => in_shape s I && sm n c I) (cands c J) = true) by (apply existsb_exists; exists I; auto). congruence.
Qed.
End Mono.

(* ---------- the comparisons, by computation ---------- *)
Definition with2 (a b : option (dict string lf)) (f : dict string lf -> dict string lf -> bool) : bool :=
  match a, b with Some x, Some y => f x y | _, _ => false end.
Definition with3 (a b c : option (dict string lf)) (f : dict string lf -> dict string lf -> dict string lf -> bool) : bool :=
  match a, b, c with Some x, Some y, Some z => f x y z | _, _, _ => false end.
Definition keys_ok (d : dict string lf) (ks : list string) : bool :=
  forallb (fun kl => kmem (fst kl) ks) d && forallb (dmem d) ks.
Definition sub_ok (s : string -> lf) (d2 : dict string lf) (ks : list string) (e : string -> lf) : bool :=
  forallb (fun k => match dget d2 k with Some l => leqb (lsubst s l) (e k) | None => false end) ks.
Definition lfv_tab : dict string string := Eval vm_compute in dlep None.
(* the linear forms of JMS_to_flavio, read with default 0 *)
Definition jf_form (j2f : dict string lf) : dict string lf := j2f ++ map (fun x => (snd x, lkey (fst x))) lfv_tab.
Definition jf_keys_ok : bool :=
  forallb (fun x => negb (kmem (snd x) flavio_main) && kmem (snd x) flavio_lfv) lfv_tab && knodup (map snd lfv_tab) && knodup (map fst lfv_tab) &&
  forallb (fun f => kmem f (map snd lfv_tab)) flavio_lfv.
(* the same, evaluated with tries *)
Definition tall : trie unit := tkeys alljms.
Definition fJ (P : prog) := frun tall P (of_senv (jenv nonred)).
Definition fF (P : prog) (ks : list string) := frun tall P (of_senv (fenv ks)).
Definition J2Bf := fJ p_JMS_to_Bern.
Definition J2Ef := fJ p_JMS_to_EOS.
Definition J2FFf := fJ p_JMS_to_FormFlavor.
Definition J2Ff := fJ (PUpd (JMS_to_flavio_parts None)).
Definition B2Jf := fF p_Bern_to_JMS bern_keys.
Definition B2Ff := fF p_Bern_to_flavio bern_keys.
Definition F2Jf := fF (p_flavio_to_JMS None) flavio_keys.
Definition F2Bf := fF p_flavio_to_Bern flavio_keys.
Strategy expand [J2Bf J2Ef J2FFf J2Ff B2Jf B2Ff F2Jf F2Bf].
Lemma J2B_f : J2Bf = J2B. Proof. exact (frun_eq _ _ _). Qed.
Lemma J2E_f : J2Ef = J2E. Proof. exact (frun_eq _ _ _). Qed.
Lemma J2FF_f : J2FFf = J2FF. Proof. exact (frun_eq _ _ _). Qed.
Lemma J2F_f : J2Ff = J2F. Proof. exact (frun_eq _ _ _). Qed.
Lemma B2J_f : B2Jf = B2J. Proof. exact (frun_eq _ _ _). Qed.
Lemma B2F_f : B2Ff = B2F. Proof. exact (frun_eq _ _ _). Qed.
Lemma F2J_f : F2Jf = F2J. Proof. exact (frun_eq _ _ _). Qed.
Lemma F2B_f : F2Bf = F2B. Proof. exact (frun_eq _ _ _). Qed.
Lemma forallb_eq {A} (f g : A -> bool) l : (forall x, f x = g x) -> forallb f l = forallb g l.
Proof. intros H. induction l as [|x l IH]; cbn [forallb]; [reflexivity|]. now rewrite H, IH. Qed.
Definition tlook (t : trie lf) (k : string) : lf := match sget t k with Some l => l | None => [] end.
Lemma tlook_eq d k : tlook (tdict d) k = look d k.
Proof. unfold tlook, look, dgetd. now rewrite sget_dict. Qed.
Definition fkeys_ok (d : dict string lf) (ks : list string) : bool :=
  let t := tkeys ks in let td := tdict d in if forallb (fun kl => smem t (fst kl)) d then forallb (fun k => smem td k) ks else false.
Lemma fkeys_eq d ks : fkeys_ok d ks = keys_ok d ks.
Proof.
  unfold fkeys_ok, keys_ok. cbv zeta. rewrite (forallb_eq (fun kl => smem (tkeys ks) (fst kl)) (fun kl => kmem (fst kl) ks)) by (intros; apply smem_keys).
  rewrite (forallb_eq (fun k => smem (tdict d) k) (dmem d)) by (intros; apply smem_dict). destruct (forallb _ d); reflexivity.
Qed.
Definition fsub_ok (s : string -> lf) (d2 : trie lf) (ks : list string) (e : string -> lf) : bool :=
  forallb (fun k => match sget d2 k with Some l => leqb (lsubst s l) (e k) | None => false end) ks.
Lemma lsubst_eq s s' l : (forall k, s k = s' k) -> lsubst s l = lsubst s' l.
Proof. intros H. unfold lsubst. f_equal. apply flat_map_ext. intros [q [[k c] m]]. cbn [fst snd]. now rewrite H. Qed.
Lemma fsub_eq s s' d2 ks e e' : (forall k, s k = s' k) -> (forall k, e k = e' k) -> fsub_ok s (tdict d2) ks e = sub_ok s' d2 ks e'.
Proof.
  intros H H'. apply forallb_eq. intros k. rewrite sget_dict. destruct (dget d2 k) as [l|]; [|reflexivity]. now rewrite (lsubst_eq s s') by exact H; rewrite H'.
Qed.
(* all the comparisons at once, so that each program is run once *)
Definition chk_forms (j2b b2j j2f f2j b2f f2b : dict string lf) (tj2b tb2j tj2f tf2j tb2f tf2b : trie lf) (os_b os_f : list string) (tsl : trie unit) : bool :=
  fkeys_ok j2b bern_keys && fkeys_ok b2j os_b &&
  (fkeys_ok j2f flavio_main && fkeys_ok f2j os_f) &&
  (fkeys_ok b2f flavio_bern && fkeys_ok f2b bern_flavio) &&
  fsub_ok (tlook tb2j) tj2b bern_keys lkey &&
  fsub_ok (tlook tj2b) tb2j os_b lkey &&
  (fsub_ok (tlook tf2j) tj2f flavio_main lkey &&
   forallb (fun x => match sget tf2j (fst x) with Some l => leqb l (lkey (snd x)) | None => false end) lfv_tab) &&
  fsub_ok (tlook (tdict (jf_form j2f))) tf2j os_f (fun k => if smem tsl k then [] else lkey k) &&
  fsub_ok (tlook tf2b) tb2f flavio_bern (fun k => if kmem k sd_lfv then [] else lkey k) &&
  fsub_ok (tlook tb2f) tf2b bern_flavio (fun k => match dget bern_tensors k with Some n => lscale 16 (lkey n) | None => lkey k end) &&
  fsub_ok (tlook tj2b) tb2f flavio_bern (tlook tj2f) &&
  fsub_ok (tlook tf2j) tj2b bern_flavio (tlook tf2b) &&
  fsub_ok (tlook tb2j) tj2f flavio_bern (tlook tb2f).
Definition chk_opts (o1 o2 o3 o4 o5 o6 : option (dict string lf)) : bool :=
  match o1, o2, o3, o4, o5, o6 with
  | Some j2b, Some b2j, Some j2f, Some f2j, Some b2f, Some f2b =>
      chk_forms j2b b2j j2f f2j b2f f2b (tdict j2b) (tdict b2j) (tdict j2f) (tdict f2j) (tdict b2f) (tdict f2b)
        (of_sectors bern_sectors) (of_sectors flavio_sectors) (tkeys semileptonic_tensors)
  | _, _, _, _, _, _ => false
  end.
Definition chk_formsf : bool := chk_opts J2Bf B2Jf J2Ff F2Jf B2Ff F2Bf.
Strategy expand [chk_formsf].
Lemma chk_formsf_ok : chk_formsf = true.
Proof. vm_cast_no_check (eq_refl true). Qed.
Lemma chk_all : exists j2b b2j j2f f2j b2f f2b,
  (J2B = Some j2b /\ B2J = Some b2j /\ J2F = Some j2f /\ F2J = Some f2j /\ B2F = Some b2f /\ F2B = Some f2b) /\
  (keys_ok j2b bern_keys && keys_ok b2j (of_sectors bern_sectors) = true) /\
  (keys_ok j2f flavio_main && keys_ok f2j (of_sectors flavio_sectors) = true) /\
  (keys_ok b2f flavio_bern && keys_ok f2b bern_flavio = true) /\
  sub_ok (look b2j) j2b bern_keys lkey = true /\
  sub_ok (look j2b) b2j (of_sectors bern_sectors) lkey = true /\
  (sub_ok (look f2j) j2f flavio_main lkey &&
    forallb (fun x => match dget f2j (fst x) with Some l => leqb l (lkey (snd x)) | None => false end) lfv_tab = true) /\
  sub_ok (look (jf_form j2f)) f2j (of_sectors flavio_sectors) (fun k => if kmem k semileptonic_tensors then [] else lkey k) = true /\
  sub_ok (look f2b) b2f flavio_bern (fun k => if kmem k sd_lfv then [] else lkey k) = true /\
  sub_ok (look b2f) f2b bern_flavio (fun k => match dget bern_tensors k with Some n => lscale 16 (lkey n) | None => lkey k end) = true /\
  sub_ok (look j2b) b2f flavio_bern (look j2f) = true /\
  sub_ok (look f2j) j2b bern_flavio (look f2b) = true /\
  sub_ok (look b2j) j2f flavio_bern (look b2f) = true.
Proof.
  pose proof chk_formsf_ok as H. unfold chk_formsf in H. rewrite J2B_f, B2J_f, J2F_f, F2J_f, B2F_f, F2B_f in H.
  revert H. generalize J2B B2J J2F F2J B2F F2B. intros o1 o2 o3 o4 o5 o6 H. unfold chk_opts in H.
  destruct o1 as [j2b|]; [|discriminate]. destruct o2 as [b2j|]; [|discriminate]. destruct o3 as [j2f|]; [|discriminate].
  destruct o4 as [f2j|]; [|discriminate]. destruct o5 as [b2f|]; [|discriminate]. destruct o6 as [f2b|]; [|discriminate].
  exists j2b, b2j, j2f, f2j, b2f, f2b. unfold chk_forms in H. revert H. generalize (of_sectors bern_sectors) (of_sectors flavio_sectors). intros ob of H.
  repeat match goal with X : (?a && ?b = true) |- _ => apply andb_prop in X; destruct X end.
  rewrite fkeys_eq in *.
  assert (S : forall (s s' : string -> lf) d2 ks (e e' : string -> lf), (forall k, s k = s' k) -> (forall k, e k = e' k) -> fsub_ok s (tdict d2) ks e = true -> sub_ok s' d2 ks e' = true)
    by (intros s s' d2 ks e e' Hs He Hf; now rewrite <- (fsub_eq s s' d2 ks e e' Hs He)).
  repeat match goal with |- _ /\ _ => split end; try reflexivity; try (match goal with |- _ && _ = true => apply andb_true_intro; split; try assumption end).
  all: try (match goal with X : forallb _ lfv_tab = true |- forallb _ _ = true => rewrite <- X; apply forallb_eq; intros z; cbv beta; now rewrite sget_dict end).
  all: match goal with X : fsub_ok _ _ _ _ = true |- _ => refine (S _ _ _ _ _ _ _ _ X); [intros k; apply tlook_eq|intros k; cbv beta; rewrite ?tlook_eq, ?smem_keys; reflexivity] end.
Qed.
Ltac from_all := destruct chk_all as (j2b & b2j & j2f & f2j & b2f & f2b & (E1 & E2 & E3 & E4 & E5 & E6) & H1 & H2 & H3 & H4 & H5 & H6 & H7 & H8 & H9 & H10 & H11 & H12);
  unfold with2, with3; rewrite ?E1, ?E2, ?E3, ?E4, ?E5, ?E6; assumption.
Lemma chk_keys_jb : with2 J2B B2J (fun j2b b2j => keys_ok j2b bern_keys && keys_ok b2j (of_sectors bern_sectors)) = true.
Proof. from_all. Qed.
Lemma chk_keys_jf : with2 J2F F2J (fun j2f f2j => keys_ok j2f flavio_main && keys_ok f2j (of_sectors flavio_sectors)) = true.
Proof. from_all. Qed.
Lemma chk_keys_bf : with2 B2F F2B (fun b2f f2b => keys_ok b2f flavio_bern && keys_ok f2b bern_flavio) = true.
Proof. from_all. Qed.
Lemma chk_keys_ef : with2 J2E J2FF (fun _ _ => true) = true.
Proof. rewrite <- J2E_f, <- J2FF_f. vm_cast_no_check (eq_refl true). Qed.
Lemma jf_keys_gen (tab : dict string string) (m l : list string) :
  (fun tm tl ts => forallb (fun x => if smem tm (snd x) then false else smem tl (snd x)) tab &&
    fnodup TL (map snd tab) && fnodup TL (map fst tab) && forallb (smem ts) l) (tkeys m) (tkeys l) (tkeys (map snd tab)) = true ->
  forallb (fun x => negb (kmem (snd x) m) && kmem (snd x) l) tab && knodup (map snd tab) && knodup (map fst tab) &&
  forallb (fun f => kmem f (map snd tab)) l = true.
Proof.
  cbv beta. intros H. apply andb_prop in H as [H H4]. apply andb_prop in H as [H H3]. apply andb_prop in H as [H H2].
  rewrite (fnodup_knodup _ H2), (fnodup_knodup _ H3), !andb_true_r. apply andb_true_intro. split.
  - rewrite <- H. apply forallb_eq. intros x. rewrite !smem_keys. destruct (kmem (snd x) m); reflexivity.
  - rewrite <- H4. apply forallb_eq. intros f. symmetry. apply smem_keys.
Qed.
Lemma jf_keys : jf_keys_ok = true.
Proof. unfold jf_keys_ok. refine (jf_keys_gen lfv_tab flavio_main flavio_lfv _). vm_cast_no_check (eq_refl true). Qed.
Lemma chk_BJB_ok : with2 B2J J2B (fun b2j j2b => sub_ok (look b2j) j2b bern_keys lkey) = true.
Proof. from_all. Qed.
Lemma chk_JBJ_ok : with2 J2B B2J (fun j2b b2j => sub_ok (look j2b) b2j (of_sectors bern_sectors) lkey) = true.
Proof. from_all. Qed.
Lemma chk_FJF_ok : with2 F2J J2F (fun f2j j2f => sub_ok (look f2j) j2f flavio_main lkey &&
  forallb (fun x => match dget f2j (fst x) with Some l => leqb l (lkey (snd x)) | None => false end) lfv_tab) = true.
Proof. from_all. Qed.
Lemma chk_JFJ_ok : with2 J2F F2J (fun j2f f2j => sub_ok (look (jf_form j2f)) f2j (of_sectors flavio_sectors)
  (fun k => if kmem k semileptonic_tensors then [] else lkey k)) = true.
Proof. from_all. Qed.
Lemma chk_FBF_ok : with2 F2B B2F (fun f2b b2f => sub_ok (look f2b) b2f flavio_bern (fun k => if kmem k sd_lfv then [] else lkey k)) = true.
Proof. from_all. Qed.
Lemma chk_BFB_ok : with2 B2F F2B (fun b2f f2b => sub_ok (look b2f) f2b bern_flavio
  (fun k => match dget bern_tensors k with Some n => lscale 16 (lkey n) | None => lkey k end)) = true.
Proof. from_all. Qed.
Lemma chk_JBF_ok : with3 J2B B2F J2F (fun j2b b2f j2f => sub_ok (look j2b) b2f flavio_bern (look j2f)) = true.
Proof. from_all. Qed.
Lemma chk_FJB_ok : with3 F2J J2B F2B (fun f2j j2b f2b => sub_ok (look f2j) j2b bern_flavio (look f2b)) = true.
Proof. from_all. Qed.
Lemma chk_BJF_ok : with3 B2J J2F B2F (fun b2j j2f b2f => sub_ok (look b2j) j2f flavio_bern (look b2f)) = true.
Proof. from_all. Qed.
