(* Parity and CP covariance of the running in WET *)
From Coq Require Import List Bool ZArith Reals Arith Lia Lra String Ascii.
From Verif Require Import PyBase Num SymModel EftModel NpModel NpProofs RealC WcxfModel WcxfProofs AdmData WetModel WetSpec WetMat WetPow WetProofs WetSector WetEvol WetRge WetRun WetLaws WetUnmix WetThms ParSpec ParData ParMat.
Import ListNotations.
Local Open Scope string_scope.
Local Open Scope list_scope.
Local Open Scope K_scope.
Add Field KFPP : (k_field CR).

(* ---------- expressions ---------- *)
Definition mvar_eqb (x y : mvar) : bool :=
  match x, y with Mu, Mu | Md, Md | Ms, Ms | Mc, Mc | Mb, Mb | Me, Me | Mmu, Mmu | Mtau, Mtau => true | _, _ => false end.
Fixpoint aexp_eqb (x y : aexp) : bool :=
  match x, y with
  | N a, N b => Z.eqb a b
  | Dec a b, Dec c d => Z.eqb a c && Pos.eqb b d
  | AJ, AJ => true
  | V a, V b => mvar_eqb a b
  | B0, B0 => true
  | Neg a, Neg b => aexp_eqb a b
  | Add a b, Add c d => aexp_eqb a c && aexp_eqb b d
  | Mul a b, Mul c d => aexp_eqb a c && aexp_eqb b d
  | Div a b, Div c d => aexp_eqb a c && aexp_eqb b d
  | _, _ => false
  end.
Lemma aexp_eqb_eq x : forall y, aexp_eqb x y = true -> x = y.
Proof.
  induction x; intros [] E; cbn [aexp_eqb] in E; try discriminate E; try (apply andb_true_iff in E as [E1 E2]);
    try (apply Z.eqb_eq in E; now subst); auto.
  - apply Z.eqb_eq in E1. apply Pos.eqb_eq in E2. now subst.
  - destruct v, v0; try discriminate; reflexivity.
  - f_equal; auto.
  - f_equal; auto.
  - f_equal; auto.
  - f_equal; auto.
Qed.
(* expressions without 1j are real, (...) * 1j is imaginary *)
Fixpoint areal (e : aexp) : bool :=
  match e with
  | AJ => false
  | N _ | Dec _ _ | V _ | B0 => true
  | Neg a => areal a
  | Add a b | Mul a b | Div a b => areal a && areal b
  end.
Definition aimag (e : aexp) : bool := match e with Mul a AJ => areal a | _ => false end.
Lemma Ok_eq {A} (x y : A) : Ok x = Ok y -> x = y. Proof. congruence. Qed.
Lemma areal_conj p f e : areal e = true -> forall z, aeval p f e = Ok z -> z^* = z.
Proof.
  induction e; cbn [areal aeval]; intros A z E; try discriminate A; try (injection E as <-; apply rc_conj); try (apply andb_true_iff in A as [A1 A2]).
  - destruct (aeval p f e) as [x|]; [|discriminate]. cbn [rmap] in E; apply Ok_eq in E; subst z. now rewrite kconj_opp, (IHe A x eq_refl).
  - destruct (aeval p f e1) as [x|]; [|discriminate]. cbn [bind] in E. destruct (aeval p f e2) as [y|]; [|discriminate]. cbn [rmap] in E; apply Ok_eq in E; subst z.
    now rewrite kconj_add, (IHe1 A1 x eq_refl), (IHe2 A2 y eq_refl).
  - destruct (aeval p f e1) as [x|]; [|discriminate]. cbn [bind] in E. destruct (aeval p f e2) as [y|]; [|discriminate]. cbn [rmap] in E; apply Ok_eq in E; subst z.
    now rewrite kconj_mul, (IHe1 A1 x eq_refl), (IHe2 A2 y eq_refl).
  - destruct (aeval p f e1) as [x|]; [|discriminate]. cbn [bind] in E. destruct (aeval p f e2) as [y|]; [|discriminate]. cbn [bind] in E.
    destruct (ceqb_spec y 0) as [|NZ]; [discriminate|]. cbn [rmap] in E; apply Ok_eq in E; subst z. now rewrite kconj_div, (IHe1 A1 x eq_refl), (IHe2 A2 y eq_refl) by exact NZ.
Qed.
Lemma aimag_conj p f e z : aimag e = true -> aeval p f e = Ok z -> z^* = - z.
Proof.
  destruct e; try discriminate. destruct e2; try discriminate. cbn [aimag aeval]. intros A E. destruct (aeval p f e1) as [x|] eqn:X; [|discriminate].
  cbn [bind rmap] in E; apply Ok_eq in E; subst z. rewrite kconj_mul, kconj_i, (areal_conj p f e1 A x X). ring.
Qed.

(* ---------- the checks of the tables ---------- *)
Section Chk.
Variables (all : list string) (d : list (nat * bool)).
Definition partner (a : nat) : nat := fst (nth a d (0%nat, false)).
Definition flag (a : nat) : bool := snd (nth a d (0%nat, false)).
Definition scale_same (k k' : string) : bool :=
  let a1 := kmem (name_of k) qG in let a2 := kmem (name_of k) (qgamma ++ lgamma) in
  Bool.eqb a1 (kmem (name_of k') qG) && Bool.eqb a2 (kmem (name_of k') (qgamma ++ lgamma)) && Bool.eqb (kmem k G3) (kmem k' G3) &&
  (negb (a1 || a2) || match get_m k, get_m k' with Ok (Some x), Ok (Some y) => String.eqb x y | _, _ => false end).
Definition pair_ok (a : nat) (k : string) : bool :=
  (partner a <? List.length all)%nat && (partner (partner a) =? a)%nat && Bool.eqb (flag (partner a)) (flag a) &&
  scale_same k (nth (partner a) all "") && Bool.eqb (String.eqb k "Gtilde") (String.eqb (nth (partner a) all "") "Gtilde") &&
  match mirror k (nth (partner a) all "") with Some c => Bool.eqb c (flag a) | None => false end.
Definition numbered {X} (l : list X) : list (nat * X) := combine (seq 0 (List.length l)) l.
Definition pairs_ok : bool := (List.length d =? List.length all)%nat && forallb (fun ak => pair_ok (fst ak) (snd ak)) (numbered all).
Definition mat_par (m : amat) : bool :=
  forallb (fun ar => let row := nth (partner (fst ar)) m [] in let fa := flag (fst ar) in
    forallb (fun be => match dget row (partner (fst be)) with Some e => aexp_eqb (snd be) e | None => false end && Bool.eqb fa (flag (fst be)) && (fst be <? List.length all)%nat) (snd ar)) (numbered m).
Definition odd_at (a : nat) : bool := String.eqb (nth a all "") "Gtilde".
Definition mat_cp (m : amat) : bool :=
  forallb (fun ar => let oa := odd_at (fst ar) in
    forallb (fun be => if areal (snd be) then Bool.eqb oa (odd_at (fst be)) else xorb oa (odd_at (fst be)) && aimag (snd be)) (snd ar)) (numbered m).
End Chk.
Definition on_mats (cls : string) (P : amat -> bool) : bool :=
  String.eqb cls "inv" ||
  match dget adm_table ("adm_s_" ++ cls)%string, dget adm_table ("adm_e_" ++ cls)%string with Some m, Some m' => P m && P m' | _, _ => false end.
Definition sector_cp (sa : string * list string) : bool :=
  match dget sectors (fst sa) with Some cls => on_mats cls (mat_cp (snd sa)) | None => false end.
Definition sector_par (sa : string * list string) : bool :=
  match dget sectors (fst sa) with
  | Some cls =>
      kmem cls chiral_classes ||
      match dget par_data (fst sa) with Some d => pairs_ok (snd sa) d && on_mats cls (mat_par (snd sa) d) | None => false end
  | None => false
  end.
Lemma all_cp : forallb sector_cp coeffs = true.
Proof. vm_cast_no_check (eq_refl true). Qed.
Lemma all_par : forallb sector_par coeffs = true.
Proof. vm_cast_no_check (eq_refl true). Qed.

(* ---------- consequences of the checks ---------- *)
Lemma numbered_In {X} (l : list X) a d0 : (a < List.length l)%nat -> In (a, nth a l d0) (numbered l).
Proof.
  intros L. unfold numbered. assert (E : nth a (combine (seq 0 (List.length l)) l) (0%nat, d0) = (a, nth a l d0)).
  { rewrite combine_nth by apply seq_length. now rewrite seq_nth by exact L. }
  rewrite <- E. apply nth_In. rewrite combine_length, seq_length. lia.
Qed.
Lemma scale_same_ok k k' p : scale_same k k' = true -> scale_C k p = scale_C k' p.
Proof.
  unfold scale_same. intros E. apply andb_true_iff in E as [E E4]. apply andb_true_iff in E as [E E3]. apply andb_true_iff in E as [E1 E2].
  apply eqb_prop in E1. apply eqb_prop in E2. apply eqb_prop in E3. unfold scale_C. rewrite <- E1, <- E2, <- E3.
  destruct (fsqrt _) as [x|]; [|reflexivity]. cbn [bind]. destruct (fsqrt _) as [y|]; [|reflexivity]. cbn [bind].
  destruct (kmem (name_of k) qG); [|destruct (kmem (name_of k) (qgamma ++ lgamma)); [|reflexivity]]; cbn [orb negb] in E4;
    (destruct (get_m k) as [[m|]|]; try discriminate E4; destruct (get_m k') as [[m'|]|]; try discriminate E4; apply String.eqb_eq in E4; now subst).
Qed.
Section Full.
Variables (s : string) (all : list string) (cls : string).
Hypothesis EA : dget coeffs s = Some all.
Hypothesis ES : dget sectors s = Some cls.
Definition is_mat (m : amat) : Prop := cls <> "inv" /\ (dget adm_table ("adm_s_" ++ cls)%string = Some m \/ dget adm_table ("adm_e_" ++ cls)%string = Some m).
Lemma on_mats_ok P m : on_mats cls P = true -> is_mat m -> P m = true.
Proof.
  unfold on_mats. intros E [NI H]. destruct (String.eqb_spec cls "inv"); [contradiction|]. cbn [orb] in E.
  destruct (dget adm_table ("adm_s_" ++ cls)%string) as [m1|]; [|discriminate]. destruct (dget adm_table ("adm_e_" ++ cls)%string) as [m2|]; [|discriminate].
  apply andb_true_iff in E as [E1 E2]. destruct H as [H|H]; injection H as <-; assumption.
Qed.
Lemma cp_fact m : is_mat m -> mat_cp all m = true.
Proof.
  intros H. pose proof all_cp as T. rewrite forallb_forall in T. specialize (T _ (dget_In _ _ _ EA)). unfold sector_cp in T. cbn [fst snd] in T.
  rewrite ES in T. now apply (on_mats_ok _ _ T).
Qed.
Definition sgn (k : string) : CR := cp_sign k.
Lemma sgn_odd a : sgn (nth a all "") = if odd_at all a then - (1) else 1.
Proof. reflexivity. Qed.
Lemma cp_entry p f m n F a b : is_mat m -> amat_eval p f m = Ok (n, F) -> F a b = sgn (nth a all "") * sgn (nth b all "") * (F a b)^*.
Proof.
  intros H E. pose proof (cp_fact m H) as T. unfold mat_cp in T. rewrite forallb_forall in T.
  pose proof (amat_get p f m n F a b E) as G. destruct (dget (nth a m []) b) as [e|] eqn:D; [|rewrite G, kconj_0; ring].
  destruct G as (z & Ez & ->).
  assert (L : (a < List.length m)%nat). { destruct (le_lt_dec (List.length m) a) as [X|X]; [|exact X]. rewrite nth_overflow in D by exact X. discriminate D. }
  specialize (T _ (numbered_In m a [] L)). cbn [fst snd] in T. rewrite forallb_forall in T. specialize (T _ (dget_In _ _ _ D)). cbn [fst snd] in T.
  rewrite !sgn_odd. destruct (areal e) eqn:R.
  - apply eqb_prop in T. rewrite <- T, (areal_conj p f e R z Ez). destruct (odd_at all a); ring.
  - apply andb_true_iff in T as [T1 T2]. rewrite (aimag_conj p f e z T2 Ez). destruct (odd_at all a), (odd_at all b); try discriminate T1; ring.
Qed.
Hypothesis NC : kmem cls chiral_classes = false.
Lemma par_fact : exists d, pairs_ok all d = true /\ forall m, is_mat m -> mat_par all d m = true.
Proof.
  pose proof all_par as T. rewrite forallb_forall in T. specialize (T _ (dget_In _ _ _ EA)). unfold sector_par in T. cbn [fst snd] in T.
  rewrite ES, NC in T. cbn [orb] in T. destruct (dget par_data s) as [d|]; [|discriminate]. apply andb_true_iff in T as [T1 T2].
  exists d. split; [exact T1|]. intros m H. now apply (on_mats_ok _ _ T2).
Qed.
End Full.
Section Pairs.
Variables (all : list string) (d : list (nat * bool)).
Hypothesis PO : pairs_ok all d = true.
Local Notation partner := (partner d).
Local Notation flag := (flag d).
Lemma pairs_at a : (a < List.length all)%nat ->
  (partner a < List.length all)%nat /\ partner (partner a) = a /\ flag (partner a) = flag a /\
  scale_same (nth a all "") (nth (partner a) all "") = true /\ sgn (nth (partner a) all "") = sgn (nth a all "") /\
  mirror (nth a all "") (nth (partner a) all "") = Some (flag a).
Proof.
  intros L. unfold pairs_ok in PO. apply andb_true_iff in PO as [_ T]. rewrite forallb_forall in T. specialize (T _ (numbered_In all a "" L)).
  cbn [fst snd] in T. unfold pair_ok in T. apply andb_true_iff in T as [T T6]. apply andb_true_iff in T as [T T5]. apply andb_true_iff in T as [T T4].
  apply andb_true_iff in T as [T T3]. apply andb_true_iff in T as [T1 T2]. apply Nat.ltb_lt in T1. apply Nat.eqb_eq in T2. apply eqb_prop in T3. apply eqb_prop in T5.
  repeat split; auto.
  - unfold sgn, cp_sign. now rewrite <- T5.
  - destruct (mirror _ _) as [c|]; [|discriminate]. apply eqb_prop in T6. now subst.
Qed.
Lemma par_entry p f m n F a b : mat_par all d m = true -> amat_eval p f m = Ok (n, F) -> (a < List.length all)%nat -> (b < List.length all)%nat ->
  F (partner a) (partner b) = F a b.
Proof.
  intros T E La Lb. unfold mat_par in T. rewrite forallb_forall in T.
  assert (G1 : forall a b, dget (nth a m []) b <> None -> F (partner a) (partner b) = F a b /\ dget (nth (partner a) m []) (partner b) <> None).
  { clear a b La Lb. intros a b N. pose proof (amat_get p f m n F a b E) as G. destruct (dget (nth a m []) b) as [e|] eqn:D; [|congruence].
    assert (L : (a < List.length m)%nat). { destruct (le_lt_dec (List.length m) a) as [X|X]; [|exact X]. rewrite nth_overflow in D by exact X. discriminate D. }
    specialize (T _ (numbered_In m a [] L)). cbn [fst snd] in T. rewrite forallb_forall in T. specialize (T _ (dget_In _ _ _ D)). cbn [fst snd] in T.
    apply andb_true_iff in T as [T _]. apply andb_true_iff in T as [T _].
    pose proof (amat_get p f m n F (partner a) (partner b) E) as G'. destruct (dget (nth (partner a) m []) (partner b)) as [e'|]; [|discriminate].
    apply aexp_eqb_eq in T. subst e'. destruct G as (z & Ez & ->). destruct G' as (z' & Ez' & ->). split; congruence. }
  destruct (pairs_at a La) as (_ & Pa & _). destruct (pairs_at b Lb) as (_ & Pb & _).
  destruct (dget (nth a m []) b) as [e|] eqn:D; [apply G1; congruence|].
  destruct (dget (nth (partner a) m []) (partner b)) as [e|] eqn:D'.
  - destruct (G1 (partner a) (partner b)) as [_ X]; [congruence|]. rewrite Pa, Pb in X. congruence.
  - pose proof (amat_get p f m n F a b E) as G. rewrite D in G. pose proof (amat_get p f m n F (partner a) (partner b) E) as G'. rewrite D' in G'. congruence.
Qed.
Lemma flag_entry p f m n F a b : mat_par all d m = true -> amat_eval p f m = Ok (n, F) -> flag a <> flag b -> F a b = 0.
Proof.
  intros T E N. unfold mat_par in T. rewrite forallb_forall in T.
  pose proof (amat_get p f m n F a b E) as G. destruct (dget (nth a m []) b) as [e|] eqn:D; [|exact G]. exfalso. apply N.
  assert (L : (a < List.length m)%nat). { destruct (le_lt_dec (List.length m) a) as [X|X]; [|exact X]. rewrite nth_overflow in D by exact X. discriminate D. }
  specialize (T _ (numbered_In m a [] L)). cbn [fst snd] in T. rewrite forallb_forall in T. specialize (T _ (dget_In _ _ _ D)). cbn [fst snd] in T.
  apply andb_true_iff in T as [T _]. apply andb_true_iff in T as [_ T]. now apply eqb_prop.
Qed.
End Pairs.

(* ---------- the matrices of a sector with f flavours ---------- *)
Section Sec.
Variables (la : linalg) (bases : @basis_reg CR).
Lemma sector_positions s f keys cls all : sector_keys bases s f = Ok keys -> dget sectors s = Some cls -> dget coeffs s = Some all ->
  exists l, keys = map (fun i => nth i all "") l /\ (forall i, In i l -> (i < List.length all)%nat) /\
    forall pre p n A, cls <> "inv" -> pre = "adm_s_" \/ pre = "adm_e_" -> adm_reduced bases pre cls f p = Ok (n, A) ->
    exists m n0 F, is_mat cls m /\ amat_eval p f m = Ok (n0, F) /\ n = List.length keys /\ meqn n A (fun i j => F (nth i l 0%nat) (nth j l 0%nat)).
Proof.
  intros EK ES EA. destruct (sector_facts s all EA) as (cls' & ES' & F1 & F2). assert (cls' = cls) by congruence. subst cls'.
  unfold sector_keys in EK. rewrite EA, <- F2 in EK. destruct (get_permissible_wcs bases cls f) as [perm|] eqn:EP; [|discriminate]. cbn [rmap] in EK.
  assert (SZ : forall pre p n A, cls <> "inv" -> pre = "adm_s_" \/ pre = "adm_e_" -> adm_reduced bases pre cls f p = Ok (n, A) ->
    exists m F, is_mat cls m /\ amat_eval p f m = Ok (List.length all, F) /\ (n, A) = reduce perm (List.length all, F)).
  { intros pre p n A NI PR. unfold adm_reduced. destruct (dget adm_table (pre ++ cls)%string) as [m|] eqn:Em; [|discriminate].
    destruct (amat_eval p f m) as [[n0 F]|] eqn:EM; [|discriminate]. cbn [bind]. rewrite EP. cbn [bind]. intros R. apply Ok_eq in R.
    assert (IM : is_mat cls m) by (split; [exact NI|destruct PR as [-> | ->]; [left|right]; exact Em]).
    assert (LM : List.length m = List.length all).
    { destruct (F1 NI) as [Q1 Q2]. unfold mat_ok in Q1, Q2. destruct PR as [-> | ->]; [rewrite Em in Q1; apply andb_true_iff in Q1 as [Q _]|rewrite Em in Q2; apply andb_true_iff in Q2 as [Q _]]; now apply Nat.eqb_eq. }
    assert (N0 : n0 = List.length m).
    { unfold amat_eval in EM. destruct (res_map (arow_eval p f) m) as [rows|] eqn:RM; [|discriminate]. cbn [rmap] in EM. injection EM as <- _. exact (res_map_length _ _ _ RM). }
    exists m, F. subst n0. rewrite <- LM. split; [exact IM|]. split; [exact EM|]. symmetry. exact R. }
  destruct perm as [l|].
  - injection EK as <-. exists l. split; [reflexivity|]. split.
    + intros i I. pose proof (F2 bases f) as G. rewrite EP in G. symmetry in G.
      assert (PF : exists P n, l = filter P (seq 0 n) /\ n = List.length all).
      { destruct (String.eqb_spec s "dF=0") as [->|N].
        - destruct (perm_form bases _ _ _ G) as (P & n & E & H). exists P, n. split; [exact E|]. apply H. exact EA.
        - destruct (perm_form bases _ _ _ G) as (P & n & E & H). exists P, n. split; [exact E|]. apply H.
          destruct (String.eqb_spec s "dF0") as [X|_]; [rewrite X in EA; discriminate EA|exact EA]. }
      destruct PF as (P & n & -> & ->). apply filter_In in I as [I _]. apply in_seq in I. lia.
    + intros pre p n A NI PR R. destruct (SZ _ _ _ _ NI PR R) as (m & F & IM & EM & E). cbn [reduce fst snd] in E. injection E as -> ->.
      exists m, (List.length all), F. rewrite map_length. split; [exact IM|]. split; [exact EM|]. split; [reflexivity|]. intros i j _ _. reflexivity.
  - injection EK as <-. exists (seq 0 (List.length all)). split; [|split].
    + clear. apply (nth_ext _ _ "" ""); [now rewrite map_length, seq_length|]. intros i L.
      symmetry. rewrite (nth_indep (map _ _) "" (nth 0 all "")) by (now rewrite map_length, seq_length). rewrite (map_nth (fun i => nth i all "") (seq 0 (List.length all)) 0%nat i), seq_nth by exact L. reflexivity.
    + intros i I. apply in_seq in I. lia.
    + intros pre p n A NI PR R. destruct (SZ _ _ _ _ NI PR R) as (m & F & IM & EM & E). cbn [reduce] in E. injection E as -> ->.
      exists m, (List.length all), F. split; [exact IM|]. split; [exact EM|]. split; [reflexivity|]. intros i j Li Lj. now rewrite !seq_nth by assumption.
Qed.

(* positions in a list of numbers *)
Fixpoint idx (x : nat) (l : list nat) : nat := match l with [] => 0%nat | y :: r => if (x =? y)%nat then 0%nat else S (idx x r) end.
Lemma idx_In x l : In x l -> (idx x l < List.length l)%nat /\ nth (idx x l) l 0%nat = x.
Proof.
  induction l as [|y l IH]; [intros []|]. intros I. cbn [idx]. destruct (Nat.eqb_spec x y) as [->|N]; [cbn; split; [lia|reflexivity]|].
  destruct I as [->|I]; [congruence|]. destruct (IH I). cbn [List.length nth]. split; [lia|assumption].
Qed.
Lemma key_nth all l j : (j < List.length l)%nat -> nth j (map (fun i => nth i all "") l) "" = nth (nth j l 0%nat) all "".
Proof.
  intros L. rewrite (nth_indep _ "" (nth 0 all "")) by (now rewrite map_length). exact (map_nth (fun i => nth i all "") l 0%nat j).
Qed.

(* CP *)
Lemma sector_conj s C C' eta f pi po qed qcd d d' cls keys :
  dget sectors s = Some cls -> sector_keys bases s f = Ok keys -> adm_ok la bases cls f pi ->
  (forall k, In k keys -> dgetd C' k 0 = cp_sign k * (dgetd C k 0)^*) ->
  run_sector la bases s C eta f pi po qed qcd = Ok d -> run_sector la bases s C' eta f pi po qed qcd = Ok d' ->
  forall k, In k keys -> dgetd d' k 0 = cp_sign k * (dgetd d k 0)^*.
Proof.
  intros ES EK O CC E E' k IK. destruct (keys_index _ _ IK) as (j & Lj & ->). destruct (sector_keys_spec _ _ _ _ EK) as [_ (all & EA & _)].
  assert (CI : forall i, (i < List.length keys)%nat -> cin C' keys i = cp_sign (nth i keys "") * (cin C keys i)^*) by (intros i Li; apply CC; now apply nth_In).
  assert (CI0 : forall i, (i < List.length keys)%nat -> cin C' keys i = 0 -> cin C keys i = 0).
  { intros i Li Z. rewrite (CI i Li) in Z. unfold cp_sign in Z. destruct (cin C keys i) as [x y]. destruct (String.eqb _ _); cbn in Z; unfold cx_mul, cx_conj, cx_opp in Z; cbn [fst snd] in Z;
      injection Z as Z1 Z2; cbn; f_equal; lra. }
  destruct (run_sector_get _ _ _ _ _ _ _ _ _ _ _ _ _ ES EK E) as [_ R]. destruct (run_sector_get _ _ _ _ _ _ _ _ _ _ _ _ _ ES EK E') as [_ R'].
  assert (Z0 : forall x : CR, x = 0 -> cp_sign (nth j keys "") * x^* = 0) by (intros x ->; rewrite kconj_0; ring).
  destruct R as [[I R]|[[I R]|(I & M & EM & R)]]; destruct R' as [[I' R']|[[I' R']|(I' & M' & EM' & R')]]; try congruence.
  - rewrite (dgetd_Some _ _ _ _ (R j Lj)), (dgetd_Some _ _ _ _ (R' j Lj)). now apply CI.
  - rewrite (dgetd_Some _ _ _ _ (proj2 (R j Lj))), (dgetd_Some _ _ _ _ (proj2 (R' j Lj))). symmetry. now apply Z0.
  - rewrite (dgetd_Some _ _ _ _ (proj2 (R j Lj))), (dgetd_Some _ _ _ _ (R' j Lj)). rewrite Z0 by reflexivity. apply mvec_zero.
    intros i Li. rewrite (CI i Li), (proj1 (R i Li)), kconj_0. ring.
  - rewrite (dgetd_Some _ _ _ _ (proj2 (R' j Lj))), (dgetd_Some _ _ _ _ (R j Lj)). symmetry. apply Z0. apply mvec_zero.
    intros i Li. apply (CI0 i Li). apply (proj1 (R' i Li)).
  - rewrite (dgetd_Some _ _ _ _ (R j Lj)), (dgetd_Some _ _ _ _ (R' j Lj)). assert (M' = M) by congruence. subst M'. clear EM' R R'.
    assert (NI : cls <> "inv") by (unfold is_inv in I; destruct (String.eqb_spec cls "inv"); [discriminate|assumption]).
    destruct (sector_matrix_form _ _ _ _ _ _ _ _ _ _ _ EM) as (Us & Ue & EU & EE & F).
    destruct (sector_positions s f keys cls all EK ES EA) as (l & EL & BL & SM).
    set (g := fun i => cp_sign (nth i keys "")).
    assert (GG : forall i, (i < List.length keys)%nat -> g i * g i = 1) by (intros i _; unfold g, cp_sign; destruct (String.eqb _ _); ring).
    assert (SA : forall pre, pre = "adm_s_" \/ pre = "adm_e_" -> forall A, adm_reduced bases pre cls f pi = Ok (List.length keys, A) -> symm (List.length keys) (fun i => i) g true A).
    { intros pre PR A EAr. destruct (SM _ _ _ _ NI PR EAr) as (m & n0 & Fm & IM & EMm & _ & EQ). intros a b La Lb. cbn [kap].
      rewrite (EQ a b La Lb). assert (LL : List.length l = List.length keys) by (rewrite EL; now rewrite map_length).
      unfold g. rewrite EL, !key_nth by lia. exact (cp_entry s all cls EA ES pi f m n0 Fm _ _ IM EMm). }
    pose proof (evo_symm la bases (List.length keys) (fun i => i) g true (fun i L => L) (fun i L => eq_refl) GG cls eta f pi qed qcd Us Ue O (SA "adm_s_" (or_introl eq_refl)) (SA "adm_e_" (or_intror eq_refl)) EU EE) as SY.
    unfold mvec. rewrite ksum_conj, <- ksum_scale. apply ksum_ext. intros b Ib. apply in_seq in Ib.
    destruct (F b ltac:(lia)) as (sb & Sb & G). destruct (G j Lj) as (t & T & NZ & ->). rewrite (CI b) by lia.
    pose proof (SY j b Lj ltac:(lia)) as Q. cbn [kap] in Q. rewrite kconj_mul, kconj_div, kconj_mul, !rc_conj by (now apply rc_nz).
    rewrite Q at 1. fold (g b). fold (g j). transitivity ((g b * g b) * (g j * ((Us j b + Ue j b)^* * rc sb / rc t * (cin C keys b)^*))).
    + rewrite !kdiv_def. ring.
    + rewrite GG by lia. ring.
Qed.

(* parity *)
Lemma mirror_false k k' : mirror k k' = Some false -> cp_sign k = 1.
Proof.
  unfold cp_sign. destruct (String.eqb_spec k "Gtilde") as [->|_]; [|reflexivity]. unfold mirror.
  assert (E : mirror_labels "Gtilde" = [("Gtilde", true)]) by reflexivity. rewrite E. cbn [existsb fst snd negb andb orb]. destruct (String.eqb "Gtilde" k'); discriminate.
Qed.
Lemma sector_parity s C C' eta f pi po qed qcd d d' cls keys all :
  dget sectors s = Some cls -> kmem cls chiral_classes = false -> dget coeffs s = Some all -> sector_keys bases s f = Ok keys -> adm_ok la bases cls f pi ->
  (forall k k' c, In k keys -> In k' all -> mirror k k' = Some c -> In k' keys) ->
  (forall k k' c, In k keys -> In k' keys -> mirror k k' = Some c -> dgetd C' k' 0 = mirror_value k c (dgetd C k 0)) ->
  run_sector la bases s C eta f pi po qed qcd = Ok d -> run_sector la bases s C' eta f pi po qed qcd = Ok d' ->
  forall k, In k keys -> exists k' c, In k' keys /\ mirror k k' = Some c /\ dgetd d' k' 0 = mirror_value k c (dgetd d k 0).
Proof.
  intros ES NC EA EK O CL CC E E' k IK. destruct (keys_index _ _ IK) as (j & Lj & ->).
  destruct (sector_positions s f keys cls all EK ES EA) as (l & EL & BL & SM).
  destruct (par_fact s all cls EA ES NC) as (dd & PO & MP).
  assert (LL : List.length l = List.length keys) by (rewrite EL; now rewrite map_length).
  assert (KN : forall i, (i < List.length keys)%nat -> nth i keys "" = nth (nth i l 0%nat) all "") by (intros i Li; rewrite EL; apply key_nth; lia).
  assert (LN : forall i, (i < List.length keys)%nat -> (nth i l 0 < List.length all)%nat) by (intros i Li; apply BL, nth_In; lia).
  pose proof (coeffs_nodup _ _ EA) as ND.
  set (pt := partner dd). set (q := fun i => idx (pt (nth i l 0%nat)) l). set (fl := fun i => flag dd (nth i l 0%nat)). set (sg := fun i => cp_sign (nth i keys "")).
  assert (PIN : forall i, (i < List.length keys)%nat -> In (pt (nth i l 0%nat)) l).
  { intros i Li. destruct (pairs_at all dd PO _ (LN i Li)) as (B & _ & _ & _ & _ & MI).
    pose proof (CL _ _ (flag dd (nth i l 0%nat)) (nth_In keys "" Li) (nth_In all "" B)) as X. rewrite (KN i Li) in X at 1. specialize (X MI). rewrite EL in X.
    apply in_map_iff in X as (a & Ea & Ia). apply (proj1 (NoDup_nth all "")) in Ea; auto. unfold pt. now rewrite <- Ea. }
  assert (QN : forall i, (i < List.length keys)%nat -> (q i < List.length keys)%nat /\ nth (q i) l 0%nat = pt (nth i l 0%nat)).
  { intros i Li. destruct (idx_In _ _ (PIN i Li)) as [A B]. rewrite <- LL. split; assumption. }
  assert (NDL : NoDup l).
  { destruct (sector_keys_spec _ _ _ _ EK) as [W _]. rewrite EL in W. exact (NoDup_map_inv _ _ W). }
  assert (QQ : forall i, (i < List.length keys)%nat -> q (q i) = i).
  { intros i Li. destruct (QN i Li) as [Q1 Q2]. destruct (QN (q i) Q1) as [Q3 Q4]. rewrite Q2 in Q4.
    destruct (pairs_at all dd PO _ (LN i Li)) as (_ & P2 & _). unfold pt in Q4. rewrite P2 in Q4. apply (proj1 (NoDup_nth l 0%nat) NDL) in Q4; [exact Q4|lia|lia]. }
  assert (MQ : forall i, (i < List.length keys)%nat -> mirror (nth i keys "") (nth (q i) keys "") = Some (fl i)).
  { intros i Li. destruct (QN i Li) as [Q1 Q2]. rewrite (KN i Li), (KN (q i) Q1), Q2. now destruct (pairs_at all dd PO _ (LN i Li)) as (_ & _ & _ & _ & _ & MI). }
  assert (CI : forall i, (i < List.length keys)%nat -> cin C' keys (q i) = sg i * kap (fl i) (cin C keys i)).
  { intros i Li. exact (CC _ _ _ (nth_In keys "" Li) (nth_In keys "" (proj1 (QN i Li))) (MQ i Li)). }
  assert (CI0 : forall i, (i < List.length keys)%nat -> cin C' keys (q i) = 0 -> cin C keys i = 0).
  { intros i Li Z. rewrite (CI i Li) in Z. unfold sg, cp_sign in Z. destruct (cin C keys i) as [x y].
    destruct (String.eqb _ _), (fl i); cbn in Z; unfold cx_mul, cx_conj, cx_opp in Z; cbn [fst snd] in Z; injection Z as Z1 Z2; cbn; f_equal; lra. }
  exists (nth (q j) keys ""), (fl j). destruct (QN j Lj) as [Lq _]. split; [now apply nth_In|]. split; [now apply MQ|].
  change (mirror_value (nth j keys "") (fl j)) with (fun z => sg j * kap (fl j) z). cbv beta.
  destruct (run_sector_get _ _ _ _ _ _ _ _ _ _ _ _ _ ES EK E) as [_ R]. destruct (run_sector_get _ _ _ _ _ _ _ _ _ _ _ _ _ ES EK E') as [_ R'].
  assert (Z0 : forall x : CR, x = 0 -> sg j * kap (fl j) x = 0) by (intros x ->; rewrite kap_0; ring).
  destruct R as [[I R]|[[I R]|(I & M & EM & R)]]; destruct R' as [[I' R']|[[I' R']|(I' & M' & EM' & R')]]; try congruence.
  - rewrite (dgetd_Some _ _ _ _ (R j Lj)), (dgetd_Some _ _ _ _ (R' (q j) Lq)). now apply CI.
  - rewrite (dgetd_Some _ _ _ _ (proj2 (R j Lj))), (dgetd_Some _ _ _ _ (proj2 (R' (q j) Lq))). symmetry. now apply Z0.
  - rewrite (dgetd_Some _ _ _ _ (proj2 (R j Lj))), (dgetd_Some _ _ _ _ (R' (q j) Lq)). rewrite Z0 by reflexivity. apply mvec_zero.
    intros i Li. rewrite <- (QQ i Li), (CI (q i)) by (apply QN; exact Li). rewrite (proj1 (R (q i) (proj1 (QN i Li)))), kap_0. ring.
  - rewrite (dgetd_Some _ _ _ _ (proj2 (R' (q j) Lq))), (dgetd_Some _ _ _ _ (R j Lj)). symmetry. apply Z0. apply mvec_zero.
    intros i Li. apply (CI0 i Li). apply (proj1 (R' (q i) (proj1 (QN i Li)))).
  - rewrite (dgetd_Some _ _ _ _ (R j Lj)), (dgetd_Some _ _ _ _ (R' (q j) Lq)). assert (M' = M) by congruence. subst M'. clear EM' R R'.
    assert (NI : cls <> "inv") by (unfold is_inv in I; destruct (String.eqb_spec cls "inv"); [discriminate|assumption]).
    destruct (sector_matrix_form _ _ _ _ _ _ _ _ _ _ _ EM) as (Us & Ue & EU & EE & F).
    assert (QL : forall i, (i < List.length keys)%nat -> (q i < List.length keys)%nat) by (intros i Li; apply QN; exact Li).
    (* the exchange of the coefficients *)
    assert (S1 : symm (List.length keys) q (fun _ => 1) false (fun i j => Us i j + Ue i j)).
    { assert (SA : forall pre, pre = "adm_s_" \/ pre = "adm_e_" -> forall A, adm_reduced bases pre cls f pi = Ok (List.length keys, A) -> symm (List.length keys) q (fun _ => 1) false A).
      { intros pre PR A EAr. destruct (SM _ _ _ _ NI PR EAr) as (m & n0 & Fm & IM & EMm & _ & EQ). intros a b La Lb. cbn [kap].
        rewrite (EQ a b La Lb), (EQ (q a) (q b) (QL a La) (QL b Lb)), (proj2 (QN a La)), (proj2 (QN b Lb)).
        unfold pt. rewrite (par_entry all dd PO pi f m n0 Fm _ _ (MP m IM) EMm (LN a La) (LN b Lb)). ring. }
      assert (G1 : forall i : nat, (i < List.length keys)%nat -> (1 : CR) * 1 = 1) by (intros i _; ring).
      exact (evo_symm la bases (List.length keys) q (fun _ => 1) false QL QQ G1 cls eta f pi qed qcd Us Ue O (SA "adm_s_" (or_introl eq_refl)) (SA "adm_e_" (or_intror eq_refl)) EU EE). }
    (* conjugation *)
    assert (S2 : symm (List.length keys) (fun i => i) sg true (fun i j => Us i j + Ue i j)).
    { assert (GG : forall i, (i < List.length keys)%nat -> sg i * sg i = 1) by (intros i _; unfold sg, cp_sign; destruct (String.eqb _ _); ring).
      assert (SA : forall pre, pre = "adm_s_" \/ pre = "adm_e_" -> forall A, adm_reduced bases pre cls f pi = Ok (List.length keys, A) -> symm (List.length keys) (fun i => i) sg true A).
      { intros pre PR A EAr. destruct (SM _ _ _ _ NI PR EAr) as (m & n0 & Fm & IM & EMm & _ & EQ). intros a b La Lb. cbn [kap].
        rewrite (EQ a b La Lb). unfold sg. rewrite (KN a La), (KN b Lb). exact (cp_entry s all cls EA ES pi f m n0 Fm _ _ IM EMm). }
      exact (evo_symm la bases (List.length keys) (fun i => i) sg true (fun i L => L) (fun i L => eq_refl) GG cls eta f pi qed qcd Us Ue O (SA "adm_s_" (or_introl eq_refl)) (SA "adm_e_" (or_intror eq_refl)) EU EE). }
    (* coefficients that are conjugated do not mix with those that are not *)
    set (gf := (fun i => if fl i then kopp k1 else k1) : nat -> CR).
    assert (S3 : symm (List.length keys) (fun i => i) gf false (fun i j => Us i j + Ue i j)).
    { assert (GG : forall i, (i < List.length keys)%nat -> gf i * gf i = 1) by (intros i _; unfold gf; destruct (fl i); ring).
      assert (SA : forall pre, pre = "adm_s_" \/ pre = "adm_e_" -> forall A, adm_reduced bases pre cls f pi = Ok (List.length keys, A) -> symm (List.length keys) (fun i => i) gf false A).
      { intros pre PR A EAr. destruct (SM _ _ _ _ NI PR EAr) as (m & n0 & Fm & IM & EMm & _ & EQ). intros a b La Lb. cbn [kap].
        rewrite (EQ a b La Lb). destruct (bool_dec (fl a) (fl b)) as [Ef|Nf]; [unfold gf; rewrite Ef; destruct (fl b); ring|].
        unfold fl in Nf. rewrite (flag_entry all dd pi f m n0 Fm _ _ (MP m IM) EMm Nf). ring. }
      exact (evo_symm la bases (List.length keys) (fun i => i) gf false (fun i L => L) (fun i L => eq_refl) GG cls eta f pi qed qcd Us Ue O (SA "adm_s_" (or_introl eq_refl)) (SA "adm_e_" (or_intror eq_refl)) EU EE). }
    unfold mvec. rewrite <- (sum_reindex (List.length keys) q (fun b => M (q j) b * cin C' keys b) QL QQ).
    rewrite kap_sum, <- ksum_scale. apply ksum_ext. intros b Ib. apply in_seq in Ib. assert (Lb : (b < List.length keys)%nat) by lia.
    rewrite (CI b Lb).
    destruct (F b Lb) as (sb & Sb & G). destruct (G j Lj) as (t & T & NZ & MJ).
    destruct (F (q b) (QL b Lb)) as (sb' & Sb' & G'). destruct (G' (q j) Lq) as (t' & T' & NZ' & MQJ).
    assert (SS : forall i p, (i < List.length keys)%nat -> scale_C (nth (q i) keys "") p = scale_C (nth i keys "") p).
    { intros i p Li. rewrite (KN i Li), (KN (q i) (QL i Li)), (proj2 (QN i Li)). symmetry. apply scale_same_ok. now destruct (pairs_at all dd PO _ (LN i Li)) as (_ & _ & _ & X & _). }
    rewrite (SS b pi Lb), Sb in Sb'. apply Ok_eq in Sb'. subst sb'. rewrite (SS j po Lj), T in T'. apply Ok_eq in T'. subst t'.
    rewrite MQJ, MJ. pose proof (S1 j b Lj Lb) as Q1. cbn [kap] in Q1.
    pose proof (S2 j b Lj Lb) as Q2. cbn [kap] in Q2. pose proof (S3 j b Lj Lb) as Q3. cbn [kap] in Q3.
    replace (Us (q j) (q b) + Ue (q j) (q b)) with (Us j b + Ue j b) by (rewrite Q1; ring). clear Q1 MQJ MJ G G' F.
    set (e := Us j b + Ue j b) in *. clearbody e.
    assert (SB : sg b * sg b = 1) by (unfold sg, cp_sign; destruct (String.eqb _ _); ring).
    assert (SF : forall i, (i < List.length keys)%nat -> fl i = false -> sg i = 1).
    { intros i Li Z. pose proof (MQ i Li) as X. rewrite Z in X. exact (mirror_false _ _ X). }
    destruct (bool_dec (fl j) (fl b)) as [Ef|Nf].
    + rewrite <- Ef in *. destruct (fl j) eqn:Ej; cbn [kap].
      * rewrite kconj_mul, kconj_div, kconj_mul, !rc_conj by (now apply rc_nz). rewrite Q2 at 1. rewrite !kdiv_def.
        transitivity ((sg b * sg b) * (sg j * (e^* * rc sb * kinv (rc t) * (cin C keys b)^*))); [ring|]. rewrite SB. ring.
      * rewrite (SF j Lj Ej), (SF b Lb (eq_sym Ef)). ring.
    + assert (Z : e = 0).
      { assert (D : e = - e) by (unfold gf in Q3; destruct (fl j), (fl b); try congruence; rewrite Q3 at 1; ring). clear -D. destruct e as [x y]. cbn in D. unfold cx_opp in D. cbn [fst snd] in D.
        injection D as D1 D2. cbn. f_equal; lra. }
      rewrite Z. replace (0 * rc sb / rc t * cin C keys b) with (0 : CR) by (rewrite kdiv_def; ring). rewrite kap_0, kdiv_def. ring.
Qed.
End Sec.
