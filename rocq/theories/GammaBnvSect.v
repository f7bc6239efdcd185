(* The matrices of the sectors that violate baryon number. *)
From Coq Require Import List Bool ZArith QArith Reals Arith Lia String.
From Verif Require Import PyBase Num EftModel WcxfModel RealC AdmData WetModel WetSpec WetProofs WetSector WetUnmix FermiSpec NpModel NpProofs FermiNorm FermiTab FermiProofs ParProofs GammaSpec GammaTab GammaProofs GammaOps GammaCanon GammaSect GammaRef GammaRun GammaBnvSpec GammaBnv.
Import ListNotations.
Local Open Scope string_scope.
Local Open Scope list_scope.

Definition bop_eqb (o o' : bop) : bool :=
  match o, o' with Bop x y f1 f2 f3 f4, Bop x' y' f1' f2' f3' f4' => chir_eqb x x' && chir_eqb y y' && ferm_eqb f1 f1' && ferm_eqb f2 f2' && ferm_eqb f3 f3' && ferm_eqb f4 f4' end.
Lemma bop_eqb_eq o o' : bop_eqb o o' = true -> o = o'.
Proof.
  destruct o as [x y f1 f2 f3 f4], o' as [x' y' f1' f2' f3' f4']. cbn [bop_eqb]. intros H. repeat (apply andb_prop in H as [H ?]).
  repeat match goal with E : ferm_eqb _ _ = true |- _ => apply GammaOps.ferm_eqb_eq in E; subst end.
  repeat match goal with E : chir_eqb _ _ = true |- _ => apply GammaCanon.chir_eqb_eq in E; subst end. reflexivity.
Qed.
Definition bop_hash (o : bop) : positive := match o with Bop x y f1 f2 f3 f4 => match x with PL => ferm_code f1 | _ => (ferm_code f1)~0%positive end end.
Definition rhsB (T : list (option bop)) (row : arow) : fl bop :=
  flat_map (fun ie => match nth (fst ie) T None, aq (snd ie) with Some o, Some q => flscale (rq q) (cnB o) | _, _ => [] end) row.
Definition rowB (g : force) (n : nat) (T : list (option bop)) (row : arow) (o : bop) : bool :=
  okb o && incr 0 n row && forallb (fun ie => match nth (fst ie) T None, aq (snd ie) with Some o, Some _ => okb o | _, _ => false end) row &&
  fleq bop_eqb bop_hash (cnL (dB g o)) (rhsB T row).
Definition matB (g : force) (ks : list string) (m : amat) : bool :=
  let T := map bnv_op ks in
  forallb (fun jk => match bnv_op (snd jk) with Some o => rowB g (List.length ks) T (nth (fst jk) m []) o | None => false end) (numbered ks).

Local Open Scope K_scope.
Add Field KFgbs : (k_field CR).
Section Sound.
Variables (g : force) (ks : list string) (m : mon).
Hypothesis ND : NoDup (snd m).
Let h : mon -> CR := cfv m.
Let AHm : anti h. Proof. destruct m as [b l]. exact (cfv_anti b l ND). Qed.
Definition bval (d : bool) (k : string) : CR := match bnv_op k with Some o => bv h d o | None => 0 end.
Lemma rowB_value d (row : arow) (B : nat -> CR) : incr 0 (List.length ks) row = true ->
  forallb (fun ie => match nth (fst ie) (map bnv_op ks) None, aq (snd ie) with Some o, Some _ => okb o | _, _ => false end) row = true ->
  (forall i, match dget row i with Some e => forall q, aq e = Some q -> B i = kQ q | None => B i = 0 end) ->
  ksum (map (fun i => B i * bval d (nth i ks "")) (seq 0 (List.length ks))) = fv (bv h d) (rhsB (map bnv_op ks) row).
Proof.
  intros HI HF HB. rewrite forallb_forall in HF. unfold rhsB. rewrite fv_flat_map.
  transitivity (ksum (map (fun i => match dget row i with Some e => (fun i _ => B i * bval d (nth i ks "")) i e | None => 0 end) (seq 0 (List.length ks)))).
  { apply ksum_ext. intros i _. specialize (HB i). destruct (dget row i); [reflexivity|]. rewrite HB. ring. }
  rewrite (row_sum (fun i _ => B i * bval d (nth i ks "")) (List.length ks) row 0 HI). apply ksum_ext. intros [i e] I. cbn [fst snd].
  pose proof (incr_lt _ _ _ HI _ _ I) as L. specialize (HF _ I). cbn [fst snd] in HF.
  assert (EN : nth i (map bnv_op ks) None = bnv_op (nth i ks "")).
  { rewrite (nth_indep _ None (bnv_op "")) by (rewrite map_length; lia). apply map_nth. }
  rewrite EN in *. unfold bval. destruct (bnv_op (nth i ks "")) as [o|]; [|discriminate].
  destruct (aq e) as [q|] eqn:Q; [|discriminate]. rewrite fv_scale, gval_rq, <- (cnB_ok h AHm d o HF).
  assert (D : dget row i = Some e). { clear - HI I. revert HI. generalize 0%nat. induction row as [|[j u] r IH]; intros b H; [destruct I|].
    cbn [dget]. change (keqb i j) with (Nat.eqb i j). destruct I as [[= -> ->]|I]; [now rewrite Nat.eqb_refl|]. cbn [incr] in H. apply andb_prop in H as [_ H].
    pose proof (incr_lt _ _ _ H _ _ I). destruct (Nat.eqb_spec i j); [lia|]. exact (IH I _ H). }
  specialize (HB i). rewrite D in HB. now rewrite (HB q Q).
Qed.
Lemma rowB_ok row o (B B' : nat -> CR) : rowB g (List.length ks) (map bnv_op ks) row o = true ->
  (forall i, match dget row i with Some e => forall q, aq e = Some q -> B i = kQ q | None => B i = 0 end) ->
  (forall i, match dget row i with Some e => forall q, aq e = Some q -> B' i = kQ q | None => B' i = 0 end) ->
  coefficient (dressed g (bnv_poly o)) m = ksum (map (fun i => B i * bval false (nth i ks "")) (seq 0 (List.length ks))) /\
  coefficient (dressed g (hc (bnv_poly o))) m = ksum (map (fun i => B' i * bval true (nth i ks "")) (seq 0 (List.length ks))).
Proof.
  intros H HB HB'. unfold rowB in H. apply andb_prop in H as [H H4]. apply andb_prop in H as [H H3]. apply andb_prop in H as [V H2].
  rewrite (rowB_value false row B H2 H3 HB), (rowB_value true row B' H2 H3 HB'), !coefficient_pv. fold h.
  destruct (dressed_bnv h AHm g o V) as [-> ->].
  split; exact (fleq_sound bop_eqb bop_hash bop_eqb_eq _ _ _ H4).
Qed.
Lemma matB_ok am p f n A (C : nat -> CR) : matB g ks am = true -> amat_eval p f am = Ok (n, A) ->
  bnv_lagrangian (dressed g) ks C m = bnv_lagrangian (fun q => q) ks (transposed (List.length ks) A C) m.
Proof.
  intros H EA. unfold matB in H. cbv zeta in H. rewrite forallb_forall in H. set (I := seq 0 (List.length ks)).
  set (AC := transposed (List.length ks) A C).
  transitivity (ksum (map (fun i => AC i * bval false (nth i ks "") + (AC i)^* * bval true (nth i ks "")) I)).
  2:{ unfold bnv_lagrangian. apply ksum_ext. intros i _. unfold bval. destruct (bnv_op (nth i ks "")); [|ring]. rewrite !coefficient_pv. fold h. now rewrite bnv_value, (bnv_hc_value h AHm). }
  rewrite ksum_add.
  transitivity (ksum (map (fun j => ksum (map (fun i => (A j i * C j) * bval false (nth i ks "")) I)) I) +
                ksum (map (fun j => ksum (map (fun i => (A j i * C j)^* * bval true (nth i ks "")) I)) I)).
  2:{ f_equal.
    - rewrite (ksum_swap (fun j i => (A j i * C j) * bval false (nth i ks ""))). apply ksum_ext. intros i _. unfold AC, transposed. now rewrite ksum_scale_r.
    - rewrite (ksum_swap (fun j i => (A j i * C j)^* * bval true (nth i ks ""))). apply ksum_ext. intros i _. unfold AC, transposed. now rewrite ksum_scale_r, ksum_conj. }
  rewrite <- ksum_add. unfold bnv_lagrangian. apply ksum_ext. intros j IJ. apply in_seq in IJ.
  specialize (H _ (numbered_In ks j "" ltac:(lia))). cbn [fst snd] in H. destruct (bnv_op (nth j ks "")) as [o|] eqn:EO; [|discriminate].
  assert (HB : forall i, match dget (nth j am []) i with Some e => forall q, aq e = Some q -> A j i = kQ q | None => A j i = 0 end).
  { intros i. pose proof (amat_get p f am n A j i EA) as G. destruct (dget (nth j am []) i) as [e|]; [|exact G]. destruct G as (z & Ez & ->). intros q Q. exact (aq_ok p f e z q Ez Q). }
  assert (HB' : forall i, match dget (nth j am []) i with Some e => forall q, aq e = Some q -> (A j i)^* = kQ q | None => (A j i)^* = 0 end).
  { intros i. specialize (HB i). destruct (dget (nth j am []) i) as [e|]; [intros q Q; rewrite (HB q Q); apply kconj_Q|rewrite HB; apply kconj_0]. }
  destruct (rowB_ok _ o _ _ H HB HB') as [-> ->].
  f_equal; rewrite <- ksum_scale; apply ksum_ext; intros i _; rewrite ?kconj_mul; ring.
Qed.
End Sound.

Definition sectB (sa : string * list string) : bool :=
  match dget sectors (fst sa) with
  | Some cls => if kmem cls bnv_classes then forallb (fun g => match dget adm_table (mat_name g cls) with Some m => matB g (snd sa) m | None => false end) [QCD; QED] else true
  | None => false
  end.
Lemma all_sectsB : forallb sectB coeffs = true.
Proof. vm_cast_no_check (eq_refl true). Qed.
Lemma kmem_true c : In c bnv_classes -> kmem c bnv_classes = true.
Proof. intros I. apply kmem_In. exact I. Qed.
Lemma sectB_fact s cls ks g am : dget sectors s = Some cls -> In cls bnv_classes -> dget coeffs s = Some ks -> dget adm_table (mat_name g cls) = Some am -> matB g ks am = true.
Proof.
  intros ES IC EC EM. pose proof all_sectsB as T. rewrite forallb_forall in T. specialize (T _ (dget_In _ _ _ EC)). unfold sectB in T. cbn [fst snd] in T. rewrite ES in T.
  rewrite (kmem_true _ IC) in T. rewrite forallb_forall in T. specialize (T g ltac:(destruct g; cbn; tauto)). rewrite EM in T. exact T.
Qed.

(* ---------- f flavours ---------- *)
Lemma absentB o b l fm d : In fm (bnv_fields o) -> (forall c, In c l -> comp_ferm c <> fm) -> bv (cfv (b, l)) d o = 0.
Proof.
  destruct o as [x y f1 f2 f3 f4]. intros IF AB. unfold bv. rewrite (fv2_ext _ (fun _ _ => 0)).
  - unfold fv2. rewrite (fv_ext _ (fun _ => 0)); [apply fv_zero|]. intros s. apply fv_zero.
  - intros [[s1 s2] [s3 s4]] [[c1 c2] [c3 c4]]. unfold hb, cfv. cbn [get4 fst snd]. destruct (bos_eqb NoB b); [|reflexivity].
    assert (G : forall z : comp, In z [cp d f1 s1 c1; cp d f2 s2 c2; cp d f3 s3 c3; cp d f4 s4 c4] -> comp_ferm z = fm -> kZ (FermiSpec.sgn comp_eqb [cp d f1 s1 c1; cp d f2 s2 c2; cp d f3 s3 c3; cp d f4 s4 c4] l) = 0 :> CR).
    { intros z Iz Ez. rewrite (sgn_absent z); [reflexivity|exact Iz|]. intros J. exact (AB z J Ez). }
    cbn [bnv_fields In] in IF. destruct IF as [E|[E|[E|[E|[]]]]]; subst fm;
      [apply (G (cp d f1 s1 c1))|apply (G (cp d f2 s2 c2))|apply (G (cp d f3 s3 c3))|apply (G (cp d f4 s4 c4))]; cbn; tauto.
Qed.
Section R.
Variable bases : @basis_reg CR.
Lemma runnerB s cls g f p all keys n A (C : nat -> CR) b l : In cls bnv_classes ->
  dget sectors s = Some cls -> dget coeffs s = Some all -> sector_keys bases s f = Ok keys -> adm_reduced bases (adm_prefix g) cls f p = Ok (n, A) ->
  (forall k o, In k all -> ~ In k keys -> bnv_op k = Some o -> exists fm, In fm (bnv_fields o) /\ forall c, In c l -> comp_ferm c <> fm) ->
  NoDup l ->
  bnv_lagrangian (dressed g) keys C (b, l) = bnv_lagrangian (fun q => q) keys (transposed (List.length keys) A C) (b, l).
Proof.
  intros IC ES EA EK ER AB ND. destruct (positions bases s f keys cls all g p n A EK ES EA ER) as (ps & am & n0 & F & -> & NP & IP & EM & EV & EQ).
  assert (EM' : dget adm_table (mat_name g cls) = Some am) by (destruct g; exact EM). pose proof (sectB_fact s cls all g am ES IC EA EM') as CK.
  set (CC := spread ps C).
  assert (LK : List.length (map (fun i => nth i all "") ps) = List.length ps) by apply map_length.
  assert (NK : forall a, (a < List.length ps)%nat -> nth a (map (fun i => nth i all "") ps) "" = nth (nth a ps 0%nat) all "").
  { intros a L. rewrite (nth_indep _ "" (nth 0 all "")) by lia. exact (map_nth (fun i => nth i all "") ps 0%nat a). }
  pose proof (matB_ok g all (b, l) ND am p f n0 F CC CK EV) as MAIN.
  set (P := fun (D : poly -> poly) (i : nat) (z : CR) => match bnv_op (nth i all "") with Some o => z * coefficient (D (bnv_poly o)) (b, l) + z^* * coefficient (D (hc (bnv_poly o))) (b, l) | None => 0 end).
  assert (PZ : forall D i, P D i 0 = 0) by (intros D i; unfold P; destruct (bnv_op (nth i all "")); rewrite ?kconj_0; ring).
  assert (LHS : bnv_lagrangian (dressed g) (map (fun i => nth i all "") ps) C (b, l) = bnv_lagrangian (dressed g) all CC (b, l)).
  { unfold bnv_lagrangian. rewrite LK. refine (eq_trans _ (sum_spread (List.length all) ps (P (dressed g)) C NP IP (PZ _))). apply ksum_ext. intros a I. apply in_seq in I.
    unfold P. now rewrite NK by lia. }
  rewrite LHS, MAIN. clear LHS MAIN. rewrite LK.
  assert (MX : forall a, (a < List.length ps)%nat -> transposed (List.length ps) A C a = transposed (List.length all) F CC (nth a ps 0%nat)).
  { intros a L. unfold transposed.
    refine (eq_trans _ (sum_spread (List.length all) ps (fun j z => F j (nth a ps 0%nat) * z) C NP IP _)).
    - apply ksum_ext. intros a' I. apply in_seq in I. now rewrite EQ by lia.
    - intros j. ring. }
  set (TC := transposed (List.length all) F CC) in *.
  unfold bnv_lagrangian. rewrite LK.
  transitivity (ksum (map (fun i => P (fun q => q) i (TC i)) ps)).
  - apply (sum_sub (List.length all) ps (fun i => P (fun q => q) i (TC i)) NP IP). intros i NIi. unfold P.
    destruct (le_lt_dec (List.length all) i) as [Lo|Li]; [rewrite nth_overflow by exact Lo; reflexivity|].
    destruct (bnv_op (nth i all "")) as [o|] eqn:EO; [|reflexivity].
    assert (NIN : ~ In (nth i all "") (map (fun i => nth i all "") ps)).
    { intros J. apply in_map_iff in J as (j & Ej & Ij). apply NIi. assert (j = i); [|congruence].
      pose proof (nodup_all s all EA) as NA. exact (proj1 (NoDup_nth all "") NA j i (IP j Ij) Li Ej). }
    destruct (AB _ o (nth_In all "" Li) NIN EO) as (fm & IF & AF).
    rewrite !coefficient_pv, bnv_value, (bnv_hc_value _ (cfv_anti b l ND)), !(absentB o b l fm _ IF AF). ring.
  - rewrite (map_nth_seq (fun i => P (fun q => q) i (TC i)) ps). apply ksum_ext. intros a I. apply in_seq in I. unfold P. rewrite NK, MX by lia. reflexivity.
Qed.
End R.

(* a term of an operator *)
Definition m_bnv : mon := (NoB, [cp false (Dn, G1) S2 C0; cp false (Up, G1) S3 C1; cp false (Dn, G1) S0 C2; cp false (Nu, G1) S1 C0]).
Lemma m_bnv_nodup : NoDup (snd m_bnv). Proof. cbn; repeat constructor; cbn; intuition discriminate. Qed.
Lemma m_bnv_nonzero : coefficient (bnv_poly (Bop PR PL (Dn, G1) (Up, G1) (Dn, G1) (Nu, G1))) m_bnv <> (0 : CR).
Proof.
  rewrite coefficient_pv, <- cq_val, <- gval_00. apply gq_neq_val. vm_cast_no_check (eq_refl true).
Qed.
