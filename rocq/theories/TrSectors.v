(* JMS_to_flavio and flavio_to_JMS restricted to some sectors agree with the full translations. *)
From Coq Require Import List Bool ZArith QArith Arith Lia String Ascii.
From Verif Require Import PyBase Num Lin SymModel SymClass SymSpec EftModel EftSpec EftProofs EftLabels EftRound EftInit JmsModel JmsSpec JmsProofs JmsArrays JmsProps
  TrLang TrData TrBlocks TrModel TrNorm TrSpec AdmData BasisProps TrProofs TrValues TrRound TrSect.
Import ListNotations.
Local Open Scope string_scope.
Local Open Scope list_scope.

Lemma D_meets l : D (fun s => meets s l).
Proof.
  intros ss. unfold meets. rewrite existsb_exists. split.
  - intros (y & Hy & E). apply (D_has y) in E as (x & Hx & E). exists x. split; [exact Hx|]. apply existsb_exists. exists y. auto.
  - intros (x & Hx & E). apply existsb_exists in E as (y & Hy & E). exists y. split; [exact Hy|]. apply (D_has y). exists x. auto.
Qed.
Lemma dlep_dl ss : dlep (Some ss) = dl (meets (Some ss) nunull_sectors) (meets (Some ss) lfv_sectors).
Proof. reflexivity. Qed.
Lemma chk_dl_at b1 b2 : NoDup (map snd (dl b1 b2)) /\ NoDup (map fst (dl b1 b2)) /\
  (forall k j, dget (swap_pairs (dl b1 b2)) k = Some j -> dget (swap_pairs lfv_tab) k = Some j) /\
  (forall k j, dget (swap_pairs (dl false b2)) k = Some j -> dget (swap_pairs (dl b1 b2)) k = Some j) /\
  (forall k j, dget (swap_pairs (dl b1 false)) k = Some j -> dget (swap_pairs (dl b1 b2)) k = Some j).
Proof.
  pose proof chk_dl as H. rewrite forallb_forall in H. specialize (H b1 ltac:(destruct b1; simpl; tauto)). cbv beta in H.
  rewrite forallb_forall in H. specialize (H b2 ltac:(destruct b2; simpl; tauto)). cbv beta in H.
  apply andb_prop in H as [H H5]. apply andb_prop in H as [H H4]. apply andb_prop in H as [H H3]. apply andb_prop in H as [H1 H2].
  assert (S : forall a b, sub_tab a b = true -> forall k j, dget a k = Some j -> dget b k = Some j).
  { intros a b X k j Y. unfold sub_tab in X. rewrite forallb_forall in X. specialize (X (k, j) (dget_In _ _ _ Y)). cbn [fst snd] in X. now apply keqb_true in X. }
  split; [now apply knodup_NoDup|]. split; [now apply knodup_NoDup|]. split; [now apply S|]. split; now apply S.
Qed.
Lemma dl_mono ss x k j : In x ss -> dget (swap_pairs (dlep (Some [x]))) k = Some j -> dget (swap_pairs (dlep (Some ss))) k = Some j.
Proof.
  intros Hx. rewrite (dlep_dl [x]), (dlep_dl ss).
  assert (M : forall l, meets (Some [x]) l = true -> meets (Some ss) l = true) by (intros l H; apply (D_meets l); exists x; auto).
  pose proof (M nunull_sectors) as M1. pose proof (M lfv_sectors) as M2.
  generalize dependent (meets (Some ss) nunull_sectors). generalize dependent (meets (Some ss) lfv_sectors).
  generalize (meets (Some [x]) nunull_sectors). generalize (meets (Some [x]) lfv_sectors). intros a2 a1 b2 M2 b1 M1 H.
  destruct (chk_dl_at b1 b2) as (_ & _ & _ & F1 & F2).
  destruct a1, a2.
  - rewrite (M1 eq_refl), (M2 eq_refl). exact H.
  - rewrite (M1 eq_refl) in *. now apply F2.
  - rewrite (M2 eq_refl) in *. now apply F1.
  - apply F1. destruct (chk_dl_at false b2) as (_ & _ & _ & _ & F3). now apply F3.
Qed.

Lemma coeffs_get x : In x (dkeys coeffs) -> In (x, dgetd coeffs x []) coeffs.
Proof.
  intros H. destruct (dget coeffs x) as [ks|] eqn:E.
  - assert (X : dgetd coeffs x [] = ks) by (unfold dgetd; now rewrite E). rewrite X. now apply dget_In.
  - apply dget_None in E. contradiction.
Qed.
Lemma coeffs_all x k : In k (dgetd coeffs x []) -> In k alljms.
Proof.
  intros H. pose proof chk_coeffs_all as C. apply andb_prop in C as [C _]. rewrite forallb_forall in C.
  destruct (dget coeffs x) as [ks|] eqn:E.
  - assert (X : dgetd coeffs x [] = ks) by (unfold dgetd; now rewrite E). rewrite X in H. specialize (C _ (dget_In _ _ _ E)). cbv beta in C. cbn [snd] in C.
    rewrite forallb_forall in C. apply kmem_In. now apply C.
  - assert (X : dgetd coeffs x [] = []) by (unfold dgetd; now rewrite E). rewrite X in H. destruct H.
Qed.
Lemma of_sectors_In ss k : In k (of_sectors ss) <-> exists x, In x ss /\ In k (dgetd coeffs x []).
Proof. unfold of_sectors. apply in_flat_map. Qed.

Section Sectors.
Context {K : StarField}.
Local Open Scope K_scope.
Add Field KFts : (k_field K).
Variable p : tpar K.
Hypothesis PO : par_ok p.
Variable all : list string.
Variable real : string -> bool.
Hypothesis DS : describes jms_ops all real.
Variable js : dict string (list string).
Hypothesis SO : sectors_ok js.
Variable flavio_wcs : list string.
Hypothesis HF : incl flavio_keys flavio_wcs.

(* ---------- updates ---------- *)
Lemma dupdate_In (d e : dict string K) k v : dget (dupdate d e) k = Some v -> In (k, v) e \/ dget d k = Some v.
Proof.
  revert d. induction e as [|[j w] e IH]; intros d H; [now right|]. apply IH in H as [H|H]; [left; now right|].
  cbn [fst snd] in H. rewrite dget_dset in H. destruct (keqb_spec k j) as [->|]; [injection H as <-; left; now left|now right].
Qed.
Lemma dupdate_keys (d e : dict string K) k : dget d k <> None \/ In k (dkeys e) -> dget (dupdate d e) k <> None.
Proof.
  revert d. induction e as [|[j w] e IH]; intros d [H|H]; [exact H|destruct H| |].
  - apply IH. left. cbn [fst snd]. rewrite dget_dset. destruct (keqb k j); [discriminate|exact H].
  - cbn [dkeys map] in H. destruct H as [<-|H]; apply IH.
    + left. cbn [fst snd]. rewrite dget_dset, keqb_refl. discriminate.
    + right. exact H.
Qed.
Lemma upd_spec E L : (forall P, In P L -> exists e, run p all P E = Ok e) ->
  exists d, run p all (PUpd L) E = Ok d /\
    (forall k v, dget d k = Some v -> exists P e, In P L /\ run p all P E = Ok e /\ In (k, v) e) /\
    (forall P e k, In P L -> run p all P E = Ok e -> In k (dkeys e) -> dget d k <> None).
Proof.
  cbn [run]. assert (G : forall d0, (forall P, In P L -> exists e, run p all P E = Ok e) -> exists d,
    (fix go (l : list prog) (d : dict string K) : res (dict string K) :=
      match l with [] => Ok d | q :: r => bind (run p all q E) (fun e => go r (dupdate d e)) end) L d0 = Ok d /\
    (forall k v, dget d k = Some v -> dget d0 k = Some v \/ exists P e, In P L /\ run p all P E = Ok e /\ In (k, v) e) /\
    (forall k, dget d0 k <> None -> dget d k <> None) /\
    (forall P e k, In P L -> run p all P E = Ok e -> In k (dkeys e) -> dget d k <> None)).
  { induction L as [|q L IH]; intros d0 H.
    - exists d0. split; [reflexivity|]. split; [auto|]. split; [auto|]. intros P e k [].
    - destruct (H q (or_introl eq_refl)) as (e & Eq). rewrite Eq. cbn [bind]. destruct (IH (dupdate d0 e)) as (d & E1 & A & B & C); [intros P HP; apply H; now right|].
      exists d. split; [exact E1|]. split; [|split].
      + intros k v HV. destruct (A k v HV) as [X|(P & e' & HP & R & I)].
        * apply dupdate_In in X as [X|X]; [|now left]. right. exists q, e. split; [now left|auto].
        * right. exists P, e'. split; [now right|auto].
      + intros k HK. apply B, dupdate_keys. now left.
      + intros P e' k [<-|HP] R I; [|exact (C P e' k HP R I)]. rewrite Eq in R. injection R as <-. apply B, dupdate_keys. now right. }
  intros H. destruct (G [] H) as (d & E1 & A & _ & C). exists d. split; [exact E1|]. split; [|exact C].
  intros k v HV. destruct (A k v HV) as [X|X]; [discriminate|exact X].
Qed.

(* ---------- the arrays ---------- *)
Lemma sector_keys ss : (forall x, In x ss -> In x (dkeys coeffs)) ->
  exists ks, fold_right (fun s acc => match dget js s, acc with Some ks, Some r => Some (ks ++ r) | _, _ => None end) (Some []) ss = Some ks /\
    forall k, In k ks <-> In k (of_sectors ss).
Proof.
  induction ss as [|x ss IH]; intros H.
  - exists []. split; reflexivity.
  - destruct IH as (ks & E & I); [intros y Hy; apply H; now right|]. cbn [fold_right]. rewrite E.
    pose proof (SO x) as X. destruct (dget js x) as [kx|].
    + exists (kx ++ ks). split; [reflexivity|]. intros k. change (of_sectors (x :: ss)) with (dgetd coeffs x [] ++ of_sectors ss). rewrite !in_app_iff, X, I. reflexivity.
    + exfalso. apply dget_None in X. apply X, H. now left.
Qed.
Lemma sect_rel ss (C : dict string K) : (forall x, In x ss -> In x (dkeys coeffs)) ->
  exists Ca, JMS_to_array all js C (Some ss) = Ok Ca /\ forall x, In x ss -> rel p (view C) (mkEnv C Ca) (jenv (smx (dgetd coeffs x []))).
Proof.
  intros H. destruct (sector_keys ss H) as (ks & E & I). unfold JMS_to_array. rewrite E.
  assert (KA : forall k, In k ks -> In k all).
  { intros k HK. apply I, of_sectors_In in HK as (x & _ & HK). apply coeffs_all in HK. apply kmem_In. rewrite (all_kmem all real DS k). now apply kmem_In. }
  destruct (to_array_spec jms_ops all real DS ex20_table ks C KA) as (Ca & EA & _). exists Ca. split; [exact EA|].
  intros x Hx. split; [|split]; cbn [sflat sfull sarr flat arrs jenv].
  - intros k l X. discriminate.
  - reflexivity.
  - intros n ix l X. apply (sarrays_sound p PO (view C) jms_ops all real DS ex20_table ks C Ca (smx ks) lkey n ix l KA EA).
    + intros m c s J Hm NC HJ. reflexivity.
    + intros k. now rewrite lval_key.
    + refine (sarrays_mono jms_ops (smx (dgetd coeffs x [])) (smx ks) lkey n ix l _ _ X).
      * intros m c s J Hm NC HJ Y. unfold smx in *. apply kmem_In in Y. apply kmem_In, I, of_sectors_In. exists x. auto.
      * intros m c s J Hm NC HJ Y. unfold smx in Y. apply kmem_In, KA, kmem_In in Y.
        rewrite <- Y. symmetry. apply (in_all_iff jms_ops all real DS m c s J Hm NC HJ). now apply (op_indices jms_ops all real DS m c s).
Qed.

(* a linear form none of whose coefficients is non-zero *)
Lemma lval_zero (rho : string -> K) l : (forall q k c m, In (q, (k, c, m)) l -> rho k = 0) -> lval p rho l = 0.
Proof.
  intros H. unfold lval. induction l as [|[q [[k c] m]] l IH]; [reflexivity|]. cbn [ldenote]. rewrite IH by (intros q' k' c' m' X; apply (H q' k' c' m'); now right).
  unfold aval. cbn [fst snd]. rewrite (H q k c m (or_introl eq_refl)). destruct c; rewrite ?kconj_0; ring.
Qed.

Lemma fwd_restrict ss (C : dict string K) : (forall x, In x ss -> In x (dkeys coeffs)) ->
  exists F F0, JMS_to_flavio p all js C (Some ss) = Ok F /\ JMS_to_flavio p all js C None = Ok F0 /\
    (forall k v, dget F k = Some v -> dget F0 k = Some v) /\
    (supported ss C -> forall k, dgetd F k 0 = dgetd F0 k 0).
Proof.
  intros HS. pose proof chk_fwd as H. apply with2_some in H as (j2f & j2f' & EJ & _ & H). clear j2f'.
  destruct get_forms as (fa & fb & j2f0 & fc & fd & fe & FM). pose proof (f_j2f _ _ _ _ _ _ FM) as X. rewrite EJ in X. injection X as <-.
  pose proof (k_j2f _ _ _ _ _ _ FM) as KO. clear FM.
  rewrite forallb_forall in H.
  destruct (sect_rel ss C HS) as (Ca & EA & R).
  set (E := mkEnv C Ca) in *.
  (* every part *)
  assert (PT : forall P, In P (JMS_to_flavio_parts (Some ss)) -> exists e, run p all P E = Ok e /\
    forall k v, In (k, v) e -> dget (dval p (view C) j2f) k = Some v).
  { intros P HP. apply parts_U in HP as (x & Hx & HP). specialize (H _ (coeffs_get x (HS x Hx))). unfold sect_fwd_ok in H. cbn [fst snd] in H.
    apply andb_prop in H as [H _]. apply andb_prop in H as [H _]. rewrite forallb_forall in H.
    specialize (H _ (in_map _ _ _ HP)). unfold agrees in H. destruct (srun alljms P (jenv (smx (dgetd coeffs x [])))) as [e|] eqn:ES; [|discriminate].
    exists (dval p (view C) e). split; [exact (srun_all p PO all real DS P E _ (view C) e (R x Hx) ES)|].
    intros k v HV. unfold dval, dmap in HV. apply in_map_iff in HV as ([k' l] & EQ & HL). injection EQ as <- <-.
    rewrite forallb_forall in H. specialize (H _ HL). unfold has_form in H. cbn [fst snd] in H. rewrite dget_dval. destruct (dget j2f k'); [|discriminate].
    f_equal. now apply lval_eqb. }
  destruct (upd_spec E (JMS_to_flavio_parts (Some ss))) as (d & ED & A & B).
  { intros P HP. destruct (PT P HP) as (e & Ee & _). exists e. exact Ee. }
  exists (dupdate d (cond (dlep (Some ss)) C)), (dupdate (dval p (view C) j2f) (cond (dlep None) C)).
  split. { unfold JMS_to_flavio, from_jms. rewrite EA. cbn [bind]. unfold p_JMS_to_flavio. fold E. rewrite (run_upd_app p all _ (PCond (dlep (Some ss))) E d ED). reflexivity. }
  split; [exact (val_j2f p PO all real DS js C j2f EJ)|].
  assert (ND : NoDup (map snd (dlep (Some ss)))) by (rewrite dlep_dl; apply chk_dl_at).
  assert (G : forall k, dget (dupdate d (cond (dlep (Some ss)) C)) k =
    match dget (cond (dlep (Some ss)) C) k with Some v => Some v | None => dget d k end) by (intros k; apply dget_dupdate, cond_wf).
  assert (DV : forall k v, dget d k = Some v -> dget (dval p (view C) j2f) k = Some v).
  { intros k v HV. destruct (A k v HV) as (P & e & HP & RP & HI). destruct (PT P HP) as (e' & RP' & Q). rewrite RP in RP'. injection RP' as <-. exact (Q k v HI). }
  assert (NM : forall k v, dget (dval p (view C) j2f) k = Some v -> dget (swap_pairs lfv_tab) k = None).
  { intros k v HV. apply lfv_in. intros X. apply (lfv_main k X). rewrite dget_dval in HV. pose proof (keys_ok_dget j2f flavio_main k KO) as Y. destruct (dget j2f k); [now apply kmem_In|discriminate]. }
  split.
  - intros k v HV. rewrite (jf_get p C j2f k EJ KO). rewrite G in HV. rewrite (cond_get (dlep (Some ss)) C k ND) in HV.
    destruct (dget (swap_pairs (dlep (Some ss))) k) as [j|] eqn:ES.
    + rewrite dlep_dl in ES. destruct (chk_dl_at (meets (Some ss) nunull_sectors) (meets (Some ss) lfv_sectors)) as (_ & _ & SUB & _). apply SUB in ES. rewrite ES.
      destruct (dget C j) eqn:EC; [exact HV|]. apply DV in HV. pose proof (NM k v HV). congruence.
    + apply DV in HV. now rewrite (NM k v HV).
  - intros SU k. unfold dgetd at 1. rewrite G, (cond_get (dlep (Some ss)) C k ND). unfold dgetd. rewrite (jf_get p C j2f k EJ KO).
    assert (INV : forall k l x, dget j2f k = Some l -> In x ss -> involves (dgetd coeffs x []) l = true -> dget d k <> None).
    { intros k1 l x HL Hx IV. specialize (H _ (coeffs_get x (HS x Hx))). unfold sect_fwd_ok in H. cbn [fst snd] in H.
      apply andb_prop in H as [H _]. apply andb_prop in H as [_ H]. rewrite forallb_forall in H. specialize (H _ (dget_In _ _ _ HL)). cbn [fst snd] in H. rewrite IV in H. cbn [negb orb] in H.
      apply existsb_exists in H as (o & HO & NK). apply in_map_iff in HO as (P & <- & HP). unfold names_key in NK.
      destruct (srun alljms P (jenv (smx (dgetd coeffs x [])))) as [e|] eqn:ES; [|discriminate].
      apply (B P (dval p (view C) e) k1).
      - apply parts_U. exists x. auto.
      - exact (srun_all p PO all real DS P E _ (view C) e (R x Hx) ES).
      - rewrite dmem_dget in NK. destruct (dget e k1) as [l1|] eqn:EK; [|discriminate]. apply (dget_Some_key _ _ (lval p (view C) l1)). now rewrite dget_dval, EK. }
    assert (Z : forall j, (forall x, In x ss -> ~ In j (dgetd coeffs x [])) -> view C j = 0).
    { intros j NJ. destruct (kdec_spec K (view C j) 0) as [|NE]; [assumption|]. exfalso. apply SU, of_sectors_In in NE as (x & Hx & HJ). exact (NJ x Hx HJ). }
    destruct (dget (swap_pairs lfv_tab) k) as [j|] eqn:EL.
    + (* lepton flavour violation *)
      assert (D0 : dget d k = None). { destruct (dget d k) as [v|] eqn:EK; [|reflexivity]. apply DV in EK. pose proof (NM k v EK). congruence. }
      destruct (dget (swap_pairs (dlep (Some ss))) k) as [j'|] eqn:ES.
      * rewrite dlep_dl in ES. destruct (chk_dl_at (meets (Some ss) nunull_sectors) (meets (Some ss) lfv_sectors)) as (_ & _ & SUB & _). apply SUB in ES.
        assert (j' = j) by congruence. subst j'. rewrite D0. now destruct (dget C j).
      * rewrite D0. symmetry. apply (Z j). intros x Hx HJ. specialize (H _ (coeffs_get x (HS x Hx))). unfold sect_fwd_ok in H. cbn [fst snd] in H.
        apply andb_prop in H as [_ H]. rewrite forallb_forall in H.
        assert (IN : In (j, k) lfv_tab). { apply dget_In in EL. unfold swap_pairs in EL. apply in_map_iff in EL as ([a b] & Q & IN). injection Q as <- <-. exact IN. }
        specialize (H _ IN). cbn [fst snd] in H. apply kmem_In in HJ. rewrite HJ in H. cbn [negb orb] in H. apply keqb_true in H.
        apply (dl_mono ss x k j Hx) in H. congruence.
    + assert (ES : dget (swap_pairs (dlep (Some ss))) k = None).
      { destruct (dget (swap_pairs (dlep (Some ss))) k) as [j|] eqn:ES; [|reflexivity]. rewrite dlep_dl in ES.
        destruct (chk_dl_at (meets (Some ss) nunull_sectors) (meets (Some ss) lfv_sectors)) as (_ & _ & SUB & _). apply SUB in ES. congruence. }
      rewrite ES. destruct (dget d k) as [v|] eqn:EK; [now rewrite (DV k v EK)|].
      rewrite dget_dval. destruct (dget j2f k) as [l|] eqn:EF; [|reflexivity]. symmetry. apply lval_zero. intros q j c m HL. apply Z. intros x Hx HJ.
      apply (INV k l x EF Hx); [|exact EK]. unfold involves. apply existsb_exists. exists (q, (j, c, m)). split; [exact HL|]. cbn [fst snd]. now apply kmem_In.
Qed.

Lemma back_restrict ss (C : dict string K) : (forall x, In x ss -> In x (dkeys coeffs)) ->
  exists J J0, flavio_to_JMS p all flavio_wcs C (Some ss) = Ok J /\ flavio_to_JMS p all flavio_wcs C None = Ok J0 /\
    (forall k v, dget J k = Some v -> dget J0 k = Some v) /\
    (forall k, In k (of_sectors ss) -> dget J k = dget J0 k).
Proof.
  intros HS. pose proof chk_back as H. apply with2_some in H as (f2j & f2j' & EF & _ & H). clear f2j'. rewrite forallb_forall in H.
  set (E := mkEnv (complete flavio_wcs C) []). set (rho := wview flavio_wcs C).
  assert (R : rel p rho E (fenv flavio_keys)) by (apply flat_rel; exact HF).
  assert (RUN : forall P e, srun alljms P (fenv flavio_keys) = Some e -> run p all P E = Ok (dval p rho e)) by (intros P e ES; exact (srun_all p PO all real DS P E _ rho e R ES)).
  assert (PT : forall P, In P (flavio_to_JMS_parts (Some ss)) -> exists e, run p all P E = Ok e /\ forall k v, In (k, v) e -> dget (dval p rho f2j) k = Some v).
  { intros P HP. apply parts_back_U in HP as (x & Hx & HP). specialize (H _ (coeffs_get x (HS x Hx))). unfold sect_back_ok in H. cbn [fst snd] in H.
    apply andb_prop in H as [H _]. rewrite forallb_forall in H. specialize (H _ (in_map _ _ _ (in_or_app _ [PCond (swap_pairs (dlep (Some [x])))] _ (or_introl HP)))).
    unfold agrees in H. destruct (srun alljms P (fenv flavio_keys)) as [e|] eqn:ES; [|discriminate].
    exists (dval p rho e). split; [now apply RUN|].
    intros k v HV. unfold dval, dmap in HV. apply in_map_iff in HV as ([k' l] & EQ & HL). injection EQ as <- <-.
    rewrite forallb_forall in H. specialize (H _ HL). unfold has_form in H. cbn [fst snd] in H. rewrite dget_dval. destruct (dget f2j k'); [|discriminate].
    f_equal. now apply lval_eqb. }
  assert (SS : swap_pairs (swap_pairs (dlep (Some ss))) = dlep (Some ss)).
  { generalize (dlep (Some ss)). intros l. unfold swap_pairs. rewrite map_map. cbn [fst snd]. induction l as [|[u v] l IH]; [reflexivity|]. cbn [map fst snd]. now rewrite IH. }
  assert (ND : NoDup (map snd (dlep (Some ss))) /\ NoDup (map fst (dlep (Some ss)))) by (rewrite dlep_dl; split; apply chk_dl_at).
  assert (ND2 : NoDup (map snd (swap_pairs (dlep (Some ss))))) by (unfold swap_pairs; rewrite map_map; exact (proj2 ND)).
  set (cd := cond (swap_pairs (dlep (Some ss))) (complete flavio_wcs C)).
  assert (TAB : forall j f, In (j, f) (dlep (Some ss)) -> In (j, f) lfv_tab).
  { intros j f HI. assert (X : dget (swap_pairs (dlep (Some ss))) f = Some j).
    { apply In_dget; [unfold wfdict, dkeys, swap_pairs; rewrite map_map; exact (proj1 ND)|]. unfold swap_pairs. apply in_map_iff. exists (j, f). auto. }
    rewrite dlep_dl in X. destruct (chk_dl_at (meets (Some ss) nunull_sectors) (meets (Some ss) lfv_sectors)) as (_ & _ & SUB & _). apply SUB in X.
    apply dget_In in X. unfold swap_pairs in X. apply in_map_iff in X as ([u v] & Q & X). cbn [fst snd] in Q. injection Q as <- <-. exact X. }
  assert (LV : forall j f, In (j, f) lfv_tab -> dget (complete flavio_wcs C) f = Some (rho f) /\ dget (dval p rho f2j) j = Some (rho f)).
  { intros j f HI. split.
    - rewrite dget_complete. assert (X : In f flavio_wcs).
      { apply HF. unfold flavio_keys. apply in_or_app. right. destruct (in_dec string_dec f flavio_lfv) as [Y|Y]; [exact Y|]. apply lfv_in in Y. apply dget_None in Y.
        exfalso. apply Y. unfold dkeys, swap_pairs. rewrite map_map. apply in_map_iff. exists (j, f). auto. }
      unfold rho, wview. apply kmem_In in X. now rewrite X.
    - pose proof chk_FJF_ok as Q. apply with2_some in Q as (f2j0 & j2f0 & E1 & _ & Q). rewrite EF in E1. injection E1 as <-. apply andb_prop in Q as [_ Q].
      rewrite forallb_forall in Q. specialize (Q _ HI). cbn [fst snd] in Q. rewrite dget_dval. destruct (dget f2j j) as [l|]; [|discriminate].
      f_equal. rewrite (lval_eqb p rho _ _ Q). apply lval_key. }
  assert (CDG : forall j, dget cd j = match dget (dlep (Some ss)) j with Some f => Some (rho f) | None => None end).
  { intros j. unfold cd. rewrite (cond_get _ _ j ND2), SS. destruct (dget (dlep (Some ss)) j) as [f|] eqn:EL; [|reflexivity]. apply (LV j f). apply TAB. now apply dget_In. }
  destruct (upd_spec E (flavio_to_JMS_parts (Some ss))) as (d & ED & A & B).
  { intros P HP. destruct (PT P HP) as (e & Ee & _). exists e. exact Ee. }
  exists (dupdate d cd), (dval p rho f2j).
  split. { unfold flavio_to_JMS, p_flavio_to_JMS. fold E. rewrite (run_upd_app p all _ (PCond (swap_pairs (dlep (Some ss)))) E d ED). reflexivity. }
  split; [exact (val_f2j p PO all real DS flavio_wcs HF C f2j EF)|].
  assert (G : forall k, dget (dupdate d cd) k = match dget cd k with Some v => Some v | None => dget d k end) by (intros k; apply dget_dupdate, cond_wf).
  assert (SUB : forall k v, dget (dupdate d cd) k = Some v -> dget (dval p rho f2j) k = Some v).
  { intros k v HV. rewrite G, CDG in HV. destruct (dget (dlep (Some ss)) k) as [f|] eqn:EL.
    - injection HV as <-. apply (LV k f). apply TAB. now apply dget_In.
    - destruct (A k v HV) as (P & e & HP & RP & HI). destruct (PT P HP) as (e' & RP' & Q). rewrite RP in RP'. injection RP' as <-. exact (Q k v HI). }
  split; [exact SUB|]. intros k HK. destruct (dget (dupdate d cd) k) as [v|] eqn:EV; [symmetry; now apply SUB|].
  rewrite dget_dval. destruct (dget f2j k) as [l|] eqn:EK; [|reflexivity]. exfalso.
  apply of_sectors_In in HK as (x & Hx & HK). specialize (H _ (coeffs_get x (HS x Hx))). unfold sect_back_ok in H. cbn [fst snd] in H.
  apply andb_prop in H as [_ H]. rewrite forallb_forall in H. specialize (H _ (dget_In _ _ _ EK)). cbn [fst snd] in H.
  apply kmem_In in HK. rewrite HK in H. cbn [negb orb] in H. apply existsb_exists in H as (o & HO & NK). apply in_map_iff in HO as (P & <- & HP).
  unfold names_key in NK. destruct (srun alljms P (fenv flavio_keys)) as [e|] eqn:ES; [|discriminate]. apply RUN in ES.
  assert (KE : In k (dkeys (dval p rho e))).
  { rewrite dmem_dget in NK. destruct (dget e k) as [l1|] eqn:EK1; [|discriminate]. apply (dget_Some_key _ _ (lval p rho l1)). now rewrite dget_dval, EK1. }
  rewrite G in EV. apply in_app_or in HP as [HP|[<-|[]]].
  - assert (dget d k <> None) by (apply (B P _ k (proj2 (parts_back_U ss P) (ex_intro _ x (conj Hx HP))) ES KE)). destruct (dget cd k); [discriminate|contradiction].
  - cbn [run] in ES. injection ES as ES.
    assert (ND3 : NoDup (map snd (swap_pairs (dlep (Some [x]))))) by (unfold swap_pairs; rewrite map_map, dlep_dl; cbn [snd]; apply chk_dl_at).
    assert (X : dget (cond (swap_pairs (dlep (Some [x]))) (complete flavio_wcs C)) k <> None) by (intros X; apply dget_None in X; apply X; unfold cond; unfold E in ES; cbn [flat] in ES; rewrite ES; exact KE).
    rewrite (cond_get _ _ k ND3) in X.
    assert (SX : dget (swap_pairs (swap_pairs (dlep (Some [x])))) k <> None) by (intros Y; rewrite Y in X; now apply X).
    assert (Y : exists f, In (k, f) (dlep (Some [x]))).
    { destruct (dget (swap_pairs (swap_pairs (dlep (Some [x])))) k) as [f|] eqn:Q; [|contradiction]. exists f. apply dget_In in Q. unfold swap_pairs in Q. rewrite map_map in Q.
      apply in_map_iff in Q as ([u v] & Q & HI). cbn [fst snd] in Q. injection Q as <- <-. exact HI. }
    destruct Y as (f & Y). assert (Z : dget (swap_pairs (dlep (Some [x]))) f = Some k).
    { apply In_dget; [unfold wfdict, dkeys, swap_pairs; rewrite map_map, dlep_dl; cbn [fst]; apply chk_dl_at|]. unfold swap_pairs. apply in_map_iff. exists (k, f). auto. }
    apply (dl_mono ss x f k Hx) in Z. rewrite CDG in EV.
    assert (W : dget (dlep (Some ss)) k <> None).
    { intros Q. apply dget_None in Q. apply Q. apply dget_In in Z. unfold swap_pairs in Z. apply in_map_iff in Z as ([u v] & Q2 & HI). cbn [fst snd] in Q2. injection Q2 as <- <-.
      apply (in_map fst) in HI. exact HI. }
    destruct (dget (dlep (Some ss)) k); [discriminate|contradiction].
Qed.

(* ---------- the other translators fail when sectors are given ---------- *)
Definition orbit_bs : list string := map (label "VddLL") [[1;2;1;2]; [2;1;2;1]]%nat.
Lemma chk_sbsb : forallb (fun xk => keqb (fst xk) "sbsb" || negb (existsb (fun k => kmem k orbit_bs) (snd xk))) coeffs = true.
Proof. vm_cast_no_check (eq_refl true). Qed.
Lemma no_sbsb ss (C : dict string K) : (forall x, In x ss -> In x (dkeys coeffs)) -> ~ In "sbsb" ss ->
  exists Ca, JMS_to_array all js C (Some ss) = Ok Ca /\ forall E, arrs E = Ca -> forall v, eval p E (EArr "VddLL" [1; 2; 1; 2]%Z) <> Ok v.
Proof.
  intros H NS. destruct (sector_keys ss H) as (ks & E & I). unfold JMS_to_array. rewrite E.
  assert (KA : forall k, In k ks -> In k all).
  { intros k HK. apply I, of_sectors_In in HK as (x & _ & HK). apply coeffs_all in HK. apply kmem_In. rewrite (all_kmem all real DS k). now apply kmem_In. }
  destruct (to_array_spec jms_ops all real DS ex20_table ks C KA) as (Ca & EA & _ & _ & A). exists Ca. split; [exact EA|].
  assert (IV : In ("VddLL", (Cl4, [3;3;3;3]%nat)) jms_ops) by (apply (dget_In jms_ops); reflexivity).
  specialize (A "VddLL" Cl4 [3;3;3;3]%nat IV ltac:(discriminate)).
  intros EE <- v HV. cbn [eval] in HV. unfold arr_get in HV. destruct (dget (arrs EE) "VddLL") as [w|]; [|discriminate].
  destruct A as (a0 & -> & A0). assert (NO : forall J, In J [[1;2;1;2]; [2;1;2;1]]%nat -> a0 J = None).
  { intros J HJ. assert (IJ : In J (indices Cl4)) by (destruct HJ as [<-|[<-|[]]]; vm_compute; tauto).
    rewrite (A0 J IJ). assert (X : kmem (label "VddLL" J) ks = false); [|rewrite X; now rewrite andb_false_r].
    apply kmem_nIn. intros X. apply I, of_sectors_In in X as (x & Hx & HX). pose proof chk_sbsb as Q. rewrite forallb_forall in Q.
    specialize (Q _ (coeffs_get x (H x Hx))). cbn [fst snd] in Q. apply orb_prop in Q as [Q|Q].
    - apply keqb_true in Q. subst. contradiction.
    - apply negb_true_iff in Q. assert (Y : existsb (fun k => kmem k orbit_bs) (dgetd coeffs x []) = true); [|congruence].
      apply existsb_exists. exists (label "VddLL" J). split; [exact HX|]. apply kmem_In. unfold orbit_bs. now apply in_map. }
  change (norm_index (repeat 3%nat (rank Cl4)) [1; 2; 1; 2]%Z) with (Ok [1;2;1;2]%nat : res idx) in HV. cbn [bind List.length rank Nat.eqb negb] in HV.
  change (fill_of Cl4 a0) with (symm_herm (symm_current a0)) in HV.
  unfold symm_herm, symm_current, fill, perm_herm, perm_curr in HV. cbn [nth] in HV. rewrite !NO in HV by (simpl; tauto). discriminate.
Qed.
Lemma display_first E k x r d : eval_display p E ((k, x) :: r) = Ok d -> exists v, eval p E x = Ok v.
Proof.
  unfold eval_display. cbn [fold_left bind fst snd]. destruct (eval p E x) as [v|e]; [exists v; reflexivity|]. cbn [bind]. intros H. exfalso.
  assert (G : forall l, fold_left (fun (acc : res (dict string K)) kx => bind acc (fun d => bind (eval p E (snd kx)) (fun v => Ok (dset d (fst kx) v)))) l (Err e) = Err e) by (induction l; [reflexivity|assumption]).
  rewrite G in H. discriminate.
Qed.
Lemma upd_first E q l d : run p all (PUpd (q :: l)) E = Ok d -> exists e, run p all q E = Ok e.
Proof. cbn [run]. destruct (run p all q E) as [e|]; [exists e; reflexivity|discriminate]. Qed.
Lemma then_first E a b d : run p all (PThen a b) E = Ok d -> exists e, run p all a E = Ok e.
Proof. cbn [run]. destruct (run p all a E) as [e|]; [exists e; reflexivity|discriminate]. Qed.
Lemma bern_first E d : run p all (_JMS_to_Bern_I "sb") E = Ok d -> exists v, eval p E (EArr "VddLL" [1; 2; 1; 2]%Z) = Ok v.
Proof. exact (display_first E _ _ _ d). Qed.
Lemma eos_first E d : run p all (_JMS_to_EOS_I "sb") E = Ok d -> exists v, eval p E (EArr "VddLL" [1; 2; 1; 2]%Z) = Ok v.
Proof.
  intros H. assert (X : exists s v, eval p E (EScale s (EArr "VddLL" [1; 2; 1; 2]%Z)) = Ok v) by (eexists; exact (display_first E _ _ _ d H)).
  destruct X as (s & v & X). cbn [eval] in *. destruct (arr_get (arrs E) "VddLL" [1; 2; 1; 2]%Z) as [w|]; [exists w; reflexivity|discriminate].
Qed.
Lemma fails_others ss (C B : dict string K) : (forall x, In x ss -> In x (dkeys coeffs)) -> ~ In "sbsb" ss ->
  JMS_to_Bern p all js C (Some ss) <> Ok B /\ JMS_to_EOS p all js C (Some ss) <> Ok B /\ JMS_to_FormFlavor p all js C (Some ss) <> Ok B.
Proof.
  intros H NS. destruct (no_sbsb ss C H NS) as (Ca & EA & F). specialize (F (mkEnv C Ca) eq_refl).
  unfold JMS_to_Bern, JMS_to_EOS, JMS_to_FormFlavor, from_jms. rewrite EA. cbn [bind]. repeat split; intros X.
  - unfold p_JMS_to_Bern in X. match type of X with run p all (PScale _ ?q) _ = _ => set (Q := q) in X end. cbn [run] in X. destruct (run p all Q (mkEnv C Ca)) as [d|] eqn:Y; [|discriminate].
    apply upd_first in Y as (e & Y). apply bern_first in Y as (v & Y). exact (F v Y).
  - apply upd_first in X as (e & X). apply eos_first in X as (v & X). exact (F v X).
  - apply upd_first in X as (e & X). apply then_first in X as (e' & X). apply bern_first in X as (v & X). exact (F v X).
Qed.
End Sectors.
