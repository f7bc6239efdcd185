(* Lemmas for C20-C22. *)
From Coq Require Import List Bool ZArith QArith Arith Lia String Ascii.
From Verif Require Import PyBase Num Lin SymModel SymClass SymSpec EftModel EftSpec EftProofs EftLabels EftRound EftInit JmsModel JmsSpec.
Import ListNotations.
Local Open Scope string_scope.
Local Open Scope list_scope.

(* ---------- finite facts about orbits ---------- *)
Definition four : list cls := [Cl4; Cl41; Cl5; Cl71].
Definition orbit (c : cls) (I : idx) : list idx := plain_orbit c I ++ conj_orbit c I.
Definition chk_unique (c : cls) : bool :=
  forallb (fun J => if nonredundant c J then forallb (fun I => if nonredundant c I then keqb I J else true) (orbit c J) else true) (indices c).
Lemma chk_unique_ok : forallb chk_unique four = true. Proof. vm_compute. reflexivity. Qed.
Lemma rep_unique c I J : In c four -> In J (indices c) -> nonredundant c J = true -> nonredundant c I = true -> In I (orbit c J) -> I = J.
Proof.
  intros C HJ NJ NI O. pose proof chk_unique_ok as X. rewrite forallb_forall in X. specialize (X c C). unfold chk_unique in X.
  rewrite forallb_forall in X. specialize (X J HJ). cbv beta in X. rewrite NJ in X. rewrite forallb_forall in X. specialize (X I O).
  cbv beta in X. rewrite NI in X. now apply keqb_true in X.
Qed.
Definition chk_shape (c : cls) : bool :=
  forallb (fun s => forallb (fun I => forallb (fun J => Bool.eqb (in_shape s J) (in_shape s I)) (orbit c I)) (indices c)) (class_shapes c).
Lemma chk_shape_ok : forallb chk_shape four = true. Proof. vm_compute. reflexivity. Qed.
Lemma orbit_shape c s I J : In c four -> shape_ok c s = true -> In I (indices c) -> In J (orbit c I) -> in_shape s J = in_shape s I.
Proof.
  intros C S HI O. pose proof chk_shape_ok as X. rewrite forallb_forall in X. specialize (X c C). unfold chk_shape in X.
  rewrite forallb_forall in X. specialize (X s (class_shapes_in c s S)). cbv beta in X. rewrite forallb_forall in X. specialize (X I HI).
  cbv beta in X. rewrite forallb_forall in X. specialize (X J O). now apply Bool.eqb_prop in X.
Qed.
Lemma four_idx c I : In c four -> In I (indices c) -> exists i j k l, I = [i;j;k;l].
Proof.
  intros C HI.
  assert (L : forallb (fun c => forallb (fun I => List.length I =? 4)%nat (indices c)) four = true) by (vm_compute; reflexivity).
  rewrite forallb_forall in L. specialize (L c C). cbv beta in L. rewrite forallb_forall in L. specialize (L I HI).
  cbv beta in L. apply Nat.eqb_eq in L. destruct I as [|i [|j [|k [|l [|]]]]]; try discriminate. now exists i, j, k, l.
Qed.
(* redundant entries: the candidates of symmetrize_JMS_dict *)
Definition chk_cand (c : cls) : bool :=
  forallb (fun I => if nonredundant c I then true else
    match c, I with
    | Cl5, _ => nonredundant c (perm_herm I)
    | Cl41, _ => nonredundant c (perm_curr I)
    | Cl4, [i;j;k;l] => if nonredundant c [l;k;j;i] then true else
             if nonredundant c (perm_herm I) then true else nonredundant c (perm_curr I)
    | Cl71, i :: j :: _ => if Nat.eqb i j then true else nonredundant c (perm_12 I)
    | _, _ => false
    end) (indices c).
Lemma chk_cand_ok : forallb chk_cand four = true. Proof. vm_compute. reflexivity. Qed.
Definition chk_ind (c : cls) : bool :=
  forallb (fun I => forallb (fun J => kmem J (indices c)) (orbit c I)) (indices c).
Lemma chk_ind_ok : forallb chk_ind four = true. Proof. vm_compute. reflexivity. Qed.
Lemma orbit_indices c I J : In c four -> In I (indices c) -> In J (orbit c I) -> In J (indices c).
Proof.
  intros C HI O. pose proof chk_ind_ok as X. rewrite forallb_forall in X. specialize (X c C). unfold chk_ind in X.
  rewrite forallb_forall in X. specialize (X I HI). cbv beta in X. rewrite forallb_forall in X. specialize (X J O). now apply kmem_In in X.
Qed.

Lemma digits_list I : list_ascii_of_string (digits I) = map digit I.
Proof. induction I as [|i I IH]; [reflexivity|]. cbn [digits list_ascii_of_string map]. now rewrite IH. Qed.
Lemma join_digits n I : small I = true -> join_label n (map digit I) = label n I.
Proof.
  intros S. rewrite label_digits by exact S. unfold join_label. f_equal.
  change (String "_" (digits I)) with ("_" ++ digits I)%string. f_equal. clear S.
  induction I as [|i I IH]; [reflexivity|]. cbn [map string_of_list_ascii digits]. now rewrite IH.
Qed.

Section J.
Context {K : StarField}.
Local Open Scope K_scope.
Variable sp : list opspec.
Variable all : list string.
Variable real : string -> bool.
Hypothesis D : describes sp all real.
Hypothesis T : table_agrees sp.

Lemma in_class_iff n c s c' : In (n, (c, s)) sp -> In c' four -> in_class c' n = keqb c c'.
Proof.
  intros H C. unfold in_class. specialize (T n c s c' H C). destruct (keqb_spec c c') as [E|E].
  - apply kmem_In. now apply T.
  - apply kmem_nIn. intros X. apply E. now apply T.
Qed.
Lemma op_label_arr n c I : c <> Cl0 -> op_label n c I = label n I.
Proof. destruct c; try reflexivity. congruence. Qed.
Lemma four_arr c : In c four -> c <> Cl0.
Proof. intros H ->. destruct H as [H|[H|[H|[H|[]]]]]; discriminate. Qed.
Lemma in_all_iff n c s I : In (n, (c, s)) sp -> c <> Cl0 -> in_shape s I = true -> In I (indices c) ->
  kmem (label n I) all = nonredundant c I.
Proof.
  intros H NC HI II. pose proof (op_sm sp all real D n c s I H HI) as SI. destruct (nonredundant c I) eqn:NR.
  - apply kmem_In. rewrite <- (op_label_arr n c I NC). apply (all_label sp all real D n c s I H). apply nonred_in_spec. auto.
  - apply kmem_nIn. intros X. destruct (all_cases sp all real D _ X) as (m & c' & s' & J & Hm & HJ & EQ & _).
    apply nonred_in_spec in HJ as (HJ1 & HJ2 & HJ3). pose proof (op_sm sp all real D m c' s' J Hm HJ2) as SJ.
    pose proof (d_no_us _ _ _ D n c s H) as N1. pose proof (d_no_us _ _ _ D m c' s' Hm) as N2.
    destruct (cl0_dec c') as [->|NC'].
    + simpl in EQ. exact (label_not_plain n m I N1 N2 SI EQ).
    + rewrite (op_label_arr m c' J NC') in EQ. apply label_inj in EQ as [<- <-]; auto.
      destruct (op_uniq sp all real D n c s c' s' H Hm) as [<- <-]. congruence.
Qed.
Lemma op_indices n c s I : In (n, (c, s)) sp -> in_shape s I = true -> In I (indices c).
Proof. intros H HI. apply (in_shape_indices c s I); [exact (d_shapes _ _ _ D n c s H)|exact HI]. Qed.

(* one entry of symmetrize_JMS_dict *)
Lemma has_us_label n I : no_us n -> small I = true -> has_us (label n I) = true.
Proof. intros N S. unfold has_us. rewrite label_split by assumption. reflexivity. Qed.
Lemma jms_entry_spec n c s I (v : K) : In (n, (c, s)) sp -> In c four -> in_shape s I = true -> exists_at c I ->
  exists J w, jms_entry all (label n I) v = Ok (Some (label n J, w)) /\ in_shape s J = true /\ nonredundant c J = true /\
    In J (orbit c I) /\ (nonredundant c I = true -> J = I) /\ carries c I v J w.
Proof.
  intros H C HI EX. pose proof (op_indices n c s I H HI) as II. pose proof (four_arr c C) as NC.
  pose proof (d_no_us _ _ _ D n c s H) as N. pose proof (op_sm sp all real D n c s I H HI) as SI.
  pose proof (d_shapes _ _ _ D n c s H) as SO.
  destruct (four_idx c I C II) as (i & j & k & l & ->).
  assert (SELF : In [i;j;k;l] (orbit c [i;j;k;l])).
  { unfold orbit. apply in_or_app. left. destruct c; simpl; auto. }
  unfold jms_entry. rewrite (has_us_label n _ N SI), (in_all_iff n c s _ H NC HI II). cbn [negb orb].
  destruct (nonredundant c [i;j;k;l]) eqn:NR.
  { exists [i;j;k;l], v. repeat split; auto. left. auto. }
  rewrite (label_split n _ N SI). unfold unpack4. rewrite digits_list. cbn [map].
  assert (ST : forall J, In J (orbit c [i;j;k;l]) -> in_shape s J = true /\ small J = true /\ kmem (label n J) all = nonredundant c J).
  { intros J HJ. assert (X : in_shape s J = true) by (rewrite (orbit_shape c s [i;j;k;l] J C SO II HJ); exact HI).
    split; [exact X|]. split; [exact (op_sm sp all real D n c s J H X)|]. apply (in_all_iff n c s J H NC X).
    now apply (orbit_indices c [i;j;k;l]). }
  assert (JL : forall a b c' d, small [a;b;c';d] = true -> join_label n [digit a; digit b; digit c'; digit d] = label n [a;b;c';d]).
  { intros. now rewrite <- join_digits. }
  pose proof chk_cand_ok as X. rewrite forallb_forall in X. specialize (X c C). unfold chk_cand in X.
  rewrite forallb_forall in X. specialize (X _ II). cbv beta in X. rewrite NR in X.
  destruct C as [<-|[<-|[<-|[<-|[]]]]]; rewrite ?(in_class_iff n _ s Cl5 H), ?(in_class_iff n _ s Cl41 H), ?(in_class_iff n _ s Cl4 H), ?(in_class_iff n _ s Cl71 H) by (simpl; tauto);
    cbn [keqb cls_eqb EqKey_cls].
  - (* class 4 *)
    assert (O1 : In [l;k;j;i] (orbit Cl4 [i;j;k;l])) by (simpl; tauto).
    assert (O2 : In [j;i;l;k] (orbit Cl4 [i;j;k;l])) by (simpl; tauto).
    assert (O3 : In [k;l;i;j] (orbit Cl4 [i;j;k;l])) by (simpl; tauto).
    destruct (ST _ O1) as (A1 & B1 & C1), (ST _ O2) as (A2 & B2 & C2), (ST _ O3) as (A3 & B3 & C3).
    rewrite !JL by assumption. rewrite C1, C2. cbn [perm_herm perm_curr] in X.
    destruct (nonredundant Cl4 [l;k;j;i]) eqn:R1.
    { exists [l;k;j;i], (v^*). repeat split; auto; [discriminate|]. right; right; right. split; [now left|]. split; [simpl; tauto|reflexivity]. }
    destruct (nonredundant Cl4 [j;i;l;k]) eqn:R2.
    { exists [j;i;l;k], (v^*). repeat split; auto; [discriminate|]. right; right; right. split; [now left|]. split; [simpl; tauto|reflexivity]. }
    exists [k;l;i;j], v. repeat split; auto; [discriminate|]. right; left. split; [now left|]. split; [simpl; tauto|reflexivity].
  - assert (O3 : In [k;l;i;j] (orbit Cl41 [i;j;k;l])) by (simpl; tauto). destruct (ST _ O3) as (A3 & B3 & C3). rewrite !JL by assumption.
    exists [k;l;i;j], v. repeat split; auto; [discriminate|]. right; left. split; [now right|]. split; [simpl; tauto|reflexivity].
  - assert (O3 : In [j;i;l;k] (orbit Cl5 [i;j;k;l])) by (simpl; tauto). destruct (ST _ O3) as (A3 & B3 & C3). rewrite !JL by assumption.
    exists [j;i;l;k], (v^*). repeat split; auto; [discriminate|]. right; right; right. split; [now right|]. split; [simpl; tauto|reflexivity].
  - assert (O3 : In [j;i;k;l] (orbit Cl71 [i;j;k;l])) by (simpl; tauto). destruct (ST _ O3) as (A3 & B3 & C3). rewrite !JL by assumption.
    specialize (EX eq_refl). simpl in EX. assert (NE : Nat.eqb i j = false) by now apply Nat.eqb_neq. rewrite NE in X.
    exists [j;i;k;l], (- v). repeat split; auto; [discriminate|]. right; right; left. split; [reflexivity|]. split; [simpl; tauto|].
    split; [|reflexivity]. intros EQ. apply EX. congruence.
Qed.

(* ---------- symmetrize_JMS_dict ---------- *)
Definition image (k : string) (v : K) (k' : string) (w : K) : Prop :=
  ((has_us k = false \/ In k all) /\ k' = k /\ w = v) \/
  (exists n c s I J, In (n, (c, s)) sp /\ In c four /\ in_shape s I = true /\ k = label n I /\ ~ In k all /\
     in_shape s J = true /\ In (label n J) all /\ k' = label n J /\ carries c I v J w).
Definition readable (k : string) : Prop :=
  has_us k = false \/ In k all \/
  exists n c s I, In (n, (c, s)) sp /\ In c four /\ in_shape s I = true /\ exists_at c I /\ k = label n I.
Lemma entry_image k (v : K) : readable k -> exists k' w, jms_entry all k v = Ok (Some (k', w)) /\ image k v k' w.
Proof.
  intros R. destruct (has_us k) eqn:U.
  2:{ exists k, v. unfold jms_entry. rewrite U. split; [reflexivity|]. left. auto. }
  destruct (kmem k all) eqn:A.
  { exists k, v. unfold jms_entry. rewrite U, A. split; [reflexivity|]. left. apply kmem_In in A. auto. }
  apply kmem_nIn in A. destruct R as [R|[R|(n & c & s & I & H & C & HI & EX & ->)]]; [congruence|contradiction|].
  destruct (jms_entry_spec n c s I v H C HI EX) as (J & w & E1 & HJ & NJ & _ & _ & CA). exists (label n J), w.
  split; [exact E1|]. right. exists n, c, s, I, J. repeat split; auto.
  apply kmem_In. rewrite (in_all_iff n c s J H (four_arr c C) HJ); [exact NJ|now apply (op_indices n c s)].
Qed.
Lemma image_fun k (v : K) k1 w1 k' w : jms_entry all k v = Ok (Some (k1, w1)) -> readable k -> image k v k' w -> k' = k1.
Proof.
  intros E1 R IM. destruct (entry_image k v R) as (k2 & w2 & E2 & IM2). assert (k1 = k2 /\ w1 = w2) as [-> ->] by (split; congruence).
  destruct IM as [(P & -> & ->)|(n & c & s & I & J & H & C & HI & -> & NA & HJ & AJ & -> & CA)],
           IM2 as [(P2 & -> & ->)|(n2 & c2 & s2 & I2 & J2 & H2 & C2 & HI2 & E3 & NA2 & HJ2 & AJ2 & -> & CA2)]; auto.
  - exfalso. destruct P as [P|P]; [|subst k; contradiction]. subst k. rewrite has_us_label in P; [discriminate|exact (d_no_us _ _ _ D n2 c2 s2 H2)|exact (op_sm sp all real D n2 c2 s2 I2 H2 HI2)].
  - exfalso. destruct P2 as [P|P]; [|contradiction]. rewrite has_us_label in P; [discriminate|exact (d_no_us _ _ _ D n c s H)|exact (op_sm sp all real D n c s I H HI)].
  - pose proof (op_sm sp all real D n c s I H HI) as S1. pose proof (op_sm sp all real D n2 c2 s2 I2 H2 HI2) as S2.
    apply label_inj in E3 as [<- <-]; auto; [|exact (d_no_us _ _ _ D n c s H)|exact (d_no_us _ _ _ D n2 c2 s2 H2)].
    destruct (op_uniq sp all real D n c s c2 s2 H H2) as [<- <-].
    pose proof (op_indices n c s I H HI) as II.
    assert (OR : forall J w, carries c I v J w -> In J (orbit c I)).
    { intros J' w' CA'. unfold orbit. apply in_or_app. destruct CA' as [[-> _]|[(_ & X & _)|[(_ & X & _)|(_ & X & _)]]]; auto.
      left. destruct (four_idx c I C II) as (i & j & k & l & ->). destruct c; simpl; auto. }
    assert (NR : forall J, in_shape s J = true -> In (label n J) all -> nonredundant c J = true).
    { intros J' HJ' X. apply kmem_In in X. rewrite (in_all_iff n c s J' H (four_arr c C) HJ') in X; [exact X|now apply (op_indices n c s)]. }
    f_equal. apply (rep_unique c J J2 C); auto; [now apply (op_indices n c s)|].
    (* J and J2 are in the orbit of I, so in each other's *)
    apply OR in CA, CA2. clear -C II CA CA2.
    assert (X : forallb (fun c => forallb (fun I => forallb (fun J => forallb (fun J2 => kmem J (orbit c J2)) (orbit c I)) (orbit c I)) (indices c)) four = true)
      by (vm_compute; reflexivity).
    rewrite forallb_forall in X. specialize (X c C). cbv beta in X. rewrite forallb_forall in X. specialize (X I II).
    cbv beta in X. rewrite forallb_forall in X. specialize (X J CA). cbv beta in X. rewrite forallb_forall in X. specialize (X J2 CA2).
    now apply kmem_In in X.
Qed.
Lemma fold_dset_spec (L : dict string K) : forall acc,
  (forall k w, dget (fold_left (fun d kv => dset d (fst kv) (snd kv)) L acc) k = Some w -> In (k, w) L \/ dget acc k = Some w) /\
  (forall k, (exists w, In (k, w) L) \/ dget acc k <> None -> dget (fold_left (fun d kv => dset d (fst kv) (snd kv)) L acc) k <> None).
Proof.
  induction L as [|[k w] L IH]; intros acc; cbn [fold_left fst snd].
  - split; [auto|]. intros k [(w & [])|X]; exact X.
  - destruct (IH (dset acc k w)) as [A B]. split.
    + intros k0 w0 H. apply A in H as [H|H]; [left; now right|]. rewrite dget_dset in H. destruct (keqb_spec k0 k) as [->|]; auto.
      injection H as ->. left. now left.
    + intros k0 [(w0 & [X|X])|X]; apply B.
      * injection X as -> ->. right. rewrite dget_dset, keqb_refl. discriminate.
      * left. eauto.
      * right. rewrite dget_dset. destruct (keqb k0 k); [discriminate|exact X].
Qed.
Lemma jms_dict_spec (d : dict string K) : wfdict d -> (forall k, In k (dkeys d) -> readable k) ->
  exists Cs, symmetrize_JMS_dict all d = Ok Cs /\
    (forall k' w, dget Cs k' = Some w -> exists k v, dget d k = Some v /\ image k v k' w) /\
    (forall k v, dget d k = Some v -> exists k' w, image k v k' w /\ dget Cs k' <> None /\
       ((forall k2 v2 w2, dget d k2 = Some v2 -> image k2 v2 k' w2 -> k2 = k) -> dget Cs k' = Some w)).
Proof.
  intros WF R.
  assert (IMG : exists L, Forall2 (fun kv kw => jms_entry all (fst kv) (snd kv) = Ok (Some kw) /\ image (fst kv) (snd kv) (fst kw) (snd kw)) d L).
  { clear WF. induction d as [|[k v] d IH]; [exists []; constructor|]. destruct IH as (L & F); [intros; apply R; now right|].
    destruct (entry_image k v) as (k' & w & E1 & IM); [apply R; now left|]. exists ((k', w) :: L). constructor; auto. }
  destruct IMG as (L & F).
  assert (EQ : forall acc, fold_left (fun acc kv => bind acc (fun Cs => bind (jms_entry all (fst kv) (snd kv)) (fun o =>
            Ok (match o with None => Cs | Some (k, w) => dset Cs k w end)))) d (Ok acc) = Ok (fold_left (fun d kv => dset d (fst kv) (snd kv)) L acc)).
  { clear WF R. induction F as [|[k v] [k' w] d L [E1 _] F IH]; intros acc; [reflexivity|]. cbn [fold_left bind fst snd] in *.
    rewrite E1. cbn [bind]. apply IH. }
  exists (fold_left (fun d kv => dset d (fst kv) (snd kv)) L []). split; [apply EQ|].
  destruct (fold_dset_spec L []) as [A B].
  assert (FL : forall k' w, In (k', w) L -> exists k v, dget d k = Some v /\ jms_entry all k v = Ok (Some (k', w)) /\ image k v k' w).
  { intros k' w H. assert (X : exists k v, In (k, v) d /\ jms_entry all k v = Ok (Some (k', w)) /\ image k v k' w).
    { clear -F H. induction F as [|[k v] [k1 w1] d L [E1 IM] F IH]; [destruct H|]. destruct H as [H|H].
      - injection H as -> ->. exists k, v. split; [now left|]. auto.
      - destruct (IH H) as (k2 & v2 & X & Y). exists k2, v2. split; [now right|exact Y]. }
    destruct X as (k & v & X & Y). exists k, v. split; [now apply In_dget|exact Y]. }
  split.
  - intros k' w H. apply A in H as [H|H]; [|discriminate]. destruct (FL k' w H) as (k & v & X & _ & Y). eauto.
  - intros k v H. assert (RK : readable k) by (apply R; now apply dget_Some_key in H).
    apply dget_In in H as HIn.
    assert (X : exists k' w, In (k', w) L /\ jms_entry all k v = Ok (Some (k', w)) /\ image k v k' w).
    { clear -F HIn. induction F as [|[k1 v1] [k2 w2] d L [E1 IM] F IH]; [destruct HIn|]. destruct HIn as [X|X].
      - injection X as -> ->. exists k2, w2. split; [now left|]. auto.
      - destruct (IH X) as (k' & w & Y & Z). exists k', w. split; [now right|exact Z]. }
    destruct X as (k' & w & HL & E1 & IM). exists k', w. split; [exact IM|].
    assert (NN : dget (fold_left (fun d kv => dset d (fst kv) (snd kv)) L []) k' <> None) by (apply B; left; eauto).
    split; [exact NN|]. intros U. destruct (dget (fold_left (fun d kv => dset d (fst kv) (snd kv)) L []) k') as [w2|] eqn:G; [|congruence].
    apply A in G as [G|G]; [|discriminate]. destruct (FL k' w2 G) as (k2 & v2 & X & E2 & Y).
    assert (k2 = k) by (apply (U k2 v2 w2); assumption). subst k2. congruence.
Qed.
(* the entries of a tensor with the symmetry are carried to its entries *)
Lemma carries_sym c s (t : idx -> K) I J w : In c four -> shape_ok c s = true -> symmetric_in c s t ->
  in_shape s I = true -> in_shape s J = true -> carries c I (t I) J w -> w = t J.
Proof.
  intros C SO SY HI HJ CA. pose proof (in_shape_indices c s I SO HI) as II.
  destruct (four_idx c I C II) as (i & j & k & l & ->).
  assert (L3 : lt3 i /\ lt3 j /\ lt3 k /\ lt3 l).
  { pose proof (indices_full c _ II) as X. destruct C as [<-|[<-|[<-|[<-|[]]]]]; cbn [full_shape rank repeat in_shape] in X;
    repeat (apply andb_prop in X as [? X]); unfold lt3; repeat split; now apply Nat.ltb_lt. }
  destruct L3 as (L1 & L2 & L3 & L4).
  assert (P : forall J', in_shape s J' = true -> (if in_shape s J' then t J' else 0) = t J') by (intros J' ->; reflexivity).
  destruct CA as [[-> ->]|[(CC & O & ->)|[(-> & O & NE & ->)|(CC & O & ->)]]]; [reflexivity| | |].
  - assert (EXC : exchange (fun I => if in_shape s I then t I else 0)).
    { destruct CC as [->| ->]; [now destruct SY|exact SY]. }
    assert (O' : J = [i;j;k;l] \/ J = [k;l;i;j]) by (destruct CC as [->| ->]; simpl in O; intuition auto).
    destruct O' as [->| ->]; [reflexivity|]. specialize (EXC i j k l L1 L2 L3 L4). cbv beta in EXC. rewrite HI, HJ in EXC. auto.
  - specialize (SY i j k l L1 L2 L3 L4). cbv beta in SY. simpl in O. destruct O as [O|[O|[]]]; subst J; [congruence|]. rewrite HI, HJ in SY. auto.
  - assert (HER : hermitian_4 (fun I => if in_shape s I then t I else 0)).
    { destruct CC as [->| ->]; [now destruct SY|exact SY]. }
    destruct CC as [->| ->].
    + destruct SY as [_ EXC]. simpl in O. destruct O as [O|[O|[]]]; subst J.
      * specialize (HER i j k l L1 L2 L3 L4). cbv beta in HER. rewrite HI, HJ in HER. auto.
      * pose proof (HER k l i j L3 L4 L1 L2) as H1. pose proof (EXC i j k l L1 L2 L3 L4) as H2. cbv beta in H1, H2.
        rewrite HI in H2. rewrite HJ, H2 in H1. auto.
    + simpl in O. destruct O as [O|[]]; subst J. specialize (HER i j k l L1 L2 L3 L4). cbv beta in HER. rewrite HI, HJ in HER. auto.
Qed.
End J.
