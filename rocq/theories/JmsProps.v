(* C20-C22: dictionaries of JMS coefficients. *)
From Coq Require Import List Bool ZArith QArith Arith Lia String Ascii.
From Verif Require Import PyBase Num Lin SymModel SymClass SymSpec SymProofs SymCheck SymFacts EftModel EftSpec EftProofs EftLabels EftRound EftInit BasisProps JmsModel JmsSpec JmsProofs JmsArrays.
Import ListNotations.
Local Open Scope string_scope.
Local Open Scope list_scope.

(* ---------- C20 ---------- *)
(* Each coefficient of the input is carried by the symmetry of its operator to a key of
   the basis, and nothing else appears in the output.  Keys of the basis are kept.
   image k v k' w: the coefficient v under the key k is written as w under k'. *)
Theorem C20_keys_of_the_basis : forall (K : StarField) sp all real (d : dict string K),
  describes sp all real -> table_agrees sp -> wfdict d ->
  (forall k, In k (dkeys d) ->
     has_us k = false \/ In k all \/
     exists n c s I, In (n, (c, s)) sp /\ In c [Cl4; Cl41; Cl5; Cl71] /\ in_shape s I = true /\ exists_at c I /\ k = label n I) ->
  let image := fun k (v : K) k' w =>
    ((has_us k = false \/ In k all) /\ k' = k /\ w = v) \/
    (exists n c s I J, In (n, (c, s)) sp /\ In c [Cl4; Cl41; Cl5; Cl71] /\ in_shape s I = true /\ k = label n I /\ ~ In k all /\
       in_shape s J = true /\ In (label n J) all /\ k' = label n J /\ carries c I v J w) in
  exists Cs, symmetrize_JMS_dict all d = Ok Cs /\
    (forall k' w, dget Cs k' = Some w -> exists k v, dget d k = Some v /\ image k v k' w) /\
    (forall k v, dget d k = Some v -> exists k' w, image k v k' w /\ dget Cs k' <> None /\
       ((forall k2 v2 w2, dget d k2 = Some v2 -> image k2 v2 k' w2 -> k2 = k) -> dget Cs k' = Some w)).
Proof. intros K sp all real d D T WF R. exact (jms_dict_spec sp all real D T d WF R). Qed.
(* the output describes the same operator coefficients: if the input holds entries of a
   tensor with the symmetry, so does the output *)
Theorem C20_same_tensor : forall (K : StarField) sp all real (d Cs : dict string K) n c s (t : idx -> K),
  describes sp all real -> table_agrees sp -> wfdict d ->
  (forall k, In k (dkeys d) ->
     has_us k = false \/ In k all \/
     exists n c s I, In (n, (c, s)) sp /\ In c [Cl4; Cl41; Cl5; Cl71] /\ in_shape s I = true /\ exists_at c I /\ k = label n I) ->
  symmetrize_JMS_dict all d = Ok Cs ->
  In (n, (c, s)) sp -> c <> Cl0 -> symmetric_in c s t ->
  (forall I v, in_shape s I = true -> dget d (label n I) = Some v -> v = t I) ->
  forall J w, in_shape s J = true -> dget Cs (label n J) = Some w -> w = t J.
Proof.
  intros K sp all real d Cs n c s t D T WF R E H NC SY A J w HJ Hw.
  destruct (jms_dict_spec sp all real D T d WF R) as (Cs' & E' & O & _). assert (Cs' = Cs) by congruence. subst Cs'.
  destruct (O _ _ Hw) as (k & v & Hv & [(_ & EQ & ->)|(m & c' & s' & I & J' & Hm & CC & HI & -> & _ & HJ' & _ & EQ & CA)]).
  - subst k. now apply A.
  - apply label_inj in EQ as [<- <-];
      [|exact (d_no_us _ _ _ D n c s H)|exact (d_no_us _ _ _ D m c' s' Hm)|exact (op_sm sp all real D n c s J H HJ)|exact (op_sm sp all real D m c' s' J' Hm HJ')].
    destruct (op_uniq sp all real D n c s c' s' H Hm) as [<- <-].
    apply (carries_sym c s t I J w CC (d_shapes _ _ _ D n c s H) SY HI HJ). now rewrite <- (A I v HI Hv).
Qed.
(* coefficients of VeeLL, VeeRR, VnunuLL under redundant keys are silently lost *)
Theorem C20_nothing_lost_refuted : forall (K : StarField) sp all real n s I (v : K),
  describes sp all real -> table_agrees sp -> In (n, (Cl6, s)) sp -> in_shape s I = true -> nonredundant Cl6 I = false ->
  symmetrize_JMS_dict all [(label n I, v)] = Ok [].
Proof.
  intros K sp all real n s I v D T H HI NR. unfold symmetrize_JMS_dict. cbn [fold_left bind fst snd]. unfold jms_entry.
  pose proof (d_no_us _ _ _ D n Cl6 s H) as N. pose proof (op_sm sp all real D n Cl6 s I H HI) as SI.
  rewrite (has_us_label n I N SI), (in_all_iff sp all real D n Cl6 s I H ltac:(discriminate) HI (op_indices sp all real D n Cl6 s I H HI)), NR.
  cbn [negb orb]. rewrite (label_split n I N SI).
  rewrite (in_class_iff sp T n Cl6 s Cl5 H), (in_class_iff sp T n Cl6 s Cl41 H), (in_class_iff sp T n Cl6 s Cl4 H), (in_class_iff sp T n Cl6 s Cl71 H) by (simpl; tauto).
  reflexivity.
Qed.

(* ---------- C21 ---------- *)
Lemma rep_exists c s I : In c [Cl4; Cl41; Cl5; Cl71] -> shape_ok c s = true -> in_shape s I = true -> exists_at c I ->
  exists J, in_shape s J = true /\ In J (indices c) /\ nonredundant c J = true /\ In I (orbit c J).
Proof.
  intros C SO HI EX. pose proof (in_shape_indices c s I SO HI) as II.
  assert (X : forallb (fun c => forallb (fun I => if match c, I with Cl71, i :: j :: _ => Nat.eqb i j | _, _ => false end then true else
            existsb (fun J => nonredundant c J && kmem I (orbit c J)) (orbit c I)) (indices c)) [Cl4; Cl41; Cl5; Cl71] = true) by (vm_compute; reflexivity).
  rewrite forallb_forall in X. specialize (X c C). cbv beta in X. rewrite forallb_forall in X. specialize (X I II). cbv beta in X.
  assert (Y : existsb (fun J => nonredundant c J && kmem I (orbit c J)) (orbit c I) = true).
  { destruct (match c, I with Cl71, i :: j :: _ => Nat.eqb i j | _, _ => false end) eqn:Q; [|exact X]. exfalso.
    destruct c; try discriminate. destruct I as [|i [|j I]]; try discriminate. apply Nat.eqb_eq in Q. specialize (EX eq_refl). simpl in EX. contradiction. }
  apply existsb_exists in Y as (J & HJ & Y). apply andb_prop in Y as [NJ OJ]. apply kmem_In in OJ.
  exists J. split; [rewrite (orbit_shape c s I J C SO II HJ); exact HI|]. split; [now apply (orbit_indices c I)|]. auto.
Qed.
(* Every entry related by the symmetry to a coefficient of one of the requested sectors
   is filled with the related value. *)
Theorem C21_related_entries : forall (K : StarField) sp all real ks (C : dict string K),
  describes sp all real -> table_agrees sp -> (forall k, In k ks -> In k all) ->
  exists Ca, jms_to_array_keys ks C = Ok Ca /\
    (forall n s, In (n, (Cl0, s)) sp -> In n ks -> dget Ca n = Some (JNum (dgetd C n 0%K))) /\
    (forall n c s J, In (n, (c, s)) sp -> c <> Cl0 -> in_shape s J = true -> In (label n J) ks ->
       exists a, dget Ca n = Some (JArr (rank c) a) /\ a J = Some (dgetd C (label n J) 0%K) /\
         (In c [Cl4; Cl41; Cl5; Cl71] -> forall I, In I (plain_orbit c J ++ conj_orbit c J) ->
            exists w, a I = Some w /\ carries c J (dgetd C (label n J) 0%K) I w)).
Proof.
  intros K sp all real ks C D T HK. destruct (to_array_spec sp all real D T ks C HK) as (Ca & E & _ & SC & AR).
  exists Ca. split; [exact E|]. split.
  - intros n s H Hn. rewrite (SC n s H). apply kmem_In in Hn. now rewrite Hn.
  - intros n c s J H NC HJ KJ. specialize (AR n c s H NC). destruct (dget Ca n) as [v|]; [|exfalso; now apply (AR J)].
    destruct AR as (a0 & -> & A). exists (fill_of c a0). split; [reflexivity|].
    pose proof (op_indices sp all real D n c s J H HJ) as IJ.
    assert (A0 : a0 J = Some (dgetd C (label n J) 0%K)). { rewrite A by exact IJ. pose proof KJ as KJ'. apply kmem_In in KJ'. now rewrite HJ, KJ'. }
    split.
    + destruct c; cbn [fill_of]; unfold symm_herm, symm_current, antisymm_12, fill; now rewrite A0.
    + intros CC. assert (NJ : nonredundant c J = true).
      { pose proof (HK _ KJ) as X. apply kmem_In in X. now rewrite (in_all_iff sp all real D n c s J H NC HJ IJ) in X. }
      exact (fill_orbit sp all real D n c s ks a0 C J H CC HK A HJ NJ KJ).
Qed.
(* For an operator all of whose coefficients are requested (in particular when sectors is
   None) the array is the tensor with the symmetry that has the given coefficients;
   antisymmetric operators on entries with distinct first indices. *)
Theorem C21_symmetric_arrays : forall (K : StarField) sp all real ks (C : dict string K) Ca n c s,
  describes sp all real -> table_agrees sp -> (forall k, In k ks -> In k all) ->
  jms_to_array_keys ks C = Ok Ca ->
  In (n, (c, s)) sp -> c <> Cl0 -> c <> Cl6 -> c <> Cl2 -> c <> Cl7 -> c <> Cl8 -> c <> Cl9 ->
  (forall J, in_shape s J = true -> In (label n J) all -> In (label n J) ks) ->
  (forall J, in_shape s J = true -> real (label n J) = true -> In (label n J) all -> kreal (dgetd C (label n J) 0%K)) ->
  (exists J, in_shape s J = true /\ In (label n J) ks) ->
  exists a t, dget Ca n = Some (JArr (rank c) a) /\ symmetric_in c s t /\
    (forall J, in_shape s J = true -> In (label n J) all -> t J = dgetd C (label n J) 0%K) /\
    (forall I, in_shape s I = true -> exists_at c I -> a I = Some (t I)).
Proof.
  intros K sp all real ks C Ca n c s D T HK E H NC N6 N2 N7 N8 N9 FULL RE (J0 & HJ0 & KJ0).
  destruct (C21_related_entries K sp all real ks C D T HK) as (Ca' & E' & _ & V). assert (Ca' = Ca) by congruence. subst Ca'.
  destruct (V n c s J0 H NC HJ0 KJ0) as (a & G & _). exists a.
  assert (V' : forall J, in_shape s J = true -> In (label n J) ks -> a J = Some (dgetd C (label n J) 0%K) /\
     (In c [Cl4; Cl41; Cl5; Cl71] -> forall I, In I (orbit c J) -> exists w, a I = Some w /\ carries c J (dgetd C (label n J) 0%K) I w)).
  { intros J HJ KJ. destruct (V n c s J H NC HJ KJ) as (a' & G' & X). assert (a' = a) by congruence. subst a'. exact X. }
  pose proof (d_shapes _ _ _ D n c s H) as SO.
  set (b := fun I => if in_shape s I && nonredundant c I then dgetd C (label n I) 0%K else 0%K : K).
  assert (LAB : forall J, in_shape s J = true -> nonredundant c J = true -> In (label n J) all).
  { intros J HJ NJ. apply kmem_In. rewrite (in_all_iff sp all real D n c s J H NC HJ); [exact NJ|now apply (op_indices sp all real D n c s)]. }
  assert (NRD : forall J, in_shape s J = true -> In (label n J) all -> nonredundant c J = true).
  { intros J HJ X. apply kmem_In in X. rewrite (in_all_iff sp all real D n c s J H NC HJ) in X; [exact X|now apply (op_indices sp all real D n c s)]. }
  set (t := symmetrize k_alg c b).
  assert (TZ : forall J, In J (indices c) -> in_shape s J = false -> t J = 0%K).
  { intros J HJ EJ. apply (computed_zero (symmetrize k_alg) S c s b J computed_sym SO HJ). intros L _ EQ. unfold b. now rewrite EQ, EJ. }
  assert (TJ : forall J, in_shape s J = true -> In (label n J) all -> t J = dgetd C (label n J) 0%K).
  { intros J HJ AJ. pose proof (NRD J HJ AJ) as NJ. pose proof (op_indices sp all real D n c s J H HJ) as IJ.
    unfold t. rewrite (S15 c b J IJ NJ). unfold b. rewrite HJ, NJ. cbn [andb].
    destruct (real_entry c J) eqn:RJ; [|reflexivity]. apply kre_of_real. apply RE; auto.
    destruct (all_label sp all real D n c s J H) as [_ X]; [apply nonred_in_spec; auto|]. rewrite (op_label_arr n c J NC) in X. congruence. }
  assert (SYM : symmetric_in c s t).
  { unfold symmetric_in. apply (has_symmetry_ext c t).
    - intros J HJ. destruct (in_shape s J) eqn:EJ; [reflexivity|now apply TZ].
    - assert (D71 : c = Cl71 \/ c <> Cl71) by (destruct c; ((now left)||(right; discriminate))). destruct D71 as [->|N71].
      + apply S14_71_diag. intros i k l _ _ _. unfold b. cbn [nonredundant]. rewrite Nat.ltb_irrefl, andb_false_r. reflexivity.
      + now apply S14. }
  exists t. split; [exact G|]. split; [exact SYM|]. split; [exact TJ|].
  intros I HI EX. assert (D4 : In c [Cl4; Cl41; Cl5; Cl71] \/ (c = Cl1 \/ c = Cl3)) by (destruct c; simpl; tauto).
  destruct D4 as [C4|C13].
  - destruct (rep_exists c s I C4 SO HI EX) as (J & HJ & IJ & NJ & OJ).
    destruct (V' J HJ (FULL J HJ (LAB J HJ NJ))) as [_ X]. destruct (X C4 I OJ) as (w & -> & CA). f_equal.
    apply (carries_sym c s t J I w C4 SO SYM HJ HI). now rewrite (TJ J HJ (LAB J HJ NJ)).
  - assert (NI : nonredundant c I = true).
    { pose proof (op_indices sp all real D n c s I H HI) as II.
      assert (X : forallb (fun c => forallb (nonredundant c) (indices c)) [Cl1; Cl3] = true) by (vm_compute; reflexivity).
      rewrite forallb_forall in X. assert (Y : In c [Cl1; Cl3]) by (destruct C13 as [->| ->]; simpl; tauto).
      specialize (X c Y). cbv beta in X. rewrite forallb_forall in X. now apply X. }
    destruct (V' I HI (FULL I HI (LAB I HI NI))) as [-> _]. f_equal. symmetry. apply TJ; auto.
Qed.
(* The arrays of VeeLL, VeeRR, VnunuLL keep undefined entries, whatever the
   coefficients, and so do the entries of antisymmetric operators with equal first indices. *)
Theorem C21_completely_filled_refuted : forall (K : StarField) sp all real ks (C : dict string K) Ca,
  describes sp all real -> table_agrees sp -> (forall k, In k ks -> In k all) -> jms_to_array_keys ks C = Ok Ca ->
  forall n c s I, In (n, (c, s)) sp -> in_shape s I = true ->
  (c = Cl6 /\ nonredundant c I = false) \/ (c = Cl71 /\ ~ exists_at c I) ->
  match dget Ca n with Some (JArr _ a) => a I = None | Some (JNum _) => False | None => True end.
Proof.
  intros K sp all real ks C Ca D T HK E n c s I H HI CI.
  destruct (to_array_spec sp all real D T ks C HK) as (Ca' & E' & _ & _ & AR). assert (Ca' = Ca) by congruence. subst Ca'.
  assert (NC : c <> Cl0) by (destruct CI as [[-> _]|[-> _]]; discriminate).
  pose proof (op_indices sp all real D n c s I H HI) as II.
  specialize (AR n c s H NC). destruct (dget Ca n) as [v|]; [|exact Logic.I]. destruct AR as (a0 & -> & A).
  assert (Z : nonredundant c I = false -> a0 I = None).
  { intros NR. rewrite A by exact II. destruct (kmem (label n I) ks) eqn:EK; [|now rewrite andb_false_r].
    apply kmem_In, HK, kmem_In in EK. rewrite (in_all_iff sp all real D n c s I H NC HI II) in EK. congruence. }
  destruct CI as [[-> NR]|[-> NE]].
  - cbn [fill_of]. now apply Z.
  - destruct (four_idx Cl71 I ltac:(simpl; tauto) II) as (i & j & k & l & ->).
    assert (i = j). { destruct (Nat.eq_dec i j) as [|N]; [assumption|]. exfalso. apply NE. intros _. exact N. } subst j.
    assert (Z0 : a0 [i;i;k;l] = None) by (apply Z; cbn [nonredundant]; apply Nat.ltb_irrefl).
    cbn [fill_of]. unfold antisymm_12, fill. cbn [perm_12]. now rewrite Z0.
Qed.
(* The keys used by JMS_to_array: all of the basis, or those of the given sectors; with
   an unknown sector the function fails (with UnboundLocalError, not KeyError). *)
Theorem C21_sectors : forall (K : StarField) all (bs : dict string (list string)) (C : dict string K),
  JMS_to_array all bs C None = jms_to_array_keys all C /\
  (forall ss, (forall x, In x ss -> dget bs x <> None) ->
     exists ks, JMS_to_array all bs C (Some ss) = jms_to_array_keys ks C /\
       forall k, In k ks <-> exists x l, In x ss /\ dget bs x = Some l /\ In k l) /\
  (forall ss x, In x ss -> dget bs x = None -> JMS_to_array all bs C (Some ss) = Err UnboundLocalError).
Proof.
  intros K all bs C. split; [reflexivity|]. unfold JMS_to_array. split.
  - intros ss H.
    assert (X : exists ks, fold_right (fun s acc => match dget bs s, acc with Some ks, Some r => Some (ks ++ r) | _, _ => None end) (Some []) ss = Some ks /\
       forall k, In k ks <-> exists x l, In x ss /\ dget bs x = Some l /\ In k l).
    { induction ss as [|x ss IH].
      - exists []. split; [reflexivity|]. intros k. split; [intros []|]. intros (x & l & [] & _).
      - destruct IH as (ks & E & V); [intros; apply H; now right|]. cbn [fold_right]. rewrite E.
        destruct (dget bs x) as [l|] eqn:L; [|exfalso; now apply (H x (or_introl eq_refl))]. exists (l ++ ks). split; [reflexivity|].
        intros k. rewrite in_app_iff, V. split.
        + intros [A|(y & m & A & B & D)]; [exists x, l; simpl; auto|exists y, m; simpl; auto].
        + intros (y & m & [<-|A] & B & D); [left; congruence|right; eauto]. }
    destruct X as (ks & -> & V). exists ks. auto.
  - intros ss x H N.
    assert (X : fold_right (fun s acc => match dget bs s, acc with Some ks, Some r => Some (ks ++ r) | _, _ => None end) (Some []) ss = None).
    { induction ss as [|y ss IH]; [destruct H|]. cbn [fold_right]. destruct H as [->|H].
      - now rewrite N.
      - rewrite (IH H). now destruct (dget bs y). }
    now rewrite X.
Qed.

(* ---------- C22 ---------- *)
(* The factor of an entry is the number of entries related to it without conjugation. *)
Definition factor_of (c : cls) (I : idx) : nat :=
  match c with
  | Cl4 | Cl41 | Cl6 | Cl71 => List.length (nodup (list_eq_dec Nat.eq_dec) (plain_orbit c I))
  | _ => 1
  end.
Definition jms_shape (c : cls) : option (list nat) :=
  match c with Cl0 => None | Cl1 => Some [3;3] | _ => Some [3;3;3;3] end%nat.
(* name n is listed under class c in C_symm_keys *)
Definition listed (n : string) (c : cls) : Prop := In n (dgetd jms_symm_keys c []).
Lemma count_nodup (l : list idx) : count_distinct l = List.length (nodup (list_eq_dec Nat.eq_dec) l).
Proof.
  unfold count_distinct. f_equal. induction l as [|x l IH]; [reflexivity|]. cbn [fold_right nodup].
  assert (SAME : forall y, In y (fold_right (fun x r => if kmem x r then r else x :: r) [] l) <-> In y l).
  { clear IH. intros y. induction l as [|z l IH]; [reflexivity|]. cbn [fold_right].
    set (r := fold_right (fun x r => if kmem x r then r else x :: r) [] l) in *. destruct (kmem z r) eqn:E.
    - rewrite IH. split; [now right|]. intros [<-|X]; [|exact X]. apply IH. now apply kmem_In.
    - cbn [In]. rewrite IH. reflexivity. }
  destruct (in_dec (list_eq_dec Nat.eq_dec) x l) as [I|N].
  - apply SAME in I. apply kmem_In in I. rewrite I. exact IH.
  - assert (E : kmem x (fold_right (fun x r => if kmem x r then r else x :: r) [] l) = false) by (apply kmem_nIn; now rewrite SAME).
    rewrite E. f_equal. exact IH.
Qed.
Lemma nodup_swap (x y z w : idx) : List.length (nodup (list_eq_dec Nat.eq_dec) [x; y; z; w]) = List.length (nodup (list_eq_dec Nat.eq_dec) [x; y; w; z]).
Proof.
  apply Nat.le_antisymm; apply NoDup_incl_length; try apply NoDup_nodup; intros v Hv; apply nodup_In; apply nodup_In in Hv; simpl in *; tauto.
Qed.
Definition classes8 : list cls := [Cl0; Cl1; Cl3; Cl4; Cl41; Cl5; Cl6; Cl71].
Lemma listed_factor n c : In c classes8 -> listed n c ->
  exists d, scale_factor n = Some (match jms_shape c with None => None | Some s => Some (s, d) end) /\
    forall I, List.length I = 4%nat \/ c = Cl1 -> d I = factor_of c I.
Proof.
  intros C L. unfold listed in L.
  assert (X : forallb (fun c => forallb (fun n =>
     match c with
     | Cl0 => match scale_factor n with Some None => true | _ => false end
     | _ => forallb (fun c' => Bool.eqb (in_class c' n) (keqb c c')) classes8 end) (dgetd jms_symm_keys c [])) classes8 = true)
    by (vm_compute; reflexivity).
  rewrite forallb_forall in X. specialize (X c C). cbv beta in X. rewrite forallb_forall in X. specialize (X n L). cbv beta in X.
  assert (D0 : c = Cl0 \/ c <> Cl0) by apply cl0_dec. destruct D0 as [->|N0].
  - exists (fun _ => 1%nat). split; [|reflexivity]. cbn [jms_shape]. destruct (scale_factor n) as [[|]|]; [discriminate|reflexivity|discriminate].
  - assert (Y : forall c', In c' classes8 -> in_class c' n = keqb c c').
    { intros c' C'. assert (X' : forallb (fun c' => Bool.eqb (in_class c' n) (keqb c c')) classes8 = true) by (destruct c; try exact X; congruence).
      rewrite forallb_forall in X'. specialize (X' c' C'). now apply Bool.eqb_prop in X'. }
    unfold scale_factor. rewrite !Y by (simpl; tauto).
    assert (N : forall I : idx, List.length I = 4%nat -> exists i j k l, I = [i;j;k;l]).
    { intros [|i [|j [|k [|l [|]]]]]; try discriminate. intros _. now exists i, j, k, l. }
    destruct C as [<-|[<-|[<-|[<-|[<-|[<-|[<-|[<-|[]]]]]]]]]; try congruence; cbn [keqb cls_eqb EqKey_cls orb jms_shape];
      (eexists; split; [reflexivity|]); intros I [HI|HI]; try discriminate; try reflexivity;
      destruct (N I HI) as (i & j & k & l & ->); cbn [factor_of plain_orbit]; unfold d_4, d_6, d_7; rewrite count_nodup; try reflexivity.
    apply nodup_swap.
Qed.
Lemma factor_bounds c I : In c classes8 -> List.length I = 4%nat \/ c = Cl1 -> In (factor_of c I) [1;2;4]%nat.
Proof.
  intros C [L| ->]; [|simpl; tauto]. destruct I as [|i [|j [|k [|l [|]]]]]; try discriminate.
  assert (B2 : forall x y : idx, In (List.length (nodup (list_eq_dec Nat.eq_dec) [x; y])) [1;2;4]%nat).
  { intros x y. cbn [nodup in_dec]. destruct (in_dec (list_eq_dec Nat.eq_dec) x [y]); simpl; tauto. }
  destruct C as [<-|[<-|[<-|[<-|[<-|[<-|[<-|[<-|[]]]]]]]]]; cbn [factor_of plain_orbit]; auto; try (simpl; tauto).
  assert (SAME : forall l m : list idx, incl l m -> incl m l -> List.length (nodup (list_eq_dec Nat.eq_dec) l) = List.length (nodup (list_eq_dec Nat.eq_dec) m)).
  { intros x y A B. apply Nat.le_antisymm; apply NoDup_incl_length; try apply NoDup_nodup; intros v Hv; apply nodup_In; apply nodup_In in Hv; auto. }
  destruct (Nat.eq_dec i k) as [->|NIK]; [|destruct (Nat.eq_dec j l) as [->|NJL]].
  - rewrite (SAME _ [[k;j;k;l]; [k;l;k;j]]) by (intros v; simpl; tauto). apply B2.
  - rewrite (SAME _ [[i;l;k;l]; [k;l;i;l]]) by (intros v; simpl; tauto). apply B2.
  - rewrite (nodup_fixed_point (list_eq_dec Nat.eq_dec)); [simpl; tauto|].
    repeat constructor; simpl; intuition congruence.
Qed.
(* a dictionary of arrays (or numbers) of JMS operators *)
Definition jms_values {K : StarField} (C : dict string (cval K)) : Prop :=
  forall n v, In (n, v) C -> exists c, In c classes8 /\ listed n c /\ has_shape (jms_shape c) v.
Definition same_values {K : StarField} (C C' : dict string (cval K)) : Prop :=
  Forall2 (fun x y => fst x = fst y /\ cv_eq (snd x) (snd y)) C C'.
(* every value multiplied by its factor *)
Definition scaled_by {K : StarField} (f : nat -> K -> K) (C C' : dict string (cval K)) : Prop :=
  Forall2 (fun x y => fst x = fst y /\ exists c, In c classes8 /\ listed (fst x) c /\
    match snd x, snd y with
    | CNum z, CNum w => w = f 1%nat z
    | CArr s a, CArr s' b => s' = s /\ forall I, in_shape s I = true -> b I = f (factor_of c I) (a I)
    | _, _ => False
    end) C C'.
Lemma map_vals_scaled {K : StarField} (f : nat -> K -> K) (C : dict string (cval K)) : jms_values C ->
  exists C', map_vals (apply_factor f) C = Ok C' /\ scaled_by f C C' /\ jms_values C'.
Proof.
  induction C as [|[n v] C IH]; intros V.
  - exists []. split; [reflexivity|]. split; [constructor|]. intros ? ? [].
  - destruct IH as (C' & E & S1 & V'); [intros m w Hm; apply V; now right|].
    destruct (V n v (or_introl eq_refl)) as (c & HC & L & HS). destruct (listed_factor n c HC L) as (d & F & FD).
    assert (X : exists v', apply_factor f n v = Ok v' /\ has_shape (jms_shape c) v' /\
      match v, v' with CNum z, CNum w => w = f 1%nat z
      | CArr s a, CArr s' b => s' = s /\ forall I, in_shape s I = true -> b I = f (factor_of c I) (a I) | _, _ => False end).
    { unfold apply_factor. rewrite F. destruct (jms_shape c) as [s|] eqn:JS.
      - destruct v as [z|s' a]; simpl in HS; [contradiction|]. subst s'. rewrite (keqb_refl s). eexists; split; [reflexivity|].
        split; [reflexivity|]. split; [reflexivity|]. intros I HI. f_equal. apply FD. apply in_shape_length in HI. rewrite HI.
        destruct c; try discriminate JS; injection JS as <-; auto.
      - destruct v as [z|s' a]; simpl in HS; [|contradiction]. eexists; split; [reflexivity|]. split; reflexivity. }
    destruct X as (v' & E1 & HS' & X). exists ((n, v') :: C'). cbn [map_vals]. rewrite E1. cbn [bind]. rewrite E.
    split; [reflexivity|]. split.
    + constructor; [|exact S1]. cbn [fst snd]. split; [reflexivity|]. exists c. auto.
    + intros m w [EQ|Hm]; [|now apply V']. injection EQ as <- <-. eauto.
Qed.
Lemma kZ_nat_neq {K : StarField} n : In n [1;2;4]%nat -> kZ (Z.of_nat n) <> (0 : K)%K.
Proof. intros H E. apply kZ_inj0 in E. simpl in H. lia. Qed.
Lemma scaled_inv {K : StarField} (f g : nat -> K -> K) (C C1 C2 : dict string (cval K)) :
  (forall n z, In n [1;2;4]%nat -> g n (f n z) = z) -> jms_values C ->
  scaled_by f C C1 -> scaled_by g C1 C2 -> same_values C C2.
Proof.
  intros FG V S1. revert C2. induction S1 as [|[n v] [n1 v1] C C1 (EN & c & HC & L & M) S1 IH]; intros C2 S2; inversion S2; subst; [constructor|].
  destruct H1 as (EN2 & c2 & HC2 & L2 & M2). cbn [fst snd] in *. subst n1. destruct y as [n2 v2]. cbn [fst snd] in *. subst n2.
  assert (c2 = c).
  { unfold listed in *.
    assert (U : forallb (fun c => forallb (fun c' => if keqb c c' then true else forallb (fun x => negb (kmem x (dgetd jms_symm_keys c' []))) (dgetd jms_symm_keys c [])) classes8) classes8 = true) by (vm_compute; reflexivity).
    rewrite forallb_forall in U. specialize (U c HC). cbv beta in U. rewrite forallb_forall in U. specialize (U c2 HC2). cbv beta in U.
    destruct (keqb_spec c c2) as [->|]; [reflexivity|]. rewrite forallb_forall in U. specialize (U n L). apply negb_true_iff, kmem_nIn in U. contradiction. }
  subst c2. constructor.
  - cbn [fst snd]. split; [reflexivity|]. destruct v as [z|s a], v1 as [z1|s1 a1], v2 as [z2|s2 a2]; try contradiction.
    + subst. simpl. symmetry. apply FG. simpl; tauto.
    + destruct M as [-> M], M2 as [-> M2]. simpl. split; [reflexivity|]. intros I HI. rewrite M2 by exact HI. rewrite M by exact HI. rewrite FG.
      * reflexivity.
      * destruct (V n (CArr s a) (or_introl eq_refl)) as (c3 & HC3 & L3 & HS).
        apply factor_bounds; [exact HC|].
        assert (c3 = c).
        { unfold listed in *.
          assert (U : forallb (fun c => forallb (fun c' => if keqb c c' then true else forallb (fun x => negb (kmem x (dgetd jms_symm_keys c' []))) (dgetd jms_symm_keys c [])) classes8) classes8 = true) by (vm_compute; reflexivity).
          rewrite forallb_forall in U. specialize (U c HC). cbv beta in U. rewrite forallb_forall in U. specialize (U c3 HC3). cbv beta in U.
          destruct (keqb_spec c c3) as [->|]; [reflexivity|]. rewrite forallb_forall in U. specialize (U n L). apply negb_true_iff, kmem_nIn in U. contradiction. }
        subst c3. apply in_shape_length in HI. rewrite HI. destruct c; simpl in HS; try contradiction; subst s; auto.
  - apply IH; [intros m w Hm; apply V; now right|assumption].
Qed.
(* The symmetry factors are 1, 2 or 4: the number of entries related by the symmetry. *)
Theorem C22_factors : forall (K : StarField) (C : dict string (cval K)), jms_values C ->
  exists C1 C2, scale_dict_wet C = Ok C1 /\ unscale_dict_wet C = Ok C2 /\
    scaled_by (fun n z => z / kZ (Z.of_nat n))%K C C1 /\ scaled_by (fun n z => kZ (Z.of_nat n) * z)%K C C2 /\
    (forall c I, In c classes8 -> List.length I = 4%nat \/ c = Cl1 -> In (factor_of c I) [1;2;4]%nat).
Proof.
  intros K C V. destruct (map_vals_scaled (fun n z => z / kZ (Z.of_nat n))%K C V) as (C1 & E1 & S1 & _).
  destruct (map_vals_scaled (fun n z => kZ (Z.of_nat n) * z)%K C V) as (C2 & E2 & S2 & _).
  exists C1, C2. repeat split; auto. exact factor_bounds.
Qed.
Section FieldFacts.
Context {K : StarField}.
Add Field KFj : (k_field K).
Lemma kdiv_mul (z x : K) : x <> 0%K -> (z / x * x = z)%K.
Proof. intros. field. assumption. Qed.
Lemma kmul_div_l (z x : K) : x <> 0%K -> (x * z / x = z)%K.
Proof. intros. field. assumption. Qed.
End FieldFacts.
Theorem C22_unscale_scale : forall (K : StarField) (C : dict string (cval K)), jms_values C ->
  exists C1 C2, scale_dict_wet C = Ok C1 /\ unscale_dict_wet C1 = Ok C2 /\ same_values C C2.
Proof.
  intros K C V. destruct (map_vals_scaled (fun n z => z / kZ (Z.of_nat n))%K C V) as (C1 & E1 & S1 & V1).
  destruct (map_vals_scaled (fun n z => kZ (Z.of_nat n) * z)%K C1 V1) as (C2 & E2 & S2 & _).
  exists C1, C2. split; [exact E1|]. split; [exact E2|]. refine (scaled_inv _ _ C C1 C2 _ V S1 S2).
  intros n z Hn. pose proof (kZ_nat_neq (K:=K) n Hn). rewrite kmul_comm. apply (kdiv_mul z). assumption.
Qed.
Theorem C22_scale_unscale : forall (K : StarField) (C : dict string (cval K)), jms_values C ->
  exists C1 C2, unscale_dict_wet C = Ok C1 /\ scale_dict_wet C1 = Ok C2 /\ same_values C C2.
Proof.
  intros K C V. destruct (map_vals_scaled (fun n z => kZ (Z.of_nat n) * z)%K C V) as (C1 & E1 & S1 & V1).
  destruct (map_vals_scaled (fun n z => z / kZ (Z.of_nat n))%K C1 V1) as (C2 & E2 & S2 & _).
  exists C1, C2. split; [exact E1|]. split; [exact E2|]. refine (scaled_inv _ _ C C1 C2 _ V S1 S2).
  intros n z Hn. pose proof (kZ_nat_neq (K:=K) n Hn). apply kmul_div_l. assumption.
Qed.
Print Assumptions C20_keys_of_the_basis.
Print Assumptions C20_same_tensor.
Print Assumptions C20_nothing_lost_refuted.
Print Assumptions C21_related_entries.
Print Assumptions C21_symmetric_arrays.
Print Assumptions C21_completely_filled_refuted.
Print Assumptions C21_sectors.
Print Assumptions C22_factors.
Print Assumptions C22_unscale_scale.
Print Assumptions C22_scale_unscale.

(* the JMS operators of BasisProps.v agree with the table *)
Example ex20_table : table_agrees jms_ops.
Proof.
  intros n c s c' H C.
  assert (X : forallb (fun o => forallb (fun c' => Bool.eqb (kmem (fst o) (dgetd jms_symm_keys c' [])) (keqb (fst (snd o)) c')) [Cl4; Cl41; Cl5; Cl71]) jms_ops = true)
    by (vm_compute; reflexivity).
  rewrite forallb_forall in X. specialize (X _ H). cbv beta in X. rewrite forallb_forall in X. specialize (X _ C). cbn [fst snd] in X.
  apply Bool.eqb_prop in X. rewrite <- kmem_In, X. apply keqb_eq.
Qed.
(* a redundant key of each class; the antisymmetric one changes sign *)
Example ex20_run : forall (K : StarField) (v : K), symmetrize_JMS_dict (all_of jms_ops)
    [("VuuRR_2111", v); ("SuudLR_2113", v); ("V1udLL_2111", v); ("S1ddRR_2311", v); ("VeeLL_2111", v); ("G", v)] =
  Ok [("VuuRR_1112", (v^*)%K); ("SuudLR_1213", (- v)%K); ("V1udLL_1211", (v^*)%K); ("S1ddRR_1123", v); ("G", v)].
Proof. intros. vm_compute. reflexivity. Qed.
Example ex21_run : forall (K : StarField) (v : K),
  match jms_to_array_keys ["VuuRR_1112"; "SuudLR_1213"; "G"] [("VuuRR_1112", v); ("SuudLR_1213", v)] with
  | Ok [("VuuRR", JArr 4 a); ("SuudLR", JArr 4 b); ("G", JNum g)] =>
      a [0;0;1;0]%nat = Some (v^*)%K /\ a [0;1;0;0]%nat = Some v /\ b [1;0;0;2]%nat = Some (- v)%K /\ b [0;0;0;2]%nat = None /\ g = 0%K
  | _ => False
  end.
Proof. intros. vm_compute. repeat split. Qed.
