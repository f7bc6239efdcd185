(* Lemmas for C21: JMS_to_array. *)
From Coq Require Import List Bool ZArith QArith Arith Lia String Ascii.
From Verif Require Import PyBase Num Lin SymModel SymClass SymSpec EftModel EftSpec EftProofs EftLabels EftRound EftInit JmsModel JmsSpec JmsProofs.
Import ListNotations.
Local Open Scope string_scope.
Local Open Scope list_scope.

Section A.
Context {K : StarField}.
Local Open Scope K_scope.
Variable sp : list opspec.
Variable all : list string.
Variable real : string -> bool.
Hypothesis D : describes sp all real.
Hypothesis T : table_agrees sp.
Notation jdict := (dict string (jval K)).

Definition s2a_inv (d : dict string K) (da : jdict) : Prop :=
  (forall n, In n (dkeys da) -> In n (map fst sp)) /\
  (forall n s, In (n, (Cl0, s)) sp -> dget da n = match dget d n with Some z => Some (JNum z) | None => None end) /\
  (forall n c s, In (n, (c, s)) sp -> c <> Cl0 ->
     match dget da n with
     | None => forall I, in_shape s I = true -> dget d (label n I) = None
     | Some v => exists a, v = JArr (rank c) a /\
         forall I, In I (indices c) -> a I = if in_shape s I then dget d (label n I) else None
     end).
Lemma digits_length I : String.length (digits I) = List.length I.
Proof. induction I as [|i I IH]; [reflexivity|]. cbn [digits String.length List.length]. now rewrite IH. Qed.
Lemma indices_length c I : In I (indices c) -> List.length I = rank c.
Proof.
  intros H. apply indices_full, in_shape_length in H. rewrite H. unfold full_shape. apply repeat_length.
Qed.
Lemma op_key_cases k : In k all -> exists n c s I, In (n, (c, s)) sp /\ in_shape s I = true /\ k = op_label n c I.
Proof.
  intros H. destruct (all_cases sp all real D k H) as (n & c & s & I & Ho & HI & -> & _).
  apply nonred_in_spec in HI as (_ & HI & _). eauto 8.
Qed.
Lemma s2a_step_inv (d : dict string K) da k v : s2a_inv d da -> ~ In k (dkeys d) -> In k all ->
  exists da', s2a_step da (k, v) = Ok da' /\ s2a_inv (d ++ [(k, v)]) da'.
Proof.
  intros (KK & SC & AR) NI HK. destruct (op_key_cases k HK) as (n & c & s & I & H & HI & ->).
  pose proof (d_no_us _ _ _ D n c s H) as N. pose proof (op_sm sp all real D n c s I H HI) as SI.
  unfold s2a_step. cbn [fst snd]. destruct (cl0_dec c) as [->|NC].
  - cbn [op_label] in *. assert (U : has_us n = false) by (unfold has_us; rewrite N; reflexivity). rewrite U. cbn [negb].
    eexists; split; [reflexivity|]. split; [|split].
    + intros m Hm. apply In_dkeys_dset in Hm as [->|Hm]; [|auto]. apply in_map_iff. now exists (n, (Cl0, s)).
    + intros m t Hm. rewrite dget_dset, (dget_app_last d n v m NI). destruct (keqb_spec m n) as [->|]; [reflexivity|]. now apply (SC m t).
    + intros m c t Hm NC. assert (NE : m <> n).
      { intros ->. destruct (op_uniq sp all real D n c t Cl0 s Hm H). congruence. }
      rewrite dget_dset_neq by exact NE. specialize (AR m c t Hm NC).
      assert (LN : forall J, in_shape t J = true -> dget (d ++ [(n, v)]) (label m J) = dget d (label m J)).
      { intros J HJ. rewrite (dget_app_last d n v _ NI). destruct (keqb_spec (label m J) n) as [EQ|]; [|reflexivity].
        exfalso. apply (label_not_plain m n J) in EQ; auto; [exact (d_no_us _ _ _ D m c t Hm)|exact (op_sm sp all real D m c t J Hm HJ)]. }
      destruct (dget da m) as [w|].
      * destruct AR as (a & -> & A). exists a. split; [reflexivity|]. intros J HJ. rewrite A by exact HJ.
        destruct (in_shape t J) eqn:EJ; [|reflexivity]. symmetry. now apply LN.
      * intros J HJ. rewrite LN by exact HJ. now apply AR.
  - rewrite (op_label_arr n c I NC) in *. rewrite (has_us_label n I N SI). cbn [negb].
    rewrite (label_split n I N SI). unfold index_of. rewrite (label_split n I N SI). cbn [removelast List.last].
    replace (String.concat "" [n]) with n by reflexivity.
    pose proof (op_indices sp all real D n c s I H HI) as II. rewrite digits_length, (indices_length c I II).
    set (old := match dget da n with Some x => x | None => JArr (rank c) (fun _ => None) end).
    assert (O : exists a, old = JArr (rank c) a /\ forall J, In J (indices c) -> a J = if in_shape s J then dget d (label n J) else None).
    { specialize (AR n c s H NC). unfold old. destruct (dget da n) as [w|].
      - exact AR.
      - exists (fun _ => None). split; [reflexivity|]. intros J HJ. destruct (in_shape s J) eqn:EJ; [|reflexivity]. now rewrite AR. }
    destruct O as (a & -> & OA). rewrite int_chars_digits by exact SI. cbn [bind].
    pose proof (norm_index_in (repeat 3%nat (rank c)) I (indices_full c I II)) as NM. rewrite NM. cbn [bind].
    eexists; split; [reflexivity|]. split; [|split].
    + intros m Hm. apply In_dkeys_dset in Hm as [->|Hm]; [|auto]. apply in_map_iff. now exists (n, (c, s)).
    + intros m t Hm. assert (NE : m <> n).
      { intros ->. destruct (op_uniq sp all real D n c s Cl0 t H Hm). congruence. }
      rewrite dget_dset_neq by exact NE. rewrite (dget_app_last d _ v m NI). destruct (keqb_spec m (label n I)) as [EQ|]; [|now apply (SC m t)].
      exfalso. symmetry in EQ. apply (label_not_plain n m I) in EQ; auto. exact (d_no_us _ _ _ D m Cl0 t Hm).
    + intros m c2 t Hm NC2. rewrite dget_dset. destruct (keqb_spec m n) as [->|NE].
      * destruct (op_uniq sp all real D n c s c2 t H Hm) as [<- <-]. eexists; split; [reflexivity|]. intros J HJ. cbv beta.
        rewrite prefixb_eq by (now rewrite (indices_length c I II), (indices_length c J HJ)).
        rewrite (dget_app_last d _ v _ NI). destruct (@keqb_spec (list nat) _ I J) as [<-|NE].
        -- now rewrite HI, keqb_refl.
        -- rewrite OA by exact HJ. destruct (in_shape s J) eqn:EJ; [|reflexivity].
           destruct (keqb_spec (label n J) (label n I)) as [EQ|]; [|reflexivity].
           exfalso. apply label_inj in EQ as [_ EQ]; auto. exact (op_sm sp all real D n c s J H EJ).
      * specialize (AR m c2 t Hm NC2).
        assert (LN : forall J, in_shape t J = true -> dget (d ++ [(label n I, v)]) (label m J) = dget d (label m J)).
        { intros J HJ. rewrite (dget_app_last d _ v _ NI). destruct (keqb_spec (label m J) (label n I)) as [EQ|]; [|reflexivity].
          exfalso. apply label_inj in EQ as [EQ _]; auto; [exact (d_no_us _ _ _ D m c2 t Hm)|exact (op_sm sp all real D m c2 t J Hm HJ)]. }
        destruct (dget da m) as [w|].
        -- destruct AR as (b & -> & A). exists b. split; [reflexivity|]. intros J HJ. rewrite A by exact HJ.
           destruct (in_shape t J) eqn:EJ; [|reflexivity]. symmetry. now apply LN.
        -- intros J HJ. rewrite LN by exact HJ. now apply AR.
Qed.
Lemma s2a_spec (d : dict string K) : wfdict d -> (forall k, In k (dkeys d) -> In k all) ->
  exists da, scalar2array d = Ok da /\ s2a_inv d da.
Proof.
  unfold scalar2array. induction d as [|[k v] d IH] using rev_ind; intros WF G.
  - exists []. split; [reflexivity|]. split; [intros n []|]. split; intros; simpl; auto.
  - assert (NI : ~ In k (dkeys d) /\ wfdict d).
    { unfold wfdict, dkeys in *. rewrite map_app in WF. simpl in WF. apply NoDup_remove in WF as [W1 W2]. rewrite app_nil_r in *. auto. }
    destruct NI as [NI WF']. destruct IH as (C & E1 & INV); [exact WF'| |].
    + intros j Hj. apply G. unfold dkeys. rewrite map_app. apply in_or_app. now left.
    + rewrite fold_left_app. simpl. rewrite E1. simpl. apply s2a_step_inv; auto.
      apply G. unfold dkeys. rewrite map_app. apply in_or_app. right. now left.
Qed.
Lemma fill_all_spec (da : jdict) : (forall k v, In (k, v) da -> exists v', fill_val k v = Ok v') ->
  exists Ca, fill_all da = Ok Ca /\ dkeys Ca = dkeys da /\
    forall k v, dget da k = Some v -> exists v', fill_val k v = Ok v' /\ dget Ca k = Some v'.
Proof.
  induction da as [|[k v] da IH]; intros H.
  - exists []. split; [reflexivity|]. split; [reflexivity|]. discriminate.
  - destruct IH as (Ca & E1 & E2 & E3); [intros; apply H; now right|]. destruct (H k v (or_introl eq_refl)) as (v' & Ev).
    exists ((k, v') :: Ca). cbn [fill_all]. rewrite Ev. cbn [bind]. rewrite E1. split; [reflexivity|].
    split; [cbn [dkeys map fst]; unfold dkeys in E2; now rewrite E2|].
    intros k0 v0. cbn [dget]. destruct (keqb_spec k0 k) as [->|N]; [|now apply E3]. intros X. injection X as <-. eauto.
Qed.
Definition fill_of (c : cls) (a : idx -> option K) : idx -> option K :=
  match c with
  | Cl5 => symm_herm a
  | Cl41 => symm_current a
  | Cl4 => symm_herm (symm_current a)
  | Cl71 => antisymm_12 a
  | _ => a
  end.
Lemma fill_val_op n c s (v : jval K) : In (n, (c, s)) sp -> (c = Cl0 /\ (exists z, v = JNum z)) \/ (c <> Cl0 /\ exists a, v = JArr (rank c) a) ->
  fill_val n v = Ok (match v with JNum z => JNum z | JArr m a => JArr m (fill_of c a) end).
Proof.
  intros H HV. unfold fill_val.
  rewrite (in_class_iff sp T n c s Cl5 H), (in_class_iff sp T n c s Cl41 H), (in_class_iff sp T n c s Cl4 H), (in_class_iff sp T n c s Cl71 H) by (simpl; tauto).
  destruct HV as [(-> & z & ->)|(NC & a & ->)]; [reflexivity|]. destruct c; try reflexivity.
Qed.
Lemma completed_get ks (C : dict string K) : forall acc k,
  dget (fold_left (fun d k => dset d k (dgetd C k 0)) ks acc) k = if kmem k ks then Some (dgetd C k 0) else dget acc k.
Proof.
  induction ks as [|k0 ks IH]; intros acc k; [reflexivity|]. cbn [fold_left kmem]. rewrite IH, dget_dset.
  destruct (keqb_spec k k0) as [->|]; cbn [orb]; [destruct (kmem k0 ks); reflexivity|reflexivity].
Qed.
Lemma completed_wf ks (C : dict string K) : forall acc, wfdict acc -> wfdict (fold_left (fun d k => dset d k (dgetd C k 0)) ks acc).
Proof. induction ks as [|k0 ks IH]; intros acc W; [exact W|]. cbn [fold_left]. apply IH. now apply wf_dset. Qed.
(* what JMS_to_array computes *)
Lemma to_array_spec ks (C : dict string K) : (forall k, In k ks -> In k all) ->
  exists Ca, jms_to_array_keys ks C = Ok Ca /\
    (forall n, In n (dkeys Ca) -> In n (map fst sp)) /\
    (forall n s, In (n, (Cl0, s)) sp -> dget Ca n = if kmem n ks then Some (JNum (dgetd C n 0)) else None) /\
    (forall n c s, In (n, (c, s)) sp -> c <> Cl0 ->
       match dget Ca n with
       | None => forall I, in_shape s I = true -> ~ In (label n I) ks
       | Some v => exists a0, v = JArr (rank c) (fill_of c a0) /\
           forall I, In I (indices c) -> a0 I = if in_shape s I && kmem (label n I) ks then Some (dgetd C (label n I) 0) else None
       end).
Proof.
  intros HK. unfold jms_to_array_keys. cbv zeta.
  destruct (s2a_spec (fold_left (fun d k => dset d k (dgetd C k 0)) ks [])) as (da & E1 & KK & SC & AR).
  { apply completed_wf, wf_nil. }
  { intros k Hk. apply HK. apply kmem_In. destruct (kmem k ks) eqn:E; [reflexivity|].
    exfalso. assert (X : dget (fold_left (fun d k => dset d k (dgetd C k 0)) ks []) k = None) by (rewrite completed_get, E; reflexivity).
    apply dget_None in X. contradiction. }
  rewrite E1. cbn [bind].
  assert (CS : forall n v, dget da n = Some v -> exists c s, In (n, (c, s)) sp /\ ((c = Cl0 /\ (exists z, v = JNum z)) \/ (c <> Cl0 /\ exists a, v = JArr (rank c) a))).
  { intros n v Hv. pose proof (dget_Some_key da n v Hv) as HN. apply KK, in_map_iff in HN as ([m [c s]] & X & HN). simpl in X. subst m.
    exists c, s. split; [exact HN|]. destruct (cl0_dec c) as [->|NC].
    - left. split; [reflexivity|]. rewrite (SC n s HN) in Hv. destruct (dget _ n) as [z|]; [|discriminate]. injection Hv as <-. eauto.
    - right. split; [exact NC|]. specialize (AR n c s HN NC). rewrite Hv in AR. destruct AR as (a & -> & _). eauto. }
  assert (WF : forall k v, In (k, v) da -> exists v', fill_val k v = Ok v').
  { (* the dictionary has unique keys *)
    assert (W : wfdict da).
    { clear -E1. unfold scalar2array in E1. revert E1.
      assert (G : forall (L : dict string K) (acc r : jdict), wfdict acc -> fold_left (fun acc kv => bind acc (fun da => s2a_step da kv)) L (Ok acc) = Ok r -> wfdict r).
      { induction L as [|kv L IH]; intros acc r W E; cbn [fold_left] in E; [congruence|].
        cbn [bind] in E. destruct (s2a_step acc kv) as [acc'|e] eqn:ES.
        - apply (IH acc' r); [|exact E]. clear -W ES. unfold s2a_step in ES. destruct (negb _); [injection ES as <-; now apply wf_dset|].
          destruct (match dget acc _ with Some x => x | None => _ end); [discriminate|].
          destruct (int_chars _); [|discriminate]. cbn [bind] in ES. destruct (norm_index _ _); [|discriminate]. cbn [bind] in ES.
          injection ES as <-. now apply wf_dset.
        - exfalso. clear -E. induction L as [|x L IH]; cbn [fold_left bind] in E; [discriminate|auto]. }
      intros E. apply (G _ [] da (wf_nil) E). }
    intros k v H. apply (In_dget da k v W) in H. destruct (CS k v H) as (c & s & Ho & HV). rewrite (fill_val_op k c s v Ho HV). eauto. }
  destruct (fill_all_spec da WF) as (Ca & F1 & F2 & F3). exists Ca. split; [exact F1|]. split; [|split].
  - intros n. rewrite F2. apply KK.
  - intros n s H. specialize (SC n s H). rewrite completed_get in SC. destruct (kmem n ks) eqn:EK.
    + destruct (F3 n _ SC) as (v' & FV & G). rewrite (fill_val_op n Cl0 s _ H) in FV by (left; eauto). injection FV as <-. exact G.
    + apply dget_None. rewrite F2. apply dget_None. exact SC.
  - intros n c s H NC. specialize (AR n c s H NC). destruct (dget da n) as [v|] eqn:Ev.
    + destruct AR as (a & -> & A). destruct (F3 n _ Ev) as (v' & FV & G). rewrite (fill_val_op n c s _ H) in FV by (right; eauto).
      injection FV as <-. rewrite G. exists a. split; [reflexivity|]. intros I HI. rewrite A by exact HI.
      destruct (in_shape s I); [|reflexivity]. rewrite completed_get. reflexivity.
    + assert (GN : dget Ca n = None) by (apply dget_None; rewrite F2; now apply dget_None). rewrite GN.
      intros I HI HK'. specialize (AR I HI). rewrite completed_get in AR. apply kmem_In in HK'. rewrite HK' in AR. discriminate.
Qed.
(* filling the entries related to a basis entry *)
Lemma fill_orbit n c s ks (a0 : idx -> option K) (C : dict string K) J :
  In (n, (c, s)) sp -> In c four -> (forall k, In k ks -> In k all) ->
  (forall I, In I (indices c) -> a0 I = if in_shape s I && kmem (label n I) ks then Some (dgetd C (label n I) 0) else None) ->
  in_shape s J = true -> nonredundant c J = true -> In (label n J) ks ->
  forall I, In I (orbit c J) -> exists w, fill_of c a0 I = Some w /\ carries c J (dgetd C (label n J) 0) I w.
Proof.
  intros H CC HK A HJ NJ KJ I HI. pose proof (op_indices sp all real D n c s J H HJ) as IJ.
  pose proof (d_shapes _ _ _ D n c s H) as SO. set (v := dgetd C (label n J) 0).
  assert (AJ : a0 J = Some v). { rewrite A by exact IJ. apply kmem_In in KJ. now rewrite HJ, KJ. }
  assert (AN : forall L, In L (orbit c J) -> L <> J -> a0 L = None).
  { intros L HL NE. rewrite A by (now apply (orbit_indices c J)). destruct (in_shape s L) eqn:SL; [|reflexivity].
    destruct (kmem (label n L) ks) eqn:KL; [|reflexivity]. exfalso. apply NE. apply kmem_In, HK, kmem_In in KL.
    rewrite (in_all_iff sp all real D n c s L H (four_arr c CC) SL) in KL by (now apply (orbit_indices c J)).
    now apply (rep_unique c L J). }
  destruct (four_idx c J CC IJ) as (i & j & k & l & ->).
  destruct CC as [<-|[<-|[<-|[<-|[]]]]]; cbn [fill_of]; unfold symm_herm, symm_current, antisymm_12, fill; cbn [orbit plain_orbit conj_orbit app] in HI, AN.
  - assert (R : forall L, In L [[i;j;k;l]; [k;l;i;j]] -> match a0 L with Some v => Some v | None => match a0 (perm_curr L) with Some v => Some v | None => None end end = Some v).
    { intros L [<-|[<-|[]]]; [now rewrite AJ|]. destruct (list_eq_dec Nat.eq_dec [k;l;i;j] [i;j;k;l]) as [EQ|NE].
      - rewrite EQ, AJ. reflexivity.
      - rewrite (AN [k;l;i;j]) by (simpl; tauto). cbn [perm_curr]. now rewrite AJ. }
    destruct HI as [<-|[<-|[<-|[<-|[]]]]].
    + rewrite R by (simpl; tauto). exists v. split; [reflexivity|]. now left.
    + rewrite R by (simpl; tauto). exists v. split; [reflexivity|]. right; left. split; [now left|]. split; [simpl; tauto|reflexivity].
    + destruct (list_eq_dec Nat.eq_dec [j;i;l;k] [i;j;k;l]) as [E1|N1].
      { rewrite E1, R by (simpl; tauto). exists v. split; [reflexivity|]. now left. }
      destruct (list_eq_dec Nat.eq_dec [j;i;l;k] [k;l;i;j]) as [E2|N2].
      { rewrite E2, R by (simpl; tauto). exists v. split; [reflexivity|]. right; left. split; [now left|]. split; [simpl; tauto|reflexivity]. }
      rewrite (AN [j;i;l;k]) by (simpl; tauto). cbn [perm_curr perm_herm]. rewrite (AN [l;k;j;i]).
      * rewrite R by (simpl; tauto). exists (v^*). split; [reflexivity|]. right; right; right. split; [now left|]. split; [simpl; tauto|reflexivity].
      * simpl; tauto.
      * intros EQ. apply N2. injection EQ; intros; subst; reflexivity.
    + destruct (list_eq_dec Nat.eq_dec [l;k;j;i] [i;j;k;l]) as [E1|N1].
      { rewrite E1, R by (simpl; tauto). exists v. split; [reflexivity|]. now left. }
      destruct (list_eq_dec Nat.eq_dec [l;k;j;i] [k;l;i;j]) as [E2|N2].
      { rewrite E2, R by (simpl; tauto). exists v. split; [reflexivity|]. right; left. split; [now left|]. split; [simpl; tauto|reflexivity]. }
      rewrite (AN [l;k;j;i]) by (simpl; tauto). cbn [perm_curr perm_herm]. rewrite (AN [j;i;l;k]).
      * rewrite R by (simpl; tauto). exists (v^*). split; [reflexivity|]. right; right; right. split; [now left|]. split; [simpl; tauto|reflexivity].
      * simpl; tauto.
      * intros EQ. apply N2. injection EQ; intros; subst; reflexivity.
  - destruct HI as [<-|[<-|[]]].
    + rewrite AJ. exists v. split; [reflexivity|]. now left.
    + destruct (list_eq_dec Nat.eq_dec [k;l;i;j] [i;j;k;l]) as [EQ|NE].
      * rewrite EQ, AJ. exists v. split; [reflexivity|]. now left.
      * rewrite (AN [k;l;i;j]) by (simpl; tauto). cbn [perm_curr]. rewrite AJ. exists v. split; [reflexivity|].
        right; left. split; [now right|]. split; [simpl; tauto|reflexivity].
  - destruct HI as [<-|[<-|[]]].
    + rewrite AJ. exists v. split; [reflexivity|]. now left.
    + destruct (list_eq_dec Nat.eq_dec [j;i;l;k] [i;j;k;l]) as [EQ|NE].
      * rewrite EQ, AJ. exists v. split; [reflexivity|]. now left.
      * rewrite (AN [j;i;l;k]) by (simpl; tauto). cbn [perm_herm]. rewrite AJ. exists (v^*). split; [reflexivity|].
        right; right; right. split; [now right|]. split; [simpl; tauto|reflexivity].
  - destruct HI as [<-|[<-|[]]].
    + rewrite AJ. exists v. split; [reflexivity|]. now left.
    + destruct (list_eq_dec Nat.eq_dec [j;i;k;l] [i;j;k;l]) as [EQ|NE].
      * rewrite EQ, AJ. exists v. split; [reflexivity|]. now left.
      * rewrite (AN [j;i;k;l]) by (simpl; tauto). cbn [perm_12]. rewrite AJ. exists (- v). split; [reflexivity|].
        right; right; left. split; [reflexivity|]. split; [simpl; tauto|]. split; [exact NE|reflexivity].
Qed.
End A.
