(* FlavorKit_to_JMS and JMS_to_FlavorKit are inverse to each other. *)
From Coq Require Import List Bool ZArith QArith Arith Lia String Ascii.
From Verif Require Import PyBase Num SymModel EftModel JmsModel TrLang TrData TrBlocks TrModel TrNorm TrFast TrSpec BasisProps.
Import ListNotations.
Local Open Scope string_scope.
Local Open Scope list_scope.

Inductive kop := KId | KConj | KDip (m : sym).
Definition kit : dict string (string * kop) :=
  map (fun x => (fst x, (snd x, KId))) flavorkit_jms ++ map (fun x => (fst x, (snd x, KConj))) flavorkit_jms_conj ++
  [("AVLL_2231", ("VeeLL_1223", KId)); ("AVRR_2231", ("VeeRR_1223", KId));
   ("K2R_12", ("egamma_21", KDip Ym_e)); ("K2R_13", ("egamma_31", KDip Ym_e)); ("K2R_21", ("egamma_12", KDip Ym_mu));
   ("K2R_23", ("egamma_32", KDip Ym_mu)); ("K2R_31", ("egamma_13", KDip Ym_tau)); ("K2R_32", ("egamma_23", KDip Ym_tau))].
Definition kit_inv : dict string (string * kop) := map (fun x => (fst (snd x), (fst x, snd (snd x)))) kit.
Definition kop_eqb (a b : kop) : bool :=
  match a, b with KId, KId => true | KConj, KConj => true | KDip x, KDip y => Nat.eqb (sym_idx x) (sym_idx y) | _, _ => false end.
(* the expressions the two functions build *)
Definition to_ex (k : string) (o : kop) : ex :=
  match o with KId => EKey k | KConj => EConj (EKey k) | KDip m => EScale (((SZ 1 / SZ 2) * SY Ye) * SY m)%sc (EKey k) end.
Definition from_ex (k : string) (o : kop) : ex :=
  match o with KId => EKey k | KConj => EConj (EKey k) | KDip m => EScale ((SZ 2 / SY Ye) / SY m)%sc (EKey k) end.

(* JMS_to_FlavorKit_entry with the reverted tables as arguments, so that they are computed once *)
Definition entry_by (rj rc : string -> option string) (k : string) : res (option (string * ex)) :=
  match rj k with
  | Some f => Ok (Some (f, EKey k))
  | None =>
    match rc k with
    | Some f => Ok (Some (f, EConj (EKey k)))
    | None =>
      if String.eqb k "VeeLL_1223" then Ok (Some ("AVLL_2231", EKey k))
      else if String.eqb k "VeeRR_1223" then Ok (Some ("AVRR_2231", EKey k))
      else match split_us k with
      | n :: r =>
          if String.eqb n "egamma" then
            match r with
            | [] => Err IndexError
            | ij :: _ =>
                let ind := str_rev ij in
                if (String.length ind <? 2)%nat then Err IndexError else
                if String.eqb (str_at ind 0) (str_at ind 1) then Ok None else
                bind (fk_mass (str_at ind 0)) (fun m =>
                Ok (Some (("K2R_" ++ ind)%string, EScale ((SZ 2 / SY Ye) / m)%sc (EKey k))))
            end
          else Ok None
      | [] => Ok None
      end
    end
  end.
Definition entry_of (rj rc : dict string string) (k : string) : res (option (string * ex)) := entry_by (dget rj) (dget rc) k.
Lemma entry_of_eq k : JMS_to_FlavorKit_entry k = entry_of (revert flavorkit_jms) (revert flavorkit_jms_conj) k.
Proof. reflexivity. Qed.
(* the tables, by computation *)
Lemma kit_nodup : knodup (dkeys kit) && knodup (dkeys kit_inv) = true.
Proof. vm_cast_no_check (eq_refl true). Qed.
Definition tab1_b (rj : dict string string) : bool :=
  forallb (fun x => match dget flavorkit_jms (fst x) with Some j => keqb j (snd x) | None => false end &&
                    match dget rj (snd x) with Some k => keqb k (fst x) | None => false end) flavorkit_jms.
Lemma tab1 : tab1_b (revert flavorkit_jms) = true.
Proof. vm_cast_no_check (eq_refl true). Qed.
Definition tab2_b (rj rc : dict string string) : bool :=
  forallb (fun x => match dget flavorkit_jms_conj (fst x) with Some j => keqb j (snd x) | None => false end &&
                    match dget rc (snd x) with Some k => keqb k (fst x) | None => false end &&
                    negb (dmem flavorkit_jms (fst x)) && negb (dmem rj (snd x))) flavorkit_jms_conj.
Lemma tab2 : tab2_b (revert flavorkit_jms) (revert flavorkit_jms_conj) = true.
Proof. vm_cast_no_check (eq_refl true). Qed.
Strategy expand [kit kit_inv tab1_b tab2_b].
Definition no_entry_b (rj rc : dict string string) (ki : dict string (string * kop)) : bool :=
  forallb (fun k => match entry_of rj rc k with Ok None => true | Ok (Some _) => dmem ki k | Err _ => false end) (all_of jms_ops).
Strategy expand [no_entry_b].
Definition no_entry_t (tj tc : trie string) (ti : trie (string * kop)) : bool :=
  forallb (fun k => match entry_by (sget tj) (sget tc) k with Ok None => true | Ok (Some _) => smem ti k | Err _ => false end) (all_of jms_ops).
Lemma no_entry_f (rj rc : dict string string) (ki : dict string (string * kop)) : no_entry_t (tdict rj) (tdict rc) (tdict ki) = true -> no_entry_b rj rc ki = true.
Proof.
  unfold no_entry_t, no_entry_b. generalize (all_of jms_ops). intros l H. rewrite forallb_forall in *. intros k Hk. specialize (H k Hk). cbv beta in H.
  assert (X : entry_by (sget (tdict rj)) (sget (tdict rc)) k = entry_of rj rc k) by (unfold entry_of, entry_by; now rewrite !sget_dict).
  rewrite X in H. destruct (entry_of rj rc k) as [[?|]|]; rewrite ?smem_dict in H; exact H.
Qed.
Lemma no_entry_ok : no_entry_t (tdict (revert flavorkit_jms)) (tdict (revert flavorkit_jms_conj)) (tdict kit_inv) = true.
Proof. vm_cast_no_check (eq_refl true). Qed.
Lemma no_entry : no_entry_b (revert flavorkit_jms) (revert flavorkit_jms_conj) kit_inv = true.
Proof. exact (no_entry_f _ _ _ no_entry_ok). Qed.
Lemma no_entry_in j : In j (all_of jms_ops) -> dget kit_inv j = None -> JMS_to_FlavorKit_entry j = Ok None.
Proof.
  intros X E. rewrite entry_of_eq. pose proof no_entry as N. revert E N. generalize (revert flavorkit_jms) (revert flavorkit_jms_conj) kit_inv.
  intros rj rc ki E N. unfold no_entry_b in N. rewrite forallb_forall in N. specialize (N j X). cbv beta in N. rewrite dmem_dget, E in N.
  destruct (entry_of rj rc j) as [[?|]|]; [discriminate|reflexivity|discriminate].
Qed.
Definition kit_all_t (t : trie unit) : bool := forallb (fun x => smem t (fst (snd x))) kit.
Lemma kit_all_ok : kit_all_t (tkeys (all_of jms_ops)) = true.
Proof. vm_cast_no_check (eq_refl true). Qed.
Lemma kit_all_gen l : kit_all_t (tkeys l) = true -> forallb (fun x => kmem (fst (snd x)) l) kit = true.
Proof.
  unfold kit_all_t. generalize kit. intros d H. rewrite forallb_forall in *. intros x Hx. specialize (H x Hx). cbv beta in H. now rewrite smem_keys in H.
Qed.
Lemma kit_all : forallb (fun x => kmem (fst (snd x)) (all_of jms_ops)) kit = true.
Proof. exact (kit_all_gen _ kit_all_ok). Qed.
Lemma kit_entry k j o : In (k, (j, o)) kit ->
  FlavorKit_to_JMS_entry k = Ok (Some (j, to_ex k o)) /\ JMS_to_FlavorKit_entry j = Ok (Some (k, from_ex j o)).
Proof.
  intros H. pose proof tab1 as T1. pose proof tab2 as T2. unfold tab1_b in T1. unfold tab2_b in T2. rewrite forallb_forall in T1, T2.
  unfold kit in H. apply in_app_or in H as [H|H]; [|apply in_app_or in H as [H|H]].
  - apply in_map_iff in H as (x & E & H). injection E as <- <- <-. specialize (T1 x H). apply andb_prop in T1 as [A B].
    unfold FlavorKit_to_JMS_entry, JMS_to_FlavorKit_entry. destruct (dget flavorkit_jms (fst x)); [|discriminate]. apply keqb_true in A. subst.
    destruct (dget (revert flavorkit_jms) (snd x)); [|discriminate]. apply keqb_true in B. subst. split; reflexivity.
  - apply in_map_iff in H as (x & E & H). injection E as <- <- <-. specialize (T2 x H). apply andb_prop in T2 as [T2 N2]. apply andb_prop in T2 as [T2 N1].
    apply andb_prop in T2 as [A B]. apply negb_true_iff in N1, N2. rewrite dmem_dget in N1, N2.
    unfold FlavorKit_to_JMS_entry, JMS_to_FlavorKit_entry. destruct (dget flavorkit_jms (fst x)); [discriminate|].
    destruct (dget (revert flavorkit_jms) (snd x)); [discriminate|]. destruct (dget flavorkit_jms_conj (fst x)); [|discriminate]. apply keqb_true in A. subst.
    destruct (dget (revert flavorkit_jms_conj) (snd x)); [|discriminate]. apply keqb_true in B. subst. split; reflexivity.
  - repeat (destruct H as [H|H]; [injection H as <- <- <-; split; vm_compute; reflexivity|]). destruct H.
Qed.

Section Kit.
Context {K : StarField}.
Local Open Scope K_scope.
Add Field KFtk : (k_field K).
Variable p : tpar K.
Hypothesis PO : par_ok p.
Variable all : list string.

Definition to_val (o : kop) (v : K) : K :=
  match o with KId => v | KConj => v^* | KDip m => kZ 1 / kZ 2 * ysym p Ye * ysym p m * v end.
Definition from_val (o : kop) (v : K) : K :=
  match o with KId => v | KConj => v^* | KDip m => kZ 2 / ysym p Ye / ysym p m * v end.
Lemma from_to o v : from_val o (to_val o v) = v.
Proof.
  destruct o as [| |m]; cbn; [reflexivity|apply kconj_conj|]. pose proof (par_nz _ PO Ye). pose proof (par_nz _ PO m). assert (@kZ K 2 <> 0) by apply (kpos_neq_0 2). cbn in *. field.
  repeat split; assumption.
Qed.
Lemma to_from o v : to_val o (from_val o v) = v.
Proof.
  destruct o as [| |m]; cbn; [reflexivity|apply kconj_conj|]. pose proof (par_nz _ PO Ye). pose proof (par_nz _ PO m). assert (@kZ K 2 <> 0) by apply (kpos_neq_0 2). cbn in *. field.
  repeat split; assumption.
Qed.
Lemma eval_to (C : dict string K) k o v : dget C k = Some v -> eval p (mkEnv C []) (to_ex k o) = Ok (to_val o v).
Proof. intros H. destruct o; cbn [to_ex eval flat]; rewrite H; reflexivity. Qed.
Lemma eval_from (C : dict string K) k o v : dget C k = Some v -> eval p (mkEnv C []) (from_ex k o) = Ok (from_val o v).
Proof. intros H. destruct o; cbn [from_ex eval flat]; rewrite H; reflexivity. Qed.

(* a loop over the items that writes each under a different key *)
Lemma each_spec (h : string -> res (option (string * ex))) (tr : string -> option (string * (K -> K))) (C : dict string K) :
  wfdict C ->
  (forall k v, In (k, v) C -> match tr k with Some (k', g) => exists x, h k = Ok (Some (k', x)) /\ eval p (mkEnv C []) x = Ok (g v) | None => h k = Ok None end) ->
  (forall k1 k2 k' g1 g2, tr k1 = Some (k', g1) -> tr k2 = Some (k', g2) -> k1 = k2) ->
  exists R, run p all (PEach h) (mkEnv C []) = Ok R /\ wfdict R /\
    (forall k v k' g, In (k, v) C -> tr k = Some (k', g) -> dget R k' = Some (g v)) /\
    (forall k' w, dget R k' = Some w -> exists k v g, In (k, v) C /\ tr k = Some (k', g) /\ w = g v).
Proof.
  intros W H J. cbn [run flat].
  set (step := fun (acc : res (dict string K)) (kv : string * K) => bind acc (fun d => bind (h (fst kv)) (fun o =>
      match o with None => Ok d | Some (k, x) => bind (eval p (mkEnv C []) x) (fun v => Ok (dset d k v)) end))).
  assert (G : forall l2 l1 d, C = l1 ++ l2 -> wfdict d ->
    (forall k v k' g, In (k, v) l1 -> tr k = Some (k', g) -> dget d k' = Some (g v)) ->
    (forall k' w, dget d k' = Some w -> exists k v g, In (k, v) l1 /\ tr k = Some (k', g) /\ w = g v) ->
    exists R, fold_left step l2 (Ok d) = Ok R /\ wfdict R /\
    (forall k v k' g, In (k, v) C -> tr k = Some (k', g) -> dget R k' = Some (g v)) /\
    (forall k' w, dget R k' = Some w -> exists k v g, In (k, v) C /\ tr k = Some (k', g) /\ w = g v)).
  { induction l2 as [|[k v] l2 IH]; intros l1 d E WD A B.
    - rewrite app_nil_r in E. subst l1. exists d. auto.
    - cbn [fold_left]. assert (IN : In (k, v) C) by (rewrite E; apply in_or_app; right; now left). pose proof (H k v IN) as X.
      assert (E' : C = (l1 ++ [(k, v)]) ++ l2) by (rewrite <- app_assoc; exact E).
      assert (NI : ~ In k (map fst l1)).
      { unfold wfdict, dkeys in W. rewrite E, map_app in W. cbn [map fst] in W. apply NoDup_remove_2 in W. intros Y. apply W, in_or_app. now left. }
      destruct (tr k) as [[k' g]|] eqn:ET.
      + destruct X as (x & X1 & X2). assert (step (Ok d) (k, v) = Ok (dset d k' (g v))) as ->.
        { unfold step. cbn [bind fst]. rewrite X1. cbn [bind]. rewrite X2. reflexivity. }
        apply (IH (l1 ++ [(k, v)])); [exact E'|now apply wf_dset| |].
        * intros a w a' ga Ha Ta. rewrite dget_dset. destruct (keqb_spec a' k') as [->|N].
          { pose proof (J _ _ _ _ _ Ta ET) as ->. rewrite ET in Ta. injection Ta as <-.
            apply in_app_or in Ha as [Ha|[Ha|[]]]; [exfalso; apply NI; now apply (in_map fst) in Ha|]. now injection Ha as <-. }
          { apply in_app_or in Ha as [Ha|[Ha|[]]]; [now apply (A a w)|]. injection Ha as <- <-. rewrite ET in Ta. congruence. }
        * intros a' w Hw. rewrite dget_dset in Hw. destruct (keqb_spec a' k') as [->|N].
          { injection Hw as <-. exists k, v, g. split; [apply in_or_app; right; now left|auto]. }
          { destruct (B a' w Hw) as (a & u & ga & Ha & Ta & Ea). exists a, u, ga. split; [apply in_or_app; now left|auto]. }
      + assert (step (Ok d) (k, v) = Ok d) as -> by (unfold step; cbn [bind fst]; now rewrite X).
        apply (IH (l1 ++ [(k, v)])); [exact E'|exact WD| |].
        * intros a w a' ga Ha Ta. apply in_app_or in Ha as [Ha|[Ha|[]]]; [now apply (A a w)|]. injection Ha as <- <-. congruence.
        * intros a' w Hw. destruct (B a' w Hw) as (a & u & ga & Ha & Ta & Ea). exists a, u, ga. split; [apply in_or_app; now left|auto]. }
  destruct (G C [] []) as (R & ER & WR & HR); [reflexivity|constructor|intros ? ? ? ? []|intros ? ? X; discriminate|]. exists R. auto.
Qed.

Lemma kit_wf : wfdict kit /\ wfdict kit_inv.
Proof. pose proof kit_nodup as H. apply andb_prop in H as [A B]. split; now apply knodup_NoDup. Qed.
Lemma kit_inv_in k j o : dget kit k = Some (j, o) <-> dget kit_inv j = Some (k, o).
Proof.
  destruct kit_wf as [W1 W2]. split; intros H.
  - apply In_dget; [exact W2|]. apply dget_In in H. unfold kit_inv. apply in_map_iff. exists (k, (j, o)). auto.
  - apply In_dget; [exact W1|]. apply dget_In in H. unfold kit_inv in H. apply in_map_iff in H as ((a, (b, c)) & E & H). injection E as <- <- <-. exact H.
Qed.
Definition tr_to (k : string) : option (string * (K -> K)) := match dget kit k with Some (j, o) => Some (j, to_val o) | None => None end.
Definition tr_from (j : string) : option (string * (K -> K)) := match dget kit_inv j with Some (k, o) => Some (k, from_val o) | None => None end.
Lemma tr_to_inj k1 k2 k' g1 g2 : tr_to k1 = Some (k', g1) -> tr_to k2 = Some (k', g2) -> k1 = k2.
Proof.
  unfold tr_to. destruct (dget kit k1) as [[j1 o1]|] eqn:E1; [|discriminate]. destruct (dget kit k2) as [[j2 o2]|] eqn:E2; [|discriminate].
  intros X Y. injection X as -> _. injection Y as -> _. apply kit_inv_in in E1, E2. congruence.
Qed.
Lemma tr_from_inj k1 k2 k' g1 g2 : tr_from k1 = Some (k', g1) -> tr_from k2 = Some (k', g2) -> k1 = k2.
Proof.
  unfold tr_from. destruct (dget kit_inv k1) as [[j1 o1]|] eqn:E1; [|discriminate]. destruct (dget kit_inv k2) as [[j2 o2]|] eqn:E2; [|discriminate].
  intros X Y. injection X as -> _. injection Y as -> _. apply kit_inv_in in E1, E2. congruence.
Qed.
(* FlavorKit_to_JMS: dictionaries of FlavorKit coefficients *)
Lemma fk_to (C : dict string K) : keys_in (dkeys kit) C -> exists R, FlavorKit_to_JMS p all C = Ok R /\ wfdict R /\
  (forall k j o, dget kit k = Some (j, o) -> dget R j = match dget C k with Some v => Some (to_val o v) | None => None end) /\
  (forall j, dget kit_inv j = None -> dget R j = None).
Proof.
  intros [W I]. destruct (each_spec FlavorKit_to_JMS_entry tr_to C W) as (R & ER & WR & A & B).
  - intros k v H. unfold tr_to. assert (X : In k (dkeys kit)) by (apply I; now apply (in_map fst) in H). destruct (dget kit k) as [[j o]|] eqn:XK; [|now apply dget_None in XK].
    apply dget_In in XK. exists (to_ex k o). split; [apply (proj1 (kit_entry k j o XK))|]. apply eval_to. now apply In_dget.
  - exact tr_to_inj.
  - exists R. split; [exact ER|]. split; [exact WR|]. split.
    + intros k j o H. destruct (dget C k) as [v|] eqn:EC.
      * apply dget_In in EC. apply (A k v j (to_val o) EC). unfold tr_to. now rewrite H.
      * destruct (dget R j) as [w|] eqn:EW; [|reflexivity]. exfalso. destruct (B j w EW) as (k2 & v & g & Hk & T & _).
        assert (T2 : tr_to k = Some (j, to_val o)) by (unfold tr_to; now rewrite H). rewrite (tr_to_inj _ _ _ _ _ T2 T) in EC.
        apply In_dget in Hk; [|exact W]. congruence.
    + intros j H. destruct (dget R j) as [w|] eqn:EW; [|reflexivity]. exfalso. destruct (B j w EW) as (k2 & v & g & Hk & T & _).
      unfold tr_to in T. destruct (dget kit k2) as [[j' o]|] eqn:E; [|discriminate]. injection T as -> _. apply kit_inv_in in E. congruence.
Qed.
(* JMS_to_FlavorKit: dictionaries of JMS coefficients *)
Lemma fk_from (C : dict string K) : keys_in (all_of jms_ops) C -> exists R, JMS_to_FlavorKit p all C = Ok R /\ wfdict R /\
  (forall k j o, dget kit k = Some (j, o) -> dget R k = match dget C j with Some v => Some (from_val o v) | None => None end) /\
  (forall k, dget kit k = None -> dget R k = None).
Proof.
  intros [W I]. destruct (each_spec JMS_to_FlavorKit_entry tr_from C W) as (R & ER & WR & A & B).
  - intros j v H. unfold tr_from. assert (X : In j (all_of jms_ops)) by (apply I; now apply (in_map fst) in H).
    destruct (dget kit_inv j) as [[k o]|] eqn:E.
    + apply kit_inv_in, dget_In in E. exists (from_ex j o). split; [apply (proj2 (kit_entry k j o E))|]. apply eval_from. now apply In_dget.
    + exact (no_entry_in j X E).
  - exact tr_from_inj.
  - exists R. split; [exact ER|]. split; [exact WR|]. split.
    + intros k j o H. pose proof H as HI. apply kit_inv_in in HI. destruct (dget C j) as [v|] eqn:EC.
      * apply dget_In in EC. apply (A j v k (from_val o) EC). unfold tr_from. now rewrite HI.
      * destruct (dget R k) as [w|] eqn:EW; [|reflexivity]. exfalso. destruct (B k w EW) as (k2 & v & g & Hk & T & _).
        assert (T2 : tr_from j = Some (k, from_val o)) by (unfold tr_from; now rewrite HI). rewrite (tr_from_inj _ _ _ _ _ T2 T) in EC.
        apply In_dget in Hk; [|exact W]. congruence.
    + intros j H. destruct (dget R j) as [w|] eqn:EW; [|reflexivity]. exfalso. destruct (B j w EW) as (k2 & v & g & Hk & T & _).
      unfold tr_from in T. destruct (dget kit_inv k2) as [[j' o]|] eqn:E; [|discriminate]. injection T as -> _. apply kit_inv_in in E. congruence.
Qed.
Lemma kit_jms k j o : dget kit k = Some (j, o) -> In j (all_of jms_ops).
Proof.
  intros H. apply dget_In in H. pose proof kit_all as X. rewrite forallb_forall in X. specialize (X _ H). now apply kmem_In.
Qed.
Lemma round_FKJ (C : dict string K) : keys_in (dkeys kit) C -> exists J F, FlavorKit_to_JMS p all C = Ok J /\ JMS_to_FlavorKit p all J = Ok F /\ forall k, dget F k = dget C k.
Proof.
  intros H. destruct (fk_to C H) as (J & EJ & WJ & A & B). assert (HJ : keys_in (all_of jms_ops) J).
  { split; [exact WJ|]. intros j IJ. destruct (dget kit_inv j) as [[k o]|] eqn:E; [apply kit_inv_in in E; exact (kit_jms _ _ _ E)|].
    exfalso. pose proof (B j E) as X. now apply dget_None in X. }
  destruct (fk_from J HJ) as (F & EF & WF & A2 & B2). exists J, F. split; [exact EJ|]. split; [exact EF|].
  intros k. destruct (dget kit k) as [[j o]|] eqn:E.
  - rewrite (A2 k j o E), (A k j o E). destruct (dget C k); [now rewrite from_to|reflexivity].
  - rewrite (B2 k E). symmetry. apply dget_None. intros X. apply (proj2 H) in X. now apply dget_None in E.
Qed.
Lemma round_JFK (C : dict string K) : keys_in (all_of jms_ops) C -> exists F J, JMS_to_FlavorKit p all C = Ok F /\ FlavorKit_to_JMS p all F = Ok J /\
  forall j, dget J j = if kmem j (dkeys kit_inv) then dget C j else None.
Proof.
  intros H. destruct (fk_from C H) as (F & EF & WF & A & B). assert (HF : keys_in (dkeys kit) F).
  { split; [exact WF|]. intros k IK. destruct (dget kit k) as [[j o]|] eqn:E; [now apply dget_Some_key in E|].
    exfalso. pose proof (B k E) as X. now apply dget_None in X. }
  destruct (fk_to F HF) as (J & EJ & WJ & A2 & B2). exists F, J. split; [exact EF|]. split; [exact EJ|].
  intros j. fold (dmem kit_inv j). rewrite dmem_dget. destruct (dget kit_inv j) as [[k o]|] eqn:E; [|now apply B2].
  apply kit_inv_in in E. rewrite (A2 k j o E), (A k j o E). destruct (dget C j); [now rewrite to_from|reflexivity].
Qed.
Lemma to_lin o (a b v w : K) : kreal a -> kreal b -> to_val o (a * v + b * w) = a * to_val o v + b * to_val o w.
Proof. intros A B. destruct o; cbn; [ring|rewrite kconj_add, !kconj_mul, A, B; ring|ring_simplify; field; apply (kpos_neq_0 2)]. Qed.
Lemma from_lin o (a b v w : K) : kreal a -> kreal b -> from_val o (a * v + b * w) = a * from_val o v + b * from_val o w.
Proof. intros A B. destruct o; cbn; [ring|rewrite kconj_add, !kconj_mul, A, B; ring|]. pose proof (par_nz _ PO Ye). pose proof (par_nz _ PO m). field. auto. Qed.
Lemma to_0 o : to_val o 0 = 0. Proof. destruct o; cbn; [reflexivity|apply kconj_0|]. unfold kdiv. ring. Qed.
Lemma from_0 o : from_val o 0 = 0. Proof. destruct o; cbn; [reflexivity|apply kconj_0|]. unfold kdiv. ring. Qed.
Lemma lin_fk_to : real_linear (keys_in (dkeys kit)) (FlavorKit_to_JMS p all).
Proof.
  intros a b C1 C2 C A B H1 H2 H3 HC. destruct (fk_to C1 H1) as (R1 & E1 & _ & A1 & B1). destruct (fk_to C2 H2) as (R2 & E2 & _ & A2 & B2).
  destruct (fk_to C H3) as (R3 & E3 & _ & A3 & B3). exists R1, R2, R3. repeat split; auto. intros j. destruct (dget kit_inv j) as [[k o]|] eqn:E.
  - apply kit_inv_in in E. assert (G : forall (X : dict string K) R, dget R j = match dget X k with Some v => Some (to_val o v) | None => None end -> dgetd R j 0 = to_val o (dgetd X k 0)).
    { intros X R HR. unfold dgetd. rewrite HR. destruct (dget X k); [reflexivity|now rewrite to_0]. }
    rewrite (G C R3 (A3 k j o E)), (G C1 R1 (A1 k j o E)), (G C2 R2 (A2 k j o E)), (HC k). now apply to_lin.
  - unfold dgetd. rewrite (B1 j E), (B2 j E), (B3 j E). ring.
Qed.
Lemma lin_fk_from : real_linear (keys_in (all_of jms_ops)) (JMS_to_FlavorKit p all).
Proof.
  intros a b C1 C2 C A B H1 H2 H3 HC. destruct (fk_from C1 H1) as (R1 & E1 & _ & A1 & B1). destruct (fk_from C2 H2) as (R2 & E2 & _ & A2 & B2).
  destruct (fk_from C H3) as (R3 & E3 & _ & A3 & B3). exists R1, R2, R3. repeat split; auto. intros k. destruct (dget kit k) as [[j o]|] eqn:E.
  - assert (G : forall (X : dict string K) R, dget R k = match dget X j with Some v => Some (from_val o v) | None => None end -> dgetd R k 0 = from_val o (dgetd X j 0)).
    { intros X R HR. unfold dgetd. rewrite HR. destruct (dget X j); [reflexivity|now rewrite from_0]. }
    rewrite (G C R3 (A3 k j o E)), (G C1 R1 (A1 k j o E)), (G C2 R2 (A2 k j o E)), (HC j). now apply from_lin.
  - unfold dgetd. rewrite (B1 k E), (B2 k E), (B3 k E). ring.
Qed.
End Kit.
