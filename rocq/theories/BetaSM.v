(* beta with new physics switched off. *)
From Coq Require Import List Bool ZArith QArith Arith Lia String Ascii Permutation.
From Verif Require Import PyBase Num SymModel EftModel EftSpec EftProofs EftProps NpModel NpProofs BetaModel BetaProg BetaNorm BetaSpec BetaSound BetaCov BetaFacts BetaProofs BetaDeg.
Import ListNotations.
Local Open Scope string_scope.
Local Open Scope list_scope.

Definition layout_of (ts : list slot) : option (list nat) := match ts with [] => None | _ => Some (map (fun _ => 3%nat) ts) end.
Lemma op_fields_wf : wfdict op_fields.
Proof. unfold wfdict. assert (E : knodup (dkeys op_fields) = true) by (vm_compute; reflexivity). now apply knodup_NoDup. Qed.
Lemma shape_size_perm (a b : shapes) : Permutation a b -> shape_size a = shape_size b.
Proof. induction 1 as [|x a b _ IH|x y a|a b c _ IH1 _ IH2]; cbn; try lia. unfold shape_size in IH. lia. Qed.
Lemma layout_size E : smeft_layout E -> shape_size (e_shape E) = 2576%nat.
Proof.
  intros (W & KS & SH).
  assert (P : Permutation (e_shape E) (map (fun p => (fst p, layout_of (snd p))) op_fields)).
  { apply NoDup_Permutation.
    - apply (NoDup_map_inv fst). exact W.
    - apply (NoDup_map_inv fst). rewrite map_map. cbn [fst]. exact op_fields_wf.
    - intros [k s]. split; intros IN.
      + pose proof (In_dget _ _ _ W IN) as E1. assert (IK : In k (dkeys op_fields)) by (apply KS; now apply dget_Some_key in E1).
        destruct (dget op_fields k) as [ts|] eqn:T; [|apply dget_None in T; contradiction].
        rewrite (SH k ts T) in E1. injection E1 as <-. apply in_map_iff. exists (k, ts). split; [reflexivity|]. now apply dget_In.
      + apply in_map_iff in IN as ([k' ts] & EQ & IN). cbn [fst snd] in EQ. injection EQ as -> <-.
        apply dget_In. rewrite (SH k ts); [reflexivity|]. apply In_dget; [exact op_fields_wf|exact IN]. }
  rewrite (shape_size_perm _ _ P). vm_compute. reflexivity.
Qed.

Section SM.
Context {K : StarField}.
Local Open Scope K_scope.
Add Field KFbsm : (k_field K).
Notation cdict := (dict string (cval K)).
Lemma lin00 (x y : K) : 0 * x + 0 * y = 0. Proof. ring. Qed.

Lemma nth_error_zeros n p (z : K) : nth_error (repeat (0 : K) n) p = Some z -> z = 0.
Proof. intros E. apply nth_error_In in E. now apply repeat_spec in E. Qed.
Lemma zeros_dict E : smeft_layout E -> exists Z : cdict, C_array2dict E (repeat 0 (Z.to_nat 5000)) = Ok Z /\
  (forall k, In k (dkeys op_fields) -> exists v, dget Z k = Some v) /\ (forall k, ~ In k (dkeys op_fields) -> dget Z k = None) /\
  (forall k ts v, dget op_fields k = Some ts -> dget Z k = Some v -> has_shape (layout_of ts) v /\
     forall I, In I (indices_of k) -> entry v I = 0).
Proof.
  intros LY. pose proof LY as (W & KS & SH).
  destruct (C18_array_roundtrip K E (repeat 0 (Z.to_nat 5000)) W) as (Z & EZ & KZ & VZ & _).
  { rewrite repeat_length, (layout_size E LY). rewrite <- (Nat2Z.id 2576). apply Z2Nat.inj_le; lia. }
  exists Z. split; [exact EZ|]. split; [|split].
  - intros k Hk. destruct (dget Z k) eqn:Q; [eauto|]. exfalso. apply (proj2 (KZ k)); [|exact Q]. now apply KS.
  - intros k NI. destruct (dget Z k) eqn:Q; [|reflexivity]. elim NI. apply KS, KZ. congruence.
  - intros k ts v T V. pose proof (SH k ts T) as E1. apply dget_In, in_split in E1 as (pre & post & E1).
    destruct (VZ pre k _ post E1) as (v' & V' & HS & ST). rewrite V in V'. injection V' as <-.
    split; [exact HS|]. intros I HI. destruct v as [z|s a]; cbn [stored entry] in *.
    + now apply nth_error_zeros in ST.
    + destruct ts as [|t ts]; [destruct HS|]. cbn [has_shape] in HS. subst s.
      rewrite (indices_of_idxs k _ T) in HI. apply (nth_error_zeros (Z.to_nat 5000) (shape_size pre + offset (map (fun _ => 3%nat) (t :: ts)) I)).
      apply ST. rewrite map_const_repeat. unfold idxs in HI. now apply in_all_indices in HI.
Qed.
Lemma dkeys_split k : In k (dkeys op_fields) <-> In k (dkeys sm_fields) \/ In k (dkeys wc_fields).
Proof. unfold op_fields, dkeys. rewrite map_app, in_app_iff. reflexivity. Qed.
Lemma sm_wc_disjoint k : In k (dkeys sm_fields) -> In k (dkeys wc_fields) -> False.
Proof.
  intros A B. assert (E : forallb (fun k => negb (kmem k (dkeys wc_fields))) (dkeys sm_fields) = true) by (vm_compute; reflexivity).
  rewrite forallb_forall in E. specialize (E k A). apply negb_true_iff in E. apply kmem_nIn in E. contradiction.
Qed.
Lemma return_in_prog : In SReturnUnlessNP beta_prog.
Proof.
  assert (E : existsb (fun s => match s with SReturnUnlessNP => true | _ => false end) beta_prog = true) by (vm_compute; reflexivity).
  apply existsb_exists in E as (s & IN & E). destruct s; try discriminate. exact IN.
Qed.
Theorem beta_off E (C : cdict) H : smeft_layout E -> smeft_point C -> H <> 0 ->
  exists D D0, beta_of E beta_prog C H true = Ok D /\ beta_of E beta_prog C H false = Ok D0 /\
    (forall k, In k (dkeys op_fields) <-> dget D0 k <> None) /\
    (forall k I, In k (dkeys sm_fields) -> In I (indices_of k) -> coef D0 k I = coef D k I) /\
    (forall k I, In k (dkeys wc_fields) -> In I (indices_of k) -> coef D0 k I = 0).
Proof.
  intros LY P N. destruct (beta_entries E C H P N) as (R & D & NB & ED & A & _).
  destruct (zeros_dict E LY) as (Z & EZ & KZ & NZ & VZ).
  destruct (all_entries_spec _ _ beta_sm_rank) as (R0 & NB0 & _).
  destruct (beta_sound_SM op_rank C H (smeft_point_shaped C P) N E beta_prog R0 Z EZ return_in_prog NB0) as (B & EB & WB & LO & NO).
  destruct (locals_entry _ _ C B H R0 NB0 beta_sm_keys beta_sm_rank LO) as [A0 B0].
  exists D, (dupdate Z B). split; [exact ED|]. split; [exact EB|].
  assert (BN : forall k, ~ In k (dkeys sm_fields) -> dget B k = None).
  { intros k NI. apply NO. destruct (dget R0 k) eqn:Q; [|reflexivity]. elim NI. eapply B0; eauto. }
  split; [|split].
  - intros k. rewrite dget_dupdate by exact WB. split.
    + intros IN. apply KZ in IN as (v & V). destruct (dget B k); congruence.
    + intros X. destruct (in_dec string_dec k (dkeys op_fields)) as [I|NI]; [exact I|]. rewrite NZ in X by exact NI.
      rewrite BN in X; [congruence|]. intros Y. apply NI. apply dkeys_split. now left.
  - intros k I Hk HI. assert (IO : In k (dkeys op_fields)) by (apply dkeys_split; now left).
    destruct (entry_ok_coef C D H R k (A k IO)) as (ts & n & T & En & Ln & Wn & V).
    destruct (entry_ok_coef C B H R0 k (A0 k Hk)) as (ts0 & n0 & T0 & En0 & _ & _ & V0).
    pose proof (same_entries_spec _ _ R0 R _ k beta_same_sm NB0 NB Hk) as SE. rewrite En, En0 in SE. injection SE as ->.
    rewrite (V I HI), <- (V0 I HI). unfold coef. rewrite dget_dupdate by exact WB.
    destruct (A0 k Hk) as (? & v & ? & _ & -> & _). reflexivity.
  - intros k I Hk HI. unfold coef. rewrite dget_dupdate by exact WB. rewrite BN by (intros X; now apply (sm_wc_disjoint k)).
    assert (IO : In k (dkeys op_fields)) by (apply dkeys_split; now right). destruct (KZ k IO) as (v & V). rewrite V.
    destruct (dget op_fields k) as [ts|] eqn:T; [|apply dget_None in T; contradiction]. now apply (VZ k ts v T V).
Qed.
End SM.
