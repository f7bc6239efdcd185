(* C18, C19: dictionaries of arrays, flat arrays and labelled coefficients. *)
From Coq Require Import List Bool ZArith QArith Arith Lia String Ascii.
From Verif Require Import PyBase Num SymModel SymClass SymSpec EftModel EftSpec EftProofs EftLabels.
Import ListNotations.
Local Open Scope string_scope.
Local Open Scope list_scope.

(* ---------- C18 ---------- *)
(* Reading a flat array of sufficient length as a dictionary gives every key its
   shape and the entries stored from the position of the key on (row-major), and
   writing the dictionary back gives the array (cut to the length of the layout). *)
Theorem C18_array_roundtrip : forall (K : StarField) (E : eft) (l : list K),
  wfdict (e_shape E) -> (shape_size (e_shape E) <= List.length l)%nat ->
  exists C, C_array2dict E l = Ok C /\
    (forall k, dget C k <> None <-> In k (dkeys (e_shape E))) /\
    (forall pre k s post, e_shape E = pre ++ (k, s) :: post ->
       exists v, dget C k = Some v /\ has_shape s v /\ stored l (shape_size pre) v) /\
    C_dict2array E C = Ok (firstn (shape_size (e_shape E)) l).
Proof.
  intros K E l WF L.
  assert (HS : forall k s, In (k, s) (e_shape E) -> dget (e_shape E) k = Some s) by (intros; now apply In_dget).
  destruct (array2dict_spec E l (e_shape E) 0 [] HS WF L) as (C & A & B & D). exists C.
  assert (SP : forall k, In k (dkeys (e_shape E)) -> exists v, dget C k = Some v).
  { intros k H. unfold dkeys in H. apply in_map_iff in H as ([k' s] & X & H). simpl in X. subst k'.
    apply in_split in H as (pre & post & H). destruct (D _ _ _ _ H) as (v & V & _). eauto. }
  split; [exact A|]. split; [|split; [exact D|]].
  - intros k. split.
    + intros H. destruct (in_dec string_dec k (dkeys (e_shape E))) as [I|N]; [exact I|]. rewrite (B k N) in H. now elim H.
    + intros H. destruct (SP k H) as (v & V). congruence.
  - unfold C_dict2array, e_keys. rewrite dict2array_spec.
    + simpl. f_equal. apply (concat_stored l C (e_shape E) 0 D L).
    + intros k H. destruct (SP k H) as (v & V). congruence.
Qed.
(* A shorter array is never read silently. *)
Theorem C18_short_array_rejected : forall (K : StarField) (E : eft) (l : list K),
  wfdict (e_shape E) -> (List.length l < shape_size (e_shape E))%nat -> exists e, C_array2dict E l = Err e.
Proof.
  intros K E l WF L. apply array2dict_short; [intros; now apply In_dget|exact L|lia].
Qed.
(* A dictionary holding all keys with the right shapes survives the round trip. *)
Theorem C18_dict_roundtrip : forall (K : StarField) (E : eft) (C : dict string (cval K)),
  wfdict (e_shape E) ->
  (forall k s, dget (e_shape E) k = Some s -> exists v, dget C k = Some v /\ has_shape s v) ->
  exists l C', C_dict2array E C = Ok l /\ List.length l = shape_size (e_shape E) /\ C_array2dict E l = Ok C' /\
    (forall k, dget C' k <> None <-> In k (dkeys (e_shape E))) /\
    (forall k s, dget (e_shape E) k = Some s ->
       exists v v', dget C k = Some v /\ dget C' k = Some v' /\ cv_eq v v').
Proof.
  intros K E C WF H.
  assert (H' : forall k s, In (k, s) (e_shape E) -> exists v, dget C k = Some v /\ has_shape s v).
  { intros k s X. apply H. now apply In_dget. }
  set (l := List.concat (map (seg C) (map fst (e_shape E)))).
  assert (LE : List.length l = shape_size (e_shape E)) by (now apply concat_length).
  destruct (C18_array_roundtrip K E l WF) as (C' & A & B & D & _); [lia|].
  exists l, C'. split; [|split; [exact LE|split; [exact A|split; [exact B|]]]].
  - unfold C_dict2array, e_keys. rewrite dict2array_spec; [reflexivity|].
    intros k X. unfold dkeys in X. apply in_map_iff in X as ([k' s] & Y & X). simpl in Y. subst k'.
    destruct (H' k s X) as (v & V & _). congruence.
  - intros k s X. apply dget_In, in_split in X as (pre & post & X).
    destruct (D _ _ _ _ X) as (v' & V' & HS' & ST'). destruct (H' k s) as (v & V & HS); [rewrite X; apply in_or_app; right; now left|].
    exists v, v'. split; [exact V|]. split; [exact V'|].
    pose proof (seg_stored C (e_shape E) H' pre k s post v X V) as ST. fold l in ST.
    destruct s as [s|], v as [z|t a], v' as [z'|t' a']; simpl in HS, HS'; try contradiction; simpl in *.
    + subst t t'. split; [reflexivity|]. intros I HI. specialize (ST I HI). specialize (ST' I HI). congruence.
    + congruence.
Qed.
(* position of an entry in the flat array *)
Fixpoint position (sh : shapes) (k : string) (I : idx) : nat :=
  match sh with
  | [] => 0
  | (k', s) :: r => if keqb k k' then match s with None => 0 | Some t => offset t I end
                    else csize s + position r k I
  end.
Definition valid_entry (sh : shapes) (k : string) (I : idx) : Prop :=
  match dget sh k with None => False | Some None => I = [] | Some (Some s) => in_shape s I = true end.
(* Two coefficients never overlap. *)
Theorem C18_no_overlap : forall (sh : shapes) k k' I I',
  valid_entry sh k I -> valid_entry sh k' I' ->
  (position sh k I < shape_size sh)%nat /\ (position sh k I = position sh k' I' -> k = k' /\ I = I').
Proof.
  assert (LT : forall s (I : idx), match s with None => I = [] | Some t => in_shape t I = true end ->
                 (match s with None => 0 | Some t => offset t I end < csize s)%nat).
  { intros [s|] I; simpl; [apply offset_lt|lia]. }
  assert (POS : forall sh k I, valid_entry sh k I -> (position sh k I < shape_size sh)%nat).
  { unfold valid_entry. induction sh as [|[k0 s] sh IH]; intros k I; cbn [dget position shape_size fold_right snd]; [contradiction|].
    destruct (keqb_spec k k0) as [->|NE]; intros H.
    - specialize (LT s I H). lia.
    - apply IH in H. change (fold_right _ _ sh) with (shape_size sh). lia. }
  intros sh k k' I I' V V'. split; [now apply POS|]. revert V V'. unfold valid_entry.
  induction sh as [|[k0 s] sh IH]; cbn [dget position]; [contradiction|].
  destruct (keqb_spec k k0) as [EQ|NE], (keqb_spec k' k0) as [EQ'|NE']; subst; intros V V' H.
  - split; [reflexivity|]. destruct s as [s|]; [|congruence].
    pose proof (nth_offset s I V) as P. rewrite H, (nth_offset s I' V') in P. congruence.
  - specialize (LT s I V). lia.
  - specialize (LT s I' V'). lia.
  - apply IH; auto. lia.
Qed.
Print Assumptions C18_array_roundtrip.
Print Assumptions C18_short_array_rejected.
Print Assumptions C18_dict_roundtrip.
Print Assumptions C18_no_overlap.

(* ---------- C19 ---------- *)
(* Labels determine the operator and the entry. *)
Theorem C19_labels_distinct : forall n m I J, no_us n -> no_us m ->
  forallb (fun j => j <? 9)%nat I = true -> forallb (fun j => j <? 9)%nat J = true ->
  label n I = label m J -> n = m /\ I = J.
Proof. exact label_inj. Qed.
(* From labelled coefficients to arrays and back: every coefficient is returned, and
   every other coefficient of the result is a zero entry of the array of a given one. *)
Theorem C19_wcxf_roundtrip : forall (K : StarField) (E : eft) (d : dict string K),
  wfdict d -> (forall k, In k (dkeys d) -> good_key E k) ->
  (forall n s, dget (e_shape E) n = Some (Some s) -> small_shape s = true /\ (2 <= List.length s)%nat) ->
  exists C, wcxf2arrays E d = Ok C /\
    (forall k, In k (dkeys d) -> dget (arrays2wcxf C) k = dget d k) /\
    (forall k z, dget d k = None -> dget (arrays2wcxf C) k = Some z ->
       z = 0%K /\ exists n I J, k = label n I /\ dget d (label n J) <> None).
Proof.
  intros K E d WF G SH. destruct (wcxf2arrays_inv E d WF G) as (C & A & (WC & KC & SC & AR)).
  exists C. split; [exact A|].
  assert (PR : forall k v, In (k, v) C -> no_us k /\ proper_val v = true).
  { intros k v H. assert (DK : dget C k = Some v) by (now apply In_dget).
    destruct (KC k) as [N X]; [now apply dget_Some_key in DK|]. split; [exact N|].
    destruct (dget (e_shape E) k) as [[s|]|] eqn:Es; [| |congruence].
    - specialize (AR k s N Es). rewrite DK in AR. destruct AR as (a & -> & _). unfold proper_val.
      destruct (SH k s Es) as [-> L]. cbn [andb]. now apply Nat.leb_le.
    - specialize (SC k N Es). rewrite DK in SC. destruct (dget d k); [injection SC as ->; reflexivity|discriminate]. }
  destruct (arrays2wcxf_spec C WC PR) as (P1 & P2 & P3 & _).
  assert (VAL : forall n s a, dget C n = Some (CArr s a) -> no_us n /\ dget (e_shape E) n = Some (Some s) /\
     (forall I, in_shape s I = true -> a I = dgetd d (label n I) 0%K) /\
     exists I, in_shape s I = true /\ dget d (label n I) <> None).
  { intros n s a DK. destruct (KC n) as [N X]; [now apply dget_Some_key in DK|].
    destruct (dget (e_shape E) n) as [[s'|]|] eqn:Es; [| |congruence].
    - specialize (AR n s' N Es). rewrite DK in AR. destruct AR as (a' & EQ & A1 & A2). injection EQ as <- <-.
      split; [exact N|]. split; [reflexivity|]. split; [|exact A2]. intros I HI. apply A1; [exact HI|].
      destruct (SH n s Es) as [SM _]. now apply (in_shape_small s).
    - specialize (SC n N Es). rewrite DK in SC. destruct (dget d n); discriminate. }
  split.
  - intros k Hk. destruct (G k Hk) as [n N Es|n s I N Es SM HI].
    + specialize (SC n N Es). destruct (dget d n) as [z|] eqn:Ed; [|apply dget_None in Ed; contradiction].
      now apply P1.
    + destruct (dget d (label n I)) as [z|] eqn:Ed; [|apply dget_None in Ed; contradiction].
      specialize (AR n s N Es). destruct (dget C n) as [v|] eqn:Ec.
      * destruct AR as (a & -> & A1 & _). rewrite (P2 n s a I Ec HI), A1; [|exact HI|now apply (in_shape_small s)].
        unfold dgetd. now rewrite Ed.
      * rewrite AR in Ed; [discriminate|exact HI|now apply (in_shape_small s)].
  - intros k z Ek Ez. destruct (P3 k) as [(x & X)|(n & s & a & I & X & HI & ->)]; [congruence| |].
    + exfalso. destruct (KC k) as [N Y]; [now apply dget_Some_key in X|].
      destruct (dget (e_shape E) k) as [[s|]|] eqn:Es; [| |congruence].
      * specialize (AR k s N Es). rewrite X in AR. destruct AR as (a & ? & _). discriminate.
      * specialize (SC k N Es). rewrite X, Ek in SC. discriminate.
    + destruct (VAL n s a X) as (N & Es & A1 & J & HJ & A2). rewrite (P2 n s a I X HI) in Ez. injection Ez as <-.
      split; [|exists n, I, J; auto]. rewrite A1 by exact HI. unfold dgetd. now rewrite Ek.
Qed.
(* From arrays to labelled coefficients and back: the same arrays. *)
Theorem C19_arrays_roundtrip : forall (K : StarField) (E : eft) (C : dict string (cval K)),
  wfdict C ->
  (forall n v, dget C n = Some v -> no_us n /\ proper_val v = true /\
     exists sh, dget (e_shape E) n = Some sh /\ has_shape sh v) ->
  (forall n s a, dget C n = Some (CArr s a) -> (0 < size s)%nat) ->
  exists C', wcxf2arrays E (arrays2wcxf C) = Ok C' /\
    (forall n, dget C' n = None <-> dget C n = None) /\
    (forall n v, dget C n = Some v -> exists v', dget C' n = Some v' /\ cv_eq v v').
Proof.
  intros K E C WF H NE.
  assert (PR : forall k v, In (k, v) C -> no_us k /\ proper_val v = true).
  { intros k v X. apply In_dget in X; [|exact WF]. destruct (H k v X) as (A & B & _). auto. }
  destruct (arrays2wcxf_spec C WF PR) as (P1 & P2 & P3 & P4).
  destruct (wcxf2arrays_inv E (arrays2wcxf C) P4) as (C' & A & (WC & KC & SC & AR)).
  { intros k Hk. destruct (P3 k) as [(z & X)|(n & s & a & I & X & HI & ->)].
    - intros Y. apply dget_None in Y. contradiction.
    - destruct (H k _ X) as (N & _ & sh & Es & HS). destruct sh as [s|]; [contradiction|]. now apply good_scalar.
    - destruct (H n _ X) as (N & PV & sh & Es & HS). destruct sh as [s'|]; [|contradiction]. simpl in HS. subst s'.
      apply (good_array E n s I N Es); [|exact HI]. simpl in PV. now apply andb_prop in PV. }
  exists C'. split; [exact A|].
  assert (ONE : forall s, (0 < size s)%nat -> exists I, in_shape s I = true).
  { intros s L. rewrite <- length_all_indices in L. destruct (all_indices s) as [|I r] eqn:EI; [simpl in L; lia|].
    exists I. apply in_all_indices. rewrite EI. now left. }
  assert (Q : forall n v, dget C n = Some v -> exists v', dget C' n = Some v' /\ cv_eq v v').
  { intros n v X. destruct (H n v X) as (N & PV & sh & Es & HS). destruct v as [z|s a].
    - destruct sh; [contradiction|]. specialize (SC n N Es). rewrite (P1 n z X) in SC.
      exists (CNum z). split; [exact SC|reflexivity].
    - destruct sh as [s'|]; [|contradiction]. simpl in HS. subst s'. specialize (AR n s N Es).
      assert (SM : small_shape s = true) by (simpl in PV; now apply andb_prop in PV).
      destruct (ONE s (NE n s a X)) as (I0 & HI0).
      destruct (dget C' n) as [v'|] eqn:Ec.
      + destruct AR as (a' & -> & A1 & _). exists (CArr s a'). split; [reflexivity|]. split; [reflexivity|].
        intros I HI. rewrite A1 by (auto; now apply (in_shape_small s)). unfold dgetd. now rewrite (P2 n s a I X HI).
      + specialize (AR I0 HI0 (in_shape_small s I0 SM HI0)). rewrite (P2 n s a I0 X HI0) in AR. discriminate. }
  split; [|exact Q]. intros n. split; intros X.
  - destruct (dget C n) as [v|] eqn:Ec; [|reflexivity]. destruct (Q n v Ec) as (v' & V & _). congruence.
  - destruct (dget C' n) as [v'|] eqn:Ec; [|reflexivity]. exfalso.
    destruct (KC n) as [N Y]; [now apply dget_Some_key in Ec|].
    destruct (dget (e_shape E) n) as [[s|]|] eqn:Es; [| |congruence].
    + specialize (AR n s N Es). rewrite Ec in AR. destruct AR as (a & _ & _ & I & HI & Z).
      destruct (P3 _ Z) as [(z & W)|(m & t & b & J & W & HJ & EQ)].
      * destruct (H _ _ W) as (NL & _ & sh & Es' & _). 
        unfold no_us in NL. assert (SP : split_us (label n I) = n :: split_us (String.concat "" (map (fun j => str_nat (j + 1)) I))).
        { unfold label. now apply split_app. }
        rewrite NL in SP. injection SP as _ SP. symmetry in SP. now apply split_us_nonempty in SP.
      * destruct (H _ _ W) as (NM & PV & _). assert (SP : forall p L, no_us p -> split_us (label p L) = p :: split_us (String.concat "" (map (fun j => str_nat (j + 1)) L))).
        { intros p L NP. unfold label. now apply split_app. }
        assert (EN : n = m) by (pose proof (SP n I N) as S1; pose proof (SP m J NM) as S2; rewrite EQ in S1; congruence).
        subst m. congruence.
    + specialize (SC n N Es). rewrite Ec in SC. destruct (dget (arrays2wcxf C) n) as [z|] eqn:Ez; [|discriminate].
      destruct (P3 n) as [(y & W)|(m & t & b & J & W & HJ & EQ)]; [congruence|congruence|].
      destruct (H _ _ W) as (NM & PV & _).
      assert (SP : split_us (label m J) = m :: split_us (String.concat "" (map (fun j => str_nat (j + 1)) J))).
      { unfold label. now apply split_app. }
      rewrite <- EQ in SP. unfold no_us in N. rewrite N in SP. injection SP as _ SP. symmetry in SP. now apply split_us_nonempty in SP.
Qed.
Print Assumptions C19_labels_distinct.
Print Assumptions C19_wcxf_roundtrip.
Print Assumptions C19_arrays_roundtrip.

(* an instance: one scalar operator and one 3x3 operator without symmetry *)
Definition ex_all : list string := "G" :: map (label "uG") (all_indices [3;3]%nat).
Definition ex_eft : eft :=
  match eft_init ex_all (fun k => keqb k "G") [] [] with Ok E => E | Err _ => mkEft [] [] [] [] [] [] false end.
Example ex18 : wfdict (e_shape ex_eft) /\ shape_size (e_shape ex_eft) = 10%nat /\
  e_shape ex_eft = [("G", None); ("uG", Some [3;3]%nat)] /\
  valid_entry (e_shape ex_eft) "uG" [2;1]%nat /\ position (e_shape ex_eft) "uG" [2;1]%nat = 8%nat.
Proof.
  assert (EQ : e_shape ex_eft = [("G", None); ("uG", Some [3;3]%nat)]) by (vm_compute; reflexivity).
  rewrite EQ. split; [apply knodup_NoDup; reflexivity|]. repeat split.
Qed.
Example ex19 : good_key ex_eft "uG_32" /\ good_key ex_eft "G" /\
  (forall n s, dget (e_shape ex_eft) n = Some (Some s) -> small_shape s = true /\ (2 <= List.length s)%nat).
Proof.
  assert (EQ : e_shape ex_eft = [("G", None); ("uG", Some [3;3]%nat)]) by (vm_compute; reflexivity).
  split; [apply (good_array ex_eft "uG" [3;3]%nat [2;1]%nat); try reflexivity; rewrite EQ; reflexivity|].
  split; [apply good_scalar; [reflexivity|rewrite EQ; reflexivity]|].
  rewrite EQ. intros n s. cbn [dget]. destruct (keqb n "G"); [discriminate|]. destruct (keqb n "uG"); [|discriminate].
  intros H. injection H as <-. split; [reflexivity|simpl; lia].
Qed.
