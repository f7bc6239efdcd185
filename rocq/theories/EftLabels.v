(* Lemmas on labels, wcxf2arrays and arrays2wcxf. *)
From Coq Require Import List Bool ZArith QArith Arith Lia String Ascii DecimalString.
From Verif Require Import PyBase Num Lin SymModel SymTables SymClass EftModel EftSpec EftProofs.
Import ListNotations.
Local Open Scope string_scope.
Local Open Scope list_scope.

Lemma split_us_nonempty s : split_us s <> [].
Proof. destruct s; simpl; [discriminate|]. destruct (Ascii.eqb a "_"); [discriminate|]. destruct (split_us s); discriminate. Qed.
Lemma split_app n d : no_us n -> split_us (n ++ String "_" d)%string = n :: split_us d.
Proof.
  unfold no_us. induction n as [|c n IH]; simpl; [reflexivity|].
  destruct (Ascii.eqb c "_"); [discriminate|]. intros H.
  destruct (split_us n) as [|w ws] eqn:E.
  - exfalso. exact (split_us_nonempty n E).
  - injection H as -> ->. rewrite IH by reflexivity. reflexivity.
Qed.
(* ---------- digits ---------- *)
Definition digit (j : nat) : ascii := ascii_of_nat (49 + j).
Arguments digit : simpl never.
Fixpoint digits (I : idx) : string :=
  match I with [] => EmptyString | j :: r => String (digit j) (digits r) end.
Definition small (I : idx) : bool := forallb (fun j => j <? 9)%nat I.
Lemma lt9 j : (j < 9)%nat -> In j [0;1;2;3;4;5;6;7;8]%nat.
Proof. intros. simpl. lia. Qed.
Lemma str_nat_digit j : (j < 9)%nat -> str_nat (j + 1) = String (digit j) EmptyString.
Proof. intros H. apply lt9 in H. simpl in H. repeat (destruct H as [<-|H]; [reflexivity|]). destruct H. Qed.
Lemma concat_nil_cons s l : String.concat "" (s :: l) = (s ++ String.concat "" l)%string.
Proof.
  simpl. destruct l; [|reflexivity]. simpl. induction s as [|c s IH]; simpl; [reflexivity|]. f_equal. exact IH.
Qed.
Lemma label_digits n I : small I = true -> label n I = (n ++ String "_" (digits I))%string.
Proof.
  intros H. unfold label. f_equal. simpl. f_equal. unfold small in H.
  induction I as [|j I IH]; [reflexivity|]. simpl in H. apply andb_prop in H as [A B]. apply Nat.ltb_lt in A.
  rewrite map_cons, concat_nil_cons, str_nat_digit, IH by assumption. reflexivity.
Qed.
Lemma digit_nat j : (j < 9)%nat -> nat_of_ascii (digit j) = (49 + j)%nat.
Proof. intros. unfold digit. apply nat_ascii_embedding. lia. Qed.
Lemma digits_no_us I : small I = true -> no_us (digits I).
Proof.
  unfold no_us, small. induction I as [|j I IH]; intros H; [reflexivity|]. simpl in H. apply andb_prop in H as [A B]. apply Nat.ltb_lt in A.
  cbn [digits split_us]. destruct (Ascii.eqb_spec (digit j) "_") as [E|_].
  - apply (f_equal nat_of_ascii) in E. rewrite digit_nat in E by exact A. vm_compute in E. lia.
  - now rewrite IH.
Qed.
Lemma int_char_digit j : (j < 9)%nat -> int_char (digit j) = Ok (Z.of_nat j + 1)%Z.
Proof.
  intros H. unfold int_char. rewrite digit_nat by exact H.
  replace ((48 <=? 49 + j)%nat && (49 + j <=? 57)%nat) with true.
  - f_equal. lia.
  - symmetry. apply andb_true_intro. split; apply Nat.leb_le; lia.
Qed.
Lemma int_chars_digits I : small I = true -> int_chars (digits I) = Ok (map (fun j => Z.of_nat j + 1)%Z I).
Proof.
  unfold small. induction I as [|j I IH]; intros H; [reflexivity|]. simpl in H. apply andb_prop in H as [A B]. apply Nat.ltb_lt in A.
  cbn [digits int_chars map]. rewrite int_char_digit, IH by assumption. reflexivity.
Qed.
Lemma digits_inj I J : small I = true -> small J = true -> digits I = digits J -> I = J.
Proof.
  unfold small. revert J. induction I as [|i I IH]; intros [|j J] HI HJ E; cbn [forallb digits] in *; try discriminate; [reflexivity|].
  apply andb_prop in HI as [A B]. apply andb_prop in HJ as [C D]. apply Nat.ltb_lt in A, C.
  injection E as E1 E2. apply (f_equal nat_of_ascii) in E1. rewrite !digit_nat in E1 by assumption.
  f_equal; [lia|]. now apply IH.
Qed.
Lemma label_split n I : no_us n -> small I = true -> split_us (label n I) = [n; digits I].
Proof. intros N H. rewrite label_digits, split_app by assumption. f_equal. now apply digits_no_us. Qed.
Lemma label_name n I : no_us n -> small I = true -> name_of (label n I) = n.
Proof. intros N H. unfold name_of. now rewrite label_split. Qed.
Lemma label_index n I : no_us n -> small I = true -> index_of (label n I) = digits I.
Proof. intros N H. unfold index_of. now rewrite label_split. Qed.
Lemma label_inj n m I J : no_us n -> no_us m -> small I = true -> small J = true -> label n I = label m J -> n = m /\ I = J.
Proof.
  intros N M HI HJ E. pose proof (label_split n I N HI) as A. rewrite E, (label_split m J M HJ) in A.
  injection A as -> A. split; [reflexivity|]. symmetry. now apply digits_inj.
Qed.
Lemma label_not_plain n m I : no_us n -> no_us m -> small I = true -> label n I <> m.
Proof. intros N M H E. pose proof (label_split n I N H) as A. rewrite E, M in A. discriminate. Qed.
Lemma plain_name n : no_us n -> name_of n = n.
Proof. unfold no_us, name_of. now intros ->. Qed.

(* ---------- shapes ---------- *)
Lemma in_shape_small s I : small_shape s = true -> in_shape s I = true -> small I = true.
Proof.
  unfold small_shape, small. revert I. induction s as [|n s IH]; intros [|i I]; simpl; try discriminate; auto.
  intros H G. apply andb_prop in H as [A B]. apply andb_prop in G as [C D]. apply Nat.leb_le in A. apply Nat.ltb_lt in C.
  rewrite IH by assumption. rewrite (proj2 (Nat.ltb_lt i 9)) by lia. reflexivity.
Qed.
Lemma in_shape_length s I : in_shape s I = true -> List.length I = List.length s.
Proof.
  revert I. induction s as [|n s IH]; intros [|i I]; simpl; try discriminate; auto. intros H. apply andb_prop in H as [_ H]. f_equal. auto.
Qed.
Lemma norm_index_in s I : in_shape s I = true -> norm_index s (map (fun z => z - 1)%Z (map (fun j => Z.of_nat j + 1)%Z I)) = Ok I.
Proof.
  rewrite map_map. revert I. induction s as [|n s IH]; intros [|i I]; simpl; try discriminate; auto.
  intros H. apply andb_prop in H as [A B]. apply Nat.ltb_lt in A.
  replace (Z.of_nat i + 1 - 1)%Z with (Z.of_nat i) by lia.
  replace ((0 <=? Z.of_nat i)%Z && (Z.of_nat i <? Z.of_nat n)%Z) with true.
  - rewrite IH by exact B. simpl. now rewrite Nat2Z.id.
  - symmetry. apply andb_true_intro. split; [apply Z.leb_le|apply Z.ltb_lt]; lia.
Qed.
Lemma prefixb_eq p I : List.length p = List.length I -> prefixb p I = keqb p I.
Proof.
  revert I. induction p as [|x p IH]; intros [|y I] L; simpl in *; try discriminate; [reflexivity|].
  injection L as L. rewrite IH by exact L. reflexivity.
Qed.

Section P.
Context {K : StarField}.
Local Open Scope K_scope.
Notation cdict := (dict string (cval K)).
Variable E : eft.

(* state of wcxf2arrays after reading the dictionary d *)
Definition w2a_inv (d : dict string K) (C : cdict) : Prop :=
  wfdict C /\
  (forall n, In n (dkeys C) -> no_us n /\ dget (e_shape E) n <> None) /\
  (forall n, no_us n -> dget (e_shape E) n = Some None ->
     dget C n = match dget d n with Some z => Some (CNum z) | None => None end) /\
  (forall n s, no_us n -> dget (e_shape E) n = Some (Some s) ->
     match dget C n with
     | None => forall I, in_shape s I = true -> small I = true -> dget d (label n I) = None
     | Some v => exists a, v = CArr s a /\ (forall I, in_shape s I = true -> small I = true -> a I = dgetd d (label n I) 0) /\
                 exists I, in_shape s I = true /\ dget d (label n I) <> None
     end).
Definition w2a_step (C : cdict) (kv : string * K) : res cdict :=
    let k := fst kv in let name := name_of k in
    match dget (e_shape E) name with
    | None => Err KeyError
    | Some None => Ok (dset C k (CNum (snd kv)))
    | Some (Some s) =>
        let old := match dget C name with Some x => x | None => CArr s (fun _ => 0) end in
        match old with
        | CNum _ => Err TypeError
        | CArr s' a =>
            bind (int_chars (index_of k)) (fun zs =>
            bind (norm_index s' (map (fun z => z - 1)%Z zs)) (fun p =>
            Ok (dset C name (CArr s' (fun I => if prefixb p I then snd kv else a I)))))
        end
    end.
Lemma wcxf2arrays_step d : wcxf2arrays E d = fold_left (fun acc kv => bind acc (fun C => w2a_step C kv)) d (Ok []).
Proof. reflexivity. Qed.
Lemma dget_app_last (d : dict string K) k v j : ~ In k (dkeys d) ->
  dget (d ++ [(k, v)]) j = if keqb j k then Some v else dget d j.
Proof.
  intros N. induction d as [|[k' v'] d IH].
  - simpl. destruct (keqb j k); reflexivity.
  - cbn [dget app]. destruct (keqb_spec j k') as [->|NE].
    + destruct (keqb_spec k' k) as [->|]; [|reflexivity]. exfalso. apply N. now left.
    + apply IH. intros H. apply N. now right.
Qed.
Lemma w2a_step_inv d C k v : w2a_inv d C -> ~ In k (dkeys d) -> good_key E k ->
  exists C', w2a_step C (k, v) = Ok C' /\ w2a_inv (d ++ [(k, v)]) C'.
Proof.
  intros (WF & KK & SC & AR) NI G. unfold w2a_step. cbn [fst snd]. destruct G as [n N HS|n s I N HS SS HI].
  - rewrite plain_name, HS by exact N. eexists; split; [reflexivity|]. split; [now apply wf_dset|]. split; [|split].
    + intros m Hm. apply In_dkeys_dset in Hm as [->|Hm]; [split; [exact N|congruence]|auto].
    + intros m M HM. rewrite dget_dset, (dget_app_last d n v m NI). destruct (keqb_spec m n) as [->|NE]; [reflexivity|]. now apply SC.
    + intros m s M HM. assert (NE : m <> n) by congruence. rewrite dget_dset_neq by exact NE.
      specialize (AR m s M HM). destruct (dget C m) as [w|].
      * destruct AR as (a & -> & A1 & A2). exists a. split; [reflexivity|]. split.
        -- intros I HI SI. rewrite A1 by assumption. unfold dgetd. rewrite (dget_app_last d n v _ NI).
           destruct (keqb_spec (label m I) n) as [EQ|]; [|reflexivity]. exfalso. now apply (label_not_plain m n I).
        -- destruct A2 as (I & HI & A2). exists I. split; [exact HI|]. rewrite (dget_app_last d n v _ NI).
           destruct (keqb (label m I) n); [discriminate|exact A2].
      * intros I HI SI. rewrite (dget_app_last d n v _ NI).
        destruct (keqb_spec (label m I) n) as [EQ|]; [exfalso; now apply (label_not_plain m n I)|]. now apply AR.
  - assert (SI : small I = true) by (eapply in_shape_small; eauto).
    rewrite label_name, label_index, HS, int_chars_digits by assumption. cbn [bind].
    set (old := match dget C n with Some x => x | None => CArr s (fun _ => 0) end).
    assert (O : exists a, old = CArr s a /\ forall J, in_shape s J = true -> small J = true -> a J = dgetd d (label n J) 0).
    { specialize (AR n s N HS). unfold old. destruct (dget C n) as [w|].
      - destruct AR as (a & -> & A1 & _). eauto.
      - exists (fun _ => 0). split; [reflexivity|]. intros J HJ SJ. unfold dgetd. now rewrite AR. }
    destruct O as (a & -> & OA). rewrite norm_index_in by exact HI. cbn [bind].
    eexists; split; [reflexivity|]. split; [now apply wf_dset|]. split; [|split].
    + intros m Hm. apply In_dkeys_dset in Hm as [->|Hm]; [split; [exact N|congruence]|auto].
    + intros m M HM. assert (NE : m <> n) by congruence. rewrite dget_dset_neq by exact NE.
      rewrite (dget_app_last d _ v m NI). destruct (keqb_spec m (label n I)) as [EQ|]; [|now apply SC].
      exfalso. now apply (label_not_plain n m I).
    + intros m t M HM. rewrite dget_dset. destruct (keqb_spec m n) as [->|NE].
      * rewrite HS in HM. injection HM as <-. eexists; split; [reflexivity|]. split.
        -- intros J HJ SJ. cbv beta. unfold dgetd. rewrite (dget_app_last d _ v _ NI).
           rewrite prefixb_eq by (now rewrite (in_shape_length s I), (in_shape_length s J)).
           destruct (@keqb_spec (list nat) _ I J) as [->|NE].
           ++ now rewrite keqb_refl.
           ++ destruct (keqb_spec (label n J) (label n I)) as [EQ|]; [|now apply OA].
              exfalso. apply label_inj in EQ as [_ EQ]; auto.
        -- exists I. split; [exact HI|]. rewrite (dget_app_last d _ v _ NI), keqb_refl. discriminate.
      * specialize (AR m t M HM).
        assert (LN : forall J, small J = true -> label m J <> label n I).
        { intros J SJ EQ. apply label_inj in EQ as [EQ _]; auto. }
        destruct (dget C m) as [w|].
        -- destruct AR as (b & -> & A1 & A2). exists b. split; [reflexivity|]. split.
           ++ intros J HJ SJ. rewrite A1 by assumption. unfold dgetd. rewrite (dget_app_last d _ v _ NI).
              destruct (keqb_spec (label m J) (label n I)) as [EQ|]; [exfalso; now apply (LN J)|reflexivity].
           ++ destruct A2 as (J & HJ & A2). exists J. split; [exact HJ|]. rewrite (dget_app_last d _ v _ NI).
              destruct (keqb (label m J) (label n I)); [discriminate|exact A2].
        -- intros J HJ SJ. rewrite (dget_app_last d _ v _ NI).
           destruct (keqb_spec (label m J) (label n I)) as [EQ|]; [exfalso; now apply (LN J)|]. now apply AR.
Qed.
Lemma wcxf2arrays_inv d : wfdict d -> (forall k, In k (dkeys d) -> good_key E k) ->
  exists C, wcxf2arrays E d = Ok C /\ w2a_inv d C.
Proof.
  rewrite wcxf2arrays_step. induction d as [|[k v] d IH] using rev_ind; intros WF G.
  - exists []. split; [reflexivity|]. split; [apply wf_nil|]. split; [intros n []|]. split; intros; simpl; auto.
  - assert (NI : ~ In k (dkeys d) /\ wfdict d).
    { unfold wfdict, dkeys in *. rewrite map_app in WF. simpl in WF. apply NoDup_remove in WF as [W1 W2]. rewrite app_nil_r in *. auto. }
    destruct NI as [NI WF']. destruct IH as (C & E1 & INV); [exact WF'| |].
    + intros j Hj. apply G. unfold dkeys. rewrite map_app. apply in_or_app. now left.
    + rewrite fold_left_app. simpl. rewrite E1. simpl. apply w2a_step_inv; auto.
      apply G. unfold dkeys. rewrite map_app. apply in_or_app. right. now left.
Qed.

(* ---------- arrays2wcxf ---------- *)
Definition a2w_step (d : dict string K) (kv : string * cval K) : dict string K :=
  match snd kv with
    | CNum z => dset d (fst kv) z
    | CArr [] a => dset d (fst kv) (a [])
    | CArr [1%nat] a => dset d (fst kv) (a [0%nat])
    | CArr s a => fold_left (fun d I => dset d (label (fst kv) I) (a I)) (all_indices s) d
    end.
Lemma a2w_proper d k v : proper_val v = true -> a2w_step d (k, v) =
  match v with CNum z => dset d k z | CArr s a => fold_left (fun d I => dset d (label k I) (a I)) (all_indices s) d end.
Proof.
  unfold a2w_step. cbn [fst snd]. destruct v as [z|s a]; [reflexivity|]. simpl. intros H. apply andb_prop in H as [_ H].
  destruct s as [|n [|m s]]; simpl in H; try discriminate. destruct n as [|[|n]]; reflexivity.
Qed.
(* content of the output for one key *)
Definition out_at (C : cdict) (j : string) : option K :=
  match split_us j with
  | [n] => match dget C n with Some (CNum z) => Some z | _ => None end
  | _ => None
  end.
Lemma fold_set_labels k (a : idx -> K) L : forall d j,
  no_us k -> (forall I, In I L -> small I = true) ->
  dget (fold_left (fun d I => dset d (label k I) (a I)) L d) j =
  match find (fun I => keqb j (label k I)) L with Some J => Some (a J) | None => dget d j end.
Proof.
  induction L as [|I L IH] using rev_ind; intros d j N SM; [reflexivity|].
  rewrite fold_left_app. cbn [fold_left]. rewrite dget_dset, IH by (auto; intros; apply SM; apply in_or_app; now left).
  assert (FA : find (fun I => keqb j (label k I)) (L ++ [I]) =
     match find (fun I => keqb j (label k I)) L with Some x => Some x | None => if keqb j (label k I) then Some I else None end).
  { clear. induction L as [|x L IH]; cbn [find app]; [reflexivity|]. destruct (keqb j (label k x)); [reflexivity|exact IH]. }
  rewrite FA. destruct (keqb_spec j (label k I)) as [->|NE].
  - destruct (find (fun I0 => keqb (label k I) (label k I0)) L) as [J|] eqn:F; [|reflexivity].
    apply find_some in F as [HJ F]. apply keqb_true in F. apply label_inj in F as [_ ->]; auto.
    + apply SM, in_or_app; right; now left.
    + apply SM, in_or_app; now left.
  - destruct (find _ L); reflexivity.
Qed.
Lemma arrays2wcxf_spec (C : cdict) : wfdict C ->
  (forall k v, In (k, v) C -> no_us k /\ proper_val v = true) ->
  let d := arrays2wcxf C in
  (forall n z, dget C n = Some (CNum z) -> dget d n = Some z) /\
  (forall n s a I, dget C n = Some (CArr s a) -> in_shape s I = true -> dget d (label n I) = Some (a I)) /\
  (forall j, dget d j <> None -> (exists z, dget C j = Some (CNum z)) \/
     exists n s a I, dget C n = Some (CArr s a) /\ in_shape s I = true /\ j = label n I) /\
  wfdict d.
Proof.
  change (arrays2wcxf C) with (fold_left a2w_step C []).
  induction C as [|[k v] C IH] using rev_ind; intros WF H.
  - simpl. split; [intros; discriminate|]. split; [intros; discriminate|]. split; [congruence|apply wf_nil].
  - assert (NI : ~ In k (dkeys C) /\ wfdict C).
    { unfold wfdict, dkeys in *. rewrite map_app in WF. simpl in WF. apply NoDup_remove in WF as [W1 W2]. rewrite app_nil_r in *. auto. }
    destruct NI as [NI WF'].
    assert (DG : forall j, dget (C ++ [(k, v)]) j = if keqb j k then Some v else dget C j).
    { clear -NI. intros j. induction C as [|[k' v'] C IH].
      - simpl. destruct (keqb j k); reflexivity.
      - cbn [dget app]. destruct (keqb_spec j k') as [->|NE].
        + destruct (keqb_spec k' k) as [->|]; [|reflexivity]. exfalso. apply NI. now left.
        + apply IH. intros X. apply NI. now right. }
    destruct IH as (I1 & I2 & I3 & I4); [exact WF'|intros; apply H, in_or_app; now left|].
    assert (HK : no_us k /\ proper_val v = true) by (apply H, in_or_app; right; now left). destruct HK as [N P].
    assert (NU : forall n w, dget C n = Some w -> no_us n /\ proper_val w = true).
    { intros n w D. apply H, in_or_app. left. now apply dget_In. }
    rewrite fold_left_app. cbn [fold_left]. rewrite a2w_proper by exact P.
    set (d := fold_left a2w_step C []) in *.
    destruct v as [z|s a].
    + repeat split.
      * intros n z' D. rewrite DG in D. rewrite dget_dset. destruct (keqb_spec n k); [congruence|auto].
      * intros n s a I D HI. rewrite DG in D. destruct (keqb_spec n k) as [->|NE]; [congruence|].
        destruct (NU _ _ D) as [N' P']. simpl in P'. apply andb_prop in P' as [P' _].
        rewrite dget_dset_neq; [now apply (I2 n s)|]. apply label_not_plain; auto. eapply in_shape_small; eauto.
      * intros j D. rewrite dget_dset in D. destruct (keqb_spec j k) as [EQ|NE]; [subst j|].
        -- left. exists z. now rewrite DG, keqb_refl.
        -- destruct (I3 j D) as [(z' & X)|(n & s & a & I & X & Y & Z)].
           ++ left. exists z'. rewrite DG. destruct (keqb_spec j k); [contradiction|exact X].
           ++ right. exists n, s, a, I. split; [|auto]. rewrite DG. destruct (keqb_spec n k) as [->|]; [|exact X].
              exfalso. apply NI. now apply dget_Some_key in X.
      * now apply wf_dset.
    + simpl in P. apply andb_prop in P as [P _].
      assert (SM : forall I, In I (all_indices s) -> small I = true).
      { intros I HI. apply in_all_indices in HI. eapply in_shape_small; eauto. }
      repeat split.
      * intros n z D. rewrite DG in D. destruct (keqb_spec n k) as [->|NE]; [discriminate|].
        rewrite fold_set_labels by auto. destruct (find _ _) as [J|] eqn:F; [|now apply I1].
        apply find_some in F as [HJ F]. apply keqb_true in F. exfalso. symmetry in F. revert F.
        destruct (NU _ _ D). apply label_not_plain; auto.
      * intros n t b I D HI. rewrite DG in D. rewrite fold_set_labels by auto. destruct (keqb_spec n k) as [->|NE].
        -- injection D as <- <-. destruct (find _ _) as [J|] eqn:F.
           ++ apply find_some in F as [HJ F]. apply keqb_true in F. apply label_inj in F as [_ ->]; auto. eapply in_shape_small; eauto.
           ++ exfalso. pose proof (find_none _ _ F I (proj2 (in_all_indices s I) HI)) as X. cbv beta in X. now rewrite keqb_refl in X.
        -- destruct (NU _ _ D) as [N' P']. simpl in P'. apply andb_prop in P' as [P' _].
           destruct (find _ _) as [J|] eqn:F; [|now apply (I2 n t)].
           apply find_some in F as [HJ F]. apply keqb_true in F. apply label_inj in F as [F _]; auto; [contradiction|]. eapply in_shape_small; eauto.
      * intros j D. rewrite fold_set_labels in D by auto. destruct (find _ _) as [J|] eqn:F.
        -- apply find_some in F as [HJ F]. apply keqb_true in F. apply in_all_indices in HJ. right. exists k, s, a, J.
           split; [now rewrite DG, keqb_refl|auto].
        -- destruct (I3 j D) as [(z' & X)|(n & s' & a' & I & X & Y & Z)].
           ++ left. exists z'. rewrite DG. destruct (keqb_spec j k) as [->|]; [|exact X]. exfalso. apply NI. now apply dget_Some_key in X.
           ++ right. exists n, s', a', I. split; [|auto]. rewrite DG. destruct (keqb_spec n k) as [->|]; [|exact X].
              exfalso. apply NI. now apply dget_Some_key in X.
      * clear -I4. revert I4. generalize d. induction (all_indices s) as [|I L IH]; intros e W; [exact W|]. simpl. apply IH. now apply wf_dset.
Qed.
End P.
