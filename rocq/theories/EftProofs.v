(* Lemmas on flat arrays, labels and dictionaries of arrays. *)
From Coq Require Import List Bool ZArith QArith Arith Lia String Ascii DecimalString.
From Verif Require Import PyBase Num Lin SymModel SymTables SymClass EftModel EftSpec.
Import ListNotations.
Local Open Scope list_scope.

Lemma nth_error_ext {A} (l m : list A) : (forall n, nth_error l n = nth_error m n) -> l = m.
Proof.
  revert m. induction l as [|x l IH]; intros [|y m] E; auto.
  - specialize (E 0%nat). discriminate.
  - specialize (E 0%nat). discriminate.
  - pose proof (E 0%nat) as E0. injection E0 as ->. f_equal. apply IH. intros n. exact (E (Datatypes.S n)).
Qed.
(* ---------- indices ---------- *)
Lemma in_all_indices s I : In I (all_indices s) <-> in_shape s I = true.
Proof.
  revert I. induction s as [|n s IH]; intros I; simpl.
  - destruct I; split; intros H; auto; [destruct H as [H|[]]; discriminate|discriminate].
  - rewrite in_flat_map. split.
    + intros (i & Hi & H). apply in_map_iff in H as (I' & <- & H). apply in_seq in Hi. apply IH in H.
      apply andb_true_intro. split; [apply Nat.ltb_lt; lia|exact H].
    + destruct I as [|i I]; [discriminate|]. intros H. apply andb_prop in H as [A B]. apply Nat.ltb_lt in A.
      exists i. split; [apply in_seq; lia|]. apply in_map_iff. exists I. split; [reflexivity|now apply IH].
Qed.
Lemma length_flat_map_const {A B} (f : A -> list B) n l : (forall x, In x l -> List.length (f x) = n) ->
  List.length (flat_map f l) = (List.length l * n)%nat.
Proof.
  induction l as [|x l IH]; simpl; intros E; [reflexivity|].
  rewrite app_length, E, IH by auto. reflexivity.
Qed.
Lemma length_all_indices s : List.length (all_indices s) = size s.
Proof.
  induction s as [|n s IH]; simpl; [reflexivity|].
  rewrite (length_flat_map_const _ (size s)).
  - now rewrite seq_length.
  - intros. now rewrite map_length.
Qed.
Lemma nth_error_flat_map_const {A B} (f : A -> list B) n l i j x :
  (forall x, In x l -> List.length (f x) = n) -> nth_error l i = Some x -> (j < n)%nat ->
  nth_error (flat_map f l) (i * n + j) = nth_error (f x) j.
Proof.
  revert i. induction l as [|y l IH]; intros i E Hi Hj; [destruct i; discriminate|].
  destruct i as [|i]; simpl in *.
  - injection Hi as ->. rewrite nth_error_app1; [reflexivity|]. rewrite E by auto. exact Hj.
  - rewrite nth_error_app2; rewrite E by auto; [|lia].
    replace (n + i * n + j - n)%nat with (i * n + j)%nat by lia. apply IH; auto.
Qed.
Lemma offset_lt s I : in_shape s I = true -> (offset s I < size s)%nat.
Proof.
  revert I. induction s as [|n s IH]; intros [|i I]; simpl; try discriminate; [lia|].
  intros H. apply andb_prop in H as [A B]. apply Nat.ltb_lt in A. apply IH in B.
  change (fold_right Nat.mul 1%nat s) with (size s). nia.
Qed.
Lemma nth_offset s I : in_shape s I = true -> nth_error (all_indices s) (offset s I) = Some I.
Proof.
  revert I. induction s as [|n s IH]; intros [|i I]; simpl; try discriminate; [reflexivity|].
  intros H. apply andb_prop in H as [A B]. apply Nat.ltb_lt in A.
  rewrite (nth_error_flat_map_const _ (size s) _ i _ i).
  - rewrite nth_error_map, IH by exact B. reflexivity.
  - intros. rewrite map_length. apply length_all_indices.
  - rewrite (nth_error_nth' _ 0%nat) by (rewrite seq_length; exact A). rewrite seq_nth by exact A. reflexivity.
  - now apply offset_lt.
Qed.
Lemma map_offset s : map (offset s) (all_indices s) = seq 0 (size s).
Proof.
  apply nth_error_ext. intros n. rewrite nth_error_map.
  destruct (Nat.lt_ge_cases n (size s)) as [L|G].
  - rewrite (nth_error_nth' (seq 0 (size s)) 0%nat) by (rewrite seq_length; exact L). rewrite seq_nth by exact L.
    assert (E : exists I, nth_error (all_indices s) n = Some I).
    { destruct (nth_error (all_indices s) n) eqn:E; [eauto|]. apply nth_error_None in E. rewrite length_all_indices in E. lia. }
    destruct E as (I & E). rewrite E. simpl. f_equal.
    (* offset I = n because both positions hold I and positions are distinct *)
    revert n I L E. induction s as [|m s IH]; intros n I L E.
    + simpl in *. destruct n; [|lia]. injection E as <-. reflexivity.
    + simpl in *. change (fold_right Nat.mul 1%nat s) with (size s) in L.
      assert (P : (size s > 0)%nat) by (destruct (size s); lia).
      pose proof (Nat.div_mod n (size s) ltac:(lia)) as D.
      set (q := (n / size s)%nat) in *. set (r := (n mod size s)%nat) in *.
      assert (R : (r < size s)%nat) by (apply Nat.mod_upper_bound; lia).
      assert (Q : (q < m)%nat) by nia.
      replace n with (q * size s + r)%nat in E by lia.
      rewrite (nth_error_flat_map_const _ (size s) _ q r q) in E.
      * rewrite nth_error_map in E. destruct (nth_error (all_indices s) r) as [I'|] eqn:E'; unfold idx in *; rewrite E' in E; simpl in E; [|discriminate E].
        injection E as <-. simpl. change (fold_right Nat.mul 1%nat s) with (size s). rewrite (IH r I' R E'). lia.
      * intros. rewrite map_length. apply length_all_indices.
      * rewrite (nth_error_nth' _ 0%nat) by (rewrite seq_length; exact Q). rewrite seq_nth by exact Q. reflexivity.
      * exact R.
  - rewrite (proj2 (nth_error_None _ n)) by (rewrite length_all_indices; exact G).
    rewrite (proj2 (nth_error_None (seq 0 (size s)) n)) by (rewrite seq_length; exact G). reflexivity.
Qed.
Lemma NoDup_all_indices s : NoDup (all_indices s).
Proof. apply (NoDup_map_inv (offset s)). rewrite map_offset. apply seq_NoDup. Qed.

Section P.
Context {K : StarField}.
Local Open Scope K_scope.
Notation cdict := (dict string (cval K)).

Lemma cv_eq_refl (v : cval K) : cv_eq v v.
Proof. destruct v; simpl; auto. Qed.
Lemma map_nth_seq (l : list K) n : List.length l = n -> map (fun i => nth i l 0) (seq 0 n) = l.
Proof.
  intros <-. apply nth_error_ext. intros i. rewrite nth_error_map.
  destruct (Nat.lt_ge_cases i (List.length l)) as [L|G].
  - rewrite (nth_error_nth' (seq 0 (List.length l)) 0%nat) by (rewrite seq_length; exact L). rewrite seq_nth by exact L.
    simpl. symmetry. now apply nth_error_nth'.
  - rewrite (proj2 (nth_error_None l i)) by exact G.
    rewrite (proj2 (nth_error_None (seq 0 (List.length l)) i)) by (rewrite seq_length; exact G). reflexivity.
Qed.
Lemma ravel_reshape s (l : list K) : List.length l = size s -> ravel s (fun I => nth (offset s I) l 0) = l.
Proof.
  intros E. unfold ravel. rewrite <- (map_map (offset s) (fun i => nth i l 0)), map_offset. now apply map_nth_seq.
Qed.
Lemma ravel_length s (a : idx -> K) : List.length (ravel s a) = size s.
Proof. unfold ravel. now rewrite map_length, length_all_indices. Qed.
Lemma nth_ravel s (a : idx -> K) I : in_shape s I = true -> nth (offset s I) (ravel s a) 0 = a I.
Proof.
  intros H. apply nth_error_nth. unfold ravel. rewrite nth_error_map, nth_offset by exact H. reflexivity.
Qed.

(* ---------- flat arrays ---------- *)
Lemma slice_nth (l : list K) i n j : (i + n <= List.length l)%nat -> (j < n)%nat ->
  nth_error (slice l i (i + n)) j = nth_error l (i + j).
Proof.
  intros L J. unfold slice. replace (i + n - i)%nat with n by lia.
  assert (E : nth_error (firstn n (skipn i l)) j = nth_error (skipn i l) j).
  { revert n J L. generalize (skipn i l). intros m n J _. revert m n J. induction j as [|j IH]; intros [|x m] [|n] J; simpl; auto; try lia.
    apply IH. lia. }
  rewrite E. clear. revert l. induction i as [|i IH]; intros l; [reflexivity|]. destruct l; simpl; [now destruct j|]. apply IH.
Qed.
Lemma slice_length (l : list K) i n : (i + n <= List.length l)%nat -> List.length (slice l i (i + n)) = n.
Proof. intros L. unfold slice. rewrite firstn_length, skipn_length. lia. Qed.
Lemma shape_size_app a b : shape_size (a ++ b) = (shape_size a + shape_size b)%nat.
Proof. induction a as [|x a IH]; simpl; [reflexivity|]. rewrite IH. lia. Qed.

Variable E : eft.
Lemma array2dict_spec (l : list K) sub : forall i d,
  (forall k s, In (k, s) sub -> dget (e_shape E) k = Some s) -> NoDup (map fst sub) ->
  (i + shape_size sub <= List.length l)%nat ->
  exists C, array2dict_from E l (map fst sub) i d = Ok C /\
    (forall k, ~ In k (map fst sub) -> dget C k = dget d k) /\
    (forall pre k s post, sub = pre ++ (k, s) :: post ->
       exists v, dget C k = Some v /\ has_shape s v /\ stored l (i + shape_size pre) v).
Proof.
  induction sub as [|[k s] sub IH]; intros i d HS ND L; simpl.
  - exists d. split; [reflexivity|]. split; [auto|]. intros [|? ?] ? ? ? X; discriminate.
  - rewrite (HS k s) by (now left). simpl in ND. inversion ND as [|? ? NI ND']; subst.
    assert (HS' : forall k s, In (k, s) sub -> dget (e_shape E) k = Some s) by (intros; apply HS; now right).
    cbn [shape_size fold_right snd] in L. change (fold_right _ _ sub) with (shape_size sub) in L.
    assert (G : forall v n, csize s = n -> has_shape s v -> stored l i v ->
       exists C, array2dict_from E l (map fst sub) (i + n) (dset d k v) = Ok C /\
        (forall j, ~ (k = j \/ In j (map fst sub)) -> dget C j = dget d j) /\
        (forall pre k0 s0 post, (k, s) :: sub = pre ++ (k0, s0) :: post ->
           exists v0, dget C k0 = Some v0 /\ has_shape s0 v0 /\ stored l (i + shape_size pre) v0)).
    { intros v n Hn Hv Hst. destruct (IH (i + n)%nat (dset d k v) HS' ND' ltac:(subst n; lia)) as (C & E1 & E2 & E3).
      exists C. split; [exact E1|]. split.
      - intros j NJ. rewrite E2 by tauto. apply dget_dset_neq. intros ->. tauto.
      - intros [|[k1 s1] pre] k0 s0 post X; simpl in X.
        + injection X as <- <- <-. exists v. split; [|split; [exact Hv|]].
          * rewrite E2 by exact NI. apply dget_dset_eq.
          * simpl. rewrite Nat.add_0_r. exact Hst.
        + injection X as <- <- X. destruct (E3 pre k0 s0 post X) as (v0 & A & B & D). exists v0. split; [exact A|]. split; [exact B|].
          cbn [shape_size fold_right snd]. change (fold_right _ _ pre) with (shape_size pre).
          replace (i + (csize s + shape_size pre))%nat with (i + n + shape_size pre)%nat by lia. exact D. }
    destruct s as [s|]; simpl in L.
    + unfold reshape. rewrite slice_length by lia. rewrite Nat.eqb_refl. simpl bind.
      apply (G (CArr s (fun I => nth (offset s I) (slice l i (i + size s)) 0)) (size s) eq_refl eq_refl).
      intros I HI. apply offset_lt in HI. rewrite <- (slice_nth l i (size s)) by lia.
      apply nth_error_nth'. rewrite slice_length; lia.
    + destruct (nth_error l i) as [z|] eqn:Ez.
      * apply (G (CNum z) 1%nat eq_refl); simpl; auto.
      * apply nth_error_None in Ez. lia.
Qed.
Lemma array2dict_short (l : list K) sub : forall i d,
  (forall k s, In (k, s) sub -> dget (e_shape E) k = Some s) ->
  (List.length l < i + shape_size sub)%nat -> (i <= List.length l)%nat ->
  exists e, array2dict_from E l (map fst sub) i d = Err e.
Proof.
  induction sub as [|[k s] sub IH]; intros i d HS L LE.
  - simpl in L. lia.
  - simpl. rewrite (HS k s) by (now left).
    assert (HS' : forall k s, In (k, s) sub -> dget (e_shape E) k = Some s) by (intros; apply HS; now right).
    cbn [shape_size fold_right snd] in L. change (fold_right _ _ sub) with (shape_size sub) in L.
    destruct s as [s|]; simpl in L.
    + unfold reshape. destruct (Nat.eqb_spec (List.length (slice l i (i + size s))) (size s)) as [EQ|NE]; [|eexists; reflexivity].
      simpl bind. apply IH; auto; [lia|]. unfold slice in EQ. rewrite firstn_length, skipn_length in EQ. lia.
    + destruct (nth_error l i) as [z|] eqn:Ez; [|eexists; reflexivity].
      apply IH; auto; [lia|]. assert (nth_error l i <> None) by congruence. apply nth_error_Some in H. lia.
Qed.
Definition seg (C : cdict) (k : string) : list K :=
  match dget C k with Some (CNum z) => [z] | Some (CArr s a) => ravel s a | None => [] end.
Lemma dict2array_spec (C : cdict) ks : (forall k, In k ks -> dget C k <> None) ->
  rmapl (fun k => match dget C k with
     | None => Err KeyError | Some (CNum z) => Ok [z] | Some (CArr s a) => Ok (ravel s a) end) ks = Ok (map (seg C) ks).
Proof.
  induction ks as [|k ks IH]; intros H; [reflexivity|].
  cbn [map rmapl]. unfold seg at 1. destruct (dget C k) as [[z|s a]|] eqn:Ek.
  - simpl bind. rewrite IH by (intros; apply H; now right). reflexivity.
  - simpl bind. rewrite IH by (intros; apply H; now right). reflexivity.
  - exfalso. apply (H k); [now left|exact Ek].
Qed.
Lemma stored_seg (l : list K) p s v : has_shape s v -> stored l p v -> (p + csize s <= List.length l)%nat ->
  match v with CNum z => [z] | CArr t a => ravel t a end = firstn (csize s) (skipn p l).
Proof.
  intros HS ST L. destruct s as [s|], v as [z|t a]; simpl in HS; try contradiction; simpl in *.
  - subst t. apply nth_error_ext. intros n. pose proof (slice_nth l p (size s)) as SN. unfold slice in SN.
    replace (p + size s - p)%nat with (size s) in SN by lia.
    destruct (Nat.lt_ge_cases n (size s)) as [LT|GE].
    + rewrite SN by assumption. unfold ravel. rewrite nth_error_map.
      assert (X : exists I, nth_error (all_indices s) n = Some I).
      { destruct (nth_error (all_indices s) n) eqn:X; [eauto|]. apply nth_error_None in X. rewrite length_all_indices in X. lia. }
      destruct X as (I & X). rewrite X. simpl.
      assert (O : offset s I = n).
      { pose proof (map_offset s) as M. apply (f_equal (fun m => nth_error m n)) in M. rewrite nth_error_map, X in M. simpl in M.
        rewrite (nth_error_nth' (seq 0 (size s)) 0%nat) in M by (rewrite seq_length; exact LT). rewrite seq_nth in M by exact LT.
        simpl in M. congruence. }
      rewrite <- O, ST; [reflexivity|]. apply in_all_indices. eapply nth_error_In; eauto.
    + rewrite (proj2 (nth_error_None _ n)) by (rewrite ravel_length; exact GE).
      symmetry. apply nth_error_None. rewrite firstn_length. lia.
  - destruct (skipn p l) as [|y m] eqn:Q.
    + pose proof (skipn_length p l) as W. rewrite Q in W. simpl in W. lia.
    + assert (nth_error (skipn p l) 0 = Some z).
      { rewrite <- ST. clear. revert l. induction p as [|p IH]; intros l; [reflexivity|]. destruct l; [reflexivity|]. simpl. apply IH. }
      rewrite Q in H. simpl in H. congruence.
Qed.
Lemma firstn_add {A} (n m : nat) (l : list A) : firstn (n + m) l = firstn n l ++ firstn m (skipn n l).
Proof. revert l. induction n as [|n IH]; intros l; [reflexivity|]. destruct l; simpl; [now rewrite firstn_nil|]. now rewrite IH. Qed.
Lemma concat_stored (l : list K) (C : cdict) sub : forall p, 
  (forall pre k s post, sub = pre ++ (k, s) :: post ->
       exists v, dget C k = Some v /\ has_shape s v /\ stored l (p + shape_size pre) v) ->
  (p + shape_size sub <= List.length l)%nat ->
  List.concat (map (seg C) (map fst sub)) = firstn (shape_size sub) (skipn p l).
Proof.
  induction sub as [|[k s] sub IH]; intros p H L; [reflexivity|].
  cbn [map List.concat fst shape_size fold_right snd] in *. change (fold_right _ _ sub) with (shape_size sub) in *.
  destruct (H [] k s sub eq_refl) as (v & A & B & D). simpl in D. rewrite Nat.add_0_r in D.
  rewrite firstn_add. f_equal.
  - unfold seg. rewrite A. apply (stored_seg l p s v B D). lia.
  - rewrite (IH (p + csize s)%nat).
    + f_equal. clear. revert p. intros p. rewrite (Nat.add_comm p). revert l. induction p as [|p IH]; intros l.
      * now rewrite Nat.add_0_r.
      * destruct l; [now rewrite !skipn_nil|]. rewrite Nat.add_succ_r. simpl. apply IH.
    + intros pre k0 s0 post X. destruct (H ((k, s) :: pre) k0 s0 post) as (v0 & A0 & B0 & D0); [now rewrite X|].
      exists v0. split; [exact A0|]. split; [exact B0|]. simpl in D0. change (fold_right _ _ pre) with (shape_size pre) in D0.
      replace (p + csize s + shape_size pre)%nat with (p + (csize s + shape_size pre))%nat by lia. exact D0.
    + lia.
Qed.
Lemma seg_length (C : cdict) k s v : dget C k = Some v -> has_shape s v -> List.length (seg C k) = csize s.
Proof.
  intros A B. unfold seg. rewrite A. destruct s, v; simpl in *; try contradiction; auto. subst. apply ravel_length.
Qed.
Lemma seg_stored (C : cdict) sub : (forall k s, In (k, s) sub -> exists v, dget C k = Some v /\ has_shape s v) ->
  forall pre k s post v, sub = pre ++ (k, s) :: post -> dget C k = Some v ->
  stored (List.concat (map (seg C) (map fst sub))) (shape_size pre) v.
Proof.
  intros H pre. revert sub H. induction pre as [|[k1 s1] pre IH]; intros sub H k s post v X A; subst sub.
  - simpl. destruct (H k s (or_introl eq_refl)) as (v' & A' & B). rewrite A in A'. injection A' as <-.
    unfold seg at 1. rewrite A. destruct v as [z|t a]; [reflexivity|]. intros I HI. simpl.
    rewrite nth_error_app1 by (rewrite ravel_length; now apply offset_lt).
    unfold ravel. rewrite nth_error_map, nth_offset by exact HI. reflexivity.
  - simpl. destruct (H k1 s1 (or_introl eq_refl)) as (v1 & A1 & B1).
    assert (ST : stored (List.concat (map (seg C) (map fst (pre ++ (k, s) :: post)))) (shape_size pre) v).
    { eapply IH; eauto. intros; apply H; now right. }
    assert (Q : forall n, nth_error (seg C k1 ++ List.concat (map (seg C) (map fst (pre ++ (k, s) :: post)))) (csize s1 + n) =
       nth_error (List.concat (map (seg C) (map fst (pre ++ (k, s) :: post)))) n).
    { intros n. rewrite nth_error_app2; rewrite (seg_length C k1 s1 v1) by assumption; [f_equal|]; lia. }
    change (fold_right _ _ pre) with (shape_size pre).
    destruct v as [z|t a]; simpl in *; [rewrite Q; exact ST|].
    intros I HI. rewrite <- Nat.add_assoc, Q. now apply ST.
Qed.
Lemma concat_length (C : cdict) sub : (forall k s, In (k, s) sub -> exists v, dget C k = Some v /\ has_shape s v) ->
  List.length (List.concat (map (seg C) (map fst sub))) = shape_size sub.
Proof.
  induction sub as [|[k s] sub IH]; intros H; [reflexivity|]. simpl. rewrite app_length.
  destruct (H k s (or_introl eq_refl)) as (v & A & B). rewrite (seg_length C k s v A B), IH; [reflexivity|].
  intros; apply H; now right.
Qed.
End P.
