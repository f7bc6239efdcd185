(* Lemmas on the DSixTools file format. *)
From Coq Require Import List Bool ZArith QArith Arith Lia String Ascii.
From Verif Require Import PyBase Num SymModel SymClass SymSpec SymProofs SymFacts EftModel EftSpec EftProofs EftLabels EftRound EftRound2 EftInit
  BasisProps UpProofs WcxfModel DsixData DsixModel.
Import ListNotations.
Local Open Scope string_scope.
Local Open Scope list_scope.
Opaque SymCheck.S SymCheck.SN U symmetrize symmetrize_nonred unscale exec.

(* the names of the blocks are pairwise different *)
Definition fermionic (o : opspec) : bool := match fst (snd o) with Cl0 => false | _ => true end.
Definition other_blocks : list string :=
  ["WC1"; "WC2"; "WC3"; "WC4"; "SCALES"; "GAUGE"; "SCALAR"; "GU"; "IMGU"; "GD"; "IMGD"; "GE"; "IMGE"; "THETA"].
Definition names_check : bool :=
  forallb (fun o => forallb (fun p =>
      (negb (String.eqb (reblock (fst o)) (reblock (fst p))) || String.eqb (fst o) (fst p)) &&
      (negb (String.eqb (imblock (fst o)) (imblock (fst p))) || String.eqb (fst o) (fst p)) &&
      negb (String.eqb (reblock (fst o)) (imblock (fst p)))) (filter fermionic warsaw_ops) &&
    negb (kmem (reblock (fst o)) other_blocks) && negb (kmem (imblock (fst o)) other_blocks)) (filter fermionic warsaw_ops).
Lemma names_checked : names_check = true.
Proof. vm_cast_no_check (eq_refl true). Qed.
Definition tables_check : bool :=
  forallb (fun o => let '(n, (c, s)) := o in
    match dget redundant_elements n, dget vanishing_im_parts n with
    | Some red, Some van => keqb s (full_shape c) && negb (keqb c Cl71) &&
        forallb (fun I => Bool.eqb (kmem I red) (negb (nonredundant c I)) &&
                          Bool.eqb (kmem I van) (nonredundant c I && real_entry c I)) (indices c)
    | _, _ => false
    end) (filter fermionic warsaw_ops).
Lemma tables_checked : tables_check = true.
Proof. vm_cast_no_check (eq_refl true). Qed.
Definition numbers_check : bool :=
  forallb (fun n => existsb (fun o => String.eqb n (fst o) && negb (fermionic o)) warsaw_ops) (dkeys WC_dict_0f) &&
  forallb (fun o => fermionic o || kmem (fst o) (dkeys WC_dict_0f)) warsaw_ops &&
  forallb (fun kv => kmem (fst (snd kv)) ["WC1"; "WC2"; "WC3"; "WC4"]) WC_dict_0f.
Lemma numbers_checked : numbers_check = true.
Proof. vm_cast_no_check (eq_refl true). Qed.

Definition is_op (r : nat) (n : string) : Prop := exists c s, In (n, (c, s)) warsaw_ops /\ rank c = r.
Lemma is_op_fermionic r n c s : In (n, (c, s)) warsaw_ops -> rank c = r -> (0 < r)%nat -> In (n, (c, s)) (filter fermionic warsaw_ops).
Proof. intros H R P. apply filter_In. split; [exact H|]. unfold fermionic. cbn [fst snd]. destruct c; try reflexivity. cbn in R. lia. Qed.
Lemma op_facts n c s : In (n, (c, s)) warsaw_ops -> c <> Cl0 -> s = full_shape c /\ c <> Cl71 /\ exists red van,
  dget redundant_elements n = Some red /\ dget vanishing_im_parts n = Some van /\
  forall I, In I (indices c) -> kmem I red = negb (nonredundant c I) /\ kmem I van = (nonredundant c I && real_entry c I).
Proof.
  intros H N. pose proof tables_checked as T. unfold tables_check in T. rewrite forallb_forall in T.
  assert (F : In (n, (c, s)) (filter fermionic warsaw_ops)) by (apply filter_In; split; [exact H|]; destruct c; try reflexivity; congruence).
  specialize (T _ F). cbv beta iota in T.
  destruct (dget redundant_elements n) as [red|]; [|discriminate]. destruct (dget vanishing_im_parts n) as [van|]; [|discriminate].
  apply andb_prop in T as [T A]. apply andb_prop in T as [T1 T2]. apply keqb_true in T1. apply negb_true_iff, keqb_false in T2.
  split; [exact T1|]. split; [exact T2|]. exists red, van. split; [reflexivity|]. split; [reflexivity|].
  intros I HI. rewrite forallb_forall in A. specialize (A I HI). apply andb_prop in A as [A1 A2].
  apply Bool.eqb_prop in A1, A2. auto.
Qed.
Lemma block_facts n m : (exists r, (0 < r)%nat /\ is_op r n) -> (exists r, (0 < r)%nat /\ is_op r m) ->
  (reblock n = reblock m -> n = m) /\ (imblock n = imblock m -> n = m) /\ reblock n <> imblock m /\
  ~ In (reblock n) other_blocks /\ ~ In (imblock n) other_blocks.
Proof.
  intros (r & R & c & s & H & Q) (r' & R' & c' & s' & H' & Q').
  pose proof (is_op_fermionic r n c s H Q R) as F. pose proof (is_op_fermionic r' m c' s' H' Q' R') as F'.
  pose proof names_checked as T. unfold names_check in T. rewrite forallb_forall in T. specialize (T _ F). cbn [fst] in T.
  apply andb_prop in T as [T T3]. apply andb_prop in T as [T T2]. rewrite forallb_forall in T. specialize (T _ F'). cbn [fst] in T.
  apply andb_prop in T as [T T6]. apply andb_prop in T as [T4 T5].
  apply negb_true_iff, kmem_nIn in T2, T3. apply negb_true_iff, String.eqb_neq in T6.
  repeat split; auto.
  - intros E. rewrite E, String.eqb_refl in T4. cbn in T4. now apply String.eqb_eq.
  - intros E. rewrite E, String.eqb_refl in T5. cbn in T5. now apply String.eqb_eq.
Qed.

Section P.
Context {K : StarField}.
Local Open Scope K_scope.
Add Field KFdsix : (k_field K).
Notation cdict := (dict string (cval K)).
Notation arr := (idx -> K).
Notation lines := (list (@line K)).
Notation blocks := (@blocks K).

(* ---------- lists of lines and arrays ---------- *)
Definition pos (I : idx) : list Z := map (fun j => Z.of_nat j + 1)%Z I.
Definition put (f : idx -> option K) (I : idx) : lines := match f I with Some x => [(pos I, x)] | None => [] end.
Lemma norm_pos s I : in_shape s I = true -> norm_index s (map (fun i => i - 1)%Z (pos I)) = Ok I.
Proof. apply norm_index_in. Qed.
Lemma lha2matrix_put s (f : idx -> option K) (L : list idx) : (forall I, In I L -> in_shape s I = true) ->
  exists M, lha2matrix (flat_map (put f) L) s = Ok M /\
    forall I, in_shape s I = true -> M I = if kmem I L then match f I with Some x => x | None => 0 end else 0.
Proof.
  intros HL. unfold lha2matrix.
  assert (G : forall M0 : arr, exists M, fold_left (fun acc v => bind acc (fun M =>
    bind (norm_index s (map (fun i => i - 1)%Z (fst v))) (fun p =>
    Ok (fun I => if prefixb p I then snd v else M I)))) (flat_map (put f) L) (Ok M0) = Ok M /\
    forall I, in_shape s I = true -> M I = if kmem I L then match f I with Some x => x | None => M0 I end else M0 I).
  { clear - HL. induction L as [|J L IH]; intros M0; [exists M0; split; [reflexivity|]; intros; reflexivity|].
    assert (HJ : in_shape s J = true) by (apply HL; now left).
    assert (HL' : forall I, In I L -> in_shape s I = true) by (intros; apply HL; now right).
    cbn [flat_map]. rewrite fold_left_app. unfold put at 2. destruct (f J) as [x|] eqn:FJ.
    - cbn [fold_left bind fst snd]. rewrite norm_pos by exact HJ. cbn [bind].
      destruct (IH HL' (fun I => if prefixb J I then x else M0 I)) as (M & E & V). exists M. split; [exact E|].
      intros I HI. rewrite (V I HI). assert (PQ : prefixb J I = keqb J I).
      { apply prefixb_eq. rewrite (in_shape_length _ _ HJ), (in_shape_length _ _ HI). reflexivity. }
      cbn [kmem existsb]. rewrite PQ. destruct (keqb_spec I J) as [->|NE].
      + rewrite keqb_refl, FJ. cbn [orb]. fold (kmem J L). destruct (kmem J L); reflexivity.
      + destruct (keqb_spec J I) as [->|_]; [congruence|]. cbn [orb]. fold (kmem I L). reflexivity.
    - cbn [fold_left]. destruct (IH HL' M0) as (M & E & V). exists M. split; [exact E|]. intros I HI. rewrite (V I HI).
      cbn [kmem existsb]. destruct (keqb_spec I J) as [->|NE]; [|reflexivity]. cbn [orb]. rewrite FJ. fold (kmem J L). destruct (kmem J L); reflexivity. }
  destruct (G (fun _ => 0)) as (M & E & V). exists M. auto.
Qed.
(* matrix2lha and back *)
Lemma matrix2lha_put s (a : arr) : matrix2lha s a = flat_map (put (fun I => Some (a I))) (all_indices s).
Proof. unfold matrix2lha, put. induction (all_indices s) as [|I l IH]; [reflexivity|]. cbn [map flat_map app]. now rewrite IH. Qed.
Lemma lha_matrix s (a : arr) : exists M, lha2matrix (matrix2lha s a) s = Ok M /\ forall I, in_shape s I = true -> M I = a I.
Proof.
  rewrite matrix2lha_put. destruct (lha2matrix_put s (fun I => Some (a I)) (all_indices s)) as (M & E & V).
  { intros I HI. now apply in_all_indices. }
  exists M. split; [exact E|]. intros I HI. rewrite (V I HI). now rewrite (proj2 (kmem_In I _) (proj2 (in_all_indices s I) HI)).
Qed.

(* ---------- writing ---------- *)
Definition bget (d : blocks) (b : string) : lines := dgetd d b [].
Lemma bget_append d b l b' : bget (append d b l) b' = bget d b' ++ (if String.eqb b' b then [l] else []).
Proof.
  unfold append, bget, dgetd at 1. rewrite dget_dset. change (keqb b' b) with (String.eqb b' b).
  destruct (String.eqb_spec b' b) as [->|N]; [reflexivity|]. now rewrite app_nil_r.
Qed.
Lemma bget_ensure d b b' : bget (ensure d b) b' = bget d b'.
Proof.
  unfold ensure. rewrite dmem_dget. destruct (dget d b) eqn:E; [reflexivity|]. unfold bget, dgetd. rewrite dget_dset.
  destruct (keqb_spec b' b) as [->|N]; [now rewrite E|reflexivity].
Qed.
Lemma wf_append (d : blocks) b l : wfdict d -> wfdict (append d b l).
Proof. apply wf_dset. Qed.
Lemma wf_ensure (d : blocks) b : wfdict d -> wfdict (ensure d b).
Proof. unfold ensure. intros W. destruct (dmem d b); [exact W|now apply wf_dset]. Qed.

Section Write.
Variable wc : cdict.
Variables sr sz : bool.
Definition keep (z : K) : bool := negb (kdec z 0) || negb sz.
Definition re_line (red : list idx) (a : arr) (I : idx) : option K :=
  if kmem I red && sr then None else if keep (kre (a I)) then Some (kre (a I)) else None.
Definition im_line (red van : list idx) (a : arr) (I : idx) : option K :=
  if kmem I red && sr then None else if keep (kim (a I)) then if kmem I van then None else Some (kim (a I)) else None.
Lemma re_neq_im n : reblock n <> imblock n.
Proof. unfold reblock, imblock. cbn. discriminate. Qed.
Lemma write_element_spec n s a red van d I : dget wc n = Some (CArr s a) -> in_shape s I = true ->
  dget redundant_elements n = Some red -> dget vanishing_im_parts n = Some van -> wfdict d ->
  exists d', write_element wc sr sz n d I = Ok d' /\ wfdict d' /\ forall b, bget d' b = bget d b ++
    (if String.eqb b (reblock n) then put (re_line red a) I else if String.eqb b (imblock n) then put (im_line red van a) I else []).
Proof.
  intros W HI R V WF. pose proof (re_neq_im n) as NE. unfold write_element, table, element. rewrite R, V, W, HI. cbn [bind].
  unfold put, re_line, im_line. fold (pos I). destruct (kmem I red && sr).
  - exists d. split; [reflexivity|]. split; [exact WF|]. intros b. destruct (String.eqb b (reblock n)), (String.eqb b (imblock n)); now rewrite app_nil_r.
  - fold (keep (kre (a I))) (keep (kim (a I))).
    set (d1 := if keep (kre (a I)) then append d (reblock n) (pos I, kre (a I)) else d).
    assert (D1 : forall b, bget d1 b = bget d b ++ (if String.eqb b (reblock n) then if keep (kre (a I)) then [(pos I, kre (a I))] else [] else [])).
    { intros b. unfold d1. destruct (keep (kre (a I))); [apply bget_append|]. destruct (String.eqb b (reblock n)); now rewrite app_nil_r. }
    assert (W1 : wfdict d1) by (unfold d1; destruct (keep _); [now apply wf_append|exact WF]).
    assert (X : forall b, (if String.eqb b (reblock n) then match (if keep (kre (a I)) then Some (kre (a I)) else None) with Some x => [(pos I, x)] | None => [] end
        else if String.eqb b (imblock n) then match (if keep (kim (a I)) then if kmem I van then None else Some (kim (a I)) else None) with Some x => [(pos I, x)] | None => [] end else [])
      = (if String.eqb b (reblock n) then if keep (kre (a I)) then [(pos I, kre (a I))] else [] else []) ++
        (if String.eqb b (imblock n) then if keep (kim (a I)) then if kmem I van then [] else [(pos I, kim (a I))] else [] else [])).
    { intros b. destruct (String.eqb_spec b (reblock n)) as [->|N1].
      - destruct (String.eqb_spec (reblock n) (imblock n)); [congruence|]. rewrite app_nil_r. destruct (keep (kre (a I))); reflexivity.
      - cbn [app]. destruct (String.eqb b (imblock n)); [|reflexivity]. destruct (keep (kim (a I))); [|reflexivity]. destruct (kmem I van); reflexivity. }
    destruct (keep (kim (a I))) eqn:KI.
    + destruct (kmem I van) eqn:KV.
      * exists d1. split; [reflexivity|]. split; [exact W1|]. intros b. rewrite X, D1, app_assoc. destruct (String.eqb b (imblock n)); now rewrite !app_nil_r.
      * exists (append d1 (imblock n) (pos I, kim (a I))). split; [reflexivity|]. split; [now apply wf_append|]. intros b. now rewrite X, bget_append, D1, app_assoc.
    + exists d1. split; [reflexivity|]. split; [exact W1|]. intros b. rewrite X, D1, app_assoc. destruct (String.eqb b (imblock n)); now rewrite !app_nil_r.
Qed.
Lemma fold_elements n s a red van L : dget wc n = Some (CArr s a) -> (forall I, In I L -> in_shape s I = true) ->
  dget redundant_elements n = Some red -> dget vanishing_im_parts n = Some van -> forall d, wfdict d ->
  exists d', fold_left (fun acc I => bind acc (fun d => write_element wc sr sz n d I)) L (Ok d) = Ok d' /\ wfdict d' /\ forall b, bget d' b = bget d b ++
    (if String.eqb b (reblock n) then flat_map (put (re_line red a)) L else if String.eqb b (imblock n) then flat_map (put (im_line red van a)) L else []).
Proof.
  intros W HL R V. induction L as [|I L IH]; intros d WF.
  - exists d. split; [reflexivity|]. split; [exact WF|]. intros b. cbn [flat_map]. destruct (String.eqb b (reblock n)), (String.eqb b (imblock n)); now rewrite app_nil_r.
  - cbn [fold_left bind]. destruct (write_element_spec n s a red van d I W (HL I (or_introl eq_refl)) R V WF) as (d1 & E1 & W1 & B1).
    rewrite E1. destruct (IH (fun J HJ => HL J (or_intror HJ)) d1 W1) as (d2 & E2 & W2 & B2). exists d2. split; [exact E2|]. split; [exact W2|].
    intros b. rewrite B2, B1, <- app_assoc. f_equal. cbn [flat_map].
    destruct (String.eqb b (reblock n)); [reflexivity|]. destruct (String.eqb b (imblock n)); reflexivity.
Qed.
(* what an operator contributes to a block *)
Definition red_of n := dgetd redundant_elements n [].
Definition van_of n := dgetd vanishing_im_parts n [].
Definition arr_of n : arr := match dget wc n with Some (CArr _ a) => a | _ => fun _ => 0 end.
Definition contrib (s : list nat) (b n : string) : lines :=
  if String.eqb b (reblock n) then flat_map (put (re_line (red_of n) (arr_of n))) (all_indices s)
  else if String.eqb b (imblock n) then flat_map (put (im_line (red_of n) (van_of n) (arr_of n))) (all_indices s) else [].
Hypothesis HW : forall n c s, In (n, (c, s)) warsaw_ops -> exists v, dget wc n = Some v /\ has_shape (op_shape c s) v.
Lemma op_array r n : (0 < r)%nat -> is_op r n -> exists a red van, dget wc n = Some (CArr (repeat 3%nat r) a) /\
  dget redundant_elements n = Some red /\ dget vanishing_im_parts n = Some van.
Proof.
  intros R (c & s & H & Q). assert (N : c <> Cl0) by (intros ->; cbn in Q; lia).
  destruct (op_facts n c s H N) as (-> & _ & red & van & R1 & V1 & _). destruct (HW n c _ H) as (v & W & HS).
  destruct (op_arr (K := K) warsaw_ops n c (full_shape c) v H N HS) as (a & ->). exists a, red, van.
  split; [rewrite W; unfold full_shape; now rewrite Q|]. auto.
Qed.
Lemma write_arrays r L : (0 < r)%nat -> (forall n, In n L -> is_op r n) -> forall d, wfdict d ->
  exists d', fold_res (write_array wc sr sz (repeat 3%nat r)) L (Ok d) = Ok d' /\ wfdict d' /\
    forall b, bget d' b = bget d b ++ flat_map (contrib (repeat 3%nat r) b) L.
Proof.
  intros R. induction L as [|n L IH]; intros HL d WF.
  - exists d. split; [reflexivity|]. split; [exact WF|]. intros b. cbn [flat_map]. now rewrite app_nil_r.
  - destruct (op_array r n R (HL n (or_introl eq_refl))) as (a & red & van & W & R1 & V1).
    destruct (fold_elements n _ a red van (all_indices (repeat 3%nat r)) W) with (d := ensure (ensure d (reblock n)) (imblock n)) as (d1 & E1 & W1 & B1);
      [intros I HI; now apply in_all_indices|exact R1|exact V1|now apply wf_ensure, wf_ensure|].
    assert (EA : write_array wc sr sz (repeat 3%nat r) d n = Ok d1) by exact E1.
    unfold fold_res. cbn [fold_left bind]. rewrite EA.
    destruct (IH (fun m Hm => HL m (or_intror Hm)) d1 W1) as (d2 & E2 & W2 & B2). exists d2. split; [exact E2|]. split; [exact W2|].
    intros b. rewrite B2, B1, !bget_ensure, <- app_assoc. f_equal. cbn [flat_map]. f_equal. unfold contrib, red_of, van_of, arr_of, dgetd. rewrite W, R1, V1. reflexivity.
Qed.
Definition num_of n : K := match dget wc n with Some (CNum z) => z | _ => 0 end.
Definition number_line (b : string) (kv : string * (string * Z)) : lines :=
  if String.eqb b (fst (snd kv)) then if kdec (num_of (fst kv)) 0 then [] else [([snd (snd kv)], kre (num_of (fst kv)))] else [].
Lemma write_numbers L : (forall kv, In kv L -> exists z, dget wc (fst kv) = Some (CNum z)) -> forall d, wfdict d ->
  exists d', fold_res (write_number wc) L (Ok d) = Ok d' /\ wfdict d' /\ forall b, bget d' b = bget d b ++ flat_map (number_line b) L.
Proof.
  induction L as [|[n [b0 i]] L IH]; intros HL d WF.
  - exists d. split; [reflexivity|]. split; [exact WF|]. intros b. cbn [flat_map]. now rewrite app_nil_r.
  - destruct (HL _ (or_introl eq_refl)) as (z & W). cbn [fst] in W. 
    set (d1 := if kdec z 0 then ensure d b0 else append (ensure d b0) b0 ([i], kre z)).
    assert (W1 : wfdict d1) by (unfold d1; destruct (kdec z 0); [now apply wf_ensure|now apply wf_append, wf_ensure]).
    assert (EA : write_number wc d (n, (b0, i)) = Ok d1) by (unfold write_number; rewrite W; reflexivity).
    unfold fold_res. cbn [fold_left bind]. rewrite EA.
    destruct (IH (fun kv H => HL kv (or_intror H)) d1 W1) as (d2 & E2 & W2 & B2). exists d2. split; [exact E2|]. split; [exact W2|].
    intros b. rewrite B2. cbn [flat_map]. rewrite app_assoc. f_equal. unfold d1, number_line, num_of. cbn [fst snd]. rewrite W.
    destruct (kdec z 0).
    + rewrite bget_ensure. destruct (String.eqb b b0); now rewrite app_nil_r.
    + rewrite bget_append, bget_ensure. reflexivity.
Qed.
End Write.
End P.
