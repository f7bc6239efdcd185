(* Dictionary level symmetrization: padding, symmetry factors, missing operators. *)
From Coq Require Import List Bool ZArith QArith Arith Lia String Ascii.
From Verif Require Import PyBase Num Lin SymModel SymTables SymClass SymSpec SymProofs SymCheck SymFacts EftModel EftSpec EftProofs EftLabels.
Import ListNotations.
Local Open Scope string_scope.
Local Open Scope list_scope.

(* ---------- the operations respect the block structure of small shapes ---------- *)
Transparent S SN symmetrize symmetrize_nonred unscale exec.
Definition atoms (s : sym) : list idx := map snd (fst s ++ snd s).
Fixpoint shapes_of_rank (n : nat) : list (list nat) :=
  match n with O => [[]] | Datatypes.S m => flat_map (fun s => [2%nat :: s; 3%nat :: s]) (shapes_of_rank m) end.
Definition class_shapes (c : cls) : list (list nat) := filter (shape_ok c) (shapes_of_rank (rank c)).
Definition U (c : cls) : idx -> sym := unscale s_alg c satom.
Definition local_check (c : cls) (T : idx -> sym) : bool :=
  let ss := class_shapes c in
  forallb (fun I => let at_ := atoms (T I) in
    if forallb (fun J => kmem J (indices c)) at_ then
    forallb (fun s => let b := in_shape s I in forallb (fun J => Bool.eqb (in_shape s J) b) at_) ss
    else false) (indices c).
Lemma local_S_ok : forallb (fun c => local_check c (S c)) all_classes = true.
Proof. vm_compute. reflexivity. Qed.
Lemma local_SN_ok : forallb (fun c => local_check c (SN c)) all_classes = true.
Proof. vm_compute. reflexivity. Qed.
Lemma local_U_ok : forallb (fun c => local_check c (U c)) all_classes = true.
Proof. vm_compute. reflexivity. Qed.
Definition indices_check (c : cls) : bool :=
  forallb (fun s => forallb (fun I => kmem I (indices c)) (all_indices s)) (class_shapes c).
Lemma indices_ok : forallb indices_check all_classes = true.
Proof. vm_compute. reflexivity. Qed.
Opaque S SN U symmetrize symmetrize_nonred unscale exec.

Lemma gen_ok_in n s : forallb gen_ok s = true -> List.length s = n -> In s (shapes_of_rank n).
Proof.
  revert s. induction n as [|n IH]; intros [|x s] G L; simpl in *; try discriminate; [now left|].
  apply andb_prop in G as [G1 G2]. apply in_flat_map. exists s. split; [apply IH; auto|].
  unfold gen_ok in G1. apply orb_prop in G1 as [G1|G1]; apply Nat.eqb_eq in G1 as ->; simpl; tauto.
Qed.
Lemma shape_ok_gen c s : shape_ok c s = true -> forallb gen_ok s = true.
Proof. unfold shape_ok. intros H. now apply andb_prop in H. Qed.
Lemma shape_ok_rank c s : shape_ok c s = true -> List.length s = rank c.
Proof.
  unfold shape_ok. intros H. apply andb_prop in H as [_ H].
  destruct c, s as [|? [|? [|? [|? [|? ?]]]]]; try discriminate; reflexivity.
Qed.
Lemma class_shapes_in c s : shape_ok c s = true -> In s (class_shapes c).
Proof.
  intros H. apply filter_In. split; [|exact H]. apply gen_ok_in; [now apply (shape_ok_gen c)|now apply shape_ok_rank].
Qed.
Lemma in_shape_indices c s I : shape_ok c s = true -> in_shape s I = true -> In I (indices c).
Proof.
  intros H HI. pose proof (all_classes_forall indices_check indices_ok c) as C. unfold indices_check in C.
  rewrite forallb_forall in C. specialize (C s (class_shapes_in c s H)). rewrite forallb_forall in C.
  apply kmem_In, C, in_all_indices, HI.
Qed.
Lemma full_indices c I : in_shape (full_shape c) I = true -> In I (indices c).
Proof. intros H. apply (in_shape_indices c (full_shape c)); [destruct c; reflexivity|exact H]. Qed.
Lemma indices_full c I : In I (indices c) -> in_shape (full_shape c) I = true.
Proof.
  assert (C : forallb (fun c => forallb (in_shape (full_shape c)) (indices c)) all_classes = true) by (vm_compute; reflexivity).
  intros H. pose proof (all_classes_forall (fun c => forallb (in_shape (full_shape c)) (indices c)) C c) as D. cbv beta in D.
  rewrite forallb_forall in D. now apply D.
Qed.

Section R.
Context {K : StarField}.
Local Open Scope K_scope.
Add Field KF4 : (k_field K).
Notation arr := (idx -> K).
Notation cdict := (dict string (cval K)).
Notation sym_ := (symmetrize (@k_alg K)).
Notation nonred_ := (symmetrize_nonred (@k_alg K)).
Notation unscale_ := (unscale (@k_alg K)).

Lemma unscale_U c (b : arr) I : unscale_ c b I = sden b (U c I).
Proof. apply (RA_unscale b c b satom (RA_atom b) I). Qed.
(* f is computed by the symbolic table T *)
Definition computed (f : cls -> arr -> arr) (T : cls -> idx -> sym) : Prop :=
  (forall c, local_check c (T c) = true) /\ (forall c b I, f c b I = sden b (T c I)).
Lemma computed_sym : computed sym_ S.
Proof. split; [exact (all_classes_forall (fun c => local_check c (S c)) local_S_ok)|exact (fun c b I => sym_S c b I)]. Qed.
Lemma computed_nonred : computed nonred_ SN.
Proof. split; [exact (all_classes_forall (fun c => local_check c (SN c)) local_SN_ok)|exact (fun c b I => nonred_SN c b I)]. Qed.
Lemma computed_unscale : computed unscale_ U.
Proof. split; [exact (all_classes_forall (fun c => local_check c (U c)) local_U_ok)|exact unscale_U]. Qed.
Lemma computed_local f T c s (a b : arr) I : computed f T -> shape_ok c s = true -> In I (indices c) ->
  (forall J, In J (indices c) -> in_shape s J = in_shape s I -> a J = b J) -> f c a I = f c b I.
Proof.
  intros [L F] H II E. rewrite !F. apply sden_ext. intros J HJ. specialize (L c). unfold local_check in L.
  rewrite forallb_forall in L. specialize (L I II). cbv beta zeta in L.
  destruct (forallb (fun J => kmem J (indices c)) (atoms (T c I))) eqn:A; [|discriminate].
  rewrite forallb_forall in A. specialize (A J HJ). apply kmem_In in A.
  rewrite forallb_forall in L. specialize (L s (class_shapes_in c s H)). cbv beta zeta in L.
  rewrite forallb_forall in L. specialize (L J HJ). apply Bool.eqb_prop in L. now apply E.
Qed.
Lemma computed_ext f T c (a b : arr) I : computed f T -> In I (indices c) ->
  (forall J, In J (indices c) -> a J = b J) -> f c a I = f c b I.
Proof.
  intros F II E. apply (computed_local f T c (full_shape c) a b I F); auto. destruct c; reflexivity.
Qed.
Lemma sden_zero s : sden (fun _ : idx => 0 : K) s = 0.
Proof.
  unfold sden.
  assert (Z : forall (g : idx -> K) l, (forall I, g I = 0) -> ldenote g l = 0).
  { intros g l H. induction l as [|[q I] l IH]; simpl; [reflexivity|]. rewrite H, IH. ring. }
  rewrite !Z; [ring| |]; intros.
  - pose proof (kim_mk (0 : K) 0 kreal_0 kreal_0) as Q. now replace (0 + ki * 0 : K) with (0 : K) in Q by ring.
  - apply kre_of_real, kreal_0.
Qed.
Lemma computed_zero f T c s (a : arr) I : computed f T -> shape_ok c s = true -> In I (indices c) ->
  (forall J, In J (indices c) -> in_shape s J = in_shape s I -> a J = 0) -> f c a I = 0.
Proof.
  intros F H II E. rewrite (computed_local f T c s a (fun _ => 0) I F H II E). destruct F as [_ F]. rewrite F. apply sden_zero.
Qed.

(* ---------- traversals ---------- *)
Lemma dtrav_total (f : string -> cval K -> res (option (cval K))) (C : cdict) :
  (forall k v, In (k, v) C -> exists v', f k v = Ok (Some v')) ->
  exists C', dtrav f C = Ok C' /\ dkeys C' = dkeys C /\
    (forall k v, dget C k = Some v -> exists v', f k v = Ok (Some v') /\ dget C' k = Some v').
Proof.
  induction C as [|[k v] C IH]; intros H.
  - exists []. split; [reflexivity|]. split; [reflexivity|]. discriminate.
  - destruct IH as (C' & E1 & E2 & E3); [intros; apply H; now right|].
    destruct (H k v (or_introl eq_refl)) as (v' & Ev). exists ((k, v') :: C'). cbn [dtrav]. rewrite Ev. cbn [bind]. rewrite E1.
    split; [reflexivity|]. split; [cbn [dkeys map fst]; unfold dkeys in E2; now rewrite E2|].
    intros k0 v0. cbn [dget]. destruct (keqb_spec k0 k) as [->|N].
    + intros X. injection X as <-. eauto.
    + intros X. now apply E3.
Qed.
Lemma dtrav_id (C : cdict) : dtrav (fun _ v => Ok (Some v)) C = Ok C.
Proof. induction C as [|[k v] C IH]; [reflexivity|]. cbn [dtrav bind]. now rewrite IH. Qed.
Lemma dkeys_None (C C' : cdict) k : dkeys C' = dkeys C -> dget C k = None -> dget C' k = None.
Proof. intros E H. apply dget_None in H. apply dget_None. now rewrite E. Qed.

Variable E : eft.
Definition pad1 (v : cval K) : res (option (cval K)) := if e_pad E then pad_val 0 v else Ok (Some v).
Definition unpad1 (k : string) (v : cval K) : res (option (cval K)) := if e_pad E then unpad_val E k v else Ok (Some v).
Lemma pad_C_trav C : pad_C E C = dtrav (fun _ => pad1) C.
Proof. unfold pad_C, pad1. destruct (e_pad E); [reflexivity|]. symmetry. apply dtrav_id. Qed.
Lemma unpad_C_trav C : unpad_C E C = dtrav unpad1 C.
Proof. unfold unpad_C, unpad1. destruct (e_pad E); [reflexivity|]. symmetry. apply dtrav_id. Qed.

(* array continued by zero *)
Definition padded (s : list nat) (a : arr) : arr := fun I => if in_shape s I then a I else 0.
(* shapes with 2 or 4 indices in {2,3}; 3 everywhere if the code does not pad *)
Definition fine (s : list nat) : Prop :=
  forallb gen_ok s = true /\ (List.length s = 2 \/ List.length s = 4)%nat /\
  (e_pad E = false -> s = repeat 3%nat (List.length s)).
Lemma fine_cases s : forallb gen_ok s = true -> (List.length s = 2 \/ List.length s = 4)%nat -> In s (shapes_of_rank 2 ++ shapes_of_rank 4).
Proof. intros G [L|L]; apply in_or_app; [left|right]; now apply gen_ok_in. Qed.
Definition full (s : list nat) : list nat := repeat 3%nat (List.length s).
Definition pad_check (s : list nat) : bool :=
  match s with
  | [] => false
  | n :: r => if Nat.eqb (fold_left Nat.min r n) 3 then keqb s (full s)
              else forallb (fun n => (n <=? 3)%nat) s && (Nat.eqb (List.length s) 4 || Nat.eqb (List.length s) 2) &&
                   negb (keqb (full s) s)
  end && keqb (map (fun p => Nat.min (fst p) (snd p)) (combine (full s) s)) s.
Lemma pad_check_ok : forallb pad_check (shapes_of_rank 2 ++ shapes_of_rank 4) = true.
Proof. vm_compute. reflexivity. Qed.
Lemma pad1_arr s (a : arr) : fine s -> exists a', pad1 (CArr s a) = Ok (Some (CArr (full s) a')) /\
  forall I, in_shape (full s) I = true -> a' I = padded s a I.
Proof.
  intros (G & L & P). unfold pad1. pose proof pad_check_ok as C. rewrite forallb_forall in C.
  specialize (C s (fine_cases s G L)). unfold pad_check in C. apply andb_prop in C as [C _].
  assert (SAME : s = full s -> forall I, in_shape (full s) I = true -> a I = padded s a I).
  { intros EQ I HI. unfold padded. rewrite EQ, HI. reflexivity. }
  destruct (e_pad E).
  - unfold pad_val. destruct s as [|n r]; [discriminate|].
    destruct (Nat.eqb (fold_left Nat.min r n) 3).
    + apply keqb_true in C. exists a. split; [now rewrite <- C|now apply SAME].
    + apply andb_prop in C as [C _]. apply andb_prop in C as [C1 C2]. rewrite C1. cbn [negb]. rewrite C2.
      exists (padded (n :: r) a). split; reflexivity.
  - specialize (P eq_refl). fold (full s) in P. exists a. split; [now rewrite <- P|now apply SAME].
Qed.
Lemma unpad1_arr k s (b : arr) : fine s -> dget (e_shape E) k = Some (Some s) ->
  unpad1 k (CArr (full s) b) = Ok (Some (CArr s b)).
Proof.
  intros (G & L & P) Es. unfold unpad1. pose proof pad_check_ok as C. rewrite forallb_forall in C.
  specialize (C s (fine_cases s G L)). unfold pad_check in C. apply andb_prop in C as [C C2].
  destruct (e_pad E).
  - unfold unpad_val. rewrite Es. destruct (@keqb_spec (list nat) _ (full s) s) as [EQ|NE]; [now rewrite EQ|].
    assert (LF : List.length (full s) = List.length s) by (unfold full; apply repeat_length). rewrite LF.
    replace (negb (Nat.eqb (List.length s) 4 || Nat.eqb (List.length s) 2)) with false
      by (destruct L as [-> | ->]; reflexivity).
    rewrite Nat.ltb_irrefl. apply keqb_true in C2. now rewrite C2.
  - specialize (P eq_refl). fold (full s) in P. now rewrite <- P.
Qed.
Lemma pad1_num z : pad1 (CNum z) = Ok (Some (CNum z)).
Proof. unfold pad1. destruct (e_pad E); reflexivity. Qed.
Lemma unpad1_num k z : dget (e_shape E) k <> None -> unpad1 k (CNum z) = Ok (Some (CNum z)).
Proof. unfold unpad1, unpad_val. destruct (e_pad E); [|reflexivity]. destruct (dget (e_shape E) k); [reflexivity|congruence]. Qed.

(* ---------- bases ---------- *)
Record eft_ok (sp : list opspec) : Prop := {
  ok_names : NoDup (map fst sp);
  ok_no_us : forall n c s, In (n, (c, s)) sp -> no_us n;
  ok_shapes : forall n c s, In (n, (c, s)) sp -> shape_ok c s = true;
  ok_all : forall v, In v (e_all E) <-> exists o, In o sp /\ In v (map fst (op_coeffs o));
  ok_class : forall n c s, In (n, (c, s)) sp -> class_of E n = Some c;
  ok_shape : forall n c s, In (n, (c, s)) sp -> dget (e_shape E) n = Some (op_shape c s);
  ok_wc : forall n, In n (e_wc_keys E) <-> In n (map fst sp);
  ok_8 : forall n, In n (dgetd (e_symm E) Cl8 []) -> exists s, In (n, (Cl8, s)) sp;
  ok_pad : e_pad E = false -> forall n c s, In (n, (c, s)) sp -> s = full s }.
End R.
