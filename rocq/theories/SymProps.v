(* C14-C17: flavour symmetrization of single coefficient arrays.
   Specification: SymSpec.v (has_symmetry, indices, nonredundant, real_entry,
   plain_orbit).  K is any field with conjugation, e.g. the complex numbers. *)
From Coq Require Import List Bool ZArith QArith Arith Lia String Ascii.
From Verif Require Import PyBase Num Lin SymModel SymTables SymClass SymSpec SymProofs SymCheck SymFacts.
Import ListNotations.

(* ---------------- C14 ---------------- *)
(* the result has the symmetry of its class, for every input array *)
Theorem C14_symmetrize_imposes_symmetry : forall (K : StarField) c (b : idx -> K),
  c <> Cl71 -> has_symmetry c (symmetrize k_alg c b).
Proof. intros. now apply S14. Qed.
Theorem C14_symmetrize_nonred_imposes_symmetry : forall (K : StarField) c (b : idx -> K),
  c <> Cl71 -> has_symmetry c (symmetrize_nonred k_alg c b).
Proof. intros. now apply S14n. Qed.
(* class 71 (antisymmetric): all entries with distinct first indices *)
Theorem C14_antisymmetric_partial : forall (K : StarField) (b : idx -> K) i j k l,
  lt3 i -> lt3 j -> lt3 k -> lt3 l -> i <> j ->
  symmetrize k_alg Cl71 b [j;i;k;l] = (- symmetrize k_alg Cl71 b [i;j;k;l])%K.
Proof. intros. now apply S14_71. Qed.
(* ... and everything if the diagonal entries of the input vanish *)
Theorem C14_antisymmetric_zero_diagonal : forall (K : StarField) (b : idx -> K),
  (forall i k l, lt3 i -> lt3 k -> lt3 l -> b [i;i;k;l] = 0%K) ->
  has_symmetry Cl71 (symmetrize k_alg Cl71 b) /\ has_symmetry Cl71 (symmetrize_nonred k_alg Cl71 b).
Proof. intros K b Z. split; [now apply S14_71_diag|now apply S14n_71_diag]. Qed.
(* the code never sets them to zero, so the claim fails in general *)
Theorem C14_antisymmetric_refuted :
  exists b : idx -> QI, ~ has_symmetry Cl71 (symmetrize k_alg Cl71 b).
Proof.
  exists (fun _ => 1%K). intros H.
  specialize (H 0 0 0 0 ltac:(unfold lt3; lia) ltac:(unfold lt3; lia) ltac:(unfold lt3; lia) ltac:(unfold lt3; lia))%nat.
  revert H. apply (kdec_false QI). vm_compute. reflexivity.
Qed.

(* a generic array meets the conclusion in a non-trivial way *)
Example ex14 :
  let b : idx -> QI := fun I => match I with [0;1;2;1]%nat => qi (1#2) 3 | _ => 0%K end in
  let a := symmetrize k_alg Cl4 b in
  a [0;1;2;1]%nat = qi (1#2) 3 /\ a [1;0;1;2]%nat = qi (1#2) (-3) /\
  a [2;1;0;1]%nat = qi (1#2) 3 /\ a [1;2;1;0]%nat = qi (1#2) (-3) /\ a [0;1;0;1]%nat = 0%K.
Proof. repeat split; apply kdec_true; vm_compute; reflexivity. Qed.

(* ---------------- C15 ---------------- *)
Theorem C15_keeps_nonredundant : forall (K : StarField) c (b : idx -> K) I,
  In I (indices c) -> nonredundant c I = true ->
  symmetrize k_alg c b I = if real_entry c I then kre (b I) else b I.
Proof. intros. now apply S15. Qed.
Theorem C15_fixes_symmetric : forall (K : StarField) c (b : idx -> K) I,
  has_symmetry c b -> In I (indices c) -> symmetrize k_alg c b I = b I.
Proof. intros. now apply S15_fixed. Qed.
Theorem C15_idempotent : forall (K : StarField) c (b : idx -> K) I, In I (indices c) ->
  symmetrize k_alg c (symmetrize k_alg c b) I = symmetrize k_alg c b I.
Proof. intros. now apply S15_idem. Qed.
(* the non-redundant entries are a basis: they determine a symmetric array *)
Theorem C15_nonredundant_determine : forall (K : StarField) c (a b : idx -> K),
  has_symmetry c a -> has_symmetry c b ->
  (forall I, In I (indices c) -> nonredundant c I = true -> a I = b I) ->
  forall I, In I (indices c) -> a I = b I.
Proof. intros; now apply (S_determined c). Qed.
(* the two-flavour table by which the code recognises a class lists exactly the
   non-redundant entries, with the right "real" flags *)
Definition index_label (I : idx) : string :=
  fold_right (fun i s => String (ascii_of_nat (49 + i)) s) EmptyString I.
Theorem C15_class_table : forall c labels, In (labels, c) class_definitions ->
  c <> Cl0 ->
  labels = map (fun I => (index_label I, real_entry c I))
    (filter (fun I => forallb (fun i => i <? 2)%nat I && nonredundant c I) (indices c)).
Proof.
  intros c labels H N. unfold class_definitions in H.
  repeat (destruct H as [H|H]; [injection H as <- <-; try congruence; vm_compute; reflexivity|]). destruct H.
Qed.
Theorem C15_class_table_complete : forall c, exists labels, In (labels, c) class_definitions.
Proof.
  intros c.
  assert (E : existsb (fun x => match snd x, c with
     | Cl0, Cl0 | Cl1, Cl1 | Cl2, Cl2 | Cl3, Cl3 | Cl4, Cl4 | Cl41, Cl41 | Cl5, Cl5 | Cl6, Cl6
     | Cl7, Cl7 | Cl71, Cl71 | Cl8, Cl8 | Cl9, Cl9 => true | _, _ => false end) class_definitions = true)
    by (destruct c; reflexivity).
  apply existsb_exists in E as ([l c'] & HI & E). exists l.
  replace c with c'; [exact HI|]. cbn [snd] in E. destruct c', c; congruence.
Qed.

Example ex15 : (* a non-redundant real entry, and one that is not kept *)
  nonredundant Cl6 [0;0;1;1]%nat = true /\ real_entry Cl6 [0;0;1;1]%nat = true /\
  nonredundant Cl6 [0;1;1;0]%nat = false /\ nonredundant Cl6 [0;1;0;1]%nat = true /\
  real_entry Cl6 [0;1;0;1]%nat = false /\
  has_symmetry Cl6 (symmetrize k_alg Cl6 (fun _ : idx => qi 1 2)).
Proof. repeat split; try reflexivity; apply (S14 Cl6); discriminate. Qed.

(* ---------------- C16 ---------------- *)
Theorem C16_unscale_symmetrize_nonred : forall (K : StarField) c (b : idx -> K) I,
  In I (indices c) -> nonredundant c I = true ->
  unscale k_alg c (symmetrize_nonred k_alg c b) I = if real_entry c I then kre (b I) else b I.
Proof. intros. now apply S16. Qed.
(* opposite composition: unscale, keep the non-redundant entries, symmetrize *)
Theorem C16_symmetrize_nonred_unscale : forall (K : StarField) c (a : idx -> K) I,
  has_symmetry c a -> In I (indices c) ->
  symmetrize_nonred k_alg c (fun J => if nonredundant c J then unscale k_alg c a J else 0%K) I = a I.
Proof. intros. now apply S16b. Qed.

Example ex16 :
  let b : idx -> QI := fun I => match I with [0;1;0;2]%nat => qi 4 8 | _ => 0%K end in
  let a := symmetrize_nonred k_alg Cl6 b in
  a [0;1;0;2]%nat = qi 2 4 /\ unscale k_alg Cl6 a [0;1;0;2]%nat = qi 4 8 /\
  unscale k_alg Cl8 (symmetrize_nonred k_alg Cl8 (fun I => match I with [0;2;1;2]%nat => qi 1 5 | _ => 0%K end)) [0;2;1;2]%nat = qi 1 5.
Proof. repeat split; apply kdec_true; vm_compute; reflexivity. Qed.

(* ---------------- C17 ---------------- *)
(* sum over all flavour indices *)
Definition lagrangian {K : StarField} (l : list idx) (coeff op : idx -> K) : K :=
  fold_right (fun I r => (coeff I * op I + r)%K) 0%K l.
(* contribution of one term of the non-redundant Lagrangian: for a class of
   hermitian structures real coefficients once, complex ones with the hermitian
   conjugate; for the other classes the term itself (their conjugate is added to the
   Lagrangian as a whole) *)
Definition nonredundant_term {K : StarField} (c : cls) (coeff op : idx -> K) (I : idx) : K :=
  (if real_entry c I then kre (coeff I) * op I
   else match c with
        | Cl2 | Cl4 | Cl5 | Cl6 => coeff I * op I + (coeff I * op I)^*
        | _ => coeff I * op I
        end)%K.
Theorem C17_lagrangian_preserved : forall (K : StarField) c (coeff op : idx -> K),
  c <> Cl9 -> has_symmetry c op ->
  lagrangian (indices c) (symmetrize_nonred k_alg c coeff) op =
  fold_right (fun I r => (nonredundant_term c coeff op I + r)%K) 0%K (filter (nonredundant c) (indices c)).
Proof.
  intros K c coeff op N HS. unfold lagrangian.
  pose proof (S17 c coeff op N HS) as H. unfold ksum_over in H. rewrite H. clear H.
  induction (indices c) as [|I l IH]; [reflexivity|]. cbn [fold_right filter].
  rewrite IH. destruct (nonredundant c I); cbn [fold_right].
  - f_equal. unfold nonredundant_term. destruct (real_entry c I); [reflexivity|].
    destruct c; cbn [hermitian_class]; try reflexivity; try (rewrite kadd_0_r; reflexivity); congruence.
  - apply kadd_0_l.
Qed.
(* class 9 (symmetric matrix, llphiphi) has no symmetry factor *)
Theorem C17_class9_refuted : exists coeff op : idx -> QI, has_symmetry Cl9 op /\
  lagrangian (indices Cl9) (symmetrize_nonred k_alg Cl9 coeff) op <>
  fold_right (fun I r => (nonredundant_term Cl9 coeff op I + r)%K) 0%K (filter (nonredundant Cl9) (indices Cl9)).
Proof.
  exists (fun I => match I with [0;1]%nat => 1%K | _ => 0%K end), (fun _ => 1%K). split.
  - intros i j _ _. reflexivity.
  - apply (kdec_false QI). vm_compute. reflexivity.
Qed.
(* the factors of _get_scale_dict count the entries related without conjugation *)
Theorem C17_factor_counts : forall I, In I (indices Cl4) ->
  d_4 I = List.length (nodup (list_eq_dec Nat.eq_dec) (plain_orbit Cl4 I)) /\
  d_6 I = List.length (nodup (list_eq_dec Nat.eq_dec) (plain_orbit Cl6 I)) /\
  d_7 I = List.length (nodup (list_eq_dec Nat.eq_dec) (plain_orbit Cl7 I)).
Proof.
  intros I II. pose proof check_factor_ok as H. rewrite forallb_forall in H.
  pose proof (H Cl4 (all_classes_in _)) as H4. pose proof (H Cl6 (all_classes_in _)) as H6. pose proof (H Cl7 (all_classes_in _)) as H7.
  rewrite forallb_forall in H4, H6, H7.
  repeat split; apply Nat.eqb_eq; [exact (H4 I II)|exact (H6 I II)|exact (H7 I II)].
Qed.
Example ex17 :
  let coeff : idx -> QI := fun I => match I with [0;1;0;2]%nat => qi 4 8 | [0;0;0;0]%nat => qi 3 0 | _ => 0%K end in
  let op := symmetrize k_alg Cl6 (fun I : idx => qi 1 1) in
  has_symmetry Cl6 op /\ lagrangian (indices Cl6) (symmetrize_nonred k_alg Cl6 coeff) op = qi (-5) 0.
Proof. split; [apply S14; discriminate|]. apply kdec_true. vm_compute. reflexivity. Qed.

Print Assumptions C14_symmetrize_imposes_symmetry.
Print Assumptions C14_antisymmetric_zero_diagonal.
Print Assumptions C15_keeps_nonredundant.
Print Assumptions C15_fixes_symmetric.
Print Assumptions C15_nonredundant_determine.
Print Assumptions C15_class_table.
Print Assumptions C16_unscale_symmetrize_nonred.
Print Assumptions C16_symmetrize_nonred_unscale.
Print Assumptions C17_lagrangian_preserved.
Print Assumptions C17_class9_refuted.
Print Assumptions C17_factor_counts.
