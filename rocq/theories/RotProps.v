(* C23: flavour rotations of the SMEFT coefficients are an action of the matrices U(3)^5. *)
From Coq Require Import List Bool ZArith QArith Qcanon Arith Lia String Ascii.
From Verif Require Import PyBase Num SymModel SymClass SymSpec EftModel EftSpec EftProofs NpModel NpProofs BetaSpec BetaProofs BetaCov BetaSym RotModel RotProofs.
Import ListNotations.
Local Open Scope string_scope.
Local Open Scope list_scope.

(* the names smeftutil.WC_keys_0f *)
Definition bosonic_keys (keys0 : list string) : Prop := forall k, In k keys0 <-> In k bosonic.
(* some of the Wilson coefficients, with the shapes of the Warsaw basis *)
Definition coefficients {K : StarField} (C : dict string (cval K)) : Prop :=
  forall k v, dget C k = Some v -> exists ts, dget wc_fields k = Some ts /\
    match ts with [] => exists z, v = CNum z | _ => exists a, v = CArr (map (fun _ => 3%nat) ts) a end.
(* equal dictionaries: same keys, same values *)
Definition same_dict {K : StarField} (C D : dict string (cval K)) : Prop :=
  forall k, match dget C k, dget D k with Some v, Some w => cv_eq v w | None, None => True | _, _ => False end.
(* 3x3 arrays *)
Definition mat3 {K : StarField} (M : cval K) : Prop := exists a, M = CArr [3; 3]%nat a.

Section Facts.
Context {K : StarField}.
Local Open Scope K_scope.
Notation cdict := (dict string (cval K)).
Lemma mat3_shape (U : field -> cval K) : (forall f, mat3 (U f)) -> forall f, vshape (U f) = [3; 3]%nat.
Proof. intros H f. destruct (H f) as (a & ->). reflexivity. Qed.
Lemma coefficients_shaped (C : cdict) : coefficients C -> shaped_as wc_fields C.
Proof.
  intros H k ts v F E. destruct (H k v E) as (ts' & F' & V). assert (ts' = ts) by congruence. subst ts'. destruct ts as [|t ts].
  - destruct V as (z & ->). split; [reflexivity|]. eauto.
  - destruct V as (a & ->). split; [reflexivity|discriminate].
Qed.
Lemma rep_cv_eq (v w : cval K) r f : rep v r f -> rep w r f -> cv_eq v w.
Proof.
  intros (A1 & A2 & A3) (B1 & B2 & B3). destruct r as [|r].
  - destruct (A2 eq_refl) as (x & ->), (B2 eq_refl) as (y & ->). cbn in *. now rewrite (A3 [] (or_introl eq_refl)), (B3 [] (or_introl eq_refl)).
  - destruct v as [x|s a]; [discriminate A1|]. destruct w as [y|t b]; [discriminate B1|]. cbn [vshape] in *. subst s t. split; [reflexivity|].
    intros I HI. assert (HI' : In I (idxs (S r))) by (unfold idxs; now apply in_all_indices). exact (eq_trans (A3 I HI') (eq_sym (B3 I HI'))).
Qed.
Lemma coef_rep (C : cdict) k ts v : shaped_as wc_fields C -> dget wc_fields k = Some ts -> dget C k = Some v -> rep v (List.length ts) (entry v).
Proof. intros H F E. destruct (H k ts v F E) as [A B]. split; [now rewrite A, map_repeat3|]. split; [intros L; apply B; now destruct ts|reflexivity]. Qed.
Lemma rep_coefficients (D : cdict) : (forall k v, dget D k = Some v -> exists ts f, dget wc_fields k = Some ts /\ rep v (List.length ts) f) -> coefficients D.
Proof.
  intros H k v E. destruct (H k v E) as (ts & f & F & (R1 & R2 & R3)). exists ts. split; [exact F|]. destruct ts as [|t ts]; [now apply R2|].
  destruct v as [z|s a]; [discriminate R1|]. cbn [vshape] in R1. subst s. rewrite map_repeat3. eauto.
Qed.
Lemma wc_op k ts : dget wc_fields k = Some ts -> dget op_fields k = Some ts.
Proof.
  intros H.
  assert (X : forallb (fun p => match dget op_fields (fst p) with Some us => if slots_dec us (snd p) then true else false | None => false end) wc_fields = true)
    by (vm_compute; reflexivity).
  rewrite forallb_forall in X. specialize (X (k, ts) (dget_In _ _ _ H)). cbn [fst snd] in X. destruct (dget op_fields k) as [us|]; [|discriminate X].
  destruct (slots_dec us ts) as [->|]; [reflexivity|discriminate X].
Qed.
(* the result of a rotation *)
Lemma rotated (U : field -> cval K) keys0 (C : cdict) : bosonic_keys keys0 -> (forall f, mat3 (U f)) -> coefficients C ->
  exists D, flavor_rotation U keys0 C = Ok D /\ coefficients D /\ (forall k, dget D k = None <-> dget C k = None) /\
    forall k ts v, dget wc_fields k = Some ts -> dget C k = Some v -> exists w, dget D k = Some w /\ rep w (List.length ts) (rot (matf U) ts (entry v)).
Proof.
  intros HK HU HC. destruct (flavor_rotation_spec U keys0 C (mat3_shape U HU) HK (coefficients_shaped C HC)) as (D & E & _ & A & B).
  exists D. split; [exact E|]. split; [|split; [|exact A]].
  - apply rep_coefficients. intros k v EV. assert (X : dget D k <> None) by congruence. apply B in X as [X1 X2].
    destruct (dget wc_fields k) as [ts|] eqn:F; [|congruence]. destruct (dget C k) as [c|] eqn:G; [|congruence].
    destruct (A k ts c F G) as (w & EW & R). assert (w = v) by congruence. subst w. eauto.
  - intros k. destruct (dget D k) as [w|] eqn:F.
    + split; [discriminate|]. intros G. assert (X : dget D k <> None) by congruence. apply B in X as [_ X]. congruence.
    + split; [|reflexivity]. intros _. destruct (dget C k) as [c|] eqn:G; [|reflexivity]. exfalso.
      destruct (HC k c G) as (ts & FT & _). assert (X : dget D k <> None) by (apply B; split; congruence). congruence.
Qed.
Lemma same_dict_intro (C D : cdict) : (forall k, dget D k = None <-> dget C k = None) -> coefficients C ->
  (forall k ts v w, dget wc_fields k = Some ts -> dget C k = Some v -> dget D k = Some w -> cv_eq v w) -> same_dict C D.
Proof.
  intros N HC V k. destruct (dget C k) as [v|] eqn:E1.
  - destruct (dget D k) as [w|] eqn:E2; [|apply N in E2; congruence]. destruct (HC k v E1) as (ts & F & _). now apply (V k ts).
  - apply N in E1. now rewrite E1.
Qed.
Lemma rep_entry_of (U : field -> nat -> nat -> K) ts (w : cval K) g f : rep w (List.length ts) g -> (forall J, In J (idxs (List.length ts)) -> g J = f J) ->
  forall I, rot U ts (entry w) I = rot U ts f I.
Proof. intros (_ & _ & R) E I. apply rot_ext. intros J HJ. rewrite R by exact HJ. now apply E. Qed.
Lemma matmul_matf (A B M : cval K) i j : mat3 A -> mat3 B -> np_matmul A B = Ok M -> (i < 3)%nat -> (j < 3)%nat ->
  entry M [i; j] = ksum (map (fun m => entry A [i; m] * entry B [m; j]) (seq 0 3)).
Proof.
  intros (a & ->) (b & ->) E Hi Hj.
  assert (RA : forall c : idx -> K, rep (CArr [3; 3]%nat c) 2 c) by (intros c; split; [reflexivity|]; split; [discriminate|reflexivity]).
  destruct (rep_matmul _ _ _ _ (RA a) (RA b)) as (M' & E' & (_ & _ & R)). assert (M' = M) by congruence. subst M'.
  rewrite R by (apply idxs_2_in; lia). cbn [nth entry]. reflexivity.
Qed.
Lemma matmul_mat3 (A B M : cval K) : mat3 A -> mat3 B -> np_matmul A B = Ok M -> mat3 M.
Proof.
  intros (a & ->) (b & ->) E.
  assert (RA : forall c : idx -> K, rep (CArr [3; 3]%nat c) 2 c) by (intros c; split; [reflexivity|]; split; [discriminate|reflexivity]).
  destruct (rep_matmul _ _ _ _ (RA a) (RA b)) as (M' & E' & (R & _)). assert (M' = M) by congruence. subst M'.
  destruct M as [z|s c]; [discriminate R|]. cbn [vshape] in R. subst s. now exists c.
Qed.
Lemma eye_mat3 : mat3 (@np_eye K 3).
Proof. unfold mat3, np_eye. eauto. Qed.
Lemma dag_mat3 (M : cval K) : mat3 M -> mat3 (np_T (np_conj M)).
Proof. intros (a & ->). unfold mat3. cbn. eauto. Qed.
Lemma dag_entry (M : cval K) i j : mat3 M -> entry (np_T (np_conj M)) [i; j] = (entry M [j; i])^*.
Proof. intros (a & ->). reflexivity. Qed.
End Facts.

(* Every index of every coefficient is contracted with the matrix of its field (or its
   conjugate); coefficients that are not given are not invented and none are lost. *)
Theorem C23_rotation : forall (K : StarField) (U : field -> cval K) keys0 (C : dict string (cval K)),
  bosonic_keys keys0 -> (forall f, mat3 (U f)) -> coefficients C ->
  exists D, flavor_rotation U keys0 C = Ok D /\ coefficients D /\ (forall k, dget D k = None <-> dget C k = None) /\
    forall k ts, dget wc_fields k = Some ts -> forall I, In I (indices_of k) ->
      coef D k I = rot (fun f j i => entry (U f) [j; i]) ts (coef C k) I.
Proof.
  intros K U keys0 C HK HU HC. destruct (rotated U keys0 C HK HU HC) as (D & E & HD & N & A). exists D. split; [exact E|]. split; [exact HD|]. split; [exact N|].
  intros k ts F I HI. rewrite (indices_of_idxs k ts (wc_op k ts F)) in HI. unfold coef. destruct (dget C k) as [v|] eqn:G.
  - destruct (A k ts v F G) as (w & -> & (_ & _ & R)). exact (R I HI).
  - rewrite (proj2 (N k) G). now rewrite rot_zero.
Qed.
Print Assumptions C23_rotation.

Theorem C23_identity : forall (K : StarField) keys0 (C : dict string (cval K)),
  bosonic_keys keys0 -> coefficients C ->
  exists D, flavor_rotation (fun _ => np_eye 3) keys0 C = Ok D /\ same_dict C D.
Proof.
  intros K keys0 C HK HC. destruct (rotated (fun _ => np_eye 3) keys0 C HK (fun _ => eye_mat3) HC) as (D & E & _ & N & A). exists D. split; [exact E|].
  apply same_dict_intro; [exact N|exact HC|]. intros k ts v w F G1 G2. destruct (A k ts v F G1) as (w' & G2' & R). assert (w' = w) by congruence. subst w'.
  apply (rep_cv_eq v w (List.length ts) (entry v)); [apply (coef_rep C k); [now apply coefficients_shaped|exact F|exact G1]|]. apply (rep_ext _ _ _ _ R). intros I HI.
  rewrite <- (rot_id ts (entry v) I HI). apply rot_extU; [|intros x Hx; apply in_idxs in HI as [_ HI]; now apply HI].
  intros f j i Hj Hi. unfold matf. destruct (rep_eye (K := K)) as (_ & _ & RE). rewrite RE by (apply idxs_2_in; lia). reflexivity.
Qed.
Print Assumptions C23_identity.

(* rotating by U and then by W is rotating by U @ W *)
Theorem C23_composition : forall (K : StarField) (U W UW : field -> cval K) keys0 (C : dict string (cval K)),
  bosonic_keys keys0 -> (forall f, mat3 (U f)) -> (forall f, mat3 (W f)) -> (forall f, np_matmul (U f) (W f) = Ok (UW f)) -> coefficients C ->
  exists D F G, flavor_rotation U keys0 C = Ok D /\ flavor_rotation W keys0 D = Ok F /\ flavor_rotation UW keys0 C = Ok G /\ same_dict F G.
Proof.
  intros K U W UW keys0 C HK HU HW HM HC. destruct (rotated U keys0 C HK HU HC) as (D & E1 & HD & N1 & A1).
  destruct (rotated W keys0 D HK HW HD) as (F & E2 & HF & N2 & A2).
  destruct (rotated UW keys0 C HK (fun f => matmul_mat3 _ _ _ (HU f) (HW f) (HM f)) HC) as (G & E3 & HG & N3 & A3).
  exists D, F, G. split; [exact E1|]. split; [exact E2|]. split; [exact E3|]. apply same_dict_intro; [|exact HF|].
  - intros k. rewrite N3, N2, N1. reflexivity.
  - intros k ts f g FT G1 G2. destruct (dget C k) as [v|] eqn:EV; [|apply N1, N2 in EV; congruence].
    destruct (A1 k ts v FT EV) as (d & ED & R1). destruct (A2 k ts d FT ED) as (f' & EF & R2). destruct (A3 k ts v FT EV) as (g' & EG & R3).
    assert (f' = f) by congruence. assert (g' = g) by congruence. subst f' g'. apply (rep_cv_eq f g (List.length ts) _ R2). apply (rep_ext _ _ _ _ R3).
    intros I HI. rewrite (rep_entry_of _ ts d _ (rot (matf U) ts (entry v)) R1 (fun _ _ => eq_refl)). rewrite rot_mul by (now apply idxs_length).
    apply rot_extU; [|intros x Hx; apply in_idxs in HI as [_ HI]; now apply HI].
    intros h j i Hj Hi. unfold matf, mulU. exact (matmul_matf _ _ _ j i (HU h) (HW h) (HM h) Hj Hi).
Qed.
Print Assumptions C23_composition.

(* a rotation by unitary matrices is undone by their hermitian conjugates U.conj().T *)
Theorem C23_inverse : forall (K : StarField) (U : field -> cval K) keys0 (C : dict string (cval K)),
  bosonic_keys keys0 -> (forall f, mat3 (U f)) -> (forall f, unitary3 (fun i j => entry (U f) [i; j])) -> coefficients C ->
  exists D F, flavor_rotation U keys0 C = Ok D /\ flavor_rotation (fun f => np_T (np_conj (U f))) keys0 D = Ok F /\ same_dict C F.
Proof.
  intros K U keys0 C HK HU HM HC. destruct (rotated U keys0 C HK HU HC) as (D & E1 & HD & N1 & A1).
  destruct (rotated _ keys0 D HK (fun f => dag_mat3 _ (HU f)) HD) as (F & E2 & HF & N2 & A2).
  exists D, F. split; [exact E1|]. split; [exact E2|]. apply same_dict_intro; [|exact HC|].
  - intros k. rewrite N2, N1. reflexivity.
  - intros k ts v f FT EV EF. destruct (A1 k ts v FT EV) as (d & ED & R1). destruct (A2 k ts d FT ED) as (f' & EF' & R2). assert (f' = f) by congruence. subst f'.
    apply (rep_cv_eq v f (List.length ts) (entry v)); [apply (coef_rep C k); [now apply coefficients_shaped|exact FT|exact EV]|]. apply (rep_ext _ _ _ _ R2). intros I HI.
    rewrite (rep_entry_of _ ts d _ (rot (matf U) ts (entry v)) R1 (fun _ _ => eq_refl)).
    rewrite <- (rot_unitary (matf U) ts (entry v) I HM HI). apply rot_extU; [|intros x Hx; apply in_idxs in HI as [_ HI]; now apply HI].
    intros h j i Hj Hi. unfold matf, dagU. apply dag_entry, HU.
Qed.
Print Assumptions C23_inverse.

(* hermiticity and all exchange symmetries of the coefficients are preserved, for any matrices *)
Theorem C23_symmetries : forall (K : StarField) (U : field -> cval K) keys0 (C D : dict string (cval K)),
  bosonic_keys keys0 -> (forall f, mat3 (U f)) -> coefficients C -> flavor_rotation U keys0 C = Ok D ->
  (forall k ts gs g, dget wc_fields k = Some ts -> dget symmetries k = Some gs -> In g gs -> obeys k g C -> obeys k g D) /\
  (qqql_symmetric C -> qqql_symmetric D).
Proof.
  intros K U keys0 C D HK HU HC E. destruct (C23_rotation K U keys0 C HK HU HC) as (D' & E' & _ & _ & A). assert (D' = D) by congruence. subst D'.
  split.
  - intros k ts gs g F S IN OB.
    assert (X : forallb (fun p : string * list (list nat * bool) => match dget wc_fields (fst p) with None => true | Some ts =>
        forallb (fun g : list nat * bool => nperm (fst g) (List.length ts) && perm_ok (fst g) (List.length ts) &&
          if slots_dec (map (fun i => nth i ts (Fq, false)) (fst g)) (if snd g then map flip ts else ts) then true else false) (snd p) end) symmetries = true)
      by (vm_compute; reflexivity).
    rewrite forallb_forall in X. specialize (X (k, gs) (dget_In _ _ _ S)). cbn [fst snd] in X. rewrite F in X. rewrite forallb_forall in X. specialize (X g IN).
    rewrite !andb_true_iff in X. destruct X as [[X1 X2] X3]. destruct (slots_dec (map (fun i => nth i ts (Fq, false)) (fst g)) (if snd g then map flip ts else ts)) as [X4|]; [|discriminate X3].
    pose proof (indices_of_idxs k ts (wc_op k ts F)) as IX. intros I HI. rewrite (A k ts F I HI).
    rewrite IX in HI. rewrite (A k ts F (permute (fst g) I)) by (rewrite IX; now apply permute_idxs).
    apply rot_sym; try assumption. intros J HJ. apply OB. now rewrite IX.
  - intros Q. assert (IX : indices_of "qqql" = idxs 4) by exact (indices_of_idxs "qqql" _ eq_refl).
    intros p r s t HI. rewrite IX in HI.
    assert (B : forall J, In J (idxs 4) -> coef D "qqql" J = rot (matf U) [pln Fq; pln Fq; pln Fq; pln Fl] (coef C "qqql") J).
    { intros J HJ. exact (A "qqql" _ eq_refl J (eq_ind_r (fun l => In J l) HJ IX)). }
    apply in_idxs_4 in HI as (p' & r' & s' & t' & [= <- <- <- <-] & Hp & Hr & Hs & Ht).
    rewrite !B by (apply in_idxs_4; eauto 12). apply rot_qqql; [|apply in_idxs_4; eauto 12].
    intros a b c d HJ. apply Q. now rewrite IX.
Qed.
Print Assumptions C23_symmetries.

(* SMEFT._flavor_rotation does the same to whole parameter points, including the SM
   parameters; it raises KeyError if a parameter is missing *)
Theorem C23_parameter_point : forall (K : StarField) (U : field -> cval K) keys0 (C : dict string (cval K)),
  bosonic_keys keys0 -> (forall f, mat3 (U f)) -> smeft_point C ->
  exists D, smeft_flavor_rotation U keys0 true C = Ok D /\ smeft_point D /\ (forall k, dget op_fields k = None -> dget D k = None) /\
    rotated_point (fun f j i => entry (U f) [j; i]) C D.
Proof.
  intros K U keys0 C HK HU HC.
  assert (SH : shaped_as (sfields true) C).
  { intros k ts v F G. destruct (HC k ts F) as (v' & G' & A & B). assert (v' = v) by congruence. subst v'. auto. }
  destruct (smeft_rotation_spec U keys0 true C (mat3_shape U HU) HK SH) as (D & E & _ & A & B).
  { intros k. cbn [sfields]. destruct (dget op_fields k) as [ts|] eqn:F; [|intros X; now contradiction X]. intros _. destruct (HC k ts F) as (v & -> & _). discriminate. }
  exists D. split; [exact E|]. split; [|split].
  - intros k ts F. destruct (HC k ts F) as (v & G & _). destruct (A k ts v F G) as (w & GW & (R1 & R2 & _)). exists w. split; [exact GW|].
    split; [now rewrite map_repeat3|]. intros ->. now apply R2.
  - intros k F. destruct (dget D k) as [w|] eqn:G; [|reflexivity]. exfalso. assert (X : dget D k <> None) by congruence. apply B in X as [X _]. now apply X.
  - intros k ts F I HI. destruct (HC k ts F) as (v & G & _). destruct (A k ts v F G) as (w & GW & (_ & _ & R)). unfold coef at 1. rewrite GW.
    rewrite R by (now rewrite <- (indices_of_idxs k ts F)). apply rot_ext. intros J HJ. unfold coef. now rewrite G.
Qed.
Print Assumptions C23_parameter_point.

(* a unitary matrix that mixes the first two generations and multiplies the third by i *)
Definition ex_u (I : idx) : QI :=
  match I with
  | [0; 0] => qi (3 # 5) 0 | [0; 1] => qi (4 # 5) 0 | [1; 0] => qi (- 4 # 5) 0 | [1; 1] => qi (3 # 5) 0 | [2; 2] => qi 0 1 | _ => qi 0 0
  end%nat.
Definition ex_U (f : field) : cval QI := CArr [3; 3]%nat ex_u.
Definition ex_coefs : dict string (cval QI) :=
  [("phiq1", CArr [3; 3]%nat (fun I => match I with [0; 0]%nat => qi 1 0 | _ => qi 0 0 end)); ("G", CNum (qi 2 0));
   ("uu", CArr [3; 3; 3; 3]%nat (fun I => match I with [2; 2; 0; 1]%nat | [0; 1; 2; 2]%nat => qi 0 1 | [2; 2; 1; 0]%nat | [1; 0; 2; 2]%nat => qi 0 (-1) | _ => qi 0 0 end))].
Example C23_unitary : forall f, unitary3 (fun i j => entry (ex_U f) [i; j]).
Proof.
  intros f a b Ha Hb. destruct a as [|[|[|]]]; try lia; destruct b as [|[|[|]]]; try lia; (split; apply kdec_true; vm_compute; reflexivity).
Qed.
Example C23_coefs : coefficients ex_coefs /\ (forall f, mat3 (ex_U f)) /\ bosonic_keys bosonic.
Proof.
  split; [|split; [intros f; exists ex_u; reflexivity|intros k; reflexivity]].
  intros k v H. unfold ex_coefs in H. cbn [dget] in H.
  repeat match type of H with context [keqb ?a ?b] => destruct (keqb_spec a b) as [->|] end; try discriminate H; injection H as <-.
  - exists [bar Fq; pln Fq]. split; [reflexivity|]. eexists. reflexivity.
  - exists []. split; [reflexivity|]. eexists. reflexivity.
  - exists [bar Fu; pln Fu; bar Fu; pln Fu]. split; [reflexivity|]. eexists. reflexivity.
Qed.
Example C23_example : exists D, flavor_rotation ex_U bosonic ex_coefs = Ok D /\ coef D "phiq1" [0; 1]%nat = qi (12 # 25) 0 /\ obeys "phiq1" ([1; 0]%nat, true) D.
Proof.
  destruct C23_coefs as (A & B & C). destruct (C23_rotation QI ex_U bosonic ex_coefs C B A) as (D & E & _ & _ & V). exists D. split; [exact E|]. split.
  - rewrite (V "phiq1" _ eq_refl). { apply kdec_true. vm_compute. reflexivity. } vm_compute. auto.
  - apply (proj1 (C23_symmetries QI ex_U bosonic ex_coefs D C B A E) "phiq1" [bar Fq; pln Fq] herm2); [reflexivity|reflexivity|now left|].
    intros I HI. assert (X : forallb (fun I => kdec (coef ex_coefs "phiq1" I) (cj true (coef ex_coefs "phiq1" (permute [1; 0]%nat I)))) (indices_of "phiq1") = true)
      by (vm_compute; reflexivity).
    rewrite forallb_forall in X. apply kdec_true. exact (X I HI).
Qed.
