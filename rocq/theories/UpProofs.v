(* Rotations of the symmetrized arrays of the Warsaw basis: symmetry classes are preserved,
   and two rotations that undo each other give the same coefficients back. *)
From Coq Require Import List Bool ZArith QArith Arith Lia String Ascii.
From Verif Require Import PyBase Num Lin SymModel SymTables SymClass SymSpec SymProofs SymCheck SymFacts EftModel EftSpec EftProofs EftLabels EftRound EftRound2 EftInit BasisProps
  NpModel NpProofs BetaSpec BetaProofs BetaCov RotModel RotProofs RotProps.
Import ListNotations.
Local Open Scope string_scope.
Local Open Scope list_scope.

(* generators of the symmetries of a class (all but the classes 71 and 8) *)
Definition gens (c : cls) : list (list nat * bool) :=
  match c with
  | Cl0 => real0 | Cl2 => herm2 | Cl9 => [([1; 0]%nat, false)]
  | Cl4 => exch4 | Cl41 => [([2; 3; 0; 1]%nat, false)] | Cl5 => herm4 | Cl6 => exch4 ++ [([0; 3; 2; 1]%nat, false)]
  | Cl7 => [([1; 0; 2; 3]%nat, false)]
  | _ => []
  end.
Definition warsaw_ok : bool :=
  forallb (fun o => let '(n, (c, s)) := o in
    match dget wc_fields n with
    | None => false
    | Some ts =>
        (if list_eq_dec Nat.eq_dec (map (fun _ => 3%nat) ts) s then true else false) && Nat.eqb (List.length ts) (rank c) &&
        match c with
        | Cl71 => false
        | Cl8 => if slots_dec ts [pln Fq; pln Fq; pln Fq; pln Fl] then true else false
        | _ => forallb (fun g : list nat * bool => nperm (fst g) (List.length ts) && perm_ok (fst g) (List.length ts) &&
             if slots_dec (map (fun i => nth i ts (Fq, false)) (fst g)) (if snd g then map flip ts else ts) then true else false) (gens c)
        end
    end) warsaw_ops.
Lemma warsaw_checked : warsaw_ok = true.
Proof. vm_compute. reflexivity. Qed.
Lemma warsaw_wc n : In n (map fst warsaw_ops) <-> dget wc_fields n <> None.
Proof.
  split.
  - intros H. apply in_map_iff in H as ([m [c s]] & <- & H). cbn [fst].
    pose proof warsaw_checked as X. unfold warsaw_ok in X. rewrite forallb_forall in X. specialize (X _ H). cbn beta iota in X.
    destruct (dget wc_fields m); [discriminate|discriminate X].
  - intros H. assert (X : forallb (fun p => kmem (fst p) (map fst warsaw_ops)) wc_fields = true) by (vm_compute; reflexivity).
    rewrite forallb_forall in X. destruct (dget wc_fields n) as [ts|] eqn:E; [|congruence]. specialize (X (n, ts) (dget_In _ _ _ E)). now apply kmem_In in X.
Qed.
Lemma warsaw_bosonic n : (exists s, In (n, (Cl0, s)) warsaw_ops) <-> In n bosonic.
Proof.
  split.
  - intros (s & H). assert (X : forallb (fun o => let '(n, (c, s)) := o in negb (keqb c Cl0) || kmem n bosonic) warsaw_ops = true) by (vm_compute; reflexivity).
    rewrite forallb_forall in X. specialize (X _ H). cbn beta iota in X. rewrite keqb_refl in X. now apply kmem_In in X.
  - intros H. assert (X : forallb (fun n => existsb (fun o => let '(m, (c, s)) := o in keqb m n && keqb c Cl0) warsaw_ops) bosonic = true) by (vm_compute; reflexivity).
    rewrite forallb_forall in X. specialize (X n H). apply existsb_exists in X as ([m [c s]] & Y & Z). apply andb_prop in Z as [Z1 Z2].
    destruct (keqb_spec m n) as [->|]; [|discriminate Z1]. destruct (keqb_spec c Cl0) as [->|]; [|discriminate Z2]. eauto.
Qed.

Section Up.
Context {K : StarField}.
Local Open Scope K_scope.
Add Field KFup : (k_field K).
Notation cdict := (dict string (cval K)).
Lemma indices_idxs c : indices c = idxs (rank c).
Proof. destruct c; reflexivity. Qed.
Lemma lt3_idxs2 i j : lt3 i -> lt3 j -> In [i; j] (idxs 2).
Proof. unfold lt3. intros. apply idxs_2_in; lia. Qed.
Lemma lt3_idxs4 i j k l : lt3 i -> lt3 j -> lt3 k -> lt3 l -> In [i; j; k; l] (idxs 4).
Proof. unfold lt3. intros. apply in_idxs_4. eauto 10. Qed.
Lemma gens_sym c (f : idx -> K) : c <> Cl71 -> c <> Cl8 ->
  (has_symmetry c f <-> forall g, In g (gens c) -> forall I, In I (idxs (rank c)) -> f I = cj (snd g) (f (permute (fst g) I))).
Proof.
  intros N1 N2. assert (CJ : forall a b : K, a = b^* <-> b = a^*) by (intros a b; split; intros ->; now rewrite kconj_conj).
  assert (G2 : forall P : idx -> Prop, (forall I, In I (idxs 2) -> P I) <-> (forall i j, lt3 i -> lt3 j -> P [i; j])).
  { intros P. split; [intros H i j A B; now apply H, lt3_idxs2|]. intros H I HI. apply in_idxs_2 in HI as (i & j & -> & A & B). now apply H. }
  assert (G4 : forall P : idx -> Prop, (forall I, In I (idxs 4) -> P I) <-> (forall i j k l, lt3 i -> lt3 j -> lt3 k -> lt3 l -> P [i; j; k; l])).
  { intros P. split; [intros H i j k l A B C D; now apply H, lt3_idxs4|]. intros H I HI. apply in_idxs_4 in HI as (i & j & k & l & -> & A & B & C & D). now apply H. }
  assert (ONE : forall {A} (P : A -> Prop) x, (forall y, In y [x] -> P y) <-> P x) by (intros A P x; split; [intros H; apply H; now left|intros H y [<-|[]]; exact H]).
  assert (TWO : forall {A} (P : A -> Prop) x y, (forall z, In z [x; y] -> P z) <-> P x /\ P y)
    by (intros A P x y; split; [intros H; split; apply H; [now left|right; now left]|intros [H1 H2] z [<-|[<-|[]]]; assumption]).
  assert (THREE : forall {A} (P : A -> Prop) x y w, (forall z, In z [x; y; w] -> P z) <-> P x /\ P y /\ P w)
    by (intros A P x y w; split; [intros H; split; [|split]; apply H; [now left|right; now left|right; right; now left]|intros (H1 & H2 & H3) z [<-|[<-|[<-|[]]]]; assumption]).
  assert (NIL : forall {A} (P : A -> Prop), (forall y, In y [] -> P y) <-> True) by (intros A P; split; [auto|intros _ y []]).
  destruct c; try congruence; cbn [gens has_symmetry rank]; unfold real0, herm2, herm4, exch4; cbn [app].
  - rewrite ONE. change (idxs 0) with [@nil nat]. rewrite ONE. cbn [snd fst cj permute map]. unfold kreal. split; congruence.
  - now rewrite NIL.
  - rewrite ONE, G2. cbn [fst snd cj permute map nth]. unfold hermitian_2. split; intros H i j A B; [apply CJ, H; assumption|apply CJ, H; assumption].
  - now rewrite NIL.
  - rewrite TWO, !G4. cbn [fst snd cj permute map nth]. unfold hermitian_4, exchange. split; intros [H1 H2]; split; intros i j k l A B C D.
    + now rewrite <- H2.
    + apply CJ. now apply H1.
    + apply CJ. now apply H2.
    + now rewrite H1.
  - rewrite ONE, G4. cbn [fst snd cj permute map nth]. unfold exchange. split; intros H i j k l A B C D; [now rewrite <- H|now rewrite H].
  - rewrite ONE, G4. cbn [fst snd cj permute map nth]. unfold hermitian_4. split; intros H i j k l A B C D; apply CJ; now apply H.
  - rewrite THREE, !G4. cbn [fst snd cj permute map nth]. unfold hermitian_4, exchange, fierz. split; intros (H1 & H2 & H3); (split; [|split]); intros i j k l A B C D.
    + now rewrite <- H2.
    + apply CJ. now apply H1.
    + now rewrite <- H3.
    + apply CJ. now apply H2.
    + now rewrite H1.
    + now rewrite H3.
  - rewrite ONE, G4. cbn [fst snd cj permute map nth]. unfold symmetric_12. split; intros H i j k l A B C D; [now rewrite <- H|now rewrite H].
  - rewrite ONE, G2. cbn [fst snd cj permute map nth]. unfold symmetric_2. split; intros H i j A B; [now rewrite <- H|now rewrite H].
Qed.
Lemma rot_class (U : field -> nat -> nat -> K) n c s : In (n, (c, s)) warsaw_ops -> exists ts, dget wc_fields n = Some ts /\ map (fun _ => 3%nat) ts = s /\
  List.length ts = rank c /\ forall f, has_symmetry c f -> has_symmetry c (rot U ts f).
Proof.
  intros H. pose proof warsaw_checked as X. unfold warsaw_ok in X. rewrite forallb_forall in X. specialize (X _ H). cbn beta iota in X.
  destruct (dget wc_fields n) as [ts|]; [|discriminate X]. exists ts. split; [reflexivity|].
  rewrite !andb_true_iff in X. destruct X as [[X1 X2] X3]. destruct (list_eq_dec Nat.eq_dec (map (fun _ => 3%nat) ts) s) as [X1'|]; [|discriminate X1].
  apply Nat.eqb_eq in X2. split; [exact X1'|]. split; [exact X2|]. intros f HF.
  destruct (cls_eqb_spec c Cl71) as [->|N1]; [discriminate X3|]. destruct (cls_eqb_spec c Cl8) as [->|N2].
  - cbn beta iota in X3. destruct (slots_dec ts [pln Fq; pln Fq; pln Fq; pln Fl]) as [->|]; [|discriminate X3].
    cbn [has_symmetry] in *. intros p r q t A B C D. apply rot_qqql; [|now apply lt3_idxs4].
    intros p' r' q' t' HI. apply in_idxs_4 in HI as (a & b & c & d & [= <- <- <- <-] & ? & ? & ? & ?). now apply HF.
  - apply gens_sym; [exact N1|exact N2|]. intros g IN I HI.
    assert (X3' : forallb (fun g : list nat * bool => nperm (fst g) (List.length ts) && perm_ok (fst g) (List.length ts) &&
             if slots_dec (map (fun i => nth i ts (Fq, false)) (fst g)) (if snd g then map flip ts else ts) then true else false) (gens c) = true)
      by (destruct c; try congruence; exact X3).
    rewrite forallb_forall in X3'. specialize (X3' g IN). rewrite !andb_true_iff in X3'. destruct X3' as [[Y1 Y2] Y3].
    destruct (slots_dec (map (fun i => nth i ts (Fq, false)) (fst g)) (if snd g then map flip ts else ts)) as [Y4|]; [|discriminate Y3].
    rewrite <- X2 in HI. apply rot_sym; try assumption. intros J HJ. rewrite X2 in HJ. now apply (gens_sym c f N1 N2) with (g := g).
Qed.

(* all operators of the Warsaw basis, with the symmetries of their classes *)
Definition full_symmetric (C : cdict) : Prop :=
  wfdict C /\ (forall n, dget C n <> None <-> In n (map fst warsaw_ops)) /\
  forall n c s, In (n, (c, s)) warsaw_ops -> exists v, dget C n = Some v /\ has_shape (op_shape c s) v /\ value_symmetric c s v.
Lemma full_coefficients C : full_symmetric C -> coefficients C.
Proof.
  intros (_ & A & B) k v E. assert (H : In k (map fst warsaw_ops)) by (apply A; congruence).
  apply in_map_iff in H as ([m [c s]] & X & H). cbn [fst] in X. subst m.
  destruct (rot_class (fun _ _ _ => 0) k c s H) as (ts & F & S & L & _). exists ts. split; [exact F|].
  destruct (B k c s H) as (v' & E' & HS & _). assert (v' = v) by congruence. subst v'.
  destruct ts as [|t ts].
  - assert (c = Cl0) by (destruct c; try discriminate L; reflexivity). subst c. destruct v as [z|]; [eauto|destruct HS].
  - destruct c; try discriminate L; (destruct v as [z|s' a]; [destruct HS|cbn [has_shape op_shape] in HS; subst s'; rewrite S; eauto]).
Qed.
Lemma rot_full (U : field -> cval K) keys0 C : bosonic_keys keys0 -> (forall f, mat3 (U f)) -> full_symmetric C ->
  exists D, flavor_rotation U keys0 C = Ok D /\ full_symmetric D.
Proof.
  intros HK HU HC. pose proof HC as (WF & A & B).
  destruct (flavor_rotation_spec U keys0 C (mat3_shape U HU) HK (coefficients_shaped C (full_coefficients C HC))) as (D & E & WD & V & N).
  exists D. split; [exact E|]. split; [exact WD|]. split.
  - intros n. rewrite N, A, <- warsaw_wc. tauto.
  - intros n c s H. destruct (rot_class (matf U) n c s H) as (ts & F & S & L & P). destruct (B n c s H) as (v & EV & HS & SY).
    destruct (V n ts v F EV) as (w & EW & (R1 & R2 & R3)). exists w. split; [exact EW|].
    assert (LS : s = repeat 3%nat (rank c)) by (rewrite <- S, map_repeat3, L; reflexivity).
    destruct (cl0_dec c) as [->|NC].
    + rewrite L in *. cbn [rank] in *. destruct (R2 eq_refl) as (z & ->). split; [exact Logic.I|]. cbn [value_symmetric].
      destruct v as [y|]; [|destruct HS]. cbn [value_symmetric] in SY. specialize (P (entry (CNum y)) SY). cbn [has_symmetry] in P.
      rewrite (R3 [] (or_introl eq_refl) : z = _). exact P.
    + destruct v as [y|s' a]; [destruct c; try destruct HS; congruence|].
      assert (s' = s) by (destruct c; try congruence; cbn [has_shape op_shape] in HS; congruence). subst s'.
      destruct w as [y|t b]; [exfalso; rewrite L in R1; destruct c; try discriminate R1; congruence|]. cbn [vshape] in R1.
      assert (ET : t = s) by (rewrite R1, L; now rewrite LS). subst t.
      split; [destruct c; try reflexivity; congruence|]. cbn [value_symmetric] in *. unfold symmetric_in in *.
      assert (IN : forall I, In I (indices c) -> in_shape s I = true) by (intros I HI; rewrite indices_idxs in HI; rewrite LS; now apply in_all_indices).
      apply (has_symmetry_ext c (rot (matf U) ts a)).
      * intros I HI. rewrite (IN I HI). symmetry. apply R3. rewrite L. now rewrite <- indices_idxs.
      * apply P. apply (has_symmetry_ext c _ a) in SY; [exact SY|]. intros I HI. now rewrite (IN I HI).
Qed.

Variable E : eft.
Hypothesis OK : eft_ok E warsaw_ops.
Hypothesis KZ : bosonic_keys (e_keys0 E).
Lemma load (d : dict string K) : wfdict d -> (forall k, In k (dkeys d) -> In k (e_all E)) ->
  exists C, wcxf2arrays_symmetrized E d = Ok C /\ full_symmetric C.
Proof.
  intros WF HD. destruct (w2a_sym_spec E warsaw_ops OK d WF HD) as (C & F & WC & KC & VC). exists C. split; [exact F|]. split; [exact WC|]. split; [exact KC|].
  intros n c s H. destruct (VC n c s H) as (w & EW & SY). exists w. split; [exact EW|].
  destruct (rot_class (fun _ _ _ => 0) n c s H) as (ts & _ & S & L & _).
  assert (LS : s = repeat 3%nat (rank c)) by (rewrite <- S, map_repeat3, L; reflexivity).
  assert (N71 : c <> Cl71).
  { intros ->. pose proof warsaw_checked as X. unfold warsaw_ok in X. rewrite forallb_forall in X. specialize (X _ H). cbn beta iota in X.
    destruct (dget wc_fields n); [|discriminate X]. rewrite andb_false_r in X. discriminate X. }
  destruct (cl0_dec c) as [->|NC].
  - cbn [symmetrized] in SY. subst w. split; [exact Logic.I|]. apply kre_real.
  - assert (X : exists b, w = CArr s b /\ forall I, in_shape s I = true -> b I = symmetrize_nonred k_alg c (entries d n s) I)
      by (destruct c; try congruence; exact SY).
    destruct X as (b & -> & B). split; [destruct c; try reflexivity; congruence|]. cbn [value_symmetric]. unfold symmetric_in.
    apply (has_symmetry_ext c (symmetrize_nonred k_alg c (entries d n s))); [|now apply S14n].
    intros I HI. assert (IN : in_shape s I = true) by (rewrite indices_idxs in HI; rewrite LS; now apply in_all_indices).
    rewrite IN. symmetry. now apply B.
Qed.
Lemma full_known C : full_symmetric C -> known_shaped E warsaw_ops C.
Proof.
  intros (WF & A & B). split; [exact WF|]. intros n v Hv. left. assert (H : In n (map fst warsaw_ops)) by (apply A; congruence).
  apply in_map_iff in H as ([m [c s]] & X & H). cbn [fst] in X. subst m. exists c, s. split; [exact H|].
  destruct (B n c s H) as (v' & E' & HS & _). assert (v' = v) by congruence. now subst v'.
Qed.
Lemma full_8 C : full_symmetric C -> forall n s, In (n, (Cl8, s)) warsaw_ops -> dget C n <> None.
Proof. intros (_ & A & _) n s H. apply A. apply in_map_iff. exists (n, (Cl8, s)). auto. Qed.
Lemma coeff_of_ext c s (v w : cval K) I : shape_ok c s = true -> has_shape (op_shape c s) v -> in_shape s I = true -> cv_eq v w -> coeff_of c s v I = coeff_of c s w I.
Proof.
  intros SO HS HI EQ. destruct v as [z|t a], w as [y|u b]; cbn [cv_eq] in EQ; try contradiction; [now subst|]. destruct EQ as [<- EQ].
  assert (t = s) by (destruct c; cbn [has_shape op_shape] in HS; congruence || contradiction). subst t.
  cbn [coeff_of]. apply (computed_ext _ EftRound.U c _ _ I computed_unscale); [now apply (in_shape_indices c s)|].
  intros J HJ. unfold padded. destruct (in_shape s J) eqn:X; [now apply EQ|reflexivity].
Qed.
Lemma same_output C F : full_symmetric C -> full_symmetric F -> same_dict C F ->
  exists d d', arrays2wcxf_nonred E C = Ok d /\ arrays2wcxf_nonred E F = Ok d' /\ forall k, dget d' k = dget d k.
Proof.
  intros HC HF EQ. destruct (a2w_nonred_spec E warsaw_ops OK C (full_known C HC) (full_8 C HC)) as (d & E1 & W1 & A1 & V1).
  destruct (a2w_nonred_spec E warsaw_ops OK F (full_known F HF) (full_8 F HF)) as (d' & E2 & W2 & A2 & V2).
  exists d, d'. split; [exact E1|]. split; [exact E2|]. intros k. destruct (in_dec string_dec k (e_all E)) as [IN|NI].
  - apply (ok_all E warsaw_ops OK) in IN as ([n [c s]] & H & IN). destruct (op_label_coeff warsaw_ops n c s k H IN) as (I & -> & HI & HN & _).
    rewrite (V1 n c s I H HI HN), (V2 n c s I H HI HN). destruct HC as (_ & _ & B). destruct (B n c s H) as (v & EV & HS & _).
    specialize (EQ n). rewrite EV in *. destruct (dget F n) as [w|]; [|contradiction]. f_equal. symmetry. apply coeff_of_ext; [exact (ok_shapes E _ OK n c s H)|exact HS|exact HI|exact EQ].
  - destruct (dget d' k) eqn:X; [exfalso; apply NI, A2; congruence|]. destruct (dget d k) eqn:Y; [exfalso; apply NI, A1; congruence|reflexivity].
Qed.
Lemma cv_eq_sym (v w : cval K) : cv_eq v w -> cv_eq w v.
Proof. destruct v, w; cbn; try contradiction; [auto|]. intros [-> H]. split; [reflexivity|]. intros I HI. symmetry. now apply H. Qed.
Lemma cv_eq_trans (u v w : cval K) : cv_eq u v -> cv_eq v w -> cv_eq u w.
Proof. destruct u, v, w; cbn; try contradiction; [congruence|]. intros [-> H] [-> H']. split; [reflexivity|]. intros I HI. rewrite H by exact HI. now apply H'. Qed.
Lemma same_dict_trans (A B C : cdict) : same_dict A B -> same_dict B C -> same_dict A C.
Proof.
  intros H1 H2 k. specialize (H1 k). specialize (H2 k). destruct (dget A k), (dget B k), (dget C k); try contradiction; try exact Logic.I.
  now apply (cv_eq_trans _ c0).
Qed.
(* equal dictionaries have equal rotations *)
Lemma rotation_same (U : field -> cval K) C C' D D' : (forall f, mat3 (U f)) -> coefficients C -> coefficients C' -> same_dict C C' ->
  flavor_rotation U (e_keys0 E) C = Ok D -> flavor_rotation U (e_keys0 E) C' = Ok D' -> same_dict D D'.
Proof.
  intros HU HC HC' EQ F F'. destruct (rotated U (e_keys0 E) C KZ HU HC) as (D1 & F1 & HD & N & A). assert (D1 = D) by congruence. subst D1.
  destruct (rotated U (e_keys0 E) C' KZ HU HC') as (D1 & F1' & HD' & N' & A'). assert (D1 = D') by congruence. subst D1.
  assert (NN : forall k, dget C' k = None <-> dget C k = None).
  { intros k. specialize (EQ k). destruct (dget C k), (dget C' k); try contradiction; split; congruence. }
  apply same_dict_intro; [|exact HD|].
  - intros k. rewrite N', N. apply NN.
  - intros k ts v w FT EV EW. destruct (dget C k) as [c|] eqn:EC; [|apply N in EC; congruence]. specialize (EQ k). rewrite EC in EQ.
    destruct (dget C' k) as [c'|] eqn:EC'; [|contradiction].
    destruct (A k ts c FT EC) as (v' & EV' & R). destruct (A' k ts c' FT EC') as (w' & EW' & R').
    assert (v' = v) by congruence. assert (w' = w) by congruence. subst v' w'. apply (rep_cv_eq v w (List.length ts) _ R). apply (rep_ext _ _ _ _ R').
    intros I HI. apply rot_ext. intros J HJ.
    destruct (coef_rep C k ts c (coefficients_shaped C HC) FT EC) as (S1 & _).
    destruct c as [x|s a], c' as [y|s' b]; cbn [cv_eq] in EQ; try contradiction.
    + subst. reflexivity.
    + destruct EQ as [<- EQ]. cbn [vshape] in S1. subst s. symmetry. apply EQ. now apply in_all_indices.
Qed.
(* U and W are inverse to each other *)
Definition inverse3 (U W : field -> cval K) : Prop := forall f i j, (i < 3)%nat -> (j < 3)%nat ->
  ksum (map (fun m => entry (U f) [i; m] * entry (W f) [m; j]) (seq 0 3)) = delta i j.
Lemma rotate_back (U W : field -> cval K) C D F : (forall f, mat3 (U f)) -> (forall f, mat3 (W f)) -> inverse3 U W -> coefficients C ->
  flavor_rotation U (e_keys0 E) C = Ok D -> flavor_rotation W (e_keys0 E) D = Ok F -> same_dict C F.
Proof.
  intros HU HW INV HC E1 E2. destruct (rotated U (e_keys0 E) C KZ HU HC) as (D1 & F1 & HD & N1 & A1). assert (D1 = D) by congruence. subst D1.
  destruct (rotated W (e_keys0 E) D KZ HW HD) as (F2 & F2' & HF & N2 & A2). assert (F2 = F) by congruence. subst F2.
  apply same_dict_intro; [intros k; rewrite N2, N1; reflexivity|exact HC|].
  intros k ts v f FT EV EF. destruct (A1 k ts v FT EV) as (d & ED & R1). destruct (A2 k ts d FT ED) as (f' & EF' & R2). assert (f' = f) by congruence. subst f'.
  apply (rep_cv_eq v f (List.length ts) (entry v)); [apply (coef_rep C k); [now apply coefficients_shaped|exact FT|exact EV]|]. apply (rep_ext _ _ _ _ R2). intros I HI.
  rewrite (rep_entry_of _ ts d _ (rot (matf U) ts (entry v)) R1 (fun _ _ => eq_refl)). rewrite rot_mul by (now apply idxs_length).
  rewrite <- (rot_id ts (entry v) I HI). apply rot_extU; [|intros x Hx; apply in_idxs in HI as [_ HI]; now apply HI].
  intros h j i Hj Hi. unfold matf, mulU. now apply INV.
Qed.
(* translate with U, then with W *)
Lemma there_and_back (U W : field -> cval K) (d : dict string K) : (forall f, mat3 (U f)) -> (forall f, mat3 (W f)) -> inverse3 U W ->
  wfdict d -> (forall k, In k (dkeys d) -> In k (e_all E)) ->
  exists C D d1 d2, wcxf2arrays_symmetrized E d = Ok C /\ flavor_rotation U (e_keys0 E) C = Ok D /\ arrays2wcxf_nonred E D = Ok d1 /\
    wfdict d1 /\ (forall k, In k (dkeys d1) -> In k (e_all E)) /\
    (exists C1, wcxf2arrays_symmetrized E d1 = Ok C1 /\ same_dict D C1) /\
    bind (wcxf2arrays_symmetrized E d1) (fun C1 => bind (flavor_rotation W (e_keys0 E) C1) (arrays2wcxf_nonred E)) = Ok d2 /\
    exists d', arrays2wcxf_nonred E C = Ok d' /\ forall k, dget d2 k = dget d' k.
Proof.
  intros HU HW INV WF HD. destruct (load d WF HD) as (C & F1 & FC). destruct (rot_full U (e_keys0 E) C KZ HU FC) as (D & F2 & FD).
  destruct (round2 E warsaw_ops OK D (full_known D FD)) as (d1 & C1 & F3 & F4 & K1 & V1).
  { intros n H. now apply (proj1 (proj2 FD)). }
  { intros n c s a H EA. destruct (proj2 (proj2 FD) n c s H) as (v & EV & _ & SY). assert (v = CArr s a) by congruence. now subst v. }
  { intros n s z H EA. destruct (proj2 (proj2 FD) n Cl0 s H) as (v & EV & _ & SY). assert (v = CNum z) by congruence. now subst v. }
  destruct (a2w_nonred_spec E warsaw_ops OK D (full_known D FD) (full_8 D FD)) as (d1' & F3' & W1 & A1 & _). assert (d1' = d1) by congruence. subst d1'.
  assert (HD1 : forall k, In k (dkeys d1) -> In k (e_all E)) by (intros k Hk; apply A1; intros X; apply dget_None in X; contradiction).
  destruct (load d1 W1 HD1) as (C1' & F4' & FC1). assert (C1' = C1) by congruence. subst C1'.
  assert (SD : same_dict D C1).
  { intros k. destruct (dget D k) as [v|] eqn:EV.
    - destruct (V1 k v) as (w & -> & CE); [apply (proj1 (proj2 FD)); congruence|exact EV|exact CE].
    - destruct (dget C1 k) as [w|] eqn:EW; [|exact Logic.I]. assert (X : dget C1 k <> None) by congruence. apply K1, (proj1 (proj2 FD)) in X. congruence. }
  destruct (rot_full W (e_keys0 E) C1 KZ HW FC1) as (G & F5 & FG). destruct (rot_full W (e_keys0 E) D KZ HW FD) as (G' & F6 & FG').
  assert (SG : same_dict C G).
  { apply (same_dict_trans C G' G).
    - exact (rotate_back U W C D G' HU HW INV (full_coefficients C FC) F2 F6).
    - exact (rotation_same W D C1 G' G HW (full_coefficients D FD) (full_coefficients C1 FC1) SD F6 F5). }
  destruct (same_output C G FC FG SG) as (d' & d2 & F7 & F8 & EQ).
  exists C, D, d1, d2. split; [exact F1|]. split; [exact F2|]. split; [exact F3|]. split; [exact W1|]. split; [exact HD1|].
  split; [eauto|]. split; [rewrite F4; cbn [bind]; rewrite F5; exact F8|]. exists d'. split; [exact F7|]. exact EQ.
Qed.
End Up.
Lemma eft_init_keys0 all real d4 d4s E : eft_init all real d4 d4s = Ok E -> e_keys0 E = keys_0f all.
Proof.
  unfold eft_init. destruct (get_symm_keys all real d4s) as [symm|]; [|discriminate]. cbn [bind].
  destruct (negb _); [discriminate|]. destruct (rmapl _ _) as [sh|]; [|discriminate]. cbn [bind].
  destruct (min_dims _) as [|x r]; [discriminate|]. now intros [= <-].
Qed.
