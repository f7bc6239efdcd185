(* C14-C16 for whole coefficient dictionaries of a basis. *)
From Coq Require Import List Bool ZArith QArith Arith Lia String Ascii.
From Verif Require Import PyBase Num Lin SymModel SymTables SymClass SymSpec SymProofs SymCheck SymFacts EftModel EftSpec EftProofs EftLabels EftRound EftRound2 EftInit.
Import ListNotations.
Local Open Scope string_scope.
Local Open Scope list_scope.

(* EFTutil recognises the symmetry class and the array shape of every operator of a
   basis, whatever the order in which the basis file lists the coefficients. *)
Theorem C15_basis_detected : forall sp all real d4 d4s,
  describes sp all real -> dim4_ok sp d4 d4s -> (exists n c s, In (n, (c, s)) sp /\ c <> Cl0) ->
  exists E, eft_init all real d4 d4s = Ok E /\
    (forall n c s, In (n, (c, s)) sp -> class_of E n = Some c /\ dget (e_shape E) n = Some (op_shape c s)) /\
    (forall n, In n (e_wc_keys E) <-> In n (map fst sp)) /\
    (forall k, ~ In k (map fst sp) -> dget (e_shape E) k = dget d4 k).
Proof.
  intros sp all real d4 d4s D D4 A. destruct (eft_init_ok sp all real d4 d4s D D4 A) as (E & E1 & OK & _ & G & _).
  exists E. split; [exact E1|]. split; [|split; [exact (ok_wc E sp OK)|exact G]].
  intros n c s H. split; [exact (ok_class E sp OK n c s H)|exact (ok_shape E sp OK n c s H)].
Qed.

(* a dictionary of values of operators of the basis with the right shapes *)
Definition op_values {K : StarField} (sp : list opspec) (C : dict string (cval K)) : Prop :=
  wfdict C /\ forall n v, dget C n = Some v -> exists c s, In (n, (c, s)) sp /\ has_shape (op_shape c s) v.
Definition value_symmetric {K : StarField} (c : cls) (s : list nat) (v : cval K) : Prop :=
  match v with CNum z => kreal z | CArr _ a => symmetric_in c s a end.
Lemma has_symmetry_ext {K : StarField} c (a b : idx -> K) : (forall I, In I (indices c) -> a I = b I) -> has_symmetry c a -> has_symmetry c b.
Proof.
  intros E H.
  assert (E2 : forall c', c = c' -> indices c' = indices Cl2 -> forall i j, lt3 i -> lt3 j -> a [i;j] = b [i;j]).
  { intros c' <- X i j A B. apply E. now apply in_ind2. }
  assert (E4 : forall c', c = c' -> indices c' = indices Cl4 -> forall i j k l, lt3 i -> lt3 j -> lt3 k -> lt3 l -> a [i;j;k;l] = b [i;j;k;l]).
  { intros c' <- X i j k l A B C D. apply E. now apply in_ind4. }
  destruct c; simpl in *; auto; try specialize (E2 _ eq_refl eq_refl); try specialize (E4 _ eq_refl eq_refl); unfold lt3 in *.
  - rewrite <- E; auto.
  - intros i j A B. rewrite <- !E2 by assumption. now apply H.
  - destruct H as [H1 H2]. split; intros i j k l A B C D; rewrite <- !E4 by assumption; auto.
  - intros i j k l A B C D. rewrite <- !E4 by assumption. now apply H.
  - intros i j k l A B C D. rewrite <- !E4 by assumption. now apply H.
  - destruct H as (H1 & H2 & H3). repeat split; intros i j k l A B C D; rewrite <- !E4 by assumption; auto.
  - intros i j k l A B C D. rewrite <- !E4 by assumption. now apply H.
  - intros i j k l A B C D. rewrite <- !E4 by assumption. now apply H.
  - intros i j k l A B C D. rewrite <- !E4 by assumption. now apply H.
  - intros i j A B. rewrite <- !E2 by assumption. now apply H.
Qed.
Lemma sym_0 {K : StarField} (z : K) : symmetrize (@k_alg K) Cl0 (fun _ => z) [] = kre z.
Proof. exact (nonred_0 z). Qed.
(* EFTutil.symmetrize on a dictionary: every operator gets its symmetry.  Class 71
   is the exception of C14_antisymmetric_refuted: there the entries with equal first
   indices must be zero. *)
Theorem C14_dictionary : forall (K : StarField) sp all real d4 d4s E (C : dict string (cval K)),
  describes sp all real -> dim4_ok sp d4 d4s -> (exists n c s, In (n, (c, s)) sp /\ c <> Cl0) ->
  eft_init all real d4 d4s = Ok E -> op_values sp C ->
  exists C', eft_symmetrize E C = Ok C' /\ dkeys C' = dkeys C /\
    (forall n c s v, In (n, (c, s)) sp -> dget C n = Some v ->
       exists w, dget C' n = Some w /\ has_shape (op_shape c s) w /\
         (c <> Cl71 \/ (forall a, v = CArr s a -> forall i k l, a [i;i;k;l] = 0%K) -> value_symmetric c s w) /\
         (value_symmetric c s v -> cv_eq w v)).
Proof.
  intros K sp all real d4 d4s E C D D4 A E1 WS. destruct (eft_init_ok sp all real d4 d4s D D4 A) as (E' & E1' & OK & _).
  assert (E' = E) by congruence. subst E'.
  destruct (symmetrize_C_spec E sp OK (symmetrize k_alg) S C computed_sym (fun _ => eq_refl) (fun _ => eq_refl) WS) as (C' & F & KC & V).
  exists C'. split; [exact F|]. split; [exact KC|]. intros n c s v H Hv. destruct (V n c s v H Hv) as (w & Hw & AP).
  exists w. split; [exact Hw|].
  destruct WS as [_ WS]. destruct (WS n v Hv) as (c' & s' & H' & HS). destruct (op_unique E sp OK n c s c' s' H H') as [<- <-].
  pose proof (ok_shapes E sp OK n c s H) as SO.
  destruct (cl0_dec c) as [->|NC].
  - destruct (op_num sp n s v H HS) as (z & ->). unfold applied in AP. rewrite sym_0 in AP. subst w.
    split; [exact I|]. simpl. split; [intros _; apply kre_real|]. apply kre_of_real.
  - destruct (op_arr sp n c s v H NC HS) as (a & ->). destruct AP as (b & -> & B).
    split; [destruct c; try reflexivity; congruence|]. simpl.
    assert (PB : forall J, In J (indices c) -> symmetrize k_alg c (padded s a) J = (if in_shape s J then b J else 0%K)).
    { intros J HJ. destruct (in_shape s J) eqn:EJ; [symmetry; now apply B|].
      apply (computed_zero (symmetrize k_alg) S c s _ J computed_sym SO HJ). intros L _ EQ. unfold padded. now rewrite EQ, EJ. }
    split.
    + intros P. apply (has_symmetry_ext c _ _ PB).
      assert (D71 : c = Cl71 \/ c <> Cl71) by (destruct c; ((now left)||(right; discriminate))). destruct D71 as [->|N71].
      * apply S14_71_diag. intros i k l _ _ _. unfold padded. destruct (in_shape s [i;i;k;l]); [|reflexivity].
        destruct P as [P|P]; [congruence|]. now apply P.
      * now apply S14.
    + intros SY. split; [reflexivity|]. intros I HI. rewrite B by exact HI.
      rewrite (S15_fixed c (padded s a) I SY (in_shape_indices c s I SO HI)). unfold padded. now rewrite HI.
Qed.

(* wcxf2arrays_symmetrized then arrays2wcxf_nonred: every coefficient of the basis is
   returned (the real part for coefficients flagged real), zeros are dropped, nothing
   is added. *)
Theorem C16_coefficients_roundtrip : forall (K : StarField) sp all real d4 d4s E (d : dict string K),
  describes sp all real -> dim4_ok sp d4 d4s -> (exists n c s, In (n, (c, s)) sp /\ c <> Cl0) ->
  eft_init all real d4 d4s = Ok E ->
  wfdict d -> (forall k, In k (dkeys d) -> In k all) ->
  exists C d', wcxf2arrays_symmetrized E d = Ok C /\ arrays2wcxf_nonred E C = Ok d' /\
    forall k, dget d' k = match dget d k with
      | None => None
      | Some z => let z' := if real k then kre z else z in if kdec z' 0%K then None else Some z'
      end.
Proof.
  intros K sp all real d4 d4s E d D D4 A E1 WF HD. destruct (eft_init_ok sp all real d4 d4s D D4 A) as (E' & E1' & OK & EA & _).
  assert (E' = E) by congruence. subst E'.
  destruct (round1 E sp OK d WF) as (C & d' & F1 & F2 & NA & V); [now rewrite EA|].
  exists C, d'. split; [exact F1|]. split; [exact F2|]. intros k.
  destruct (in_dec string_dec k all) as [HK|NK].
  - destruct (all_cases sp all real D k HK) as (n & c & s & I & H & HI & -> & R & _).
    apply nonred_in_spec in HI as (_ & HS & HN). rewrite (V n c s I H HS HN), R. unfold dgetd, nonzero.
    destruct (dget d (op_label n c I)) as [z|]; cbv zeta.
    + destruct (real_entry c I); reflexivity.
    + assert (Z : (if real_entry c I then kre else fun z : K => z) 0%K = 0%K).
      { destruct (real_entry c I); [apply kre_of_real, kreal_0|reflexivity]. }
      rewrite Z. destruct (kdec_spec K 0%K 0%K) as [_|N]; [reflexivity|congruence].
  - destruct (dget d k) as [z|] eqn:Ez; [exfalso; apply NK, HD; now apply dget_Some_key in Ez|].
    destruct (dget d' k) as [z|] eqn:Ed; [|reflexivity]. exfalso. apply NK. rewrite <- EA. apply NA. congruence.
Qed.

(* arrays2wcxf_nonred then wcxf2arrays_symmetrized: the identity on dictionaries of
   arrays with the full symmetry; SM parameters in the dictionary are left out. *)
Theorem C16_arrays_roundtrip : forall (K : StarField) sp all real d4 d4s E (C : dict string (cval K)),
  describes sp all real -> dim4_ok sp d4 d4s -> (exists n c s, In (n, (c, s)) sp /\ c <> Cl0) ->
  eft_init all real d4 d4s = Ok E ->
  wfdict C ->
  (forall n c s, In (n, (c, s)) sp -> exists v, dget C n = Some v /\ has_shape (op_shape c s) v /\ value_symmetric c s v) ->
  (forall n v, dget C n = Some v -> ~ In n (map fst sp) ->
     no_us n /\ exists sh, dget d4 n = Some sh /\ has_shape sh v /\
       match sh with None => True | Some s => forallb gen_ok s = true /\ (List.length s = 2 \/ List.length s = 4)%nat end) ->
  exists d C', arrays2wcxf_nonred E C = Ok d /\ wcxf2arrays_symmetrized E d = Ok C' /\
    (forall k, In k (dkeys d) -> In k all) /\
    (forall n, dget C' n <> None <-> In n (map fst sp)) /\
    (forall n v, In n (map fst sp) -> dget C n = Some v -> exists w, dget C' n = Some w /\ cv_eq v w).
Proof.
  intros K sp all real d4 d4s E C D D4 A E1 WF HO HX.
  destruct (eft_init_ok sp all real d4 d4s D D4 A) as (E' & E1' & OK & EA & G4 & WE & P3).
  assert (E' = E) by congruence. subst E'.
  assert (KS : known_shaped E sp C).
  { split; [exact WF|]. intros n v Hv. destruct (in_dec string_dec n (map fst sp)) as [IN|NI].
    - left. apply in_map_iff in IN as ([m [c s]] & X & H). simpl in X. subst m. destruct (HO n c s H) as (v' & Hv' & HS & _).
      assert (v' = v) by congruence. subst v'. eauto.
    - right. destruct (HX n v Hv NI) as (N & sh & S4 & HS & FI). split; [exact NI|]. split; [exact N|]. exists sh.
      rewrite G4 by exact NI. split; [exact S4|]. split; [exact HS|]. destruct sh as [s|]; [|exact FI].
      destruct FI as [G L]. split; [exact G|]. split; [exact L|]. intros P.
      assert (T : forall x, In x s -> x = 3%nat).
      { intros x Hx. assert (GE : (3 <= x)%nat) by (apply (P3 P n s); [rewrite G4; assumption|exact Hx]).
        rewrite forallb_forall in G. specialize (G x Hx). unfold gen_ok in G. apply orb_prop in G as [G|G]; apply Nat.eqb_eq in G; lia. }
      clear -T. induction s as [|x s IH]; simpl; [reflexivity|]. f_equal; [apply T; now left|]. apply IH. intros; apply T; now right. }
  destruct (round2 E sp OK C KS) as (d & C' & F1 & F2 & N' & V).
  - intros n IN. apply in_map_iff in IN as ([m [c s]] & X & H). simpl in X. subst m. destruct (HO n c s H) as (v' & Hv' & _). congruence.
  - intros n c s a H Ha. destruct (HO n c s H) as (v' & Hv' & _ & SY). assert (v' = CArr s a) by congruence. subst v'. exact SY.
  - intros n s z H Hz. destruct (HO n Cl0 s H) as (v' & Hv' & _ & SY). assert (v' = CNum z) by congruence. subst v'. exact SY.
  - exists d, C'. split; [exact F1|]. split; [exact F2|]. split; [|split; [exact N'|exact V]].
    destruct (a2w_nonred_spec E sp OK C KS) as (d2 & G1 & _ & G2 & _).
    { intros n s H. destruct (HO n Cl8 s H) as (v' & Hv' & _). congruence. }
    assert (d2 = d) by congruence. subst d2. intros k Hk. rewrite <- EA. apply G2. intros X. apply dget_None in X. contradiction.
Qed.
Print Assumptions C15_basis_detected.
Print Assumptions C14_dictionary.
Print Assumptions C16_coefficients_roundtrip.
Print Assumptions C16_arrays_roundtrip.

(* the operators of the Warsaw basis in the SMEFT and of the JMS basis in the WET (names
   and classes as in util/wet_jms.py:12-36; the basis files themselves are not part of
   the checkout), with the arguments of util/__init__.py:5-38 *)
Definition warsaw_ops : list opspec :=
  [("G", (Cl0, []%nat));
   ("Gtilde", (Cl0, []%nat));
   ("W", (Cl0, []%nat));
   ("Wtilde", (Cl0, []%nat));
   ("phi", (Cl0, []%nat));
   ("phiBox", (Cl0, []%nat));
   ("phiD", (Cl0, []%nat));
   ("phiG", (Cl0, []%nat));
   ("phiB", (Cl0, []%nat));
   ("phiW", (Cl0, []%nat));
   ("phiWB", (Cl0, []%nat));
   ("phiGtilde", (Cl0, []%nat));
   ("phiBtilde", (Cl0, []%nat));
   ("phiWtilde", (Cl0, []%nat));
   ("phiWtildeB", (Cl0, []%nat));
   ("uphi", (Cl1, [3;3]%nat));
   ("dphi", (Cl1, [3;3]%nat));
   ("ephi", (Cl1, [3;3]%nat));
   ("uW", (Cl1, [3;3]%nat));
   ("uB", (Cl1, [3;3]%nat));
   ("uG", (Cl1, [3;3]%nat));
   ("dW", (Cl1, [3;3]%nat));
   ("dB", (Cl1, [3;3]%nat));
   ("dG", (Cl1, [3;3]%nat));
   ("eW", (Cl1, [3;3]%nat));
   ("eB", (Cl1, [3;3]%nat));
   ("phiud", (Cl1, [3;3]%nat));
   ("phil1", (Cl2, [3;3]%nat));
   ("phil3", (Cl2, [3;3]%nat));
   ("phie", (Cl2, [3;3]%nat));
   ("phiq1", (Cl2, [3;3]%nat));
   ("phiq3", (Cl2, [3;3]%nat));
   ("phiu", (Cl2, [3;3]%nat));
   ("phid", (Cl2, [3;3]%nat));
   ("quqd1", (Cl3, [3;3;3;3]%nat));
   ("quqd8", (Cl3, [3;3;3;3]%nat));
   ("ledq", (Cl3, [3;3;3;3]%nat));
   ("lequ1", (Cl3, [3;3;3;3]%nat));
   ("lequ3", (Cl3, [3;3;3;3]%nat));
   ("duql", (Cl3, [3;3;3;3]%nat));
   ("duue", (Cl3, [3;3;3;3]%nat));
   ("ll", (Cl4, [3;3;3;3]%nat));
   ("qq1", (Cl4, [3;3;3;3]%nat));
   ("qq3", (Cl4, [3;3;3;3]%nat));
   ("uu", (Cl4, [3;3;3;3]%nat));
   ("dd", (Cl4, [3;3;3;3]%nat));
   ("lq1", (Cl5, [3;3;3;3]%nat));
   ("lq3", (Cl5, [3;3;3;3]%nat));
   ("eu", (Cl5, [3;3;3;3]%nat));
   ("ed", (Cl5, [3;3;3;3]%nat));
   ("ud1", (Cl5, [3;3;3;3]%nat));
   ("ud8", (Cl5, [3;3;3;3]%nat));
   ("le", (Cl5, [3;3;3;3]%nat));
   ("lu", (Cl5, [3;3;3;3]%nat));
   ("ld", (Cl5, [3;3;3;3]%nat));
   ("qe", (Cl5, [3;3;3;3]%nat));
   ("qu1", (Cl5, [3;3;3;3]%nat));
   ("qu8", (Cl5, [3;3;3;3]%nat));
   ("qd1", (Cl5, [3;3;3;3]%nat));
   ("qd8", (Cl5, [3;3;3;3]%nat));
   ("ee", (Cl6, [3;3;3;3]%nat));
   ("qque", (Cl7, [3;3;3;3]%nat));
   ("qqql", (Cl8, [3;3;3;3]%nat));
   ("llphiphi", (Cl9, [3;3]%nat))].
Definition jms_ops : list opspec :=
  [("G", (Cl0, []%nat));
   ("Gtilde", (Cl0, []%nat));
   ("egamma", (Cl1, [3;3]%nat));
   ("uG", (Cl1, [2;2]%nat));
   ("dG", (Cl1, [3;3]%nat));
   ("ugamma", (Cl1, [2;2]%nat));
   ("dgamma", (Cl1, [3;3]%nat));
   ("S1udRR", (Cl3, [2;2;3;3]%nat));
   ("S1udduRR", (Cl3, [2;3;3;2]%nat));
   ("S8udRR", (Cl3, [2;2;3;3]%nat));
   ("S8udduRR", (Cl3, [2;3;3;2]%nat));
   ("SedRL", (Cl3, [3;3;3;3]%nat));
   ("SedRR", (Cl3, [3;3;3;3]%nat));
   ("SeuRL", (Cl3, [3;3;2;2]%nat));
   ("SeuRR", (Cl3, [3;3;2;2]%nat));
   ("SnueduRL", (Cl3, [3;3;3;2]%nat));
   ("SnueduRR", (Cl3, [3;3;3;2]%nat));
   ("TedRR", (Cl3, [3;3;3;3]%nat));
   ("TeuRR", (Cl3, [3;3;2;2]%nat));
   ("TnueduRR", (Cl3, [3;3;3;2]%nat));
   ("V1udduLR", (Cl3, [2;3;3;2]%nat));
   ("V8udduLR", (Cl3, [2;3;3;2]%nat));
   ("VnueduLL", (Cl3, [3;3;3;2]%nat));
   ("VnueduLR", (Cl3, [3;3;3;2]%nat));
   ("SuddLL", (Cl3, [2;3;3;3]%nat));
   ("SduuLL", (Cl3, [3;2;2;3]%nat));
   ("SduuLR", (Cl3, [3;2;2;3]%nat));
   ("SduuRL", (Cl3, [3;2;2;3]%nat));
   ("SdudRL", (Cl3, [3;2;3;3]%nat));
   ("SduuRR", (Cl3, [3;2;2;3]%nat));
   ("VuuRR", (Cl4, [2;2;2;2]%nat));
   ("VddRR", (Cl4, [3;3;3;3]%nat));
   ("VuuLL", (Cl4, [2;2;2;2]%nat));
   ("VddLL", (Cl4, [3;3;3;3]%nat));
   ("S1ddRR", (Cl41, [3;3;3;3]%nat));
   ("S1uuRR", (Cl41, [2;2;2;2]%nat));
   ("S8uuRR", (Cl41, [2;2;2;2]%nat));
   ("SeeRR", (Cl41, [3;3;3;3]%nat));
   ("S8ddRR", (Cl41, [3;3;3;3]%nat));
   ("VnueLL", (Cl5, [3;3;3;3]%nat));
   ("VnuuLL", (Cl5, [3;3;2;2]%nat));
   ("VnudLL", (Cl5, [3;3;3;3]%nat));
   ("VeuLL", (Cl5, [3;3;2;2]%nat));
   ("VedLL", (Cl5, [3;3;3;3]%nat));
   ("V1udLL", (Cl5, [2;2;3;3]%nat));
   ("V8udLL", (Cl5, [2;2;3;3]%nat));
   ("VeuRR", (Cl5, [3;3;2;2]%nat));
   ("VedRR", (Cl5, [3;3;3;3]%nat));
   ("V1udRR", (Cl5, [2;2;3;3]%nat));
   ("V8udRR", (Cl5, [2;2;3;3]%nat));
   ("VnueLR", (Cl5, [3;3;3;3]%nat));
   ("VeeLR", (Cl5, [3;3;3;3]%nat));
   ("VnuuLR", (Cl5, [3;3;2;2]%nat));
   ("VnudLR", (Cl5, [3;3;3;3]%nat));
   ("VeuLR", (Cl5, [3;3;2;2]%nat));
   ("VedLR", (Cl5, [3;3;3;3]%nat));
   ("VueLR", (Cl5, [2;2;3;3]%nat));
   ("VdeLR", (Cl5, [3;3;3;3]%nat));
   ("V1uuLR", (Cl5, [2;2;2;2]%nat));
   ("V8uuLR", (Cl5, [2;2;2;2]%nat));
   ("V1udLR", (Cl5, [2;2;3;3]%nat));
   ("V8udLR", (Cl5, [2;2;3;3]%nat));
   ("V1duLR", (Cl5, [3;3;2;2]%nat));
   ("V8duLR", (Cl5, [3;3;2;2]%nat));
   ("V1ddLR", (Cl5, [3;3;3;3]%nat));
   ("V8ddLR", (Cl5, [3;3;3;3]%nat));
   ("VeeLL", (Cl6, [3;3;3;3]%nat));
   ("VeeRR", (Cl6, [3;3;3;3]%nat));
   ("VnunuLL", (Cl6, [3;3;3;3]%nat));
   ("SuudLR", (Cl71, [2;2;3;3]%nat));
   ("SuudRL", (Cl71, [2;2;3;3]%nat));
   ("SdduRL", (Cl71, [3;3;2;3]%nat))].
Definition coeffs_of (sp : list opspec) : list (string * bool) := flat_map op_coeffs sp.
Definition all_of (sp : list opspec) : list string := map fst (coeffs_of sp).
Definition real_of (sp : list opspec) : string -> bool := let T := coeffs_of sp in fun k => dgetd T k false.
Definition smeft_d4 : shapes :=
  [("g", None); ("gp", None); ("gs", None); ("Lambda", None); ("m2", None);
   ("Gu", Some [3;3]%nat); ("Gd", Some [3;3]%nat); ("Ge", Some [3;3]%nat)].
Definition smeft_d4s : dict cls (list string) := [(Cl0, ["g"; "gp"; "gs"; "Lambda"; "m2"]); (Cl1, ["Gu"; "Gd"; "Ge"])].
Definition wet_d4 : shapes :=
  [("e", None); ("gs", None); ("Md", Some [3;3]%nat); ("Mu", Some [2;2]%nat); ("Me", Some [3;3]%nat); ("Mnu", Some [3;3]%nat)].
Definition wet_d4s : dict cls (list string) := [(Cl0, ["e"; "gs"]); (Cl1, ["Md"; "Mu"; "Me"; "Mnu"])].

Definition describes_b (sp : list opspec) : bool :=
  let T := coeffs_of sp in
  knodup (map fst sp) && forallb (fun '(n, (c, s)) => keqb (split_us n) [n] && shape_ok c s) sp &&
  forallb (fun '(v, r) => Bool.eqb (dgetd T v false) r) T.
Lemma describes_b_ok sp : describes_b sp = true -> describes sp (all_of sp) (real_of sp).
Proof.
  unfold describes_b. cbv zeta. intros H. apply andb_prop in H as [H R]. apply andb_prop in H as [N F].
  rewrite forallb_forall in F, R. constructor.
  - now apply knodup_NoDup.
  - intros n c s H. specialize (F _ H). cbn beta iota in F. apply andb_prop in F as [F _]. unfold no_us.
    destruct (keqb_spec (split_us n) [n]) as [E|]; [exact E|discriminate].
  - intros n c s H. specialize (F _ H). simpl in F. now apply andb_prop in F as [_ F].
  - intros v. unfold all_of, coeffs_of. split.
    + intros H. apply in_map_iff in H as ([v' r] & <- & H). apply in_flat_map in H as (o & Ho & H). exists o.
      split; [exact Ho|]. apply in_map_iff. now exists (v', r).
    + intros (o & Ho & H). apply in_map_iff in H as (p & <- & H). apply in_map. apply in_flat_map. now exists o.
  - intros o v r Ho H. assert (X : In (v, r) (coeffs_of sp)) by (apply in_flat_map; now exists o).
    specialize (R _ X). simpl in R. now apply Bool.eqb_prop in R.
Qed.
Definition dim4_b (sp : list opspec) (d4 : shapes) (d4s : dict cls (list string)) : bool :=
  forallb (fun k => negb (kmem k (map fst sp))) (dkeys d4) && knodup (dkeys d4) &&
  forallb (fun '(c, l) => negb (keqb c Cl8) && existsb (fun '(_, (c', _)) => keqb c c') sp &&
                          forallb (fun k => negb (kmem k (map fst sp))) l) d4s.
Lemma dim4_b_ok sp d4 d4s : dim4_b sp d4 d4s = true -> dim4_ok sp d4 d4s.
Proof.
  unfold dim4_b. intros H. apply andb_prop in H as [H C]. apply andb_prop in H as [A B]. rewrite forallb_forall in A, C.
  assert (NI : forall k, negb (kmem k (map fst sp)) = true -> ~ In k (map fst sp)).
  { intros k X Y. apply negb_true_iff in X. apply kmem_In in Y. congruence. }
  constructor.
  - intros k Hk. now apply NI, A.
  - now apply knodup_NoDup.
  - intros c l H. specialize (C _ H). cbn beta iota in C. apply andb_prop in C as [C _]. apply andb_prop in C as [C1 C2].
    split; [intros ->; vm_compute in C1; discriminate C1|]. apply existsb_exists in C2 as ([n [c' s]] & X & Y).
    destruct (keqb_spec c c') as [->|]; [|discriminate]. eauto.
  - intros c l k H Hk. specialize (C _ H). cbn beta iota in C. apply andb_prop in C as [_ C]. rewrite forallb_forall in C. now apply NI, C.
Qed.
Example ex16_smeft : describes warsaw_ops (all_of warsaw_ops) (real_of warsaw_ops) /\ dim4_ok warsaw_ops smeft_d4 smeft_d4s /\
  (exists n c s, In (n, (c, s)) warsaw_ops /\ c <> Cl0) /\ In "qqql_2311" (all_of warsaw_ops) /\ real_of warsaw_ops "ll_1221" = true.
Proof.
  split; [apply describes_b_ok; vm_compute; reflexivity|]. split; [apply dim4_b_ok; vm_compute; reflexivity|].
  split; [exists "ee", Cl6, [3;3;3;3]%nat; split; [vm_compute; tauto|discriminate]|].
  split; [apply kmem_In; vm_compute; reflexivity|vm_compute; reflexivity].
Qed.
Example ex16_wet : describes jms_ops (all_of jms_ops) (real_of jms_ops) /\ dim4_ok jms_ops wet_d4 wet_d4s /\
  (exists n c s, In (n, (c, s)) jms_ops /\ c <> Cl0) /\ In "V1udduLR_1132" (all_of jms_ops) /\ ~ In "V1udduLR_3132" (all_of jms_ops).
Proof.
  split; [apply describes_b_ok; vm_compute; reflexivity|]. split; [apply dim4_b_ok; vm_compute; reflexivity|].
  split; [exists "SuudLR", Cl71, [2;2;3;3]%nat; split; [vm_compute; tauto|discriminate]|].
  split; [apply kmem_In; vm_compute; reflexivity|].
  intros H. apply kmem_In in H. revert H. vm_compute. discriminate.
Qed.
