(* rotate_down rotates the left-handed down quarks and nothing else. *)
From Coq Require Import List Bool ZArith Arith Lia String Ascii Field.
From Verif Require Import PyBase Num SymModel EftModel EftProofs NpModel NpProofs BetaSpec RotModel BetaModel TreeModel TreeSpec.
Import ListNotations.
Local Open Scope string_scope.
Local Open Scope list_scope.

Section RotDown.
Context {K : StarField}.
Local Open Scope K_scope.
Add Field KFtr : (k_field K).
Notation cdict := (dict string (cval K)).

Lemma jms_rep (c : cdict) k ts : jms_point c -> dget jms_fields k = Some ts ->
  exists v, dget c k = Some v /\ rep v (List.length ts) (coef c k).
Proof.
  intros W G. destruct (W k ts G) as (v & D & S & Z). exists v. split; [exact D|]. unfold coef. rewrite D.
  destruct ts as [|t ts]; cbn [List.length] in *.
  - destruct (Z eq_refl) as (z & ->). now apply rep_num.
  - destruct v as [z|s a]; [discriminate S|]. cbn [vshape] in S. subst s. apply rep_arr. reflexivity.
Qed.

Lemma NoDup_app_inv {A} (l m : list A) : NoDup (l ++ m) -> NoDup l /\ NoDup m.
Proof.
  induction l as [|x l IH]; cbn [app]; intros H; [split; [constructor|exact H]|]. inversion_clear H as [|? ? N ND].
  destruct (IH ND) as (A1 & A2). split; [|exact A2]. constructor; [|exact A1]. intros X. apply N. apply in_or_app. now left.
Qed.
Section Rules.
Variable V : cval K.
Hypothesis MV : vshape V = [3; 3]%nat.
Notation Vf := (fun i j => entry V [i; j]).
Lemma V_rep : rep V 2 (entry V).
Proof. split; [exact MV|]. split; [discriminate|]. reflexivity. Qed.
Definition mf (m : umat) (I : idx) : K := match m with Pl _ => entry V I | Cj _ => (entry V I)^* end.
Lemma m_rep m : rep (down_mat V m) 2 (mf m).
Proof. destruct m; [apply V_rep|]. exact (rep_conj _ _ _ V_rep). Qed.
(* the factors of the fields *)
Definition rule_ok (r : string * list umat) (ts : list jslot) : Prop :=
  forall v f, rep v (List.length ts) f -> exists w, np_einsum (fst r) (map (down_mat V) (snd r) ++ [v]) = Ok w /\
    rep w (List.length ts) (rotD Vf ts f).
Lemma rule_from s ms ts ins out : parse_spec s = (ins, out) -> forallb (fun c => kmem c (List.concat ins)) out && knodup out = true ->
  map (@List.length ascii) ins = map (fun _ => 2%nat) ms ++ [List.length ts] -> List.length out = List.length ts ->
  (forall f I, List.length I = List.length ts -> ksum (map (fun s => ein_fun (out ++ summed_letters ins out) (I ++ s) ins (map mf ms ++ [f]))
                          (idxs (List.length (summed_letters ins out)))) = rotD Vf ts f I) -> rule_ok (s, ms) ts.
Proof.
  intros P CK L LO H v f R.
  assert (O : ops_ok ins (map (down_mat V) ms ++ [v]) (map mf ms ++ [f])).
  { clear - L R MV. revert ins L. induction ms as [|m ms IH]; intros ins L.
    - destruct ins as [|a [|]]; try discriminate L. injection L as L. cbn. rewrite L. auto.
    - destruct ins as [|a ins]; [discriminate L|]. cbn [map app] in L. injection L as L1 L2. cbn [map app ops_ok]. split; [|now apply IH].
      rewrite L1. apply m_rep. }
  destruct (rep_einsum s ins out _ _ P CK O) as (w & E & W). exists w. split; [exact E|]. rewrite LO in W.
  eapply rep_ext; [exact W|]. intros I HI. apply H. now apply idxs_length.
Qed.
Ltac rule := eapply rule_from; [reflexivity|reflexivity|reflexivity|reflexivity|];
  let f := fresh "f" in let I := fresh "I" in let HL := fresh "HL" in
  let p := fresh "p" in let r := fresh "r" in let s := fresh "s" in let t := fresh "t" in
  intros f I HL; destruct I as [|p [|r [|s [|t [|]]]]]; try discriminate HL;
  lazy -[kadd kmul k0 k1 kconj entry car]; ring.
Definition rules_ok (kr : list string * (string * list umat)) : Prop :=
  Forall (fun k => exists ts, dget jms_fields k = Some ts /\ rule_ok (snd kr) ts) (fst kr).
Lemma all_rules : Forall rules_ok down_rules.
Proof.
  apply Forall_forall. intros kr H. unfold down_rules in H. cbn [In] in H.
  repeat (destruct H as [<-|H]; [unfold rules_ok; cbn [fst snd]; repeat apply Forall_cons; [..|constructor]; (eexists; split; [reflexivity|rule])|]).
  destruct H.
Qed.

(* the loops *)
Lemma down_keys_ok (C_in : cdict) r ks : jms_point C_in -> NoDup ks -> Forall (fun k => exists ts, dget jms_fields k = Some ts /\ rule_ok r ts) ks ->
  forall C, exists C', down_keys V C_in r ks C = Ok C' /\
    (forall k, ~ In k ks -> dget C' k = dget C k) /\
    (forall k, In k ks -> exists ts v, dget jms_fields k = Some ts /\ dget C' k = Some v /\ rep v (List.length ts) (rotD Vf ts (coef C_in k))).
Proof.
  intros J ND F. induction F as [|k ks (ts & G & RO) F IH]; intros C; cbn [down_keys].
  - exists C. repeat split; auto. intros k [].
  - inversion_clear ND as [|? ? NI ND']. destruct (jms_rep C_in k ts J G) as (v & D & R). unfold getk, lookup. rewrite D. cbn [bind].
    destruct (RO v _ R) as (w & E & W). rewrite E. cbn [bind]. destruct (IH ND' (dset C k w)) as (C' & E' & O & A).
    exists C'. split; [exact E'|]. split.
    + intros j NJ. cbn [In] in NJ. rewrite O by tauto. apply dget_dset_neq. intros ->. tauto.
    + intros j [<-|HJ]; [|now apply A]. exists ts, w. rewrite O by exact NI. rewrite dget_dset_eq. auto.
Qed.
Lemma down_all_ok (C_in : cdict) rs : jms_point C_in -> NoDup (flat_map fst rs) -> Forall rules_ok rs ->
  forall C, exists C', down_all V C_in rs C = Ok C' /\
    (forall k, ~ In k (flat_map fst rs) -> dget C' k = dget C k) /\
    (forall k, In k (flat_map fst rs) -> exists ts v, dget jms_fields k = Some ts /\ dget C' k = Some v /\ rep v (List.length ts) (rotD Vf ts (coef C_in k))).
Proof.
  intros J ND F. induction F as [|[ks r] rs RO F IH]; intros C; cbn [down_all flat_map fst].
  - exists C. repeat split; auto. intros k [].
  - cbn [flat_map fst] in ND. apply NoDup_app_inv in ND as (N1 & N2).
    destruct (down_keys_ok C_in r ks J N1 RO C) as (C1 & E1 & O1 & A1). rewrite E1. cbn [bind].
    destruct (IH N2 C1) as (C' & E' & O & A). exists C'. split; [exact E'|]. split.
    + intros j NJ. rewrite in_app_iff in NJ. rewrite O, O1 by tauto. reflexivity.
    + intros j HJ. destruct (in_dec string_dec j (flat_map fst rs)) as [H|H]; [now apply A|]. apply in_app_iff in HJ as [HJ|HJ]; [|contradiction].
      rewrite O by exact H. now apply A1.
Qed.
(* the operators without a left-handed down quark are in no rule *)
Definition no_dl (ts : list jslot) : bool := forallb (fun t => match fst t with DL => false | _ => true end) ts.
Lemma rotD_id ts : no_dl ts = true -> forall f I, List.length I = List.length ts -> rotD Vf ts f I = f I.
Proof.
  induction ts as [|[w b] ts IH]; intros N f I L.
  - now destruct I.
  - destruct I as [|i I]; [discriminate L|]. cbn [no_dl forallb fst] in N. destruct w; try discriminate N; cbn [rotD]; rewrite IH; auto.
Qed.
Definition rest_ok : bool := knodup (flat_map fst down_rules) && forallb (fun kt => kmem (fst kt) (flat_map fst down_rules) || no_dl (snd kt)) jms_fields.
Lemma rest_checked : rest_ok = true. Proof. reflexivity. Qed.

Lemma rotate_down_ok (C : cdict) : jms_point C -> exists C', rotate_down V C = Ok C' /\ jms_point C' /\
  (forall k ts, dget jms_fields k = Some ts -> forall I, In I (idxs (List.length ts)) -> coef C' k I = rotD Vf ts (coef C k) I) /\
  (forall k, dget jms_fields k = None -> dget C' k = dget C k).
Proof.
  intros J. pose proof rest_checked as R. unfold rest_ok in R. apply andb_true_iff in R as [R1 R2]. rewrite forallb_forall in R2.
  destruct (down_all_ok C down_rules J) with (C := C) as (C' & E & O & A); [now apply knodup_NoDup|exact all_rules|].
  assert (X : forall k ts, dget jms_fields k = Some ts -> exists v, dget C' k = Some v /\ rep v (List.length ts) (rotD Vf ts (coef C k))).
  { intros k ts G. destruct (in_dec string_dec k (flat_map fst down_rules)) as [H|H].
    - destruct (A k H) as (ts' & v & G' & D & W). rewrite G in G'. injection G' as <-. eauto.
    - destruct (jms_rep C k ts J G) as (v & D & RV). exists v. rewrite O by exact H. split; [exact D|].
      eapply rep_ext; [exact RV|]. intros I HI. symmetry. apply rotD_id; [|now apply idxs_length].
      specialize (R2 _ (dget_In _ _ _ G)). cbn [fst snd] in R2. destruct (kmem k _) eqn:M in R2; [|exact R2]. apply kmem_In in M. contradiction. }
  exists C'. split; [exact E|]. split; [|split].
  - intros k ts G. destruct (X k ts G) as (v & D & (S & Z & _)). exists v. split; [exact D|]. split; [exact S|]. intros ->. now apply Z.
  - intros k ts G I HI. destruct (X k ts G) as (v & D & (_ & _ & W)). unfold coef. rewrite D. now apply W.
  - intros k G. apply O. intros H. destruct (A k H) as (ts & v & G' & _). congruence.
Qed.
End Rules.

(* unitary matrices: the rotation can be undone *)
Lemma ksum_seq3 (f : nat -> K) : ksum (map f (seq 0 3)) = f 0%nat + (f 1%nat + (f 2%nat + 0)).
Proof. reflexivity. Qed.
Lemma rotD_ext (V : nat -> nat -> K) ts : forall f g, (forall J, f J = g J) -> forall I, rotD V ts f I = rotD V ts g I.
Proof.
  induction ts as [|[w b] ts IH]; intros f g H [|i I]; cbn [rotD]; try apply H; try (destruct w; apply H).
  destruct w; try (apply IH; intros J; apply H). apply ksum_ext. intros j _. f_equal. apply IH. intros J. apply H.
Qed.
Lemma rotD_add (V : nat -> nat -> K) ts : forall (f g : idx -> K) I, rotD V ts (fun J => f J + g J) I = rotD V ts f I + rotD V ts g I.
Proof.
  induction ts as [|[w b] ts IH]; intros f g [|i I]; cbn [rotD]; try reflexivity; try (now destruct w).
  destruct w; try (exact (IH (fun J => f (i :: J)) (fun J => g (i :: J)) I)).
  rewrite <- ksum_add. apply ksum_ext. intros j _. rewrite (IH (fun J => f (j :: J)) (fun J => g (j :: J)) I). ring.
Qed.
Lemma rotD_scale (V : nat -> nat -> K) ts a : forall (f : idx -> K) I, rotD V ts (fun J => a * f J) I = a * rotD V ts f I.
Proof.
  induction ts as [|[w b] ts IH]; intros f [|i I]; cbn [rotD]; try reflexivity; try (now destruct w).
  destruct w; try (exact (IH (fun J => f (i :: J)) I)).
  rewrite <- ksum_scale. apply ksum_ext. intros j _. rewrite (IH (fun J => f (j :: J)) I). ring.
Qed.
Lemma cj_add b (x y : K) : cj b (x + y) = cj b x + cj b y. Proof. destruct b; [apply kconj_add|reflexivity]. Qed.
Lemma cj_mul b (x y : K) : cj b (x * y) = cj b x * cj b y. Proof. destruct b; [apply kconj_mul|reflexivity]. Qed.
Lemma cj_0 b : cj b (0 : K) = 0. Proof. destruct b; [apply kconj_0|reflexivity]. Qed.
Definition mprod (W V : nat -> nat -> K) (i j : nat) : K := ksum (map (fun k => W i k * V k j) (seq 0 3)).
Lemma rotD_comp (V W : nat -> nat -> K) ts : forall (f : idx -> K) I, rotD V ts (rotD W ts f) I = rotD (mprod W V) ts f I.
Proof.
  induction ts as [|[w b] ts IH]; intros f [|i I]; cbn [rotD]; try reflexivity; try (now destruct w).
  destruct w; try (exact (IH (fun J => f (i :: J)) I)).
  unfold mprod at 1. rewrite !ksum_seq3.
  assert (X : forall j, rotD V ts (fun J => ksum (map (fun k => cj b (W k j) * rotD W ts (fun J => f (k :: J)) J) (seq 0 3))) I =
    ksum (map (fun k => cj b (W k j) * rotD (mprod W V) ts (fun J => f (k :: J)) I) (seq 0 3))).
  { intros j. rewrite ksum_seq3, <- !IH, <- !rotD_scale.
    rewrite (rotD_ext V ts _ (fun J => cj b (W 0%nat j) * rotD W ts (fun J => f (0%nat :: J)) J + (cj b (W 1%nat j) * rotD W ts (fun J => f (1%nat :: J)) J +
      cj b (W 2%nat j) * rotD W ts (fun J => f (2%nat :: J)) J))) by (intros J; rewrite ksum_seq3; ring).
    rewrite !rotD_add. ring. }
  rewrite !X, !ksum_seq3, !cj_add, !cj_mul, !cj_0. ring.
Qed.
Lemma rotD_eye (V : nat -> nat -> K) ts : (forall i j, (i < 3)%nat -> (j < 3)%nat -> V i j = delta i j) ->
  forall f I, List.length I = List.length ts -> (forall x, In x I -> (x < 3)%nat) -> rotD V ts f I = f I.
Proof.
  intros HV. induction ts as [|[w b] ts IH]; intros f I L B; destruct I as [|i I]; try discriminate L; [reflexivity|].
  injection L as L. assert (B' : forall x, In x I -> (x < 3)%nat) by (intros; apply B; now right).
  cbn [rotD]. destruct w; try (now rewrite IH).
  assert (Hi : (i < 3)%nat) by (apply B; now left).
  rewrite ksum_seq3, !IH, !HV by (auto; lia).
  destruct i as [|[|[|]]]; [..|lia]; unfold delta; cbn [Nat.eqb]; destruct b; cbn [cj]; rewrite ?kconj_0, ?kconj_1; ring.
Qed.
End RotDown.
