(* The tree-level matching as a whole. *)
From Coq Require Import List Bool ZArith Reals Arith Lia Lra Psatz String Ascii Field.
From Verif Require Import PyBase Num Lin SymModel SymClass SymSpec EftModel EftSpec EftProofs EftLabels NpModel NpProofs RealC BetaSpec BetaProofs RotModel JmsModel BetaModel SmparModel WetModel
  JmsProps BasisProps EftRound EftRound2 UpProofs UpProps TreeProg TreeModel TreeElem TreeSpec TreeProofs TreeValue TreeRot TreeEw TreeZero.
Import ListNotations.
Local Open Scope string_scope.
Local Open Scope list_scope.

Section Keys.
Context {K : StarField}.
Local Open Scope K_scope.
Add Field KFtm : (k_field K) (morphism (kZ_morph (K := K)), constants [kz_const]).
Notation cdict := (dict string (cval K)).
Lemma ksub_0r (x : K) : x - 0 = x. Proof. ring. Qed.
(* dictionaries with exactly the coefficients of the JMS basis *)
Definition jms_dict (c : cdict) : Prop := wfdict c /\ (forall k v, dget c k = Some v -> dget jms_fields k <> None) /\ jms_point c.

Lemma exec_tree_keys (C L : cdict) p : forall c c', exec_tree C L p c = Ok c' -> forall k v, dget c' k = Some v -> In k (map fst p) \/ dget c k <> None.
Proof.
  induction p as [|[j e] p IH]; intros c c' H k v D; cbn [exec_tree] in H.
  - injection H as <-. right. congruence.
  - destruct (eval C L e) as [w|]; [|discriminate H]. cbn [bind] in H. destruct (IH _ _ H k v D) as [X|X]; [left; now right|].
    rewrite dget_dset in X. destruct (keqb_spec k j) as [->|]; [left; now left|now right].
Qed.
Definition prog_fields : bool := forallb (fun kt => match dget tree_prog (fst kt) with
    | Some e => match rank_ex ck lk nzv e with Some n => Nat.eqb n (List.length (snd kt)) | None => false end | None => false end) jms_fields
  && forallb (fun k => dmem jms_fields k) (map fst tree_prog).
Lemma prog_fields_ok : prog_fields = true. Proof. vm_cast_no_check (eq_refl true). Qed.

Section At.
Variables sqrt2 mW mZ vT g1 : K.
Hypotheses (NS : sqrt2 <> 0) (NZ : mZ <> 0) (NV : vT <> 0).
Lemma tree_at_dict C : wc_point C -> exists c, tree_at sqrt2 mW mZ vT g1 C = Ok c /\ jms_dict c /\
  forall k ts, dget jms_fields k = Some ts -> exists e, dget tree_prog k = Some e /\ forall I, In I (idxs (List.length ts)) -> coef c k I = value sqrt2 mW mZ vT g1 C e I.
Proof.
  intros W. destruct (tree_at_ok sqrt2 mW mZ vT g1 NS NZ NV C W) as (c & E & V). exists c. split; [exact E|].
  pose proof prog_fields_ok as PF. unfold prog_fields in PF. apply andb_true_iff in PF as [P1 P2]. rewrite forallb_forall in P1, P2.
  assert (X : forall k ts, dget jms_fields k = Some ts -> exists e v, dget tree_prog k = Some e /\ dget c k = Some v /\ rep v (List.length ts) (value sqrt2 mW mZ vT g1 C e)).
  { intros k ts D. specialize (P1 (k, ts) (dget_In _ _ _ D)). cbn [fst snd] in P1. destruct (dget tree_prog k) as [e|] eqn:DE; [|discriminate P1].
    destruct (rank_ex ck lk nzv e) as [n|] eqn:R; [|discriminate P1]. apply Nat.eqb_eq in P1. subst n.
    destruct (V k e _ (dget_In _ _ _ DE) R) as (v & DV & RV). eauto. }
  split.
  - split; [|split].
    + unfold tree_at in E. destruct (tree_env _ _ _ _ _); [|discriminate E]. cbn [bind] in E. destruct (daggers C); [|discriminate E]. cbn [bind] in E.
      apply (exec_tree_wf _ _ _ _ _ (wf_nil) E).
    + intros k v D. unfold tree_at in E. destruct (tree_env _ _ _ _ _); [|discriminate E]. cbn [bind] in E. destruct (daggers C); [|discriminate E]. cbn [bind] in E.
      destruct (exec_tree_keys _ _ _ _ _ E k v D) as [I|I]; [|now destruct I]. specialize (P2 k I). rewrite dmem_dget in P2. destruct (dget jms_fields k); [discriminate|discriminate P2].
    + intros k ts D. destruct (X k ts D) as (e & v & _ & DV & (S & Z & _)). exists v. split; [exact DV|]. split; [exact S|]. intros ->. now apply Z.
  - intros k ts D. destruct (X k ts D) as (e & v & DE & DV & (_ & _ & EV)). exists e. split; [exact DE|]. intros I HI. unfold coef. rewrite DV. now apply EV.
Qed.
(* (nubar_mu e)(ebar nu_mu) *)
Lemma muon_decay C : value sqrt2 mW mZ vT g1 C t_VnueLL [1; 0; 0; 1]%nat =
  coef C "ll" [1; 0; 0; 1]%nat + coef C "ll" [0; 1; 1; 0]%nat - kZ 2 / (vT * vT) - kZ 2 * coef C "phil3" [1; 1]%nat - kZ 2 * coef C "phil3" [0; 0]%nat.
Proof.
  lazy -[kZ coef delta kadd kmul ksub kopp kdiv kinv kconj k0 k1 car].
  unfold delta. cbn [Nat.eqb]. field. repeat split; first [assumption|apply kZ_neq0; lia].
Qed.
Lemma dipole_dG C i j : value sqrt2 mW mZ vT g1 C t_dG [i; j] = vT / sqrt2 * coef C "dG" [i; j].
Proof. lazy -[kZ coef delta kadd kmul ksub kopp kdiv kinv kconj k0 k1 car]. field. assumption. Qed.
Lemma bnv_LL1 C p r s t : value sqrt2 mW mZ vT g1 C t_SduuLL [p; r; s; t] = coef C "qqql" [r; p; s; t] - coef C "qqql" [r; s; p; t] + coef C "qqql" [s; r; p; t].
Proof. lazy -[kZ coef delta kadd kmul ksub kopp kdiv kinv kconj k0 k1 car]. ring. Qed.
Lemma bnv_LL2 C p r s t : value sqrt2 mW mZ vT g1 C t_SuddLL [p; r; s; t] = coef C "qqql" [r; p; s; t] - coef C "qqql" [r; s; p; t] + coef C "qqql" [s; r; p; t].
Proof. lazy -[kZ coef delta kadd kmul ksub kopp kdiv kinv kconj k0 k1 car]. ring. Qed.
Lemma bnv_LR C p r s t : value sqrt2 mW mZ vT g1 C t_SduuLR [p; r; s; t] = - coef C "qque" [p; r; s; t] - coef C "qque" [r; p; s; t].
Proof. lazy -[kZ coef delta kadd kmul ksub kopp kdiv kinv kconj k0 k1 car]. ring. Qed.
End At.

Lemma map_vals_spec (f : string -> cval K -> res (cval K)) (Q : string -> cval K -> cval K -> Prop) (C : cdict) :
  (forall k v, In (k, v) C -> exists w, f k v = Ok w /\ Q k v w) ->
  exists C', map_vals f C = Ok C' /\ dkeys C' = dkeys C /\ forall k v, dget C k = Some v -> exists w, dget C' k = Some w /\ Q k v w.
Proof.
  induction C as [|[k v] C IH]; intros H; cbn [map_vals].
  - exists []. repeat split. discriminate.
  - destruct (H k v (or_introl eq_refl)) as (w & E & HQ). rewrite E. cbn [bind]. destruct IH as (C' & E' & KS & A); [intros; apply H; now right|].
    rewrite E'. cbn [bind]. exists ((k, w) :: C'). split; [reflexivity|]. split; [unfold dkeys in *; cbn [map fst]; now rewrite KS|].
    intros j u. cbn [dget]. destruct (keqb_spec j k) as [->|]; [|apply A]. intros [= <-]. eauto.
Qed.
Lemma jms_dict_rep (c : cdict) k ts : jms_dict c -> dget jms_fields k = Some ts -> exists v, dget c k = Some v /\ rep v (List.length ts) (coef c k).
Proof. intros (_ & _ & J). now apply jms_rep. Qed.
Lemma dict_map2_jms h (a b : cdict) : jms_dict a -> jms_dict b -> exists c, dict_map2 (np_map2 h) a b = Ok c /\ jms_dict c /\
  forall k ts, dget jms_fields k = Some ts -> forall I, In I (idxs (List.length ts)) -> coef c k I = h (coef a k I) (coef b k I).
Proof.
  intros A B. unfold dict_map2.
  destruct (map_vals_spec (fun k v => bind (getk b k) (np_map2 h v)) (fun k _ w => exists ts, dget jms_fields k = Some ts /\ rep w (List.length ts) (fun I => h (coef a k I) (coef b k I))) a)
    as (c & E & KS & V).
  { intros k v H. destruct A as (WA & KA & JA). pose proof (In_dget _ _ _ WA H) as D. pose proof (KA k v D) as N.
    destruct (dget jms_fields k) as [ts|] eqn:F; [|congruence]. destruct (jms_rep a k ts JA F) as (v' & D' & RA). rewrite D in D'. injection D' as <-.
    destruct (jms_dict_rep b k ts B F) as (u & DU & RU). unfold getk, lookup. rewrite DU. cbn [bind]. destruct (rep_map2 h v u _ _ _ RA RU) as (w & EW & RW). eauto. }
  exists c. split; [exact E|].
  assert (X : forall k ts, dget jms_fields k = Some ts -> exists w, dget c k = Some w /\ rep w (List.length ts) (fun I => h (coef a k I) (coef b k I))).
  { intros k ts F. destruct (jms_dict_rep a k ts A F) as (v & D & _). destruct (V k v D) as (w & DW & ts' & F' & RW). rewrite F in F'. injection F' as <-. eauto. }
  split; [split; [|split]|].
  - destruct A as (WA & _). unfold wfdict in *. now rewrite KS.
  - intros k w D. destruct A as (_ & KA & _). assert (I : In k (dkeys a)) by (rewrite <- KS; apply (dget_Some_key _ _ _ D)).
    destruct (dget a k) as [v|] eqn:DA; [exact (KA k v DA)|]. apply dget_None in DA. contradiction.
  - intros k ts F. destruct (X k ts F) as (w & D & (S & Z & _)). exists w. split; [exact D|]. split; [exact S|]. intros ->. now apply Z.
  - intros k ts F I HI. destruct (X k ts F) as (w & D & (_ & _ & EV)). unfold coef at 1. rewrite D. now apply EV.
Qed.
Lemma rotD_ext_in (V : nat -> nat -> K) ts : forall f g, (forall J, In J (idxs (List.length ts)) -> f J = g J) -> forall I, In I (idxs (List.length ts)) -> rotD V ts f I = rotD V ts g I.
Proof.
  induction ts as [|[w b] ts IH]; intros f g H I HI.
  - destruct HI as [<-|[]]. cbn [rotD]. apply H. now left.
  - pose proof HI as HI'. apply in_idxs in HI' as [L B]. destruct I as [|i I]; [discriminate L|]. injection L as L.
    assert (HI2 : In I (idxs (List.length ts))) by (apply in_idxs; split; [exact L|]; intros x Hx; apply B; now right).
    assert (C : forall j, (j < 3)%nat -> forall J, In J (idxs (List.length ts)) -> f (j :: J) = g (j :: J)).
    { intros j Hj J HJ. apply H. apply in_idxs in HJ as [L1 B1]. apply in_idxs. split; [cbn [List.length]; now rewrite L1|]. intros x [<-|Hx]; [exact Hj|now apply B1]. }
    assert (Bi : (i < 3)%nat) by (apply B; now left).
    cbn [rotD]. destruct w; try (apply IH; [now apply C|exact HI2]).
    apply ksum_ext. intros j Hj. apply in_seq in Hj. f_equal. apply IH; [apply C; lia|exact HI2].
Qed.
Lemma rotate_wf (V : cval K) C C' : wfdict C -> rotate_down V C = Ok C' -> wfdict C'.
Proof.
  unfold rotate_down. set (Cin := C) at 2. clearbody Cin. revert C. induction down_rules as [|[ks r] rs IH]; intros C Z; cbn [down_all]; [now intros [= <-]|].
  intros H. destruct (down_keys V Cin r ks C) as [C1|] eqn:D; [|discriminate H]. cbn [bind] in H. apply (IH C1); [|exact H]. clear H. revert C Z D.
  induction ks as [|k ks IHk]; intros C Z; cbn [down_keys]; [now intros [= <-]|]. unfold getk, lookup.
  destruct (dget Cin k) as [v|]; [|discriminate]. cbn [bind]. destruct (np_einsum _ _) as [w|]; [|discriminate]. cbn [bind]. apply IHk. now apply wf_dset.
Qed.
Lemma rotate_dict (V : cval K) C : vshape V = [3; 3]%nat -> jms_dict C -> exists C', rotate_down V C = Ok C' /\ jms_dict C' /\
  forall k ts, dget jms_fields k = Some ts -> forall I, In I (idxs (List.length ts)) -> coef C' k I = rotD (fun i j => entry V [i; j]) ts (coef C k) I.
Proof.
  intros MV (WC & KC & JC). destruct (rotate_down_ok V MV C JC) as (C' & E & J' & A & O). exists C'. split; [exact E|]. split; [|exact A].
  split; [now apply (rotate_wf V C)|]. split; [|exact J']. intros k v D N. rewrite (O k N) in D. exact (KC k v D N).
Qed.
(* classes of the coefficients *)
Definition class_of_key : list (string * cls) := flat_map (fun c => map (fun k => (k, c)) (dgetd jms_symm_keys c [])) classes8.
Definition classes_fit : bool := forallb (fun kt => match dget class_of_key (fst kt) with
   | Some c => kmem (fst kt) (dgetd jms_symm_keys c []) && existsb (keqb c) classes8 && match jms_shape c with None => Nat.eqb (List.length (snd kt)) 0 | Some s => keqb s (repeat 3%nat (List.length (snd kt))) && negb (Nat.eqb (List.length (snd kt)) 0) end && keqb (split_us (fst kt)) [fst kt]
   | None => false end) jms_fields.
Lemma classes_fit_ok : classes_fit = true. Proof. vm_cast_no_check (eq_refl true). Qed.
Lemma fit k ts : dget jms_fields k = Some ts -> exists c, In c classes8 /\ listed k c /\ no_us k /\
  match jms_shape c with None => ts = [] | Some s => s = repeat 3%nat (List.length ts) /\ ts <> [] end.
Proof.
  intros F. pose proof classes_fit_ok as X. unfold classes_fit in X. rewrite forallb_forall in X. specialize (X (k, ts) (dget_In _ _ _ F)). cbn [fst snd] in X.
  destruct (dget class_of_key k) as [c|]; [|discriminate X]. rewrite !andb_true_iff in X. destruct X as [[[X1 X2] X3] X4]. exists c.
  split; [|split; [|split]].
  - apply existsb_exists in X2 as (c' & I & Q). apply keqb_true in Q. now subst c'.
  - unfold listed. now apply kmem_In.
  - unfold no_us. now apply keqb_true.
  - destruct (jms_shape c) as [s|].
    + apply andb_true_iff in X3 as [X3 X5]. apply keqb_true in X3. split; [exact X3|]. intros ->. discriminate X5.
    + apply Nat.eqb_eq in X3. now destruct ts.
Qed.
Lemma jms_dict_values (C : cdict) : jms_dict C -> jms_values C.
Proof.
  intros (WC & KC & JC) k v H. pose proof (In_dget _ _ _ WC H) as D. pose proof (KC k v D) as N. destruct (dget jms_fields k) as [ts|] eqn:F; [|congruence].
  destruct (fit k ts F) as (c & A & B & _ & S). exists c. split; [exact A|]. split; [exact B|].
  destruct (JC k ts F) as (v' & D' & S' & Z). rewrite D in D'. injection D' as <-. destruct (jms_shape c) as [s|].
  - destruct S as [-> NE]. destruct v as [z|s a]; cbn [vshape has_shape] in *; [|now symmetry]. destruct ts; [congruence|discriminate S'].
  - destruct (Z S) as (z & ->). exact I.
Qed.
(* the output dictionary: every coefficient with its symmetry factor *)
Lemma output (C : cdict) : jms_dict C -> exists C', unscale_dict_wet C = Ok C' /\ wfdict (arrays2wcxf C') /\
  forall k ts, dget jms_fields k = Some ts -> exists c, In c classes8 /\ listed k c /\
    forall I, In I (idxs (List.length ts)) -> dget (arrays2wcxf C') (match ts with [] => k | _ => label k I end) = Some (kZ (Z.of_nat (factor_of c I)) * coef C k I).
Proof.
  intros J. pose proof (jms_dict_values C J) as V. destruct J as (WC & KC & JC).
  destruct (map_vals_scaled (fun n z => kZ (Z.of_nat n) * z) C V) as (C' & E & S & _). exists C'. split; [exact E|].
  assert (KS : dkeys C' = dkeys C). { clear -S. induction S as [|x y l l' (H & _) _ IH]; [reflexivity|]. unfold dkeys in *. cbn [map]. now rewrite H, IH. }
  assert (WC' : wfdict C') by (unfold wfdict in *; now rewrite KS).
  assert (SD : forall k v, dget C k = Some v -> exists w, dget C' k = Some w /\ exists c, In c classes8 /\ listed k c /\
    match v, w with CNum z, CNum w => w = kZ (Z.of_nat 1) * z | CArr s a, CArr s' b => s' = s /\ forall I, in_shape s I = true -> b I = kZ (Z.of_nat (factor_of c I)) * a I | _, _ => False end).
  { clear -S. induction S as [|[k1 v1] [k2 v2] l l' (H & c & HC & L & M) _ IH]; intros k v D; [discriminate D|]. cbn [fst snd dget] in *. subst k2.
    destruct (keqb_spec k k1) as [->|]; [|exact (IH k v D)]. injection D as <-. exists v2. split; [reflexivity|]. exists c. auto. }
  assert (PR : forall k v, In (k, v) C' -> no_us k /\ proper_val v = true).
  { intros k w H. apply (In_dget _ _ _ WC') in H. assert (IK : In k (dkeys C)) by (rewrite <- KS; apply (dget_Some_key _ _ _ H)).
    destruct (dget C k) as [v|] eqn:D; [|apply dget_None in D; contradiction]. pose proof (KC k v D) as N. destruct (dget jms_fields k) as [ts|] eqn:F; [|congruence].
    destruct (fit k ts F) as (c & _ & _ & NU & SH). split; [exact NU|]. destruct (JC k ts F) as (v' & D' & S' & Z). rewrite D in D'. injection D' as <-.
    destruct (SD k v D) as (w' & DW & c' & HC & L & M). rewrite H in DW. injection DW as <-.
    destruct w as [z|s b]; [reflexivity|]. destruct v as [z|s' a]; [destruct M|]. destruct M as [-> _]. cbn [vshape] in S'. subst s'.
    destruct (listed_factor k c' HC L) as (d & _). cbn [proper_val].
    destruct ts as [|t1 [|t2 ts]]; [destruct (Z eq_refl) as (z & [=])| |].
    - destruct (jms_shape c) as [s|] eqn:JS; [|discriminate SH]. destruct SH as [-> _]. destruct c; discriminate JS.
    - clear. cbn [List.length repeat]. apply andb_true_iff. split; [|reflexivity]. unfold small_shape. apply forallb_forall. intros x Hx.
      destruct Hx as [<-|[<-|Hx]]; [reflexivity|reflexivity|]. apply repeat_spec in Hx. now subst x. }
  destruct (arrays2wcxf_spec C' WC' PR) as (A1 & A2 & _ & A4). split; [exact A4|].
  intros k ts F. destruct (JC k ts F) as (v & D & S' & Z). destruct (SD k v D) as (w & DW & c & HC & L & M). exists c. split; [exact HC|]. split; [exact L|].
  intros I HI. unfold coef. rewrite D. destruct ts as [|t ts].
  - destruct (Z eq_refl) as (z & ->). destruct w as [w|]; [|destruct M]. rewrite (A1 k w DW), M. cbn [entry]. do 2 f_equal.
    destruct HI as [<-|[]]. destruct c; reflexivity.
  - destruct v as [z|s a]; [discriminate S'|]. destruct w as [w|s' b]; [destruct M|]. destruct M as [-> M]. cbn [vshape] in S'. subst s.
    assert (IS : in_shape (repeat 3%nat (List.length (t :: ts))) I = true) by (apply in_all_indices; exact HI).
    rewrite (A2 k _ b I DW IS), (M I IS). reflexivity.
Qed.
End Keys.

(* ---------- points read from a file ---------- *)
Section Load.
Context {K : StarField}.
Notation cdict := (dict string (cval K)).
Definition warsaw_fits : bool := forallb (fun kt => match dget warsaw_ops (fst kt) with
    | Some (c, s) => Nat.eqb (rank c) (List.length (snd kt)) && keqb s (repeat 3%nat (List.length (snd kt))) && negb (keqb c Cl71) &&
        match dget symmetries (fst kt) with Some gs => keqb (map fst gs) (map fst (gens c)) && keqb (map snd gs) (map snd (gens c)) && negb (keqb c Cl8) | None => true end
    | None => false end) wc_fields.
Lemma warsaw_fits_ok : warsaw_fits = true. Proof. vm_compute. reflexivity. Qed.
Lemma pairs_eq {A B} (l m : list (A * B)) : map fst l = map fst m -> map snd l = map snd m -> l = m.
Proof.
  revert m. induction l as [|[a b] l IH]; intros [|[c d] m] E1 E2; try discriminate; [reflexivity|]. cbn [map fst snd] in *. injection E1 as -> E1. injection E2 as -> E2. f_equal. now apply IH.
Qed.
Lemma full_point (C : cdict) : full_symmetric C -> wc_point C /\ wc_symmetric C.
Proof.
  intros (_ & _ & F). pose proof warsaw_fits_ok as X. unfold warsaw_fits in X. rewrite forallb_forall in X.
  assert (P : wc_point C).
  { intros k ts D. specialize (X (k, ts) (dget_In _ _ _ D)). cbn [fst snd] in X. destruct (dget warsaw_ops k) as [[c s]|] eqn:DW; [|discriminate X].
    rewrite !andb_true_iff in X. destruct X as [[[X1 X2] _] _]. apply Nat.eqb_eq in X1. apply keqb_true in X2.
    destruct (F k c s (dget_In _ _ _ DW)) as (v & DV & HS & _). exists v. split; [exact DV|].
    destruct c; cbn [op_shape rank] in *; destruct v as [z|s' a]; cbn [has_shape vshape] in *; try destruct HS;
      destruct ts as [|t ts]; try discriminate X1; subst; split; eauto; discriminate. }
  split; [exact P|]. intros k gs g S M IG I HI. apply kmem_In in M. apply in_map_iff in M as ([k' ts] & EK & M). cbn [fst] in EK. subst k'.
  specialize (X (k, ts) M). cbn [fst snd] in X. destruct (dget warsaw_ops k) as [[c s]|] eqn:DW; [|discriminate X]. rewrite S in X.
  rewrite !andb_true_iff in X. destruct X as [[[X1 X2] X3] [[X4 X5] X6]]. apply Nat.eqb_eq in X1. apply keqb_true in X2, X4, X5.
  pose proof (pairs_eq _ _ X4 X5) as EG. subst gs. clear X4 X5.
  destruct (F k c s (dget_In _ _ _ DW)) as (v & DV & HS & SY). unfold coef. rewrite DV.
  assert (HC : has_symmetry c (entry v)).
  { destruct v as [z|s' a]; cbn [value_symmetric has_shape op_shape] in *.
    - destruct c; cbn [op_shape] in HS; try destruct HS. exact SY.
    - unfold symmetric_in in SY. revert SY. apply has_symmetry_ext. intros J HJ. assert (IJ : in_shape s J = true); [|now rewrite IJ].
      apply in_all_indices. rewrite X2, <- X1. destruct c; try discriminate X6; try discriminate X3; exact HJ. }
  apply (proj1 (gens_sym c (entry v) ltac:(intros ->; discriminate X3) ltac:(intros ->; discriminate X6)) HC g IG).
  unfold indices_of in HI.
  assert (Y : forallb (fun kt => match dget op_fields (fst kt) with Some ts => Nat.eqb (List.length ts) (List.length (snd kt)) | None => false end) wc_fields = true) by (vm_compute; reflexivity).
  rewrite forallb_forall in Y. specialize (Y (k, ts) M). cbn [fst snd] in Y. destruct (dget op_fields k) as [ts'|]; [|discriminate Y]. apply Nat.eqb_eq in Y.
  rewrite X1, <- Y. unfold idxs. replace (repeat 3%nat (List.length ts')) with (map (fun _ : slot => 3%nat) ts'); [exact HI|].
  clear. induction ts' as [|t ts IH]; [reflexivity|]. cbn [map List.length repeat]. now rewrite IH.
Qed.
End Load.

(* ---------- the matching with the parameters of the code ---------- *)
Section Params.
Local Open Scope R_scope.
Definition zero_of (C : cdictR) : cdictR := map (fun kv => (fst kv, np_zero (snd kv))) C.
Lemma dget_zero_of (C : cdictR) k : dget (zero_of C) k = option_map np_zero (dget C k).
Proof. induction C as [|[j v] C IH]; [reflexivity|]. cbn [zero_of map fst snd dget]. destruct (keqb k j); [reflexivity|exact IH]. Qed.
Lemma coef_zero_of (C : cdictR) k I : coef (zero_of C) k I = 0%K.
Proof.
  unfold coef. rewrite dget_zero_of. destruct (dget C k) as [[z|s a]|]; cbn [option_map np_zero entry]; try reflexivity; apply kmul_0_l.
Qed.
Lemma zero_point C : wc_point C -> wc_point (zero_of C).
Proof.
  intros W k ts D. destruct (W k ts D) as (v & DV & S & Z). exists (np_zero v). rewrite dget_zero_of, DV. split; [reflexivity|].
  split; [destruct v; exact S|]. intros E. destruct (Z E) as (z & ->). eexists. reflexivity.
Qed.
Lemma zero_symmetric C : wc_symmetric (zero_of C).
Proof. intros k gs g _ _ _ I _. rewrite !coef_zero_of. destruct (snd g); cbn [cj]; [now rewrite kconj_0|reflexivity]. Qed.
(* parameters that are physical without new physics *)
Record physical0 (mW GF alpha : R) : Prop := {
  p0_W : 0 < mW; p0_F : 0 < GF; p0_a : 0 <= alpha;
  p0_e : (e_of alpha) ^ 2 < (g2_of mW (sqrt (1 / (sqrt 2 * GF)))) ^ 2 }.
Lemma g2_pos mW v : 0 < mW -> 0 < v -> 0 < g2_of mW v.
Proof. intros A B. unfold g2_of. apply Rdiv_lt_0_compat; lra. Qed.
Lemma mZ2_pos v g1 g2 : 0 < v -> 0 < g2 -> 0 < mZ2_of v g1 g2 0 (0 * v ^ 2).
Proof. intros A B. unfold mZ2_of. assert (0 < v ^ 2) by (apply pow_lt; lra). assert (0 < g2 ^ 2) by (apply pow_lt; lra). pose proof (pow2_ge_0 g1). nra. Qed.
(* without phiWB and phiD, and if the contribution to muon decay is not negative *)
Lemma physical_more C mW GF alpha : physical0 mW GF alpha -> coef C "phiWB" [] = 0%K -> coef C "phiD" [] = 0%K -> GF <= GF_sm GF C -> physical C mW GF alpha.
Proof.
  intros [H1 H2 H3 H4] A B L. assert (G : 0 < GF_sm GF C) by lra. pose proof (vev_pos GF C G) as VP.
  split; auto.
  - eapply Rlt_le_trans; [exact H4|]. apply pow_incr. split.
    + left. apply g2_pos; [exact H1|]. apply sqrt_lt_R0. apply Rdiv_lt_0_compat; [lra|]. apply Rmult_lt_0_compat; [exact sqrt2_pos|exact H2].
    + unfold g2_of, Rdiv. apply Rmult_le_compat_l; [lra|]. apply Rinv_le_contravar; [exact VP|]. unfold vev. apply sqrt_le_1_alt. unfold Rdiv. rewrite !Rmult_1_l. apply Rinv_le_contravar.
      * apply Rmult_lt_0_compat; [exact sqrt2_pos|exact H2].
      * apply Rmult_le_compat_l; [left; exact sqrt2_pos|exact L].
  - rewrite A, B. cbn [fst]. apply mZ2_pos; [exact VP|]. now apply g2_pos.
Qed.
Lemma GF_zero GF C : GF_sm GF (zero_of C) = GF.
Proof. unfold GF_sm. rewrite !coef_zero_of. cbn. ring. Qed.
Lemma physical_zero C mW GF alpha : physical0 mW GF alpha -> physical (zero_of C) mW GF alpha.
Proof. intros H. apply physical_more; [exact H|apply coef_zero_of|apply coef_zero_of|rewrite GF_zero; lra]. Qed.

Section Raw.
Variables (C : cdictR) (p : params) (mW GF alpha : R).
Hypotheses (W : wc_point C) (S : wc_symmetric C) (P : inputs p mW GF alpha) (PH : physical C mW GF alpha).
Definition the_g1 : R := g1_of (e_of alpha) (g2_of mW (vev GF C)) (fst (coef C "phiWB" []) * vev GF C ^ 2).
Definition the_mZ : R := sqrt (mZ2_of (vev GF C) the_g1 (g2_of mW (vev GF C)) (fst (coef C "phiD" [])) (fst (coef C "phiWB" []) * vev GF C ^ 2)).
Lemma rc_neq x : 0 < x -> rc x <> 0%K.
Proof. intros H E. injection E. lra. Qed.
Lemma tree_raw_ok : exists c, tree_raw C p = Ok c /\ tree_at (rc (sqrt 2)) (rc mW) (rc the_mZ) (rc (vev GF C)) (rc the_g1) C = Ok c /\ jms_dict c /\
  0 < the_mZ /\ 0 < vev GF C /\
  forall k ts, dget jms_fields k = Some ts -> exists e, dget tree_prog k = Some e /\
    forall I, In I (idxs (List.length ts)) -> coef c k I = value (rc (sqrt 2)) (rc mW) (rc the_mZ) (rc (vev GF C)) (rc the_g1) C e I.
Proof.
  destruct (ew_ok C p mW GF alpha W S P PH) as (E & Z & V). unfold tree_raw. rewrite E. cbn [bind e_mW e_mZ e_vT e_g1].
  destruct (tree_at_dict (rc (sqrt 2)) (rc mW) (rc the_mZ) (rc (vev GF C)) (rc the_g1) (rc_neq _ sqrt2_pos) (rc_neq _ Z) (rc_neq _ V) C W) as (c & T & J & A).
  exists c. auto 10.
Qed.
End Raw.
Lemma tree_match_ok (C : cdictR) p mW GF alpha : wc_point C -> wc_symmetric C -> inputs p mW GF alpha -> physical C mW GF alpha -> physical0 mW GF alpha ->
  exists c c0 t, tree_raw C p = Ok c /\ tree_raw (zero_of C) p = Ok c0 /\ tree_match C p = Ok t /\ jms_dict t /\
    forall k ts, dget jms_fields k = Some ts -> forall I, In I (idxs (List.length ts)) -> coef t k I = (coef c k I - coef c0 k I)%K.
Proof.
  intros W S P PH P0. destruct (tree_raw_ok C p mW GF alpha W S P PH) as (c & E & _ & J & _).
  destruct (tree_raw_ok (zero_of C) p mW GF alpha (zero_point C W) (zero_symmetric C) P (physical_zero C mW GF alpha P0)) as (c0 & E0 & _ & J0 & _).
  destruct (dict_map2_jms ksub c c0 J J0) as (t & T & JT & V). exists c, c0, t. split; [exact E|]. split; [exact E0|]. split; [|auto].
  unfold tree_match, subtract_sm. rewrite E. cbn [bind]. fold (zero_of C). rewrite E0. cbn [bind]. exact T.
Qed.
(* match_all at tree level *)
Lemma match_all_ok all real E jms (defaults : params) ckm loop (d : dict string CR) scale (ps : option params) (p : params) mW GF alpha :
  smeft_util all real E -> wfdict d -> (forall k, In k (dkeys d) -> In k all) ->
  p = match ps with Some q => dupdate defaults q | None => defaults end ->
  inputs p mW GF alpha -> physical0 mW GF alpha ->
  (forall x, dget p "loop_order" = Some x -> x <> 1) ->
  (exists a b c g, dget p "Vus" = Some a /\ dget p "Vub" = Some b /\ dget p "Vcb" = Some c /\ dget p "gamma" = Some g /\ vshape (ckm a b c g) = [3; 3]%nat) ->
  exists C V, wcxf2arrays_symmetrized E d = Ok C /\ wc_point C /\ wc_symmetric C /\ ckm_of ckm p = Ok V /\
  (physical C mW GF alpha -> exists t out, tree_match C p = Ok t /\ match_all E jms defaults ckm loop d scale ps = Ok out /\
    forall k ts, dget jms_fields k = Some ts -> exists c, In c classes8 /\ listed k c /\
      forall I, In I (idxs (List.length ts)) -> let key := match ts with [] => k | _ => label k I end in
        dget out key = if kmem key jms then Some (kZ (Z.of_nat (factor_of c I)) * rotD (fun i j => entry V [i; j]) ts (coef t k) I)%K else None).
Proof.
  intros SU WF HD EP P P0 LO (a & b & c0 & g & D1 & D2 & D3 & D4 & SV). destruct (util_ok all real E SU) as (OK & EA & _).
  destruct (load E OK d WF) as (C & EL & FS); [intros k H; rewrite EA; now apply HD|]. destruct (full_point C FS) as [WP WS].
  assert (CK : ckm_of ckm p = Ok (ckm a b c0 g)) by (unfold ckm_of, getp; rewrite D1, D2, D3, D4; reflexivity).
  exists C, (ckm a b c0 g). split; [exact EL|]. split; [exact WP|]. split; [exact WS|]. split; [exact CK|]. intros PH.
  destruct (tree_match_ok C p mW GF alpha WP WS P PH P0) as (_ & _ & t & _ & _ & T & JT & _). exists t.
  destruct (rotate_dict (ckm a b c0 g) t SV JT) as (r & ER & JR & VR). destruct (output r JR) as (u & EU & WU & VU).
  eexists. split; [exact T|]. split.
  - assert (MA : match_all E jms defaults ckm loop d scale ps = bind (wcxf2arrays_symmetrized E d) (fun C => bind (match_arrays loop C scale p) (fun c =>
      bind (ckm_of ckm p) (fun V => bind (rotate_down V c) (fun c => bind (unscale_dict_wet c) (fun c => Ok (dfilter (fun k _ => kmem k jms) (arrays2wcxf c)))))))) by (rewrite EP; reflexivity).
    rewrite MA, EL. cbn [bind]. unfold match_arrays. rewrite T. cbn [bind].
    assert (X : match dget p "loop_order" with Some x => if Req_EM_T x 1 then bind (subtract_sm (fun C => loop C p scale) C) (dict_map2 np_add t) else Ok t | None => Ok t end = Ok t).
    { destruct (dget p "loop_order") as [x|] eqn:DL; [|reflexivity]. destruct (Req_EM_T x 1) as [EX|_]; [destruct (LO x eq_refl EX)|reflexivity]. }
    rewrite X. cbn [bind]. rewrite CK. cbn [bind]. rewrite ER. cbn [bind]. rewrite EU. cbn [bind]. reflexivity.
  - intros k ts F. destruct (VU k ts F) as (c & HC & L & V). exists c. split; [exact HC|]. split; [exact L|]. intros I HI. cbv zeta.
    rewrite dget_dfilter by exact WU. rewrite (V I HI). rewrite (VR k ts F I HI). reflexivity.
Qed.
End Params.
