(* The matching with loop_order = 1: tree level plus one loop. *)
From Coq Require Import List Bool ZArith Reals Arith Lia Lra Psatz String Ascii Field.
From Verif Require Import PyBase Num Lin SymModel SymClass SymSpec EftModel EftSpec EftProofs EftLabels EftInit BasisProps NpModel NpProofs RealC BetaSpec BetaProofs RotModel RotProps JmsModel BetaModel SmparModel WetModel
  JmsProps EftRound EftRound2 UpProofs UpProps TreeProg TreeModel TreeElem TreeSpec TreeProofs TreeValue TreeHerm TreeRot TreeEw TreeZero TreeMatch
  LoopSyntax LoopData LoopModel LoopSpec LoopProofs LoopPhase LoopDim LoopSym LoopReal TreePhase.
Import ListNotations.
Local Open Scope string_scope.
Local Open Scope list_scope.
Local Open Scope R_scope.

Lemma sym_point (C : cdictR) : wc_symmetric C -> forall k gs g ts, dget symmetries k = Some gs -> In g gs -> dget wc_fields k = Some ts ->
  forall I, In I (idxs (List.length ts)) -> coef C k I = cj (snd g) (coef C k (permute (fst g) I)).
Proof.
  intros S k gs g ts GS HG F I HI. apply (S k gs g GS); [apply kmem_In; apply in_map_iff; exists (k, ts); split; [reflexivity|now apply dget_In]|exact HG|].
  assert (X : forallb (fun kt => keqb (indices_of (fst kt)) (idxs (List.length (snd kt)))) wc_fields = true) by (vm_compute; reflexivity).
  rewrite forallb_forall in X. specialize (X _ (dget_In _ _ _ F)). cbn [fst snd] in X. destruct (keqb_spec (indices_of k) (idxs (List.length ts))) as [->|]; [exact HI|discriminate X].
Qed.
Lemma perm_in k ts gs g I : dget jms_fields k = Some ts -> dget jms_symmetries k = Some gs -> In g gs -> In I (idxs (List.length ts)) -> In (permute (fst g) I) (idxs (List.length ts)).
Proof.
  intros F G HG HI.
  assert (X : forallb (fun kg => match dget jms_fields (fst kg) with Some ts => forallb (fun g => perm_ok (List.length ts) (fst g)) (snd kg) | None => true end) jms_symmetries = true) by (vm_compute; reflexivity).
  rewrite forallb_forall in X. specialize (X _ (dget_In _ _ _ G)). cbn [fst snd] in X. rewrite F, forallb_forall in X. specialize (X g HG).
  unfold perm_ok in X. apply andb_true_iff in X as [X1 X2]. apply Nat.eqb_eq in X1. apply in_idxs in HI as [_ B]. apply in_idxs. split; [unfold permute; now rewrite map_length|].
  intros x Hx. unfold permute in Hx. apply in_map_iff in Hx as (i & <- & _). now apply nth_lt3.
Qed.

Section Match.
Variable ckm : R -> R -> R -> R -> cval CR.
Variables (C : cdictR) (p : params) (mW GF alpha scale : R).
Hypotheses (W : wc_point C) (S : wc_symmetric C) (P : inputs p mW GF alpha) (PH : physical C mW GF alpha) (P0 : physical0 mW GF alpha) (L : loop_inputs ckm p) (N : scale <> 0)
  (NP : forall e, ew_inputs C p = Ok e \/ ew_inputs (zero_of C) p = Ok e -> no_poles (e_mW e) (e_mZ e)).
Lemma loop_match_ok : exists c c0 l, loop_raw ckm C p scale = Ok c /\ loop_raw ckm (zero_of C) p scale = Ok c0 /\
  subtract_sm (fun C => loop_raw ckm C p scale) C = Ok l /\ jms_dict l /\
  (forall k ts, dget jms_fields k = Some ts -> forall I, In I (idxs (List.length ts)) -> coef l k I = (coef c k I - coef c0 k I)%K) /\
  (forall D d, D = C /\ d = c \/ D = zero_of C /\ d = c0 -> exists s v mass, regular s /\ kreal (l_g1 s) /\
     forall k ts, dget jms_fields k = Some ts -> forall I, In I (idxs (List.length ts)) -> coef d k I = floop (lval s) v (fun f i => rc (mass f i)) (coef D) k I).
Proof.
  destruct (loop_raw_ok ckm C p mW GF alpha scale W S P PH L N (fun e E => NP e (or_introl E))) as (s & V & mass & c & RG & RE & _ & E & J & A).
  destruct (loop_raw_ok ckm (zero_of C) p mW GF alpha scale (zero_point C W) (zero_symmetric C) P (physical_zero C mW GF alpha P0) L N (fun e E => NP e (or_intror E)))
    as (s0 & V0 & mass0 & c0 & RG0 & RE0 & _ & E0 & J0 & A0).
  destruct (dict_map2_jms ksub c c0 J J0) as (t & T & JT & VT). exists c, c0, t. split; [exact E|]. split; [exact E0|]. split.
  - unfold subtract_sm. rewrite E. cbn [bind]. fold (zero_of C). rewrite E0. cbn [bind]. exact T.
  - split; [exact JT|]. split; [exact VT|]. intros D d [[-> ->]|[-> ->]]; [exists s, (fun i j => entry V [i; j]), mass|exists s0, (fun i j => entry V0 [i; j]), mass0]; auto.
Qed.
Lemma match_arrays_loop : dget p "loop_order" = Some 1 -> exists t l m, tree_match C p = Ok t /\ subtract_sm (fun C => loop_raw ckm C p scale) C = Ok l /\
  match_arrays (loop_raw ckm) C scale p = Ok m /\ jms_dict m /\
  forall k ts, dget jms_fields k = Some ts -> forall I, In I (idxs (List.length ts)) -> coef m k I = (coef t k I + coef l k I)%K.
Proof.
  intros O. destruct (tree_match_ok C p mW GF alpha W S P PH P0) as (c & c0 & t & _ & _ & T & JT & _). destruct loop_match_ok as (d & d0 & l & _ & _ & EL & JL & _).
  destruct (dict_map2_jms kadd t l JT JL) as (m & M & JM & VM). exists t, l, m. split; [exact T|]. split; [exact EL|]. split; [|split; [exact JM|exact VM]].
  unfold match_arrays. rewrite T. cbn [bind]. rewrite O. destruct (Req_EM_T 1 1) as [_|X]; [|now destruct X]. rewrite EL. cbn [bind]. exact M.
Qed.
Lemma loop_match_sym l k ts gs g : subtract_sm (fun C => loop_raw ckm C p scale) C = Ok l ->
  dget jms_fields k = Some ts -> dget jms_symmetries k = Some gs -> In g gs -> jms_obeys k (List.length ts) g l.
Proof.
  intros E F G HG I HI. destruct loop_match_ok as (c & c0 & l' & _ & _ & E' & _ & A & B). rewrite E in E'. injection E' as <-.
  pose proof (perm_in k ts gs g I F G HG HI) as HP. rewrite (A k ts F I HI), (A k ts F _ HP).
  assert (X : forall D d, D = C /\ d = c \/ D = zero_of C /\ d = c0 -> wc_symmetric D -> coef d k I = cj (snd g) (coef d k (permute (fst g) I))).
  { intros D d H SD. destruct (B D d H) as (s & v & mass & RG & RE & V). rewrite (V k ts F I HI), (V k ts F _ HP).
    apply (floop_sym v (fun f i => rc (mass f i)) (coef D) (sym_point D SD)) with (gs := gs) (ts := ts); auto.
    - apply lval_base, RG.
    - apply lval_sums, RG.
    - intros b. now apply lval_conj. }
  rewrite (X C c) by auto. rewrite (X (zero_of C) c0) by (auto using zero_symmetric). destruct (snd g); cbn [cj]; [|reflexivity]. symmetry. apply kconj_sub.
Qed.
Lemma loop_match_charge l Q : baryon_lepton Q -> conserves Q C -> subtract_sm (fun C => loop_raw ckm C p scale) C = Ok l -> jms_conserves Q l.
Proof.
  intros B CC E k ts I F HI NQ. destruct loop_match_ok as (c & c0 & l' & _ & _ & E' & _ & A & X). rewrite E in E'. injection E' as <-.
  rewrite (A k ts F I HI). destruct (X C c) as (s & v & mass & _ & _ & V); [auto|]. destruct (X (zero_of C) c0) as (s0 & v0 & mass0 & _ & _ & V0); [auto|].
  rewrite (V k ts F I HI), (V0 k ts F I HI). rewrite !(floop_charge _ _ _ _ Q k ts I) by (auto; intros j us J _ _ _; apply coef_zero_of). unfold ksub. cbn. unfold cx_sub. cbn [fst snd]. f_equal; ring.
Qed.
End Match.

(* match_all for any result of match_arrays *)
Lemma match_all_gen all real E jms (defaults : params) ckm loop (d : dict string CR) scale (ps : option params) (p : params) :
  smeft_util all real E -> wfdict d -> (forall k, In k (dkeys d) -> In k all) ->
  p = match ps with Some q => dupdate defaults q | None => defaults end ->
  (exists a b c g, dget p "Vus" = Some a /\ dget p "Vub" = Some b /\ dget p "Vcb" = Some c /\ dget p "gamma" = Some g /\ vshape (ckm a b c g) = [3; 3]%nat) ->
  exists C V, wcxf2arrays_symmetrized E d = Ok C /\ wc_point C /\ wc_symmetric C /\ ckm_of ckm p = Ok V /\
  forall t, match_arrays loop C scale p = Ok t -> jms_dict t -> exists out, match_all E jms defaults ckm loop d scale ps = Ok out /\
    forall k ts, dget jms_fields k = Some ts -> exists c, In c classes8 /\ listed k c /\
      forall I, In I (idxs (List.length ts)) -> let key := match ts with [] => k | _ => label k I end in
        dget out key = if kmem key jms then Some (kZ (Z.of_nat (factor_of c I)) * rotD (fun i j => entry V [i; j]) ts (coef t k) I)%K else None.
Proof.
  intros SU WF HD EP (a & b & c0 & g & D1 & D2 & D3 & D4 & SV). destruct (util_ok all real E SU) as (OK & EA & _).
  destruct (load E OK d WF) as (C & EL & FS); [intros k H; rewrite EA; now apply HD|]. destruct (full_point C FS) as [WP WS].
  assert (CK : ckm_of ckm p = Ok (ckm a b c0 g)) by (unfold ckm_of, getp; rewrite D1, D2, D3, D4; reflexivity).
  exists C, (ckm a b c0 g). split; [exact EL|]. split; [exact WP|]. split; [exact WS|]. split; [exact CK|]. intros t T JT.
  destruct (rotate_dict (ckm a b c0 g) t SV JT) as (r & ER & JR & VR). destruct (output r JR) as (u & EU & WU & VU).
  eexists. split.
  - assert (MA : match_all E jms defaults ckm loop d scale ps = bind (wcxf2arrays_symmetrized E d) (fun C => bind (match_arrays loop C scale p) (fun c =>
      bind (ckm_of ckm p) (fun V => bind (rotate_down V c) (fun c => bind (unscale_dict_wet c) (fun c => Ok (dfilter (fun k _ => kmem k jms) (arrays2wcxf c)))))))) by (rewrite EP; reflexivity).
    rewrite MA, EL. cbn [bind]. rewrite T. cbn [bind]. rewrite CK. cbn [bind]. rewrite ER. cbn [bind]. rewrite EU. cbn [bind]. reflexivity.
  - intros k ts F. destruct (VU k ts F) as (c & HC & L & V). exists c. split; [exact HC|]. split; [exact L|]. intros I HI. cbv zeta.
    rewrite dget_dfilter by exact WU. rewrite (V I HI). rewrite (VR k ts F I HI). reflexivity.
Qed.

(* ---------- phases and charges at tree level ---------- *)
Section TreePhases.
Variables (P : field -> nat -> CR).
Hypothesis UP : forall f, unit_phases (P f).
Variables (C C' : cdictR).
Hypothesis RE : rephased P C C'.
Lemma rephased_0 k : dget wc_fields k = Some [] -> coef C' k [] = coef C k [].
Proof. intros D. rewrite (RE k [] D []) by now left. cbn [phase]. apply kmul_1_l. Qed.
Lemma rephased_2 k f i : dget wc_fields k = Some [(f, true); (f, false)] -> (i < 3)%nat -> coef C' k [i; i] = coef C k [i; i].
Proof.
  intros D H. rewrite (RE k _ D [i; i]) by (apply idxs_2_in; assumption). cbn [phase fst snd cj]. rewrite kmul_assoc. pose proof (UP f i) as U.
  rewrite U. rewrite !kmul_1_l. reflexivity.
Qed.
Lemma rephased_ll i j : (i < 3)%nat -> (j < 3)%nat -> coef C' "ll" [i; j; j; i] = coef C "ll" [i; j; j; i].
Proof.
  intros H1 H2. rewrite (RE "ll" [(Fl, true); (Fl, false); (Fl, true); (Fl, false)] eq_refl [i; j; j; i]).
  - cbn [phase fst snd cj]. pose proof (UP Fl i) as U. pose proof (UP Fl j) as V.
    assert (X : forall a a' b b' z : CR, (a' * a = 1 -> b' * b = 1 -> a' * (b * (b' * (a * 1))) * z = z)%K); [|now apply X].
    clear. intros a a' b b' z A B. transitivity ((a' * a) * (b' * b) * z)%K; [|rewrite A, B, !kmul_1_l; reflexivity]. destruct a, a', b, b', z. cbn. unfold cx_mul. cbn [fst snd]. f_equal; ring.
  - apply in_idxs. split; [reflexivity|]. intros x [<-|[<-|[<-|[<-|[]]]]]; assumption.
Qed.
Lemma rephased_vev GF : GF_sm GF C' = GF_sm GF C.
Proof. unfold GF_sm. rewrite !rephased_ll, !(rephased_2 "phil3" Fl) by (reflexivity || lia). reflexivity. Qed.
Lemma rephased_physical mW GF alpha : physical C mW GF alpha -> physical C' mW GF alpha.
Proof. intros []. split; unfold vev in *; rewrite ?rephased_vev, ?(rephased_0 "phiWB" eq_refl), ?(rephased_0 "phiD" eq_refl) in *; assumption. Qed.
Lemma rephased_g1 mW GF alpha : the_g1 C' mW GF alpha = the_g1 C mW GF alpha.
Proof. unfold the_g1, vev. now rewrite rephased_vev, (rephased_0 "phiWB" eq_refl). Qed.
Lemma rephased_mZ mW GF alpha : the_mZ C' mW GF alpha = the_mZ C mW GF alpha.
Proof. unfold the_mZ. rewrite rephased_g1. unfold vev. now rewrite rephased_vev, (rephased_0 "phiWB" eq_refl), (rephased_0 "phiD" eq_refl). Qed.
Lemma tree_raw_phase p mW GF alpha : wc_point C -> wc_symmetric C -> wc_point C' -> wc_symmetric C' -> inputs p mW GF alpha -> physical C mW GF alpha ->
  exists c c', tree_raw C p = Ok c /\ tree_raw C' p = Ok c' /\
  forall k ts, dget jms_fields k = Some ts -> forall I, In I (idxs (List.length ts)) -> coef c' k I = (jphase P ts I * coef c k I)%K.
Proof.
  intros W S W' S' IN PH. destruct (tree_raw_ok C p mW GF alpha W S IN PH) as (c & E & _ & _ & ZP & VP & A).
  destruct (tree_raw_ok C' p mW GF alpha W' S' IN (rephased_physical _ _ _ PH)) as (c' & E' & _ & _ & _ & _ & A').
  exists c, c'. split; [exact E|]. split; [exact E'|]. intros k ts F I HI. destruct (A k ts F) as (e & T & V). destruct (A' k ts F) as (e' & T' & V'). rewrite T in T'. injection T' as <-.
  rewrite (V I HI), (V' I HI), rephased_g1, rephased_mZ. unfold vev. rewrite rephased_vev. fold (vev GF C). unfold value.
  apply (TreePhase.tree_phase P UP) with (k := k); auto using rc_neq, sqrt2_pos.
  pose proof prog_fields_ok as PF. unfold prog_fields in PF. apply andb_true_iff in PF as [PF _]. rewrite forallb_forall in PF. specialize (PF _ (dget_In _ _ _ F)). cbn [fst snd] in PF.
  rewrite T in PF. destruct (rank_ex ck lk nzv e); [discriminate|discriminate PF].
Qed.
End TreePhases.
Lemma zero_rephased P (C C' : cdictR) : rephased P (zero_of C) (zero_of C').
Proof. intros k ts _ I _. rewrite !coef_zero_of. symmetry. apply kmul_0_r. Qed.
Lemma tree_match_phase P (C C' : cdictR) p mW GF alpha : (forall f, unit_phases (P f)) -> rephased P C C' ->
  wc_point C -> wc_symmetric C -> wc_point C' -> wc_symmetric C' -> inputs p mW GF alpha -> physical C mW GF alpha -> physical0 mW GF alpha ->
  exists t t', tree_match C p = Ok t /\ tree_match C' p = Ok t' /\ jms_dict t /\ jms_dict t' /\
  forall k ts, dget jms_fields k = Some ts -> forall I, In I (idxs (List.length ts)) -> coef t' k I = (jphase P ts I * coef t k I)%K.
Proof.
  intros UP RE W S W' S' IN PH P0. destruct (tree_match_ok C p mW GF alpha W S IN PH P0) as (c & c0 & t & E & E0 & T & J & A).
  destruct (tree_match_ok C' p mW GF alpha W' S' IN (rephased_physical P UP C C' RE _ _ _ PH) P0) as (c' & c0' & t' & E' & E0' & T' & J' & A').
  exists t, t'. split; [exact T|]. split; [exact T'|]. split; [exact J|]. split; [exact J'|]. intros k ts F I HI. rewrite (A k ts F I HI), (A' k ts F I HI).
  destruct (tree_raw_phase P UP C C' RE p mW GF alpha W S W' S' IN PH) as (x & x' & X & X' & B). rewrite E in X. injection X as <-. rewrite E' in X'. injection X' as <-.
  destruct (tree_raw_phase P UP (zero_of C) (zero_of C') (zero_rephased P C C') p mW GF alpha (zero_point C W) (zero_symmetric C) (zero_point C' W') (zero_symmetric C') IN (physical_zero C mW GF alpha P0))
    as (y & y' & Y & Y' & B0). rewrite E0 in Y. injection Y as <-. rewrite E0' in Y'. injection Y' as <-.
  rewrite (B k ts F I HI), (B0 k ts F I HI). generalize (coef c k I) (coef c0 k I) (jphase P ts I). intros [a1 a2] [b1 b2] [z1 z2]. cbn. unfold cx_sub, cx_mul. cbn [fst snd]. f_equal; ring.
Qed.
Lemma charge_rephased th Q C : conserves Q C -> rephased (fun f i => uphase th (Q f i)) C C.
Proof.
  intros CC k ts F I HI. rewrite phase_charge. destruct (Z.eq_dec (charge_of Q ts I) 0) as [E|NE]; [rewrite E, uphase_0; symmetry; apply kmul_1_l|].
  rewrite (CC k ts I F HI NE). symmetry. apply kmul_0_r.
Qed.
Lemma half_zero Q ts I (z : CR) : jcharge Q ts I <> 0%Z -> z = (jphase (fun f i => uphase (PI / IZR (jcharge Q ts I)) (Q f i)) ts I * z)%K -> z = 0%K.
Proof.
  intros N. unfold jphase. rewrite phase_charge. fold (jcharge Q ts I). rewrite half_turn by exact N. destruct z as [a b]. cbn. unfold cx_mul. cbn [fst snd rc]. intros [= E1 E2]. f_equal; lra.
Qed.
Lemma tree_match_charge Q (C : cdictR) p mW GF alpha t : wc_point C -> wc_symmetric C -> inputs p mW GF alpha -> physical C mW GF alpha -> physical0 mW GF alpha ->
  conserves Q C -> tree_match C p = Ok t -> jms_conserves Q t.
Proof.
  intros W S IN PH P0 CC T k ts I F HI N. apply (half_zero Q ts I _ N). set (th := PI / IZR (jcharge Q ts I)).
  destruct (tree_match_phase (fun f i => uphase th (Q f i)) C C p mW GF alpha (fun f i => uphase_unit _ _) (charge_rephased th Q C CC) W S W S IN PH P0) as (x & x' & X & X' & _ & _ & B).
  rewrite T in X, X'. injection X as <-. injection X' as <-. exact (B k ts F I HI).
Qed.
(* the rotation of the down quarks keeps universal charges *)
Lemma rotD_charge Q (V : nat -> nat -> CR) ts : (exists b, forall i, Q Fq i = b) -> forall f I, In I (idxs (List.length ts)) ->
  (forall J, In J (idxs (List.length ts)) -> jcharge Q ts J = jcharge Q ts I -> f J = 0%K) -> rotD V ts f I = 0%K.
Proof.
  intros (b & HB). induction ts as [|[w cc] ts IH]; intros f I HI H.
  - destruct HI as [<-|[]]. cbn [rotD]. apply H; [now left|reflexivity].
  - pose proof HI as HI'. apply in_idxs in HI' as [L B]. destruct I as [|i I]; [discriminate L|]. injection L as L.
    assert (Hi : (i < 3)%nat) by (apply B; now left). assert (HT : In I (idxs (List.length ts))) by (apply in_idxs; split; [exact L|intros x X; apply B; now right]).
    assert (IN : forall j J, (j < 3)%nat -> In J (idxs (List.length ts)) -> In (j :: J) (idxs (List.length ((w, cc) :: ts)))).
    { intros j J Hj HJ. apply in_idxs in HJ as [LJ BJ]. apply in_idxs. split; [cbn; now rewrite LJ|]. intros x [<-|X]; auto. }
    assert (G : forall j, (j < 3)%nat -> (w = DL \/ j = i) -> rotD V ts (fun J => f (j :: J)) I = 0%K).
    { intros j Hj OR. apply IH; [exact HT|]. intros J HJ E. apply H; [now apply IN|]. unfold jcharge in *. cbn [map charge_of fst snd]. fold (charge_of Q). rewrite E. f_equal.
      destruct OR as [-> | ->]; [|reflexivity]. cbn [multiplet]. now rewrite !HB. }
    destruct w; cbn [rotD]; try (apply G; auto; fail).
    apply ksum_zero. intros j J. apply in_seq in J. rewrite G by (auto; lia). apply kmul_0_r.
Qed.
