(* One-loop matching from the SMEFT to the WET (match/smeft_loop.py), and conserved charges of the
   matching.
   C64: the one-loop matching is defined, covariant under changes of the phases of the fermion
        fields, independent of the units of mass, and gives coefficients with the symmetries of
        the WET operators.
   C65: the matching at tree level and one loop conserves lepton flavour and baryon number. *)
From Coq Require Import List Bool ZArith Reals Arith Lia Lra Psatz String Ascii Field.
From Verif Require Import PyBase Num Lin SimProofs SymModel SymClass SymSpec EftModel EftSpec EftProofs EftLabels EftInit BasisProps NpModel NpProofs RealC BetaSpec BetaProofs RotModel RotProps JmsModel BetaModel SmparModel WetModel
  JmsProps EftRound EftRound2 UpProofs UpProps TreeProg TreeModel TreeElem TreeSpec TreeProofs TreeValue TreeHerm TreeRot TreeEw TreeZero TreeMatch TreeProps
  LoopSyntax LoopData LoopModel LoopSpec LoopProofs LoopPhase LoopDim LoopSym LoopReal TreePhase LoopMatch.
Import ListNotations.
Local Open Scope string_scope.
Local Open Scope list_scope.
Local Open Scope R_scope.

(* ---------- C64 ---------- *)
(* all coefficients of the WET are computed, for every point where no propagator has a pole *)
Theorem C64_total : forall s V v mass (C : cdictR), regular s -> matrix3 V v -> wc_point C -> exists c, loop_pt s V mass C = Ok c /\ jms_point c.
Proof. intros s V v mass C RG HV W. destruct (loop_pt_ok s V v mass C RG HV W) as (c & E & (_ & _ & J) & _). eauto. Qed.

(* P are the phases of q, u, d, l, e (the top quark is a mass eigenstate: q_3 and u_3 have the
   same phase), B those of the down quarks d_L *)
Theorem C64_phases : forall P B s V V' v v' mass (C C' : cdictR),
  (forall f, unit_phases (P f)) -> unit_phases B -> P Fq 2%nat = P Fu 2%nat ->
  invariant_masses P B (fun f i => rc (mass f i)) -> matrix3 V v -> matrix3 V' v' -> rephased_ckm P B v v' ->
  regular s -> wc_point C -> wc_point C' -> rephased P C C' ->
  exists c c', loop_pt s V mass C = Ok c /\ loop_pt s V' mass C' = Ok c' /\
  forall k ts, dget jms_fields k = Some ts -> forall I, In I (all_indices (repeat 3%nat (List.length ts))) -> coef c' k I = (jphase P ts I * coef c k I)%K.
Proof.
  intros P B s V V' v v' mass C C' UP UB TOP IM HV HV' RV RG W W' RE.
  destruct (loop_pt_ok s V v mass C RG HV W) as (c & E & _ & A). destruct (loop_pt_ok s V' v' mass C' RG HV' W') as (c' & E' & _ & A').
  exists c, c'. split; [exact E|]. split; [exact E'|]. intros k ts F I HI. rewrite (A k ts F I HI), (A' k ts F I HI).
  now apply (floop_phase (lval s) P B v v' _ (coef C) (coef C') k ts I).
Qed.

(* masses, the vacuum expectation value and the scale multiplied by x, the coefficients divided by x^2 *)
Theorem C64_units : forall x s V v mass (C C' : cdictR), 0 < x -> regular s -> matrix3 V v -> wc_point C -> wc_point C' ->
  (forall k ts, dget wc_fields k = Some ts -> forall I, In I (all_indices (repeat 3%nat (List.length ts))) -> coef C' k I = (rc (/ x ^ 2) * coef C k I)%K) ->
  exists c c', loop_pt s V mass C = Ok c /\ loop_pt (in_units x s) V (fun f i => x * mass f i) C' = Ok c' /\
  forall k ts, dget jms_fields k = Some ts -> forall I, In I (all_indices (repeat 3%nat (List.length ts))) -> coef c' k I = (rc (jms_power x ts) * coef c k I)%K.
Proof.
  intros x s V v mass C C' X RG HV W W' HC. pose proof (units_regular x s X RG) as RG'.
  destruct (loop_pt_ok s V v mass C RG HV W) as (c & E & _ & A). destruct (loop_pt_ok (in_units x s) V v (fun f i => x * mass f i) C' RG' HV W') as (c' & E' & _ & A').
  exists c, c'. split; [exact E|]. split; [exact E'|]. intros k ts F I HI. rewrite (A k ts F I HI), (A' k ts F I HI), <- (kdim_power x ts X).
  apply (floop_scale (rc x) (rc_neq x X) (lval s) (lval (in_units x s)) (lval_base s RG) (lval_sums s RG) (fun b => lval_units x s b X RG) v (fun f i => rc (mass f i))); auto.
  - intros f i. rewrite rc_mul. f_equal. cbn [zpw]. change (Pos.to_nat 1) with 1%nat. rewrite <- rc_pow. f_equal. ring.
  - intros j us G J HJ. rewrite (HC j us G J HJ). f_equal. symmetry. exact (kdim_power x [] X).
  - apply rc_real.
Qed.

Theorem C64_symmetries : forall s V v mass (C : cdictR), regular s -> kreal (l_g1 s) -> matrix3 V v -> wc_point C -> wc_symmetric C ->
  exists c, loop_pt s V mass C = Ok c /\
  forall k ts gs g, dget jms_fields k = Some ts -> dget jms_symmetries k = Some gs -> In g gs -> jms_obeys k (List.length ts) g c.
Proof.
  intros s V v mass C RG RE HV W S. destruct (loop_pt_ok s V v mass C RG HV W) as (c & E & _ & A). exists c. split; [exact E|].
  intros k ts gs g F G HG I HI. pose proof (perm_in k ts gs g I F G HG HI) as HP. rewrite (A k ts F I HI), (A k ts F _ HP).
  apply (floop_sym v (fun f i => rc (mass f i)) (coef C) (sym_point C S)) with (gs := gs) (ts := ts); auto.
  - apply lval_base, RG.
  - apply lval_sums, RG.
  - intros b. now apply lval_conj.
Qed.

(* loop_order = 1: the sum of tree level and one loop is defined and has the symmetries *)
Theorem C64_match : forall ckm (C : cdictR) (p : params) mW GF alpha scale,
  wc_point C -> wc_symmetric C -> inputs p mW GF alpha -> physical C mW GF alpha -> physical0 mW GF alpha -> loop_inputs ckm p -> scale <> 0 ->
  (forall e, ew_inputs C p = Ok e \/ ew_inputs (zero_of C) p = Ok e -> no_poles (e_mW e) (e_mZ e)) -> dget p "loop_order" = Some 1 ->
  exists t c c0 m, tree_match C p = Ok t /\ loop_raw ckm C p scale = Ok c /\ loop_raw ckm (zero_of C) p scale = Ok c0 /\
  match_arrays (loop_raw ckm) C scale p = Ok m /\ jms_point m /\
  (forall k ts I, dget jms_fields k = Some ts -> In I (all_indices (repeat 3%nat (List.length ts))) -> coef m k I = (coef t k I + (coef c k I - coef c0 k I))%K) /\
  (forall k ts gs g, dget jms_fields k = Some ts -> dget jms_symmetries k = Some gs -> In g gs -> jms_obeys k (List.length ts) g m).
Proof.
  intros ckm C p mW GF alpha scale W S IN PH P0 L N NP O.
  destruct (match_arrays_loop ckm C p mW GF alpha scale W S IN PH P0 L N NP O) as (t & l & m & T & EL & M & JM & A).
  destruct (loop_match_ok ckm C p mW GF alpha scale W S IN PH P0 L N NP) as (c & c0 & l' & E & E0 & EL' & _ & B & _). rewrite EL in EL'. injection EL' as <-.
  exists t, c, c0, m. do 4 (split; [assumption|]). split; [exact (proj2 (proj2 JM))|]. split.
  - intros k ts I F HI. rewrite (A k ts F I HI). f_equal. exact (B k ts F I HI).
  - intros k ts gs g F G HG I HI. pose proof (perm_in k ts gs g I F G HG HI) as HP. rewrite (A k ts F I HI), (A k ts F _ HP).
    destruct (C59_symmetries C p mW GF alpha W S IN PH P0) as (t' & T' & _ & ST). rewrite T in T'. injection T' as <-.
    rewrite (ST k ts gs g F G HG I HI), (loop_match_sym ckm C p mW GF alpha scale W S IN PH P0 L N NP l k ts gs g EL F G HG I HI).
    destruct (snd g); cbn [cj]; [|reflexivity]. symmetry. apply kconj_add.
Qed.

(* ---------- C65 ---------- *)
(* tree level: any phases of the fermion fields *)
Theorem C65_tree_phases : forall P (C C' : cdictR) (p : params) mW GF alpha, (forall f, unit_phases (P f)) -> rephased P C C' ->
  wc_point C -> wc_symmetric C -> wc_point C' -> wc_symmetric C' -> inputs p mW GF alpha -> physical C mW GF alpha -> physical0 mW GF alpha ->
  exists t t', tree_match C p = Ok t /\ tree_match C' p = Ok t' /\
  forall k ts, dget jms_fields k = Some ts -> forall I, In I (all_indices (repeat 3%nat (List.length ts))) -> coef t' k I = (jphase P ts I * coef t k I)%K.
Proof.
  intros P C C' p mW GF alpha UP RE W S W' S' IN PH P0. destruct (tree_match_phase P C C' p mW GF alpha UP RE W S W' S' IN PH P0) as (t & t' & T & T' & _ & _ & A). eauto.
Qed.
(* tree level: any charges of the fermion fields *)
Theorem C65_tree_charges : forall Q (C : cdictR) (p : params) mW GF alpha, wc_point C -> wc_symmetric C -> inputs p mW GF alpha -> physical C mW GF alpha -> physical0 mW GF alpha ->
  conserves Q C -> exists t, tree_match C p = Ok t /\ jms_conserves Q t.
Proof.
  intros Q C p mW GF alpha W S IN PH P0 CC. destruct (tree_match_ok C p mW GF alpha W S IN PH P0) as (_ & _ & t & _ & _ & T & _). exists t. split; [exact T|].
  exact (tree_match_charge Q C p mW GF alpha t W S IN PH P0 CC T).
Qed.
(* one loop: lepton flavour and baryon number *)
Theorem C65_loop_charges : forall Q s V v mass (C : cdictR), regular s -> matrix3 V v -> wc_point C -> baryon_lepton Q -> conserves Q C ->
  exists c, loop_pt s V mass C = Ok c /\ jms_conserves Q c.
Proof.
  intros Q s V v mass C RG HV W B CC. destruct (loop_pt_ok s V v mass C RG HV W) as (c & E & _ & A). exists c. split; [exact E|].
  intros k ts I F HI N. rewrite (A k ts F I HI). now apply (floop_charge (lval s) v _ C Q k ts I).
Qed.
(* match_all: if the coefficients of all operators that violate the charge Q vanish, so do those of
   the matched coefficients; at tree level and with loop_order = 1 *)
Theorem C65_match_all : forall all real E jms (defaults : params) ckm (d : dict string CR) scale (ps : option params) (p : params) mW GF alpha Q,
  smeft_util all real E -> wfdict d -> (forall k, In k (dkeys d) -> In k all) ->
  p = match ps with Some q => dupdate defaults q | None => defaults end ->
  inputs p mW GF alpha -> physical0 mW GF alpha ->
  (exists a b c g, dget p "Vus" = Some a /\ dget p "Vub" = Some b /\ dget p "Vcb" = Some c /\ dget p "gamma" = Some g /\ vshape (ckm a b c g) = [3; 3]%nat) ->
  baryon_lepton Q ->
  exists C, wcxf2arrays_symmetrized E d = Ok C /\
  (physical C mW GF alpha -> conserves Q C ->
   (dget p "loop_order" = Some 1 -> loop_inputs ckm p /\ scale <> 0 /\
      forall e, ew_inputs C p = Ok e \/ ew_inputs (zero_of C) p = Ok e -> no_poles (e_mW e) (e_mZ e)) ->
   exists out, match_all E jms defaults ckm (loop_raw ckm) d scale ps = Ok out /\
     forall k ts I, dget jms_fields k = Some ts -> In I (all_indices (repeat 3%nat (List.length ts))) ->
       let key := match ts with [] => k | _ => label k I end in
       (In key jms <-> dget out key <> None) /\ (jcharge Q ts I <> 0%Z -> forall z, dget out key = Some z -> z = 0%K)).
Proof.
  intros all real E jms defaults ckm d scale ps p mW GF alpha Q SU WF HD EP IN P0 CK B.
  destruct (match_all_gen all real E jms defaults ckm (loop_raw ckm) d scale ps p SU WF HD EP CK) as (C & V & EL & W & S & _ & H). exists C. split; [exact EL|]. intros PH CC LO.
  assert (X : exists m, match_arrays (loop_raw ckm) C scale p = Ok m /\ jms_dict m /\ jms_conserves Q m).
  { destruct (tree_match_ok C p mW GF alpha W S IN PH P0) as (_ & _ & t & _ & _ & T & JT & _). pose proof (tree_match_charge Q C p mW GF alpha t W S IN PH P0 CC T) as CT.
    assert (TR : (dget p "loop_order" = Some 1) \/ match_arrays (loop_raw ckm) C scale p = Ok t).
    { unfold match_arrays. rewrite T. cbn [bind]. destruct (dget p "loop_order") as [x|] eqn:DL; [|now right]. destruct (Req_EM_T x 1) as [->|_]; [now left|now right]. }
    destruct TR as [O|TR]; [|exists t; auto]. destruct (LO O) as (L & N & NP).
    destruct (match_arrays_loop ckm C p mW GF alpha scale W S IN PH P0 L N NP O) as (t' & l & m & T' & E' & M & JM & A). rewrite T in T'. injection T' as <-.
    pose proof (loop_match_charge ckm C p mW GF alpha scale W S IN PH P0 L N NP l Q B CC E') as CL.
    exists m. split; [exact M|]. split; [exact JM|]. intros k ts I F HI NQ. rewrite (A k ts F I HI), (CT k ts I F HI NQ), (CL k ts I F HI NQ). apply kadd_0_r. }
  destruct X as (m & M & JM & CM). destruct (H m M JM) as (out & EO & A). exists out. split; [exact EO|]. intros k ts I F HI key.
  destruct (A k ts F) as (c & _ & _ & VA). specialize (VA I HI). cbv zeta in VA. fold key in VA. split.
  - rewrite VA. destruct (kmem key jms) eqn:KM; [apply kmem_In in KM; split; [intros _; discriminate|intros _; exact KM]|]. apply kmem_nIn in KM. split; [intros X; contradiction|congruence].
  - intros NQ z D. rewrite VA in D. destruct (kmem key jms); [|discriminate D]. injection D as <-.
    rewrite (rotD_charge Q (fun i j => entry V [i; j]) ts) with (I := I); [exact (kmul_0_r (K := CR) _)| |exact HI|].
    + destruct B as [_ (b & HB)]. exists b. intros i. apply HB.
    + intros J HJ EQ. apply (CM k ts J F HJ). now rewrite EQ.
Qed.

(* ---------- the hypotheses are met ---------- *)
Definition ex_pt (k : string) (I : idx) : CR :=
  if keqb k "Gtilde" then 1%K else if keqb k "uG" && keqb I [2; 2]%nat then 1%K else if keqb k "eB" && keqb I [1; 1]%nat then 1%K else 0%K.
Definition ex_s : lpar := {| l_mW := 80; l_mZ := 91; l_mH := 125; l_mt := 173; l_vT := 246; l_g1 := rc (1 / 3); l_g2 := 2 / 3; l_g3 := 1; l_scale := 91 |}.
Definition ex_V : cval CR := CArr [3; 3]%nat (fun I => match I with [i; j] => if Nat.eqb i j then 1%K else 0%K | _ => 0%K end).
Lemma ex_regular : regular ex_s. Proof. split; cbn; lra. Qed.
Lemma ex_matrix : matrix3 ex_V (fun i j => delta i j). Proof. split; [reflexivity|]. intros i j _ _. reflexivity. Qed.
Lemma ex_other k J : k <> "Gtilde" -> k <> "uG" -> k <> "eB" -> coef (point ex_pt) k J = 0%K.
Proof.
  intros N1 N2 N3. unfold coef. rewrite dget_point. unfold ex_pt. destruct (keqb_spec k "Gtilde"); [congruence|]. destruct (keqb_spec k "uG"); [congruence|].
  destruct (keqb_spec k "eB"); [congruence|]. cbn [andb]. destruct (dget wc_fields k) as [[|]|]; reflexivity.
Qed.
Lemma ex_symmetric : wc_symmetric (point ex_pt).
Proof.
  intros k gs g S M IG I HI. destruct (keqb_spec k "Gtilde") as [->|N1].
  { cbn in S. injection S as <-. destruct IG as [<-|[]]. cbn in HI. destruct HI as [<-|[]]. vm_compute. f_equal. symmetry. apply Ropp_0. }
  rewrite !ex_other; try exact N1; try (intros ->; discriminate S). destruct (snd g); cbn [cj]; [now rewrite kconj_0|reflexivity].
Qed.
(* the muon number *)
Definition muon_number (f : field) (i : nat) : Z := match f with Fl | Fe => if Nat.eqb i 1 then 1%Z else 0%Z | _ => 0%Z end.
Lemma ex_conserves : conserves muon_number (point ex_pt).
Proof.
  intros k ts I F HI NQ. destruct (keqb_spec k "Gtilde") as [->|N1]; [injection F as <-; destruct HI as [<-|[]]; now destruct NQ|].
  destruct (keqb_spec k "uG") as [->|N2]; [injection F as <-; destruct (in_idxs_2 I HI) as (i & j & -> & _); exfalso; apply NQ; reflexivity|].
  destruct (keqb_spec k "eB") as [->|N3]; [|now apply ex_other].
  injection F as <-. destruct (in_idxs_2 I HI) as (i & j & -> & Hi & Hj). rewrite (coef_point ex_pt "eB" [i; j] [bar Fl; pln Fe] eq_refl eq_refl).
  destruct i as [|[|[|]]]; [..|lia]; (destruct j as [|[|[|]]]; [..|lia]); (reflexivity || (exfalso; apply NQ; reflexivity)).
Qed.
Section Value.
Let K := CR.
Add Field KFlp : (k_field K) (morphism (kZ_morph (K := K)), constants [kz_const]).
Lemma kZ_rc z : kZ (K := CR) z = rc (IZR z).
Proof. destruct z as [|q|q]; [reflexivity|exact (kpos_rc q)|]. change (kZ (K := CR) (Zneg q)) with (- kpos (K := CR) q)%K. rewrite kpos_rc, <- rc_opp. f_equal. Qed.
Lemma gtilde_value (L P t v r i : K) :
  ((kZ (-1) / kZ 16 * (1 * (1 * 1) * (1 / (P * (P * 1)) * (L * 1 * 1)) * 1) + 0) * 1 * 1 +
   ((kZ 1 / kZ 96 * (1 / (t * 1) * (v * 1 * (1 * (1 * 1) * (1 / (P * (P * 1)) * (1 / (r * 1) * (i * 1 * 1))))) * 1) + 0) * 1 * (0 * (0 * 1) + (0 * (0 * 1) + (1 * (1 * 1) + 0))) +
    ((kZ (-1) / kZ 96 * (1 / (t * 1) * (v * 1 * (1 * (1 * 1) * (1 / (P * (P * 1)) * (1 / (r * 1) * (i * 1 * 1))))) * 1) + 0) * 1 * (0 * (0 * 1) + (0 * (0 * 1) + (1 * (1 * 1) + 0))) + 0)) =
   kZ (-1) / kZ 16 * (L / (P * P)))%K.
Proof.
  set (y := (v * 1 * (1 * (1 * 1) * (1 / (P * (P * 1)) * (1 / (r * 1) * (i * 1 * 1)))))%K). clearbody y. rewrite !kdiv_def. replace (P * (P * 1))%K with (P * P)%K by ring.
  replace (kZ (K := K) (-1) * kinv (kZ (K := K) 96))%K with (- (kZ (K := K) 1 * kinv (kZ (K := K) 96)))%K by (change (kZ (K := K) (-1)) with (- k1 (s := K))%K; change (kZ (K := K) 1) with (k1 (s := K)); ring). ring.
Qed.
End Value.
(* the CP-odd three-gluon operator: a nonzero correction *)
Example C64_case : regular ex_s /\ kreal (l_g1 ex_s) /\ matrix3 ex_V (fun i j => delta i j) /\ wc_point (point ex_pt) /\ wc_symmetric (point ex_pt) /\
  baryon_lepton muon_number /\ conserves muon_number (point ex_pt) /\
  (exists ts I, dget jms_fields "VeeLR" = Some ts /\ In I (all_indices (repeat 3%nat (List.length ts))) /\ jcharge muon_number ts I <> 0%Z) /\
  exists c, loop_pt ex_s ex_V (fun _ _ => 1) (point ex_pt) = Ok c /\ coef c "Gtilde" [] = rc (- ln (91 ^ 2 / 173 ^ 2) / (16 * PI ^ 2)) /\ coef c "Gtilde" [] <> 0%K.
Proof.
  split; [exact ex_regular|]. split; [apply rc_real|]. split; [exact ex_matrix|]. split; [apply point_wc|]. split; [exact ex_symmetric|].
  split; [split; [reflexivity|exists 0%Z; auto]|]. split; [exact ex_conserves|].
  split; [exists [bar_ EL; fld_ EL; bar_ ER; fld_ ER], [1; 0; 0; 0]%nat; split; [reflexivity|split; [apply kmem_In; vm_compute; reflexivity|discriminate]]|].
  destruct (loop_pt_ok ex_s ex_V _ (fun _ _ => 1) (point ex_pt) ex_regular ex_matrix (point_wc _)) as (c & E & _ & A). exists c. split; [exact E|].
  pose proof PI_RGT_0 as PP.
  assert (X : coef c "Gtilde" [] = rc (- ln (91 ^ 2 / 173 ^ 2) / (16 * PI ^ 2))).
  { rewrite (A "Gtilde" [] eq_refl []) by now left. set (b := lval ex_s). cbv -[b point ex_pt coef rc PI ln pow Rdiv Rmult Ropp Rinv IZR Rplus kZ kadd kmul ksub kopp kdiv kinv kconj k0 k1 car CR].
    rewrite (coef_point ex_pt "Gtilde" [] [] eq_refl eq_refl), (coef_point ex_pt "uG" [0; 0]%nat [bar Fq; pln Fu] eq_refl eq_refl), (coef_point ex_pt "uG" [1; 1]%nat [bar Fq; pln Fu] eq_refl eq_refl), (coef_point ex_pt "uG" [2; 2]%nat [bar Fq; pln Fu] eq_refl eq_refl).
    change (ex_pt "Gtilde" []) with (@k1 CR). change (ex_pt "uG" [0; 0]%nat) with (@k0 CR). change (ex_pt "uG" [1; 1]%nat) with (@k0 CR). change (ex_pt "uG" [2; 2]%nat) with (@k1 CR).
    rewrite kconj_1, kconj_0. change (b Bg3) with (@k1 CR). change (b Bpi) with (rc PI). change (b Blt) with (rc (ln (91 ^ 2 / 173 ^ 2))).
    replace (rc (- ln (91 ^ 2 / 173 ^ 2) / (16 * PI ^ 2))) with (kZ (K := CR) (-1) / kZ 16 * (rc (ln (91 ^ 2 / 173 ^ 2)) / (rc PI * rc PI)))%K.
    - apply gtilde_value.
    - rewrite !kZ_rc, <- rc_mul, <- !rc_div, <- rc_mul by nra. f_equal. field. lra. }
  split; [exact X|]. rewrite X. intros Z. apply rc_inj in Z.
  assert (L : ln (91 ^ 2 / 173 ^ 2) < 0) by (rewrite <- ln_1; apply ln_increasing; lra).
  assert (0 < - ln (91 ^ 2 / 173 ^ 2) / (16 * PI ^ 2)) by (apply Rdiv_lt_0_compat; [lra|nra]). lra.
Qed.

(* phases 1, i, -1 of the three generations and a dipole coefficient with different flavours *)
Definition ex_P (f : field) (i : nat) : CR := match i with 0%nat => 1%K | 1%nat => (ki (s := CR))%K | 2%nat => (kopp (k1 (s := CR))) | _ => 1%K end.
Definition ex_dip (k : string) (I : idx) : CR := if keqb k "uG" && keqb I [0; 1]%nat then 1%K else 0%K.
Definition turned (f : string -> idx -> CR) (k : string) (I : idx) : CR := match dget wc_fields k with Some ts => (phase ex_P ts I * f k I)%K | None => 0%K end.
Definition ex_V' : cval CR := CArr [3; 3]%nat (fun I => match I with [i; a] => ((ex_P Fq i)^* * ex_P Fd a * entry ex_V [i; a])%K | _ => 0%K end).
Lemma ex_unit f : unit_phases (ex_P f).
Proof. intros i. destruct i as [|[|[|]]]; cbn; unfold cx_conj, cx_mul, cx_opp; cbn [fst snd]; f_equal; ring. Qed.
Lemma ex_turned f : rephased ex_P (point f) (point (turned f)).
Proof.
  intros k ts F I HI. apply in_idxs in HI as [L _]. rewrite !(coef_point _ k I ts F L). unfold turned. now rewrite F.
Qed.
Example C64_phases_case :
  (forall f, unit_phases (ex_P f)) /\ unit_phases (ex_P Fd) /\ ex_P Fq 2%nat = ex_P Fu 2%nat /\ invariant_masses ex_P (ex_P Fd) (fun _ _ => rc 1) /\
  matrix3 ex_V (fun i j => entry ex_V [i; j]) /\ matrix3 ex_V' (fun i j => entry ex_V' [i; j]) /\ rephased_ckm ex_P (ex_P Fd) (fun i j => entry ex_V [i; j]) (fun i j => entry ex_V' [i; j]) /\
  regular ex_s /\ wc_point (point ex_dip) /\ wc_point (point (turned ex_dip)) /\ rephased ex_P (point ex_dip) (point (turned ex_dip)) /\
  coef (point ex_dip) "uG" [0; 1]%nat = 1%K /\ coef (point (turned ex_dip)) "uG" [0; 1]%nat = ki (s := CR).
Proof.
  split; [exact ex_unit|]. split; [exact (ex_unit Fd)|]. split; [reflexivity|]. split.
  - assert (X : forall f g i, ((ex_P f i)^* * ex_P g i * rc 1)%K = rc 1) by (intros f g i; change (ex_P g i) with (ex_P f i); rewrite (ex_unit f i); apply kmul_1_l).
    intros i _. auto.
  - split; [split; auto|]. split; [split; auto|]. split; [intros i a _ _; reflexivity|]. split; [exact ex_regular|]. split; [apply point_wc|]. split; [apply point_wc|]. split; [apply ex_turned|].
    split; [reflexivity|]. cbn. unfold cx_conj, cx_mul. cbn [fst snd]. f_equal; ring.
Qed.
(* GeV and 2 GeV *)
Example C64_units_case : 0 < 2 /\ regular ex_s /\ matrix3 ex_V (fun i j => delta i j) /\ wc_point (point ex_pt) /\ wc_point (point (fun k I => rc (/ 2 ^ 2) * ex_pt k I)%K) /\
  (forall k ts, dget wc_fields k = Some ts -> forall I, In I (all_indices (repeat 3%nat (List.length ts))) ->
    coef (point (fun k I => rc (/ 2 ^ 2) * ex_pt k I)%K) k I = (rc (/ 2 ^ 2) * coef (point ex_pt) k I)%K).
Proof.
  split; [lra|]. split; [exact ex_regular|]. split; [exact ex_matrix|]. split; [apply point_wc|]. split; [apply point_wc|].
  intros k ts F I HI. apply in_idxs in HI as [L _]. now rewrite !(coef_point _ k I ts F L).
Qed.
(* all hypotheses of C64_match and C65 *)
Definition ex_lp : params := ex_p ++ [("m_u", 2 / 1000); ("m_c", 1); ("m_t", 173); ("m_d", 5 / 1000); ("m_s", 1 / 10); ("m_b", 4); ("m_e", 5 / 10000); ("m_mu", 1 / 10); ("m_tau", 17 / 10);
  ("alpha_s", 118 / 1000); ("loop_order", 1)].
Lemma ex_poles (C : cdictR) e : wc_point C -> wc_symmetric C -> coef C "phiWB" [] = 0%K -> coef C "phiD" [] = 0%K -> GF_sm (1 / 100000) C = 1 / 100000 ->
  ew_inputs C ex_lp = Ok e -> no_poles (e_mW e) (e_mZ e).
Proof.
  intros W S HB HD G. destruct ex_inputs as [_ P0].
  assert (PH : physical C 80 (1 / 100000) (1 / 128)) by (apply physical_more; auto; rewrite G; lra).
  destruct (ew_ok C ex_lp 80 (1 / 100000) (1 / 128) W S) as (E & Z & VP); [repeat split|exact PH|]. rewrite E. intros [= <-]. cbn [e_mW e_mZ].
  pose proof (ph_e _ _ _ _ PH) as HE. pose proof (vev_sq (1 / 100000) C (ph_F _ _ _ _ PH)) as VS. rewrite G in VS. revert Z HE. rewrite HB, HD. change (fst (0%K : CR)) with 0.
  unfold mZ2_of, g1_of. set (v := vev (1 / 100000) C) in *. intros Z HE.
  assert (EE : (e_of (1 / 128)) ^ 2 = 4 * PI * (1 / 128)) by (apply pow2_sqrt; pose proof PI_RGT_0; lra).
  assert (S1 : 14 / 10 < sqrt 2). { replace (14 / 10) with (sqrt ((14 / 10) * (14 / 10))) by (apply sqrt_square; lra). apply sqrt_lt_1; lra. }
  assert (GG : (g2_of 80 v) ^ 2 = 25600 * (sqrt 2 / 100000)).
  { unfold g2_of. replace ((2 * 80 / v) ^ 2) with (25600 * / (v ^ 2)) by (field; lra). rewrite VS. field. lra. }
  set (a := e_of (1 / 128)) in *. set (g := g2_of 80 v) in *.
  match goal with |- no_poles 80 ?m => assert (M : m ^ 2 = 6400 * (g ^ 2 / (g ^ 2 - a ^ 2))) end.
  { rewrite pow2_sqrt.
    - assert (Q : 0 < sqrt (g ^ 2 - a ^ 2)) by (apply sqrt_lt_R0; lra). assert (Q2 : sqrt (g ^ 2 - a ^ 2) ^ 2 = g ^ 2 - a ^ 2) by (apply pow2_sqrt; lra).
      replace (0 * (v * (v * 1))) with 0 by ring. replace ((a * g / sqrt (g ^ 2 - a ^ 2) + a ^ 2 * g / (g ^ 2 - a ^ 2) * 0) ^ 2 + g ^ 2) with (g ^ 2 * g ^ 2 / (g ^ 2 - a ^ 2)).
      + transitivity ((v * g) ^ 2 / 4 * (g ^ 2 / (g ^ 2 - a ^ 2))); [field; lra|]. replace (v * g) with 160 by (unfold g, g2_of; field; lra). field. lra.
      + replace ((a * g / sqrt (g ^ 2 - a ^ 2) + a ^ 2 * g / (g ^ 2 - a ^ 2) * 0) ^ 2) with (a ^ 2 * g ^ 2 / sqrt (g ^ 2 - a ^ 2) ^ 2) by (field; lra). rewrite Q2. field. lra.
    - left. apply sqrt_lt_0_alt. rewrite sqrt_0. exact Z. }
  pose proof PI_4. pose proof PI_RGT_0.
  assert (B1 : 1 < g ^ 2 / (g ^ 2 - a ^ 2)) by (apply (Rmult_lt_reg_r (g ^ 2 - a ^ 2)); [lra|unfold Rdiv; rewrite Rmult_assoc, Rinv_l; lra]).
  assert (B2 : g ^ 2 / (g ^ 2 - a ^ 2) < 2) by (apply (Rmult_lt_reg_r (g ^ 2 - a ^ 2)); [lra|unfold Rdiv; rewrite Rmult_assoc, Rinv_l; lra]).
  clear - Z M B1 B2. match goal with |- no_poles 80 ?m => set (z := m) in * end. clearbody z. set (r := g ^ 2 / (g ^ 2 - a ^ 2)) in *. clearbody r. repeat split; intros X; try (subst z); lra.
Qed.
Lemma ex_GF : GF_sm (1 / 100000) (point ex_pt) = 1 / 100000.
Proof. unfold GF_sm. rewrite !ex_other by discriminate. change (fst (0%K : CR)) with 0. field. Qed.
Example C64_match_case : let C := point ex_pt in let ckm := fun _ _ _ _ : R => ex_V in
  wc_point C /\ wc_symmetric C /\ inputs ex_lp 80 (1 / 100000) (1 / 128) /\ physical C 80 (1 / 100000) (1 / 128) /\ physical0 80 (1 / 100000) (1 / 128) /\ loop_inputs ckm ex_lp /\ 91 <> 0 /\
  (forall e, ew_inputs C ex_lp = Ok e \/ ew_inputs (zero_of C) ex_lp = Ok e -> no_poles (e_mW e) (e_mZ e)) /\ dget ex_lp "loop_order" = Some 1 /\
  baryon_lepton muon_number /\ conserves muon_number C.
Proof.
  intros C ckm. destruct ex_inputs as [_ P0]. pose proof (point_wc ex_pt) as W. pose proof ex_symmetric as S.
  assert (B : coef C "phiWB" [] = 0%K) by (apply ex_other; discriminate). assert (D : coef C "phiD" [] = 0%K) by (apply ex_other; discriminate).
  split; [exact W|]. split; [exact S|]. split; [repeat split|]. split; [apply physical_more; auto; unfold C; rewrite ex_GF; lra|]. split; [exact P0|].
  split; [split; [|split]|].
  - intros k H. repeat (destruct H as [<-|H]; [eexists; reflexivity|]). destruct H.
  - exists (118 / 1000). split; [reflexivity|lra].
  - repeat eexists; reflexivity.
  - split; [lra|]. split; [|split; [reflexivity|]].
    + intros e [E|E]; [exact (ex_poles C e W S B D ex_GF E)|].
      apply (ex_poles (zero_of C) e (zero_point C W) (zero_symmetric C)); auto; try apply coef_zero_of. apply GF_zero.
    + split; [split; [reflexivity|exists 0%Z; auto]|exact ex_conserves].
Qed.

Print Assumptions C64_total.
Print Assumptions C64_phases.
Print Assumptions C64_units.
Print Assumptions C64_symmetries.
Print Assumptions C64_match.
Print Assumptions C65_tree_phases.
Print Assumptions C65_tree_charges.
Print Assumptions C65_loop_charges.
Print Assumptions C65_match_all.
