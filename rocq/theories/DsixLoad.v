(* load_initial, set_initial_wcxf and get_wcxf *)
From Coq Require Import List Bool ZArith QArith Arith Lia String Ascii.
From Verif Require Import PyBase Num SymModel SymClass SymSpec SymCheck SymProofs SymFacts EftModel EftSpec EftProofs EftLabels EftRound EftRound2 EftInit
  BasisProps UpProofs UpProps WcxfModel WcxfProofs DsixData DsixModel DsixProofs DsixRound DsixSym.
Import ListNotations.
Local Open Scope string_scope.
Local Open Scope list_scope.
Opaque SymCheck.S SymCheck.SN U symmetrize symmetrize_nonred unscale exec.

Section P.
Context {K : StarField}.
Local Open Scope K_scope.
Add Field KFdsl : (k_field K).
Notation cdict := (dict string (cval K)).
Notation arr := (idx -> K).
Notation sym_ := (symmetrize (@k_alg K)).
Variables (all : list string) (real : string -> bool) (E : eft).
Hypothesis SU : smeftutil all real E.
Local Lemma OK : eft_ok E warsaw_ops. Proof. exact (proj1 (util_facts all real E SU)). Qed.

(* every operator has a value of its shape and with its symmetry *)
Definition full (C : cdict) : Prop :=
  forall n c s, In (n, (c, s)) warsaw_ops -> exists v, dget C n = Some v /\ has_shape (op_shape c s) v /\ value_symmetric c s v.
Definition same_ops (C C' : cdict) : Prop :=
  forall n, In n (map fst warsaw_ops) -> exists v w, dget C n = Some v /\ dget C' n = Some w /\ cv_eq w v.

(* ---------- load_initial after wc_dict2lha ---------- *)
Lemma recover (wc : cdict) sr sz d d' sm : full wc -> wc_dict2lha E wc sr sz = Ok d -> (forall b, wc_block b -> dget d' b = dget d b) ->
  sm_lha2dict d' = Ok sm -> exists C' C'', wc_lha2dict E d' = Ok C' /\ eft_symmetrize E (dupdate C' sm) = Ok C'' /\ with_sm C'' /\ same_ops wc C''.
Proof.
  intros F ED EQ ES. destruct (util_facts all real E SU) as (_ & _ & K2 & K4 & N2 & N4 & _).
  destruct (read_back E OK K2 K4 N2 N4 wc sr sz) with (d := d) (d' := d') as (C' & EC & WF & KC & V0 & V1); [|exact ED|exact EQ|].
  { intros n c s H. destruct (F n c s H) as (v & A & B & _). eauto. }
  destruct (sm_dict_values d' sm ES) as [WS SV].
  assert (SMN : forall n v, dget sm n = Some v -> ~ In n (map fst warsaw_ops)).
  { intros n v Hv. apply sm_not_op. destruct (SV n v Hv) as [[X _]|[X _]]; rewrite ?in_app_iff in *; tauto. }
  assert (GU : forall n, In n (map fst warsaw_ops) -> dget (dupdate C' sm) n = dget C' n).
  { intros n Hn. rewrite dget_dupdate by exact WS. destruct (dget sm n) eqn:Q; [|reflexivity]. exfalso. exact (SMN n _ Q Hn). }
  destruct (symmetrize_with_sm all real E SU (dupdate C' sm)) as (C'' & E2 & W2 & A2 & _).
  { split; [now apply wf_dupdate|]. intros n v Hv. rewrite dget_dupdate in Hv by exact WS. destruct (dget sm n) as [u|] eqn:Q.
    - injection Hv as <-. right. now apply SV.
    - left. assert (IN : In n (map fst warsaw_ops)) by (apply KC; congruence). apply in_map_iff in IN as ([m [c s]] & X & H). cbn [fst] in X. subst m.
      exists c, s. split; [exact H|]. destruct (cl0_dec c) as [->|N].
      + rewrite (V0 n s H) in Hv. injection Hv as <-. exact Logic.I.
      + destruct (V1 n c s H N) as (b & B & _). rewrite B in Hv. injection Hv as <-. destruct c; try reflexivity; congruence. }
  exists C', C''. split; [exact EC|]. split; [exact E2|]. split; [exact W2|].
  intros n IN. pose proof IN as IN0. apply in_map_iff in IN as ([m [c s]] & X & H). cbn [fst] in X. subst m.
  destruct (F n c s H) as (v & Hv & HS & SY). destruct (cl0_dec c) as [->|N].
  - destruct (op_num (K := K) warsaw_ops n s v H HS) as (z & ->). destruct (A2 n Cl0 s _ H (eq_trans (GU n IN0) (V0 n s H))) as (w & Hw & AP).
    exists (CNum z), w. split; [exact Hv|]. split; [exact Hw|]. cbn [applied] in AP. rewrite sym_0 in AP. subst w. cbn.
    unfold num_of. rewrite Hv. cbn in SY. rewrite (kre_of_real z SY). exact (kre_of_real z SY).
  - destruct (op_arr (K := K) warsaw_ops n c s v H N HS) as (a & ->). destruct (V1 n c s H N) as (b & HB & B).
    destruct (A2 n c s _ H (eq_trans (GU n IN0) HB)) as (w & Hw & AP). exists (CArr s a), w. split; [exact Hv|]. split; [exact Hw|].
    destruct AP as (b' & -> & B'). cbn. split; [reflexivity|]. intros I HI. rewrite B' by exact HI.
    pose proof (ok_shapes E warsaw_ops OK n c s H) as SO. pose proof (in_shape_indices c s I SO HI) as II.
    destruct (op_facts n c s H N) as (Es & N71 & red & van & R1 & V & RV).
    cbn in SY. transitivity (padded s a I); [|unfold padded; now rewrite HI].
    apply (S_determined c); [now apply S14|exact SY| |exact II]. clear I HI II. intros I II NR.
    assert (HI : in_shape s I = true) by (rewrite Es; now apply indices_full).
    rewrite (S15 c _ I II NR). unfold padded. rewrite HI, (B I HI). unfold read_value, red_of, van_of, dgetd, arr_of. rewrite R1, V, Hv.
    destruct (RV I) as [-> ->]; [exact II|]. rewrite NR. cbn [negb andb orb].
    pose proof (S15 c (padded s a) I II NR) as FX. rewrite (S15_fixed c (padded s a) I SY II) in FX. unfold padded in FX. rewrite HI in FX.
    destruct (real_entry c I).
    + replace (kre (a I) + ki * 0) with (kre (a I)) by ring. rewrite (kre_of_real _ (kre_real (a I))). now symmetry.
    + apply kre_im.
Qed.

(* ---------- wcxf2arrays ---------- *)
Lemma w2a_plain (d : dict string K) : wfdict d -> (forall k, In k (dkeys d) -> In k (e_all E)) ->
  exists C0, wcxf2arrays E d = Ok C0 /\ well_shaped warsaw_ops C0 /\
    (forall n s, In (n, (Cl0, s)) warsaw_ops -> dget C0 n = match dget d n with Some z => Some (CNum z) | None => None end) /\
    (forall n c s, In (n, (c, s)) warsaw_ops -> c <> Cl0 ->
     match dget C0 n with
     | None => forall I, entries d n s I = 0
     | Some v => exists a, v = CArr s a /\ forall I, padded s a I = entries d n s I
     end).
Proof.
  intros WF HD.
  assert (DD : forall c, c = Cl0 \/ c <> Cl0) by (intros c; destruct c; ((now left)||(right; discriminate))).
  assert (KEY : forall k, In k (dkeys d) -> exists n c s I, In (n, (c, s)) warsaw_ops /\ k = op_label n c I /\ in_shape s I = true).
  { intros k Hk. apply HD in Hk. apply (ok_all E warsaw_ops OK) in Hk as ([n [c s]] & H & Hk).
    destruct (op_label_coeff warsaw_ops n c s k H Hk) as (I & -> & HI & _). exists n, c, s, I. auto. }
  assert (SH : forall n c s, In (n, (c, s)) warsaw_ops -> c <> Cl0 -> dget (e_shape E) n = Some (Some s)).
  { intros n c s H N. rewrite (ok_shape E warsaw_ops OK n c s H). destruct c; try reflexivity; congruence. }
  destruct (wcxf2arrays_inv E d WF) as (C0 & E0 & (WC & KC & SC & AR)).
  { intros k Hk. destruct (KEY k Hk) as (n & c & s & I & H & -> & HI). destruct (DD c) as [->|NC].
    - apply good_scalar; [exact (ok_no_us E warsaw_ops OK n Cl0 s H)|exact (ok_shape E warsaw_ops OK n Cl0 s H)].
    - replace (op_label n c I) with (label n I) by (destruct c; try reflexivity; congruence).
      apply (good_array E n s I); [exact (ok_no_us E warsaw_ops OK n c s H)|now apply (SH n c)| |exact HI].
      apply gen_ok_small, (shape_ok_gen c), (ok_shapes E warsaw_ops OK n c s H). }
  (* values of the arrays *)
  assert (V0 : forall n s, In (n, (Cl0, s)) warsaw_ops -> dget C0 n = match dget d n with Some z => Some (CNum z) | None => None end).
  { intros n s H. apply SC; [exact (ok_no_us E warsaw_ops OK n Cl0 s H)|exact (ok_shape E warsaw_ops OK n Cl0 s H)]. }
  assert (V1 : forall n c s, In (n, (c, s)) warsaw_ops -> c <> Cl0 ->
     match dget C0 n with
     | None => forall I, entries d n s I = 0
     | Some v => exists a, v = CArr s a /\ forall I, padded s a I = entries d n s I
     end).
  { intros n c s H NC. specialize (AR n s (ok_no_us E warsaw_ops OK n c s H) (SH n c s H NC)).
    destruct (dget C0 n) as [v|].
    - destruct AR as (a & -> & A1 & _). exists a. split; [reflexivity|]. intros I. unfold padded, entries.
      destruct (in_shape s I) eqn:HI; [|reflexivity]. apply A1; [exact HI|now apply (op_small E warsaw_ops OK n c s)].
    - intros I. unfold entries. destruct (in_shape s I) eqn:HI; [|reflexivity]. unfold dgetd.
      rewrite AR; [reflexivity|exact HI|now apply (op_small E warsaw_ops OK n c s)]. }
  assert (WS : well_shaped warsaw_ops C0).
  { split; [exact WC|]. intros n v Hv. destruct (KC n) as [N X]; [now apply dget_Some_key in Hv|].
    assert (IN : exists c s, In (n, (c, s)) warsaw_ops).
    { destruct (dget (e_shape E) n) as [[s|]|] eqn:Es; [| |congruence].
      - specialize (AR n s N Es). rewrite Hv in AR. destruct AR as (a & _ & _ & I & HI & ND).
        destruct (dget d (label n I)) as [z|] eqn:Ez; [|congruence]. apply dget_Some_key in Ez.
        destruct (KEY _ Ez) as (m & c & t & J & H & EQ & HJ). exists c, t.
        assert (SPL : forall p L, no_us p -> split_us (label p L) = p :: split_us (String.concat "" (map (fun j => str_nat (j + 1)) L))).
        { intros p L NP. unfold label. now apply split_app. }
        pose proof (ok_no_us E warsaw_ops OK m c t H) as NM. destruct (DD c) as [->|NC].
        + simpl in EQ. pose proof (SPL n I N) as Q. rewrite EQ in Q. unfold no_us in NM. rewrite NM in Q. injection Q as _ Q.
          symmetry in Q. now apply split_us_nonempty in Q.
        + replace (op_label m c J) with (label m J) in EQ by (destruct c; try reflexivity; congruence).
          pose proof (SPL n I N) as Q1. pose proof (SPL m J NM) as Q2. rewrite EQ in Q1.
          assert (n = m) by congruence. now subst m.
      - specialize (SC n N Es). rewrite Hv in SC. destruct (dget d n) as [z|] eqn:Ez; [|discriminate]. apply dget_Some_key in Ez.
        destruct (KEY _ Ez) as (m & c & t & J & H & EQ & HJ). exists c, t. destruct (DD c) as [->|NC].
        + simpl in EQ. now subst m.
        + exfalso. replace (op_label m c J) with (label m J) in EQ by (destruct c; try reflexivity; congruence).
          symmetry in EQ. apply (label_not_plain m n J) in EQ; auto; [exact (ok_no_us E warsaw_ops OK m c t H)|now apply (op_small E warsaw_ops OK m c t)]. }
    destruct IN as (c & s & H). exists c, s. split; [exact H|]. destruct (DD c) as [->|NC].
    - rewrite (V0 n s H) in Hv. destruct (dget d n); [injection Hv as <-; exact Logic.I|discriminate].
    - specialize (V1 n c s H NC). rewrite Hv in V1. destruct V1 as (a & -> & _). destruct c; try reflexivity; congruence. }
  exists C0. auto.
Qed.

(* ---------- scaling ---------- *)
Lemma scale_keys_spec (x : K) keys : NoDup keys -> forall C, wfdict C -> wfdict (scale_keys x keys C) /\
  forall k, dget (scale_keys x keys C) k = if kmem k keys then option_map (scale_val x) (dget C k) else dget C k.
Proof.
  unfold scale_keys. induction 1 as [|k keys NI ND IH]; intros C WF; [split; [exact WF|reflexivity]|]. cbn [fold_left].
  destruct (dget C k) as [v|] eqn:Q.
  - destruct (IH (dset C k (scale_val x v)) (wf_dset _ _ _ WF)) as [W1 V1]. split; [exact W1|]. intros j. rewrite V1. cbn [kmem].
    destruct (keqb_spec j k) as [->|N].
    + rewrite dget_dset_eq, Q. apply kmem_nIn in NI. now rewrite NI.
    + rewrite !dget_dset_neq by exact N. reflexivity.
  - destruct (IH C WF) as [W1 V1]. split; [exact W1|]. intros j. rewrite V1. cbn [kmem]. destruct (keqb_spec j k) as [->|N]; [|reflexivity].
    rewrite Q. now destruct (kmem k keys).
Qed.
(* the power of the scale by which an operator is multiplied *)
Definition fac (h : K) (n : string) : K := if kmem n keys_dim5 then h else h * h.
Lemma dim6_in n : In n (map fst warsaw_ops) -> kmem n (keys_dim6 E) = negb (kmem n keys_dim5).
Proof.
  intros H. destruct (kmem n (keys_dim6 E)) eqn:Q.
  - apply kmem_In, filter_In in Q as [_ Q]. now symmetry.
  - destruct (kmem n keys_dim5) eqn:Q5; [reflexivity|]. exfalso. apply kmem_nIn in Q. apply Q, filter_In. rewrite Q5. split; [|reflexivity].
    apply uniq_in. now apply (ok_wc E warsaw_ops OK).
Qed.
Lemma dim6_nodup : NoDup (keys_dim6 E).
Proof. apply NoDup_filter, uniq_nodup. Qed.
Lemma scaled (h : K) C : wfdict C -> wfdict (scale_keys (h * h) (keys_dim6 E) (scale_keys h keys_dim5 C)) /\
  (forall n, In n (map fst warsaw_ops) -> dget (scale_keys (h * h) (keys_dim6 E) (scale_keys h keys_dim5 C)) n = option_map (scale_val (fac h n)) (dget C n)) /\
  (forall n, dget C n = None -> dget (scale_keys (h * h) (keys_dim6 E) (scale_keys h keys_dim5 C)) n = None).
Proof.
  intros WF. destruct (scale_keys_spec h keys_dim5) with (C := C) as [W1 V1]; [repeat constructor; intros []|exact WF|].
  destruct (scale_keys_spec (h * h) (keys_dim6 E) dim6_nodup _ W1) as [W2 V2]. split; [exact W2|]. split.
  - intros n H. rewrite V2, V1, (dim6_in n H). unfold fac. destruct (kmem n keys_dim5); reflexivity.
  - intros n H. rewrite V2, V1, H. destruct (kmem n (keys_dim6 E)), (kmem n keys_dim5); reflexivity.
Qed.
(* ---------- filling up with zeros ---------- *)
Lemma fill_fold (dim4 : list string) l : NoDup (map fst l) -> forall C : cdict, wfdict C ->
  let F := fold_left (fun C ks => if dmem C (fst ks) || kmem (fst ks) dim4 then C else
    dset C (fst ks) (match snd ks with None => CNum 0 | Some s => CArr s (fun _ => 0) end)) l C in
  wfdict F /\ forall k, dget F k = match dget C k with Some v => Some v | None => if kmem k dim4 then None else
    match dget l k with Some sh => Some (zero_of sh) | None => None end end.
Proof.
  induction l as [|[k sh] l IH]; intros ND C WF; cbn [fold_left].
  - split; [exact WF|]. intros k. destruct (dget C k); [reflexivity|]. now destruct (kmem k dim4).
  - inversion ND as [|? ? NI ND']; subst. cbn [fst snd]. rewrite dmem_dget. destruct (dget C k) as [v|] eqn:Q; cbn [orb].
    + destruct (IH ND' C WF) as [W V]. split; [exact W|]. intros j. rewrite V. cbn [dget]. destruct (keqb_spec j k) as [->|]; [now rewrite Q|reflexivity].
    + destruct (kmem k dim4) eqn:M.
      * destruct (IH ND' C WF) as [W V]. split; [exact W|]. intros j. rewrite V. cbn [dget]. destruct (keqb_spec j k) as [->|]; [now rewrite Q, M|reflexivity].
      * destruct (IH ND' (dset C k (match sh with None => CNum 0 | Some s => CArr s (fun _ => 0) end)) (wf_dset _ _ _ WF)) as [W V]. split; [exact W|].
        intros j. rewrite V. cbn [dget]. destruct (keqb_spec j k) as [->|N]; [rewrite dget_dset_eq, Q, M; now destruct sh|now rewrite dget_dset_neq].
Qed.
(* ---------- set_initial_wcxf ---------- *)
Definition init_val (d : dict string K) (h : K) (n : string) (c : cls) (s : list nat) (w : cval K) : Prop :=
  match c with
  | Cl0 => w = CNum (kre (dgetd d n 0 * fac h n))
  | _ => exists b, w = CArr s b /\ forall I, in_shape s I = true -> b I = sym_ c (fun J => entries d n s J * fac h n) I
  end.
Definition high_of (io : @smeftio K) (wc : WC K) (high : option K) : K :=
  match high with Some h => h | None => match scale_high io with Some h => h | None => wc_scale wc end end.
Lemma set_initial_spec (io : @smeftio K) (wc : WC K) high : wc_eft wc = "SMEFT" -> wc_basis wc = "Warsaw" ->
  wfdict (wc_dict wc) -> (forall k, In k (dkeys (wc_dict wc)) -> In k all) ->
  exists C, set_initial_wcxf E (map fst smeft_d4) io wc high =
      Ok (mkIO (Some (match C_in io with None => C | Some C0 => dupdate C0 C end)) (Some (wc_scale wc)) (Some (high_of io wc high))) /\
    wfdict C /\ (forall n, dget C n <> None <-> In n (map fst warsaw_ops)) /\
    (forall n c s, In (n, (c, s)) warsaw_ops -> exists w, dget C n = Some w /\ init_val (wc_dict wc) (high_of io wc high) n c s w).
Proof.
  intros EE EB WF HD. destruct (util_facts all real E SU) as (_ & EA & _ & _ & _ & _ & G4 & WSH).
  set (d := wc_dict wc) in *. set (h := high_of io wc high).
  destruct (w2a_plain d WF) as (C0 & E0 & [WF0 WS0] & V0 & V1); [now rewrite EA|].
  destruct (scaled h C0 WF0) as (WF1 & SC & SN). set (C1 := scale_keys (h * h) (keys_dim6 E) (scale_keys h keys_dim5 C0)) in *.
  assert (WS1 : well_shaped warsaw_ops C1).
  { split; [exact WF1|]. intros n v Hv. destruct (dget C0 n) as [v0|] eqn:Q; [|rewrite (SN n Q) in Hv; discriminate].
    destruct (WS0 n v0 Q) as (c & s & H & HS). assert (IN : In n (map fst warsaw_ops)) by (apply in_map_iff; exists (n, (c, s)); auto).
    rewrite (SC n IN), Q in Hv. injection Hv as <-. exists c, s. split; [exact H|].
    destruct (op_shape c s); destruct v0; exact HS. }
  destruct (symmetrize_C_spec E warsaw_ops OK sym_ SymCheck.S C1 computed_sym (fun _ => eq_refl) (fun _ => eq_refl) WS1) as (C2 & E2 & K2 & A2).
  assert (WF2 : wfdict C2) by (unfold wfdict; rewrite K2; exact WF1).
  destruct (fill_fold (map fst smeft_d4) (e_shape E) WSH C2 WF2) as [WF3 V3].
  exists (fill_zeros E (map fst smeft_d4) C2). split.
  - unfold set_initial_wcxf. rewrite EE, EB. cbn [keqb negb]. fold d. fold (high_of io wc high). fold h. rewrite E0. cbn [bind].
    replace (eft_symmetrize E (scale_keys (h * h) (keys_dim6 E) (scale_keys h keys_dim5 C0))) with (Ok (A := cdict) C2) by (symmetry; exact E2). reflexivity.
  - split; [exact WF3|].
    assert (NONE : forall n, ~ In n (map fst warsaw_ops) -> dget C2 n = None).
    { intros n NI. apply (dkeys_None C1 C2 n K2). destruct (dget C1 n) as [v|] eqn:Q; [|reflexivity]. exfalso. destruct WS1 as [_ WS1].
      destruct (WS1 n v Q) as (c & s & H & _). apply NI, in_map_iff. exists (n, (c, s)). auto. }
    assert (OPS : forall n c s, In (n, (c, s)) warsaw_ops -> exists w, dget (fill_zeros E (map fst smeft_d4) C2) n = Some w /\ init_val d h n c s w).
    { intros n c s H. assert (IN : In n (map fst warsaw_ops)) by (apply in_map_iff; exists (n, (c, s)); auto).
      unfold fill_zeros. rewrite V3. pose proof (ok_shapes E warsaw_ops OK n c s H) as SO.
      assert (N4 : kmem n (map fst smeft_d4) = false).
      { apply kmem_nIn. intros X. revert IN. apply sm_not_op. rewrite app_assoc. apply in_or_app. now left. }
      destruct (dget C0 n) as [v|] eqn:Q.
      - assert (Q1 : dget C1 n = Some (scale_val (fac h n) v)) by (rewrite (SC n IN), Q; reflexivity).
        destruct (A2 n c s _ H Q1) as (w & Hw & AP). rewrite Hw. exists w. split; [reflexivity|].
        destruct (cl0_dec c) as [->|NC].
        + rewrite (V0 n s H) in Q. cbn [init_val]. unfold dgetd. destruct (dget d n) as [z|]; [|discriminate]. injection Q as <-. cbn [scale_val applied] in AP.
          now rewrite sym_0 in AP.
        + specialize (V1 n c s H NC). rewrite Q in V1. destruct V1 as (a & -> & PA). cbn [scale_val] in AP. destruct AP as (b & -> & B).
          assert (X : exists b0, CArr s b = CArr s b0 /\ (forall I, in_shape s I = true -> b0 I = sym_ c (fun J => entries d n s J * fac h n) I)).
          { exists b. split; [reflexivity|]. intros I HI. rewrite B by exact HI.
            apply (computed_ext sym_ SymCheck.S c _ _ I computed_sym); [now apply (in_shape_indices c s I SO)|].
            intros J _. rewrite <- PA. unfold padded. destruct (in_shape s J); [reflexivity|ring]. }
          destruct c; try exact X. congruence.
      - assert (Q2 : dget C2 n = None) by (apply (dkeys_None C1 C2 n K2), SN; exact Q). rewrite Q2, N4, (ok_shape E warsaw_ops OK n c s H).
        eexists. split; [reflexivity|]. destruct (cl0_dec c) as [->|NC].
        + rewrite (V0 n s H) in Q. cbn [init_val]. unfold dgetd. destruct (dget d n); [discriminate|]. cbn [op_shape zero_of]. f_equal.
          replace (0 * fac h n) with (0 : K) by ring. symmetry. apply kre_of_real, kreal_0.
        + specialize (V1 n c s H NC). rewrite Q in V1.
          assert (X : exists b0, CArr s (fun _ => 0 : K) = CArr s b0 /\ (forall I, in_shape s I = true -> b0 I = sym_ c (fun J => entries d n s J * fac h n) I)).
          { exists (fun _ => 0). split; [reflexivity|]. intros I HI. symmetry.
            apply (computed_zero sym_ SymCheck.S c s _ I computed_sym SO (in_shape_indices c s I SO HI)). intros J _ _. rewrite V1. ring. }
          destruct c; try exact X. congruence. }
    split; [|exact OPS]. intros n. split.
    + intros X. destruct (in_dec string_dec n (map fst warsaw_ops)) as [IN|NI]; [exact IN|]. exfalso. apply X. unfold fill_zeros. rewrite V3, (NONE n NI), (G4 n NI).
      destruct (kmem n (map fst smeft_d4)) eqn:M; [reflexivity|]. destruct (dget smeft_d4 n) eqn:Q; [|reflexivity].
      apply dget_Some_key in Q. apply kmem_nIn in M. contradiction.
    + intros IN. apply in_map_iff in IN as ([m [c s]] & X & H). cbn [fst] in X. subst m. destruct (OPS n c s H) as (w & Hw & _). congruence.
Qed.
Lemma init_full d h C : (forall n c s, In (n, (c, s)) warsaw_ops -> exists w, dget C n = Some w /\ init_val d h n c s w) -> full C.
Proof.
  intros F n c s H. destruct (F n c s H) as (w & Hw & V). exists w. split; [exact Hw|]. pose proof (ok_shapes E warsaw_ops OK n c s H) as SO.
  destruct (cl0_dec c) as [->|NC].
  - cbn [init_val] in V. subst w. split; [exact Logic.I|]. apply kre_real.
  - assert (X : exists b, w = CArr s b /\ forall I, in_shape s I = true -> b I = sym_ c (fun J => entries d n s J * fac h n) I) by (destruct c; try exact V; congruence).
    destruct X as (b & -> & B). split; [destruct c; try reflexivity; congruence|]. cbn. unfold symmetric_in.
    destruct (op_facts n c s H NC) as (Es & N71 & _). apply (has_symmetry_ext c (sym_ c (fun J => entries d n s J * fac h n))); [|now apply S14].
    intros I HI. assert (II : in_shape s I = true) by (rewrite Es; now apply indices_full). rewrite II. symmetry. now apply B.
Qed.

(* ---------- get_wcxf ---------- *)
Definition val_at (v : cval K) (I : idx) : K := match v with CNum z => z | CArr _ a => a I end.
Lemma name_op n c s I : In (n, (c, s)) warsaw_ops -> in_shape s I = true -> name_of (op_label n c I) = n.
Proof.
  intros H HI. pose proof (ok_no_us E warsaw_ops OK n c s H) as N. unfold name_of. destruct (cl0_dec c) as [->|NC].
  - cbn [op_label]. unfold no_us in N. now rewrite N.
  - replace (op_label n c I) with (label n I) by (destruct c; try reflexivity; congruence). 
    assert (Q : split_us (label n I) = n :: split_us (String.concat "" (map (fun j => str_nat (j + 1)) I))) by (unfold label; now apply split_app).
    rewrite Q. reflexivity.
Qed.
Lemma get_spec (io : @smeftio K) (C : cdict) (h s : K) hash : scale_high io = Some h -> with_sm C ->
  exists wc', get_wcxf E io C s hash = Ok wc' /\ wc_eft wc' = "SMEFT" /\ wc_basis wc' = "Warsaw" /\ wc_scale wc' = s /\
    (forall k, dget (wc_dict wc') k <> None -> In k all) /\
    (forall n c s I v, In (n, (c, s)) warsaw_ops -> in_shape s I = true -> nonredundant c I = true -> dget C n = Some v ->
       dget (wc_dict wc') (op_label n c I) = match EftRound2.nonzero (val_at v I) with None => None | Some z => Some (z / fac h n) end).
Proof.
  intros EH [WF WS]. destruct (util_facts all real E SU) as (_ & EA & _).
  assert (PR : forall k v, In (k, v) C -> no_us k /\ proper_val v = true).
  { intros k v Hv. apply In_dget in Hv; [|exact WF]. destruct (WS k v Hv) as [(c & t & H & HS)|[[X (z & ->)]|[X (a & ->)]]].
    - split; [exact (ok_no_us E warsaw_ops OK k c t H)|]. destruct (cl0_dec c) as [->|NC].
      + destruct (op_num (K := K) warsaw_ops k t v H HS) as (z & ->). reflexivity.
      + destruct (op_arr (K := K) warsaw_ops k c t v H NC HS) as (a & ->). destruct (op_facts k c t H NC) as (-> & _). destruct c; try reflexivity; congruence.
    - split; [|reflexivity]. cbn in X. repeat (destruct X as [<-|X]; [reflexivity|]). destruct X.
    - split; [|reflexivity]. cbn in X. repeat (destruct X as [<-|X]; [reflexivity|]). destruct X. }
  destruct (arrays2wcxf_spec C WF PR) as (P1 & P2 & P3 & P4).
  unfold get_wcxf. rewrite EH. cbv zeta. eexists. split; [reflexivity|]. split; [reflexivity|]. split; [reflexivity|]. split; [reflexivity|].
  rewrite wc_dict_mk. split.
  - intros k. rewrite !dget_dmap, dget_dfilter by exact P4. destruct (dget (arrays2wcxf C) k) as [z|]; [|cbn; congruence].
    destruct (kmem k (e_all E)) eqn:M; [intros _; rewrite <- EA; now apply kmem_In|]. cbn; congruence.
  - intros n c t I v H HI HN Hv. rewrite !dget_dmap, dget_dfilter by exact P4.
    pose proof (label_in_all E warsaw_ops OK n c t I H HI HN) as IA. apply kmem_In in IA. rewrite IA. cbn [andb].
    assert (HS : has_shape (op_shape c t) v).
    { assert (IN : In n (map fst warsaw_ops)) by (apply in_map_iff; exists (n, (c, t)); auto).
      destruct (WS n v Hv) as [(c' & s' & H' & HS)|SM]; [now destruct (op_unique E warsaw_ops OK n c t c' s' H H') as [<- <-]|].
      exfalso. revert IN. apply sm_not_op. destruct SM as [[SM _]|[SM _]]; rewrite ?in_app_iff in *; tauto. }
    assert (VAL : dget (arrays2wcxf C) (op_label n c I) = Some (val_at v I)).
    { destruct (cl0_dec c) as [->|NC].
      - destruct (op_num (K := K) warsaw_ops n t v H HS) as (z & ->). cbn. now apply P1.
      - destruct (op_arr (K := K) warsaw_ops n c t v H NC HS) as (a & ->).
        replace (op_label n c I) with (label n I) by (destruct c; try reflexivity; congruence). now apply (P2 n t). }
    rewrite VAL, (name_op n c t I H HI). unfold EftRound2.nonzero. destruct (kdec (val_at v I) 0); [reflexivity|]. cbn [negb option_map].
    rewrite dim6_in by (apply in_map_iff; exists (n, (c, t)); auto). unfold fac. destruct (kmem n keys_dim5); reflexivity.
Qed.
End P.
