(* Proofs about run/smeft/rge.py. *)
From Coq Require Import List Bool ZArith QArith Reals Arith Lia Lra String Ascii.
From Verif Require Import PyBase Num SymModel EftModel EftSpec EftProofs EftProps NpModel NpProofs BetaModel BetaProg BetaNorm BetaSpec BetaSound BetaCov BetaFacts BetaProofs BetaSM RealC RgeModel.
Import ListNotations.
Local Open Scope string_scope.
Local Open Scope list_scope.

(* ---------- the store ---------- *)
Lemma supd_length s a d : (a < List.length s)%nat -> List.length (supd s a d) = List.length s.
Proof. intros L. unfold supd. rewrite app_length, firstn_length. cbn [List.length]. rewrite skipn_length. lia. Qed.
Lemma nth_supd_same s a d : (a < List.length s)%nat -> nth a (supd s a d) [] = d.
Proof. intros L. unfold supd. rewrite app_nth2; rewrite firstn_length_le by lia; [|lia]. now rewrite Nat.sub_diag. Qed.
Lemma nth_supd_other s a d j : (a < List.length s)%nat -> j <> a -> nth j (supd s a d) [] = nth j s [].
Proof.
  intros L N. unfold supd. destruct (Nat.lt_ge_cases j a) as [A|A].
  - rewrite app_nth1 by (rewrite firstn_length_le; lia). rewrite <- (firstn_skipn a s) at 2. rewrite app_nth1; [reflexivity|]. rewrite firstn_length_le; lia.
  - rewrite app_nth2 by (rewrite firstn_length_le; lia). rewrite firstn_length_le by lia.
    destruct (j - a)%nat as [|m] eqn:E; [lia|]. cbn [nth]. rewrite <- (firstn_skipn (Datatypes.S a) s) at 2.
    rewrite app_nth2 by (rewrite firstn_length_le; lia). rewrite firstn_length_le by lia. f_equal. lia.
Qed.

(* ---------- the loop ---------- *)
Lemma evolve_unfold E prog (s : store) a si so np :
  smeft_evolve_leadinglog E prog s a si so np =
  bind (beta_of E prog (nth a s []) (rc 1) np) (fun b =>
  bind (ll_loop b si so (nth a s []) (s ++ [nth a s []]) (List.length s)) (fun s2 => Ok (s2, List.length s))).
Proof.
  unfold smeft_evolve_leadinglog.
  assert (N : nth (List.length s) (s ++ [nth a s []]) [] = nth a s []) by (rewrite app_nth2, Nat.sub_diag by lia; reflexivity).
  cbv zeta. change cdict with (list (string * cval CR)) in *. change store with (list (list (string * cval CR))) in *. unfold dict in *. rewrite N. reflexivity.
Qed.
Lemma ll_loop_spec b si so l : (bind (py_div so si) py_log = Ok l) -> forall items s a,
  (a < List.length s)%nat -> NoDup (map fst items) ->
  (forall k c, In (k, c) items -> exists v, ll_step b si so k c = Ok v) ->
  exists s', ll_loop b si so items s a = Ok s' /\ List.length s' = List.length s /\
    (forall j, j <> a -> nth j s' [] = nth j s []) /\
    (forall k, ~ In k (map fst items) -> dget (nth a s' []) k = dget (nth a s []) k) /\
    (forall k c v, In (k, c) items -> ll_step b si so k c = Ok v -> dget (nth a s' []) k = Some v) /\
    ((forall k, In k (map fst items) -> In k (dkeys (nth a s []))) -> dkeys (nth a s' []) = dkeys (nth a s [])).
Proof.
  intros EL. induction items as [|[k c] items IH]; intros s a L ND ST; cbn [ll_loop].
  - exists s. split; [reflexivity|]. split; [reflexivity|]. split; [reflexivity|]. split; [reflexivity|]. split; [intros ? ? ? []|reflexivity].
  - destruct (ST k c (or_introl eq_refl)) as (v & V). rewrite V. cbn [bind]. inversion ND as [|? ? NI ND']; subst.
    set (s1 := supd s a (dset (nth a s []) k v)).
    assert (L1 : (a < List.length s1)%nat) by (unfold s1; rewrite supd_length; assumption).
    destruct (IH s1 a L1 ND') as (s' & E & LS & OT & NK & YK & DK); [intros k' c' X; apply ST; now right|].
    assert (N1 : nth a s1 [] = dset (nth a s []) k v) by (now apply nth_supd_same).
    exists s'. split; [exact E|]. split; [rewrite LS; now apply supd_length|]. split; [|split; [|split]].
    + intros j NJ. rewrite (OT j NJ). now apply nth_supd_other.
    + intros k' NI'. cbn [map fst] in NI'. rewrite NK by (intros X; apply NI'; now right). rewrite N1. apply dget_dset_neq. intros ->. apply NI'. now left.
    + intros k' c' v' [X|X] Y; [|now apply (YK k' c')]. injection X as <- <-. rewrite NK by exact NI. rewrite N1, dget_dset_eq. congruence.
    + intros IN. assert (KD : dkeys (dset (nth a s []) k v) = dkeys (nth a s [])).
      { rewrite dkeys_dset. assert (M : dmem (nth a s []) k = true) by (apply kmem_In, IN; now left). now rewrite M. }
      rewrite DK, N1, KD; [reflexivity|]. rewrite N1, KD. intros k' X. apply IN. now right.
Qed.
Lemma ll_step_val b si so l k c bk : bind (py_div so si) py_log = Ok l -> dget b k = Some bk -> vshape c = vshape bk ->
  (vshape c = [] -> exists z, c = CNum z) -> (vshape bk = [] -> exists z, bk = CNum z) ->
  exists v, ll_step b si so k c = Ok v /\ vshape v = vshape c /\ (vshape c = [] -> exists z, v = CNum z) /\
    forall I, entry v I = kadd (entry c I) (kmul (entry bk I) (rc (l / sixteen_pi2))).
Proof.
  intros EL B SH N1 N2. unfold ll_step, lookup. rewrite B. cbn [bind]. unfold np_div.
  assert (P : sixteen_pi2 <> 0%R). { unfold sixteen_pi2. pose proof PI_RGT_0. nra. }
  assert (D : kdec (s := CR) (rc sixteen_pi2) k0 = false).
  { destruct (kdec_spec CR (rc sixteen_pi2) k0) as [E|]; [|reflexivity]. apply (rc_inj sixteen_pi2 0) in E. contradiction. }
  rewrite D, EL.
  assert (AL : forall x y : CR, kadd x (kmul (kdiv y (rc sixteen_pi2)) (rc l)) = kadd x (kmul y (rc (l / sixteen_pi2)))).
  { intros x y. rewrite rc_div by exact P. f_equal. rewrite !kdiv_def.
    rewrite <- !kmul_assoc. f_equal. apply kmul_comm. }
  destruct c as [x|t a], bk as [y|t' a']; cbn [vshape] in *.
  - cbn. eexists. split; [reflexivity|]. split; [reflexivity|]. split; [eauto|]. intros I. apply AL.
  - destruct (N2 (eq_sym SH)) as (z & X). discriminate.
  - destruct (N1 SH) as (z & X). discriminate.
  - subst t'. cbn [np_map2 np_mul np_add bind]. rewrite keqb_refl. eexists. split; [reflexivity|]. split; [reflexivity|]. split.
    + intros X. destruct (N1 X) as (z & Y). discriminate.
    + intros I. apply AL.
Qed.

(* ---------- views ---------- *)
Lemma view_cf z : view_complex (view_float z) = Ok z.
Proof. induction z as [|[a b] z IH]; [reflexivity|]. cbn [view_float flat_map app fst snd]. change (flat_map (fun w : CR => [fst w; snd w]) z) with (view_float z). cbn [view_complex]. rewrite IH. reflexivity. Qed.
Lemma view_fc y : forall z, view_complex y = Ok z -> view_float z = y.
Proof.
  assert (G : forall n y, (List.length y <= n)%nat -> forall z, view_complex y = Ok z -> view_float z = y).
  { clear y. induction n as [|n IH]; intros y L z E.
    - destruct y; [|cbn in L; lia]. cbn in E. injection E as <-. reflexivity.
    - destruct y as [|a [|b y]]; cbn [view_complex] in E; [injection E as <-; reflexivity|discriminate|].
      destruct (view_complex y) as [z'|] eqn:V; [|discriminate]. injection E as <-. cbn [view_float flat_map fst snd app].
      change (flat_map (fun w : CR => [fst w; snd w]) z') with (view_float z'). rewrite (IH y) with (z := z'); [reflexivity|cbn in L; lia|exact V]. }
  intros z. exact (G (List.length y) y (le_n _) z).
Qed.

(* ---------- the order of the entries of beta ---------- *)
Fixpoint prog_keys (p : list stmt) (acc : list string) : list string :=
  match p with
  | [] => acc
  | SBeta k _ :: r => prog_keys r (if kmem k acc then acc else acc ++ [k])
  | _ :: r => prog_keys r acc
  end.
Lemma exec_keys {K : StarField} E (C : dict string (cval K)) p : forall L B D, exec_stmts E true C p L B = Ok D -> dkeys D = prog_keys p (dkeys B).
Proof.
  induction p as [|[x e|k e|] p IH]; intros L B D X; cbn [exec_stmts prog_keys] in *.
  - injection X as <-. reflexivity.
  - destruct (eval C L e) as [v|]; [|discriminate]. cbn [bind] in X. now apply IH in X.
  - destruct (eval C L e) as [v|]; [|discriminate]. cbn [bind] in X. apply IH in X. rewrite X, dkeys_dset. reflexivity.
  - now apply IH in X.
Qed.
Lemma beta_dkeys {K : StarField} E (C : dict string (cval K)) H p D : beta_of E p C H true = Ok D -> dkeys D = prog_keys p [].
Proof. unfold beta_of. intros X. apply exec_keys in X. exact X. Qed.
Lemma hstack_seg {K : StarField} (D : dict string (cval K)) : wfdict D -> hstack_ravel D = List.concat (map (seg D) (dkeys D)).
Proof.
  intros W. unfold hstack_ravel, dkeys. rewrite map_map. f_equal. apply map_ext_in. intros [k v] H. unfold seg. cbn [fst snd].
  rewrite (In_dget _ _ _ W H). reflexivity.
Qed.

Section More.
Context {K : StarField}.
Local Open Scope K_scope.
Add Field KFrg : (k_field K).
Notation cdict := (dict string (cval K)).
Lemma add_ring (c d x y : K) : c + d * (x + y) - c = (c + d * x - c) + (c + d * y - c).
Proof. ring. Qed.
Lemma has_shape_point E (C : cdict) : smeft_layout E ->
  (forall k s, dget (e_shape E) k = Some s -> exists v, dget C k = Some v /\ has_shape s v) -> smeft_point C.
Proof.
  intros (W & KS & SH) HS k ts T. destruct (HS k _ (SH k ts T)) as (v & V & S). exists v. split; [exact V|].
  destruct ts as [|t ts], v as [z|s a]; cbn [has_shape] in S; try contradiction; subst; cbn [vshape map]; split; eauto; discriminate.
Qed.
Lemma point_has_shape E (C : cdict) : smeft_layout E -> smeft_point C ->
  forall k s, dget (e_shape E) k = Some s -> exists v, dget C k = Some v /\ has_shape s v.
Proof.
  intros (W & KS & SH) P k s HS. assert (IN : In k (dkeys op_fields)) by (apply KS; eapply dget_Some_key; eauto).
  destruct (dget op_fields k) as [ts|] eqn:T; [|apply dget_None in T; contradiction].
  rewrite (SH k ts T) in HS. injection HS as <-. destruct (P k ts T) as (v & V & S & Z). exists v. split; [exact V|].
  destruct ts as [|t ts]; [destruct (Z eq_refl) as (z & ->); exact I|]. destruct v as [z|s a]; cbn [vshape map] in S; [discriminate|]. cbn. congruence.
Qed.
Lemma a2d_keys E (l : list K) ks : forall i d C, array2dict_from E l ks i d = Ok C -> NoDup ks -> (forall k, In k ks -> ~ In k (dkeys d)) -> dkeys C = dkeys d ++ ks.
Proof.
  induction ks as [|k ks IH]; intros i d C X ND DJ; cbn [array2dict_from] in X.
  - injection X as <-. now rewrite app_nil_r.
  - inversion ND as [|? ? NI ND']; subst.
    assert (G : forall i v, array2dict_from E l ks i (dset d k v) = Ok C -> dkeys C = dkeys d ++ k :: ks).
    { intros j v Y. apply IH in Y; [|exact ND'|].
      - rewrite Y, dkeys_dset. assert (M : dmem d k = false) by (apply kmem_nIn, DJ; now left). rewrite M, <- app_assoc. reflexivity.
      - intros k' Hk'. rewrite In_dkeys_dset. intros [->|Z]; [contradiction|]. apply (DJ k'); [now right|exact Z]. }
    destruct (dget (e_shape E) k) as [[s|]|]; [|destruct (nth_error l i); [|discriminate]; now apply G in X|discriminate].
    destruct (reshape _ s) as [a|]; [|discriminate]. cbn [bind] in X. now apply G in X.
Qed.
Lemma layout_dict E (l : list K) : smeft_layout E -> (shape_size (e_shape E) <= List.length l)%nat ->
  exists C : cdict, C_array2dict E l = Ok C /\ smeft_point C /\ C_dict2array E C = Ok (firstn (shape_size (e_shape E)) l) /\ dkeys C = dkeys (e_shape E) /\ wfdict C.
Proof.
  intros LY L. pose proof LY as (W & KS & SH). destruct (C18_array_roundtrip K E l W L) as (C & EC & KC & VC & BC).
  assert (DK : dkeys C = dkeys (e_shape E)).
  { unfold C_array2dict in EC. apply a2d_keys in EC; [exact EC|exact W|]. intros k _ []. }
  exists C. split; [exact EC|]. split; [|split; [exact BC|split; [exact DK|unfold wfdict; rewrite DK; exact W]]].
  apply (has_shape_point E C LY). intros k s HS. apply dget_In, in_split in HS as (pre & post & HS).
  destruct (VC pre k s post HS) as (v & V & S & _). eauto.
Qed.
Lemma cv_eq_shape s (v w : cval K) : has_shape s v -> cv_eq v w -> has_shape s w.
Proof. destruct s, v, w; cbn; try tauto. intros -> [-> _]. reflexivity. Qed.
Lemma cv_eq_entry k ts (v w : cval K) I : dget op_fields k = Some ts -> vshape v = map (fun _ => 3%nat) ts -> cv_eq v w -> In I (indices_of k) -> entry v I = entry w I.
Proof.
  intros T S Q HI. destruct v as [x|s a], w as [y|t b]; cbn [cv_eq vshape entry] in *; try contradiction; [exact Q|].
  destruct Q as [<- Q]. apply Q. unfold indices_of in HI. rewrite T in HI. apply in_all_indices in HI. now rewrite S.
Qed.
(* without new physics *)
Lemma beta_off_full E (C : cdict) H : smeft_layout E -> smeft_point C -> H <> 0 ->
  exists D0, beta_of E beta_prog C H false = Ok D0 /\ smeft_point D0 /\ dkeys D0 = dkeys (e_shape E).
Proof.
  intros LY P N. pose proof LY as (W & KS & SH).
  destruct (layout_dict E (repeat (0 : K) (Z.to_nat 5000)) LY) as (Z & EZ & PZ & _ & DZ & WZ).
  { rewrite repeat_length, (layout_size E LY). rewrite <- (Nat2Z.id 2576). apply Z2Nat.inj_le; lia. }
  destruct (all_entries_spec _ _ beta_sm_rank) as (R0 & NB0 & _).
  destruct (beta_sound_SM op_rank C H (smeft_point_shaped C P) N E beta_prog R0 Z EZ return_in_prog NB0) as (B & EB & WB & LO & NO).
  destruct (locals_entry _ _ C B H R0 NB0 beta_sm_keys beta_sm_rank LO) as [A0 B0].
  assert (BN : forall k v, dget B k = Some v -> In k (dkeys sm_fields)).
  { intros k v V. destruct (dget R0 k) eqn:Q; [eapply B0; eauto|]. rewrite (NO k Q) in V. discriminate. }
  exists (dupdate Z B). split; [exact EB|]. split.
  - intros k ts T. destruct (PZ k ts T) as (v & V & S & Q). destruct (dget B k) as [w|] eqn:BK.
    + exists w. rewrite dget_dupdate by exact WB. rewrite BK. split; [reflexivity|]. destruct (A0 k (BN k w BK)) as (ts' & v' & n & T' & V' & Hn & Wn & Ln & RP).
      rewrite T in T'. injection T' as <-. rewrite BK in V'. injection V' as <-.
      split; [rewrite map_const_repeat; apply RP|]. intros ->. exists (nval (venv C H) n []). now apply rep_0 in RP.
    + exists v. rewrite dget_dupdate by exact WB. rewrite BK. auto.
  - rewrite dkeys_dupdate by exact WB. rewrite <- DZ. rewrite <- (app_nil_r (dkeys Z)) at 2. f_equal.
    assert (F : forall l, (forall k, In k l -> In k (dkeys B)) -> filter (fun k => negb (dmem Z k)) l = []).
    { induction l as [|k l IH]; intros IL; [reflexivity|]. cbn [filter].
      assert (M : dmem Z k = true).
      { apply kmem_In. rewrite DZ. apply KS. apply dkeys_split. left. destruct (dget B k) as [v|] eqn:V; [exact (BN k v V)|].
        exfalso. apply dget_None in V. apply V, IL. now left. }
      rewrite M. cbn [negb]. apply IH. intros; apply IL; now right. }
    apply F. auto.
Qed.
Lemma beta_off_point E (C : cdict) H D0 : smeft_layout E -> smeft_point C -> H <> 0 -> beta_of E beta_prog C H false = Ok D0 -> smeft_point D0.
Proof. intros LY P N ED. destruct (beta_off_full E C H LY P N) as (D & E' & PD & _). rewrite ED in E'. injection E' as ->. exact PD. Qed.
Lemma beta_array_layout E (C : cdict) H np : smeft_layout E -> dkeys (e_shape E) = prog_keys beta_prog [] -> smeft_point C -> H <> 0 ->
  exists D l D', beta_of E beta_prog C H np = Ok D /\ beta_array E beta_prog C H np = Ok l /\
    C_dict2array E D = Ok l /\ C_array2dict E l = Ok D' /\ smeft_point D' /\ forall k, In k (dkeys op_fields) -> same k D' D.
Proof.
  intros LY OR P N. pose proof LY as (W & KS & SH).
  assert (X : exists D, beta_of E beta_prog C H np = Ok D /\ smeft_point D /\ dkeys D = dkeys (e_shape E)).
  { destruct np.
    - destruct (beta_entries E C H P N) as (R & D & _ & ED & A & _). exists D. split; [exact ED|]. split; [now apply (entries_point C D H R)|].
      rewrite OR. exact (beta_dkeys E C H beta_prog D ED).
    - now apply beta_off_full. }
  destruct X as (D & ED & PD & DK). pose proof (point_has_shape E D LY PD) as HS.
  destruct (C18_dict_roundtrip K E D W HS) as (l & D' & EL & LL & ED' & KD & VD).
  assert (WD : wfdict D) by (unfold wfdict; rewrite DK; exact W).
  exists D, l, D'. split; [exact ED|]. split; [|split; [exact EL|split; [exact ED'|split]]].
  - unfold beta_array. rewrite ED. cbn [rmap]. rewrite (hstack_seg D WD), DK. unfold C_dict2array, e_keys in EL.
    rewrite dict2array_spec in EL; [exact EL|]. intros k Hk. rewrite <- DK in Hk. intros Q. apply dget_None in Q. contradiction.
  - apply (has_shape_point E D' LY). intros k s Hk. destruct (VD k s Hk) as (v & v' & V & V' & Q). exists v'. split; [exact V'|].
    destruct (HS k s Hk) as (v2 & V2 & S2). rewrite V in V2. injection V2 as <-. now apply (cv_eq_shape s v).
  - intros k Hk I HI. destruct (dget op_fields k) as [ts|] eqn:T; [|apply dget_None in T; contradiction].
    destruct (VD k _ (SH k ts T)) as (v & v' & V & V' & Q). destruct (PD k ts T) as (v2 & V2 & S2 & _). rewrite V in V2. injection V2 as <-.
    unfold coef. rewrite V, V'. symmetry. now apply (cv_eq_entry k ts).
Qed.
End More.
