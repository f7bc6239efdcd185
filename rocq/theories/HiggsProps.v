(* C25: the translations between the Higgs-Warsaw up and the Warsaw up basis are inverse to
   each other. *)
From Coq Require Import List Bool ZArith QArith Arith Lia String Ascii Reals Lra Psatz.
From Verif Require Import PyBase Num SymModel EftModel NpModel BetaSpec RealC HiggsModel HiggsProofs.
Import ListNotations.
Local Open Scope string_scope.
Local Open Scope list_scope.

(* ---------- specification ---------- *)
(* What the WCxf basis files say: the bases differ by the coefficients new_higgs / new_warsaw
   (62 each: 11 flavour blind ones, 7 hermitian 3x3 matrices given by the upper triangle, and
   one general 3x3 matrix) and share all others, among them ll_1221. *)
Record higgs_bases (allH allW : list string) : Prop := {
  hb_higgs : forall k, In k new_higgs -> In k allH;
  hb_warsaw : forall k, In k new_warsaw -> In k allW;
  hb_shared : forall k, In k allH /\ ~ In k new_higgs <-> In k allW /\ ~ In k new_warsaw;
  hb_ll : In "ll_1221" allH /\ In "ll_1221" allW }.
Example C25_counts : List.length new_higgs = 62%nat /\ List.length new_warsaw = 62%nat /\ NoDup new_higgs /\ NoDup new_warsaw.
Proof. repeat split; try (apply knodup_NoDup); vm_compute; reflexivity. Qed.
(* the coefficients that are real by hermiticity *)
Definition diagonals (l : list string) : list string := flat_map (fun n => map (fun i => label n [i; i]) (seq 0 3)) l.
Definition real_higgs : list string :=
  ["deltalambda3"; "deltacz"; "czBox"; "cgg"; "cgammagamma"; "czz"; "czgamma"; "cggtilde"; "cgammagammatilde"; "czztilde"; "czgammatilde"; "ll_1221"]
  ++ diagonals ["deltagWlL"; "deltagZeL"; "deltagZeR"; "deltagZuL"; "deltagZdL"; "deltagZuR"; "deltagZdR"].
Definition real_warsaw : list string :=
  ["phi"; "phiBox"; "phiD"; "phiG"; "phiW"; "phiB"; "phiWB"; "phiGtilde"; "phiWtilde"; "phiBtilde"; "phiWtildeB"; "ll_1221"]
  ++ diagonals ["phil3"; "phiq3"; "phil1"; "phiq1"; "phie"; "phiu"; "phid"].

Section Generic.
Context {K : StarField}.
Local Open Scope K_scope.
Add Field KFhp : (k_field K).

Definition reals (l : list string) (C : dict string K) : Prop := forall k, In k l -> kreal (dgetd C k 0).
(* the weak mixing angle belongs to the couplings; no denominator vanishes; real couplings *)
Definition couplings_ok (p : hpar K) : Prop :=
  kreal (h_gw p) /\ kreal (h_gp p) /\ h_gw p <> 0 /\ h_gp p <> 0 /\ h_gs p <> 0 /\
  h_gw p * h_gw p <> h_gp p * h_gp p /\ h_gw p * h_gw p + h_gp p * h_gp p <> 0 /\
  h_s2w p * (h_gw p * h_gw p + h_gp p * h_gp p) = h_gp p * h_gp p.
(* D holds the coefficients all of the basis, with the values of C (0 if C has none) *)
Definition completes (all : list string) (C D : dict string K) : Prop :=
  forall k, dget D k = if kmem k all then Some (dgetd C k 0) else None.

Lemma couplings_par p : couplings_ok p -> par_ok p.
Proof.
  intros (A & B & C & D & E & F & G & H). split; auto.
  - intros Z. apply F. replace (h_gw p * h_gw p) with (h_gw p * h_gw p - h_gp p * h_gp p + h_gp p * h_gp p) by ring. rewrite Z. ring.
  - transitivity (h_s2w p * (h_gw p * h_gw p + h_gp p * h_gp p) / (h_gw p * h_gw p + h_gp p * h_gp p)); [field; exact G|now rewrite H].
Qed.
Lemma unitary_l (V : nat -> nat -> K) : unitary3 V -> forall a b, (a < 3)%nat -> (b < 3)%nat -> mmul (mdag V) V a b = meye 1 a b.
Proof.
  intros U a b Ha Hb. destruct (U a b Ha Hb) as [E _]. unfold mmul, mdag, meye. unfold delta in E.
  rewrite <- E. unfold ksum. cbn [seq map fold_right]. ring.
Qed.
Lemma unitary_r (V : nat -> nat -> K) : unitary3 V -> forall a b, (a < 3)%nat -> (b < 3)%nat -> mmul V (mdag V) a b = meye 1 a b.
Proof.
  intros U a b Ha Hb. destruct (U a b Ha Hb) as [_ E]. unfold mmul, mdag, meye. unfold delta in E.
  rewrite <- E. unfold ksum. cbn [seq map fold_right]. ring.
Qed.
Lemma in_diag n l i : In n l -> (i < 3)%nat -> In (label n [i; i]) (diagonals l).
Proof. intros H Hi. apply in_flat_map. exists n. split; [exact H|]. apply in_map_iff. exists i. split; [reflexivity|]. apply in_seq. lia. Qed.
Lemma hw_spec allH allW (p : hpar K) V C : higgs_bases allH allW ->
  exists d, higgslike_to_warsaw_up allH allW p V C = Ok d /\ wfdict d /\ (forall k, dget d k <> None -> In k allW) /\
    forall k, In k allW -> dget d k = Some (pick (hw_values p V (fun k => dgetd C k 0)) (fun k => dgetd C k 0) k).
Proof.
  intros B. apply translate_with_spec.
  - apply hw_wf.
  - intros f g E. rewrite (hw_values_only p V f), (hw_values_only p V g). now rewrite (only_ext hw_reads f g E).
  - intros k I. unfold hw_reads in I. rewrite !app_assoc in I. apply in_app_or in I as [I|[<-|[]]]; [|exact (proj1 (hb_ll _ _ B))].
    apply (hb_higgs _ _ B). unfold new_higgs. rewrite !app_assoc. exact I.
  - intros k f I. destruct (in_dec string_dec k new_warsaw) as [N|N].
    + right. intros E. apply dget_None in E. apply E. now apply hw_keys.
    + left. apply (hb_shared _ _ B). now split.
Qed.
Lemma wh_spec allH allW (p : hpar K) V C : higgs_bases allH allW ->
  exists d, warsaw_up_to_higgslike allH allW p V C = Ok d /\ wfdict d /\ (forall k, dget d k <> None -> In k allH) /\
    forall k, In k allH -> dget d k = Some (pick (wh_values p V (fun k => dgetd C k 0)) (fun k => dgetd C k 0) k).
Proof.
  intros B. apply translate_with_spec.
  - apply wh_wf.
  - intros f g E. rewrite (wh_values_only p V f), (wh_values_only p V g). now rewrite (only_ext wh_reads f g E).
  - intros k I. unfold wh_reads in I. rewrite !app_assoc in I. apply in_app_or in I as [I|[<-|[]]]; [|exact (proj2 (hb_ll _ _ B))].
    apply (hb_warsaw _ _ B). unfold new_warsaw. rewrite !app_assoc. exact I.
  - intros k f I. destruct (in_dec string_dec k new_higgs) as [N|N].
    + right. intros E. apply dget_None in E. apply E. now apply wh_keys.
    + left. apply (hb_shared _ _ B). now split.
Qed.

(* from Higgs-Warsaw up to Warsaw up and back, in any star field *)
Theorem C25_higgs_roundtrip_field allH allW (p : hpar K) V C :
  higgs_bases allH allW -> couplings_ok p -> unitary3 V -> reals real_higgs C ->
  exists W D, higgslike_to_warsaw_up allH allW p V C = Ok W /\ warsaw_up_to_higgslike allH allW p V W = Ok D /\ completes allH C D.
Proof.
  intros B P U R. apply couplings_par in P.
  destruct (hw_spec allH allW p V C B) as (W & E & _ & _ & GW). exists W.
  destruct (wh_spec allH allW p V W B) as (D & F & _ & KD & GD). exists D.
  split; [exact E|split; [exact F|]].
  set (h := fun k => dgetd C k 0) in *. set (w := pick (hw_values p V h) h) in *.
  assert (V0 : wh_values p V (fun k => dgetd W k 0) = wh_values p V w).
  { rewrite (wh_values_only p V (fun k => dgetd W k 0)), (wh_values_only p V w). erewrite only_ext; [reflexivity|].
    intros k I. unfold dgetd. rewrite GW; [reflexivity|]. unfold wh_reads in I. rewrite !app_assoc in I.
    apply in_app_or in I as [I|[<-|[]]]; [|exact (proj2 (hb_ll _ _ B))].
    apply (hb_warsaw _ _ B). unfold new_warsaw. rewrite !app_assoc. exact I. }
  intros k. destruct (kmem k allH) eqn:M.
  - apply kmem_In in M. rewrite (GD k M). f_equal. rewrite V0.
    assert (RH : pick (wh_values p V w) w k = h k).
    { apply round_h; auto using unitary_l.
      - apply R. cbn; tauto.
      - apply R. cbn; tauto.
      - intros a Ia. apply R. cbn in Ia |- *. tauto.
      - intros i Hi. apply R. apply in_or_app. right. apply in_diag; [cbn; tauto|exact Hi].
      - destruct (in_dec string_dec k new_higgs) as [N|N]; [now left|right].
        apply (proj1 (hb_shared _ _ B k)). now split. }
    unfold pick in RH at 1. unfold pick at 1.
    destruct (dget (wh_values p V w) k) as [v|] eqn:Q; [exact RH|]. etransitivity; [|exact RH].
    apply dget_None in Q. rewrite wh_keys in Q. unfold dgetd. rewrite GW; [reflexivity|].
    apply (proj1 (hb_shared _ _ B k)). now split.
  - destruct (dget D k) eqn:Q; [|reflexivity]. apply kmem_nIn in M. exfalso. apply M, KD. congruence.
Qed.

(* from Warsaw up to Higgs-Warsaw up and back *)
Theorem C25_warsaw_roundtrip_field allH allW (p : hpar K) V C :
  higgs_bases allH allW -> couplings_ok p -> unitary3 V -> reals real_warsaw C ->
  exists H D, warsaw_up_to_higgslike allH allW p V C = Ok H /\ higgslike_to_warsaw_up allH allW p V H = Ok D /\ completes allW C D.
Proof.
  intros B P U R. apply couplings_par in P.
  destruct (wh_spec allH allW p V C B) as (H & E & _ & _ & GH). exists H.
  destruct (hw_spec allH allW p V H B) as (D & F & _ & KD & GD). exists D.
  split; [exact E|split; [exact F|]].
  set (w := fun k => dgetd C k 0) in *. set (h := pick (wh_values p V w) w) in *.
  assert (V0 : hw_values p V (fun k => dgetd H k 0) = hw_values p V h).
  { rewrite (hw_values_only p V (fun k => dgetd H k 0)), (hw_values_only p V h). erewrite only_ext; [reflexivity|].
    intros k I. unfold dgetd. rewrite GH; [reflexivity|]. unfold hw_reads in I. rewrite !app_assoc in I.
    apply in_app_or in I as [I|[<-|[]]]; [|exact (proj1 (hb_ll _ _ B))].
    apply (hb_higgs _ _ B). unfold new_higgs. rewrite !app_assoc. exact I. }
  intros k. destruct (kmem k allW) eqn:M.
  - apply kmem_In in M. rewrite (GD k M). f_equal. rewrite V0.
    assert (RH : pick (hw_values p V h) h k = w k).
    { apply round_w; auto using unitary_r.
      - intros a Ia. apply R. cbn in Ia |- *. tauto.
      - intros i Hi. apply R. apply in_or_app. right. apply in_diag; [cbn; tauto|exact Hi].
      - intros i Hi. apply R. apply in_or_app. right. apply in_diag; [cbn; tauto|exact Hi].
      - destruct (in_dec string_dec k new_warsaw) as [N|N]; [now left|right].
        apply (proj2 (hb_shared _ _ B k)). now split. }
    unfold pick in RH at 1. unfold pick at 1.
    destruct (dget (hw_values p V h) k) as [v|] eqn:Q; [exact RH|]. etransitivity; [|exact RH].
    apply dget_None in Q. rewrite hw_keys in Q. unfold dgetd. rewrite GH; [reflexivity|].
    apply (proj2 (hb_shared _ _ B k)). now split.
  - destruct (dget D k) eqn:Q; [|reflexivity]. apply kmem_nIn in M. exfalso. apply M, KD. congruence.
Qed.
End Generic.

(* ---------- the input parameters of the code ---------- *)
Local Open Scope R_scope.
Definition physical (q : hinput) : Prop :=
  0 < i_GF q /\ 0 < i_mZ q /\ 0 < i_alpha_e q /\ 0 < i_alpha_s q /\
  4 * PI * i_alpha_e q < sqrt 2 * i_GF q * (i_mZ q * i_mZ q).
Lemma rc_neq r : r <> 0 -> rc r <> k0.
Proof. intros N E. apply N. now apply rc_inj. Qed.
(* the couplings computed by the code from any physical input admit the translation *)
Theorem C25_parameters q : physical q -> couplings_ok (higgs_par q).
Proof.
  intros (G & Z & A & S & L). unfold couplings_ok, higgs_par. cbn zeta. cbn [h_gw h_gp h_gs h_s2w].
  pose proof PI_RGT_0 as P. set (E := 4 * PI * i_alpha_e q) in *. set (T := sqrt 2 * i_GF q * (i_mZ q * i_mZ q)) in *.
  assert (HE : 0 < E) by (unfold E; nra).
  set (r := sqrt (1 - E / T)).
  assert (HT : 0 < T) by lra.
  assert (X0 : 0 < 1 - E / T). { assert (E / T < 1); [|lra]. apply (Rmult_lt_reg_r T); [lra|]. unfold Rdiv. rewrite Rmult_assoc, Rinv_l; lra. }
  assert (X1 : 1 - E / T < 1). { assert (0 < E / T); [|lra]. now apply Rdiv_lt_0_compat. }
  assert (R0 : 0 < r) by now apply sqrt_lt_R0.
  assert (R1 : r < 1). { unfold r. rewrite <- sqrt_1 at 2. apply sqrt_lt_1; lra. }
  set (s2 := 1 / 2 * (1 - r)).
  assert (S0 : 0 < s2 < 1 / 2) by (unfold s2; lra).
  set (sw := sqrt s2). set (cw := sqrt (1 - s2)). set (e := sqrt E).
  assert (Hsw : 0 < sw) by (apply sqrt_lt_R0; lra).
  assert (Hcw : 0 < cw) by (apply sqrt_lt_R0; lra).
  assert (He : 0 < e) by (apply sqrt_lt_R0; lra).
  assert (Ssw : sw * sw = s2) by (apply sqrt_sqrt; lra).
  assert (Scw : cw * cw = 1 - s2) by (apply sqrt_sqrt; lra).
  assert (See : e * e = E) by (apply sqrt_sqrt; lra).
  assert (G2 : e / sw * (e / sw) = E / s2) by (rewrite <- See, <- Ssw; field; lra).
  assert (G3 : e / cw * (e / cw) = E / (1 - s2)) by (rewrite <- See, <- Scw; field; lra).
  assert (SUM : e / sw * (e / sw) + e / cw * (e / cw) = E / (s2 * (1 - s2))) by (rewrite G2, G3; field; lra).
  rewrite <- !rc_mul, <- !rc_add, <- rc_mul. repeat split.
  - apply rc_real.
  - apply rc_real.
  - apply rc_neq. apply Rgt_not_eq. now apply Rdiv_lt_0_compat.
  - apply rc_neq. apply Rgt_not_eq. now apply Rdiv_lt_0_compat.
  - apply rc_neq. apply Rgt_not_eq. apply sqrt_lt_R0. nra.
  - intros F. apply rc_inj in F. rewrite G2, G3 in F. 
    assert (F' : E * (1 - s2) = E * s2).
    { apply (f_equal (fun x => x * (s2 * (1 - s2)))) in F. field_simplify in F; [|lra|lra]. nra. }
    apply Rmult_eq_reg_l in F'; lra.
  - rewrite SUM. apply rc_neq. apply Rgt_not_eq. apply Rdiv_lt_0_compat; [lra|]. nra.
  - f_equal. rewrite SUM, G3. field. lra.
Qed.
Theorem C25_higgs_roundtrip allH allW (q : hinput) (V : nat -> nat -> CR) C :
  higgs_bases allH allW -> physical q -> unitary3 V -> reals real_higgs C ->
  exists W D, higgslike_to_warsaw_up allH allW (higgs_par q) V C = Ok W /\
    warsaw_up_to_higgslike allH allW (higgs_par q) V W = Ok D /\ completes allH C D.
Proof. intros B P. apply C25_higgs_roundtrip_field; [exact B|now apply C25_parameters]. Qed.
Theorem C25_warsaw_roundtrip allH allW (q : hinput) (V : nat -> nat -> CR) C :
  higgs_bases allH allW -> physical q -> unitary3 V -> reals real_warsaw C ->
  exists H D, warsaw_up_to_higgslike allH allW (higgs_par q) V C = Ok H /\
    higgslike_to_warsaw_up allH allW (higgs_par q) V H = Ok D /\ completes allW C D.
Proof. intros B P. apply C25_warsaw_roundtrip_field; [exact B|now apply C25_parameters]. Qed.

Print Assumptions C25_higgs_roundtrip_field.
Print Assumptions C25_warsaw_roundtrip_field.
Print Assumptions C25_parameters.
Print Assumptions C25_higgs_roundtrip.
Print Assumptions C25_warsaw_roundtrip.

(* ---------- a concrete case ---------- *)
Definition ex25_H : list string := "ll_1221" :: "uphi_33" :: new_higgs.
Definition ex25_W : list string := "ll_1221" :: "uphi_33" :: new_warsaw.
Example C25_bases : higgs_bases ex25_H ex25_W.
Proof.
  split.
  - intros k I. now do 2 right.
  - intros k I. now do 2 right.
  - assert (N1 : ~ In "ll_1221" new_higgs /\ ~ In "uphi_33" new_higgs /\ ~ In "ll_1221" new_warsaw /\ ~ In "uphi_33" new_warsaw)
      by (repeat split; apply kmem_nIn; vm_compute; reflexivity).
    intros k. split; intros [[<-|[<-|I]] N]; try contradiction; (split; [|tauto]); [now left|now right; left|now left|now right; left].
  - split; now left.
Qed.
(* the parameters of wilson/parameters.py:  GF, m_h, m_Z, alpha_e and alpha_s (rounded) *)
Example C25_physical : physical {| i_GF := 1166 / 100000000; i_mh := 125; i_mZ := 91; i_alpha_e := 1 / 128; i_alpha_s := 118 / 1000 |}.
Proof.
  unfold physical. cbn [i_GF i_mh i_mZ i_alpha_e i_alpha_s]. repeat split; try lra.
  pose proof PI_4. assert (14 / 10 < sqrt 2).
  { rewrite <- (sqrt_square (14 / 10)) by lra. apply sqrt_lt_1; lra. }
  lra.
Qed.
Local Open Scope K_scope.
Definition ex25_par : hpar QI := {| h_lam := qi 1 0; h_s2w := qi (9 # 25) 0; h_gs := qi 1 0; h_gw := qi 4 0; h_gp := qi 3 0 |}.
Definition ex25_V (i j : nat) : QI :=
  match i, j with
  | 0, 0 => qi (3 # 5) 0 | 0, 1 => qi 0 (4 # 5) | 1, 0 => qi 0 (4 # 5) | 1, 1 => qi (3 # 5) 0 | 2, 2 => qi 1 0 | _, _ => qi 0 0
  end%nat.
Definition ex25_C : dict string QI :=
  [("czz", qi 1 0); ("deltagZdL_12", qi 2 1); ("deltagWlL_11", qi 3 0); ("deltagWqR_31", qi 0 1); ("uphi_33", qi 1 1); ("deltagZdL_33", qi 5 0)].
Example C25_couplings : couplings_ok ex25_par.
Proof.
  unfold couplings_ok, kreal. cbn [ex25_par h_gw h_gp h_gs h_s2w]. repeat split; try (apply kdec_true; vm_compute; reflexivity); apply kdec_false; vm_compute; reflexivity.
Qed.
Example C25_unitary : unitary3 ex25_V.
Proof.
  intros a b Ha Hb. destruct a as [|[|[|]]]; try lia; destruct b as [|[|[|]]]; try lia; (split; apply kdec_true; vm_compute; reflexivity).
Qed.
Example C25_reals : reals real_higgs ex25_C.
Proof.
  assert (F : forallb (fun k => krealb (dgetd ex25_C k 0)) real_higgs = true) by (vm_compute; reflexivity).
  rewrite forallb_forall in F. intros k I. specialize (F k I). destruct (krealb_spec (dgetd ex25_C k 0)); [assumption|discriminate].
Qed.
(* the intermediate result is not trivial: deltagZdL_12 spreads over phiq1 and phiq3 *)
Example C25_case :
  match higgslike_to_warsaw_up ex25_H ex25_W ex25_par ex25_V ex25_C with
  | Ok W => dgetd W "uphi_33" 0 = qi 1 1 /\ dgetd W "phiq3_11" 0 <> 0 /\ dgetd W "phiq1_22" 0 <> 0 /\ dgetd W "phil3_33" 0 <> 0
  | Err _ => False
  end.
Proof.
  destruct (higgslike_to_warsaw_up ex25_H ex25_W ex25_par ex25_V ex25_C) as [W|e] eqn:E; [|exfalso; revert E; vm_compute; discriminate].
  assert (F : rmap (fun W => (kdec (dgetd W "uphi_33" 0) (qi 1 1), kdec (dgetd W "phiq3_11" 0) 0, kdec (dgetd W "phiq1_22" 0) 0, kdec (dgetd W "phil3_33" 0) 0))
      (higgslike_to_warsaw_up ex25_H ex25_W ex25_par ex25_V ex25_C) = Ok (true, false, false, false)) by (vm_compute; reflexivity).
  rewrite E in F. cbn [rmap] in F. injection F. intros F4 F3 F2 F1.
  split; [now apply kdec_true|]. repeat split; now apply kdec_false.
Qed.
