(* C29, C30, C31: flavour covariance, degree and selection rules of the SMEFT beta
   functions.  beta_of E beta_prog C H np is  beta(C, HIGHSCALE=H, newphys=np). *)
From Coq Require Import List Bool ZArith QArith Arith Lia String Ascii.
From Verif Require Import PyBase Num SymModel EftModel EftSpec EftProofs EftProps NpModel NpProofs BetaModel BetaProg BetaNorm BetaSpec BetaSound BetaCov BetaFacts BetaProofs BetaDeg BetaDefect BetaSM.
Import ListNotations.
Local Open Scope string_scope.
Local Open Scope list_scope.
Local Open Scope K_scope.

(* A point gives a point: beta never fails and returns an entry of the right shape for
   every parameter and nothing else. *)
Theorem C29_total : forall (K : StarField) (E : eft) (C : dict string (cval K)) (H : K),
  smeft_point C -> H <> 0 ->
  exists D, beta_of E beta_prog C H true = Ok D /\ smeft_point D /\ (forall k, ~ In k (dkeys op_fields) -> dget D k = None).
Proof.
  intros K E C H P N. destruct (beta_entries E C H P N) as (R & D & _ & ED & A & B).
  exists D. split; [exact ED|]. split; [now apply (entries_point C D H R)|exact B].
Qed.

(* C' is the point C seen after rotating the fields by U in U(3)^5: its beta functions
   are those of C, rotated - for every parameter except the coefficient dphi. *)
Theorem C29_covariance_partial : forall (K : StarField) (E : eft) (U : field -> nat -> nat -> K) (C C' : dict string (cval K)) (H : K),
  (forall f, unitary3 (U f)) -> smeft_point C -> smeft_point C' -> rotated_point U C C' -> H <> 0 ->
  exists D D', beta_of E beta_prog C H true = Ok D /\ beta_of E beta_prog C' H true = Ok D' /\
    forall k ts, dget op_fields k = Some ts -> k <> "dphi" ->
      forall I, In I (indices_of k) -> coef D' k I = rot U ts (coef D k) I.
Proof.
  intros K E U C C' H HU P P' RP N.
  destruct (beta_entries E C H P N) as (R & D & NB & ED & A & _).
  destruct (beta_entries E C' H P' N) as (R' & D' & NB' & ED' & A' & _).
  rewrite NB in NB'. injection NB' as <-. exists D, D'. split; [exact ED|]. split; [exact ED'|].
  intros k ts T NK I HI. pose proof (dget_Some_key _ _ _ T) as IN.
  destruct (entry_ok_coef C D H R k (A k IN)) as (ts1 & n & T1 & En & Ln & Wn & V1).
  destruct (entry_ok_coef C' D' H R k (A' k IN)) as (ts2 & n2 & T2 & En2 & _ & _ & V2).
  rewrite T in T1, T2. injection T1 as <-. injection T2 as <-. rewrite En in En2. injection En2 as <-.
  pose proof (all_entries_at _ R _ k n beta_typed NB En) as TY. unfold typed_or in TY.
  assert (KM : kmem k ["dphi"] = false) by (apply kmem_nIn; intros [X|[]]; congruence). rewrite KM, T in TY.
  rewrite (V2 I HI). rewrite (indices_of_idxs k ts T) in HI.
  rewrite (n_covariant U HU (venv C H) (venv C' H) ts n I TY HI).
  2:{ intros m f t _ _ FS. now apply rot_law. }
  unfold rot. apply ksum_ext. intros J HJ. f_equal. symmetry. apply V1. now rewrite (indices_of_idxs k ts T).
Qed.

(* The term of dphi that breaks covariance is  -12 einsum("tprs,pt", quqd1, Gu Gu^dagger Gu);
   all the rest of dphi is covariant.  dphi_defect (BetaDefect.v) is this term. *)
Theorem C29_dphi_rest : forall (K : StarField) (E : eft) (U : field -> nat -> nat -> K) (C C' : dict string (cval K)) (H : K),
  (forall f, unitary3 (U f)) -> smeft_point C -> smeft_point C' -> rotated_point U C C' -> H <> 0 ->
  exists D D' X X', beta_of E beta_prog C H true = Ok D /\ beta_of E beta_prog C' H true = Ok D' /\
    forall I, In I (indices_of "dphi") ->
      coef D "dphi" I = X I + dphi_defect C I /\ coef D' "dphi" I = X' I + dphi_defect C' I /\
      X' I = rot U [bar Fq; pln Fd] X I.
Proof.
  intros K E U C C' H HU P P' RP N.
  destruct (beta_entries E C H P N) as (R & D & NB & ED & A & _).
  destruct (beta_entries E C' H P' N) as (R' & D' & NB' & ED' & A' & _).
  rewrite NB in NB'. injection NB' as <-.
  assert (T : dget op_fields "dphi" = Some [bar Fq; pln Fd]) by reflexivity. pose proof (dget_Some_key _ _ _ T) as IN.
  destruct (entry_ok_coef C D H R _ (A _ IN)) as (ts1 & n & T1 & En & Ln & Wn & V1).
  destruct (entry_ok_coef C' D' H R _ (A' _ IN)) as (ts2 & n2 & T2 & En2 & _ & _ & V2).
  rewrite T in T1, T2. injection T1 as <-. injection T2 as <-. rewrite En in En2. injection En2 as <-.
  set (g := (fst n, filter (mono_typed [bar Fq; pln Fd]) (snd n)) : nform).
  exists D, D', (nval (venv C H) g), (nval (venv C' H) g). split; [exact ED|]. split; [exact ED'|]. intros I HI.
  assert (SP : forall Cx, nval (venv Cx H) n I = nval (venv Cx H) g I + dphi_defect Cx I).
  { intros Cx. unfold nval. rewrite (ksum_filter (mono_typed [bar Fq; pln Fd])). f_equal.
    pose proof dphi_chk_ok as CH. unfold dphi_chk in CH. rewrite NB, En in CH. apply keqb_true in CH. rewrite CH.
    rewrite (indices_of_idxs _ _ T) in HI. cbn [map]. now rewrite dphi_defect_val. }
  rewrite (V1 I HI), (V2 I HI). split; [apply SP|]. split; [apply SP|].
  rewrite (indices_of_idxs _ _ T) in HI.
  apply (n_covariant U HU (venv C H) (venv C' H) [bar Fq; pln Fd] g I); [|exact HI|].
  - unfold n_typed, g. cbn [fst snd]. rewrite Ln. cbn [List.length Nat.eqb]. apply forallb_forall. intros m Hm. apply filter_In in Hm as [_ Hm]. exact Hm.
  - intros m f t _ _ FS. now apply rot_law.
Qed.

(* --- a concrete rotation and point --- *)
Definition ex_U (u0 : QI) (f : field) (i j : nat) : QI :=
  if Nat.eqb i j then (match f, i with Fu, O => u0 | _, _ => 1 end) else 0.
Definition ex_val (ts : list slot) (z : QI) : cval QI :=
  match ts with [] => CNum z | _ => CArr (map (fun _ => 3%nat) ts) (fun I => if forallb (Nat.eqb 0) I then z else 0) end.
(* zero except for Gu[0,0] and quqd1[0,0,0,0] *)
Definition ex_point (gu qu : QI) : dict string (cval QI) :=
  map (fun p => (fst p, ex_val (snd p) (if String.eqb (fst p) "Gu" then gu else if String.eqb (fst p) "quqd1" then qu else 0))) op_fields.
Definition qone : QI := qi 1 0.
Definition qim : QI := qi 0 1.
Definition ex_C := ex_point qone qone.
Definition ex_C' := ex_point qim qim.
Definition chk_unitary (U : nat -> nat -> QI) : bool :=
  forallb (fun a => forallb (fun b =>
    kdec (ksum (map (fun i => (U i a)^* * U i b) (seq 0 3))) (delta a b) &&
    kdec (ksum (map (fun i => U a i * (U b i)^*) (seq 0 3))) (delta a b)) (seq 0 3)) (seq 0 3).
Lemma chk_unitary_ok U : chk_unitary U = true -> unitary3 U.
Proof.
  intros E a b Ha Hb. unfold chk_unitary in E. rewrite forallb_forall in E. specialize (E a). rewrite forallb_forall in E.
  specialize (E ltac:(apply in_seq; lia) b ltac:(apply in_seq; lia)). apply andb_true_iff in E as [E1 E2]. split; now apply kdec_true.
Qed.
Lemma ex_unitary f : unitary3 (ex_U qim f).
Proof. apply chk_unitary_ok. destruct f; vm_compute; reflexivity. Qed.
Lemma ex_smeft_point gu qu : smeft_point (ex_point gu qu).
Proof.
  intros k ts T. unfold ex_point.
  assert (G : forall l : dict string (list slot), dget l k = Some ts ->
     dget (map (fun p => (fst p, ex_val (snd p) (if String.eqb (fst p) "Gu" then gu else if String.eqb (fst p) "quqd1" then qu else 0))) l) k =
     Some (ex_val ts (if String.eqb k "Gu" then gu else if String.eqb k "quqd1" then qu else 0))).
  { induction l as [|[j x] l IH]; cbn [dget map fst snd]; [discriminate|].
    destruct (keqb_spec k j) as [<-|]; [intros [= ->]; reflexivity|exact IH]. }
  eexists. split; [exact (G _ T)|]. destruct ts; cbn [ex_val vshape]; (split; [reflexivity|]); [eauto|discriminate].
Qed.
Definition chk_rotated (U : field -> nat -> nat -> QI) (C C' : dict string (cval QI)) : bool :=
  forallb (fun p => forallb (fun I => kdec (coef C' (fst p) I) (rot U (snd p) (coef C (fst p)) I)) (indices_of (fst p))) op_fields.
Lemma chk_rotated_ok U C C' : chk_rotated U C C' = true -> rotated_point U C C'.
Proof.
  intros E k ts T I HI. unfold chk_rotated in E. rewrite forallb_forall in E. specialize (E _ (dget_In _ _ _ T)). cbn [fst snd] in E.
  rewrite forallb_forall in E. specialize (E I HI). now apply kdec_true.
Qed.
Lemma ex_rotated : rotated_point (ex_U qim) ex_C ex_C'.
Proof. apply chk_rotated_ok. vm_compute. reflexivity. Qed.
Definition chk_dphi (o : option (dict string nform)) : bool :=
  match o with
  | Some R => match dget R "dphi" with
     | Some n => negb (kdec (nval (venv ex_C' 1) n [0;0]%nat) (rot (ex_U qim) [bar Fq; pln Fd] (nval (venv ex_C 1) n) [0;0]%nat))
     | None => false end
  | None => false end.
Lemma chk_dphi_ok : chk_dphi (beta_nf true) = true. Proof. vm_compute. reflexivity. Qed.

(* Covariance fails for dphi: a phase rotation of one right-handed up quark. *)
Theorem C29_dphi_refuted : forall E : eft, exists (U : field -> nat -> nat -> QI) (C C' : dict string (cval QI)) D D',
  (forall f, unitary3 (U f)) /\ smeft_point C /\ smeft_point C' /\ rotated_point U C C' /\
  beta_of E beta_prog C 1 true = Ok D /\ beta_of E beta_prog C' 1 true = Ok D' /\
  exists I, In I (indices_of "dphi") /\ coef D' "dphi" I <> rot U [bar Fq; pln Fd] (coef D "dphi") I.
Proof.
  intros E. assert (N : (1 : QI) <> 0) by (apply kdec_false; vm_compute; reflexivity).
  destruct (beta_entries E ex_C 1 (ex_smeft_point _ _) N) as (R & D & NB & ED & A & _).
  destruct (beta_entries E ex_C' 1 (ex_smeft_point _ _) N) as (R' & D' & NB' & ED' & A' & _).
  rewrite NB in NB'. injection NB' as <-. exists (ex_U qim), ex_C, ex_C', D, D'.
  split; [exact ex_unitary|]. split; [apply ex_smeft_point|]. split; [apply ex_smeft_point|]. split; [exact ex_rotated|].
  split; [exact ED|]. split; [exact ED'|].
  assert (T : dget op_fields "dphi" = Some [bar Fq; pln Fd]) by reflexivity. pose proof (dget_Some_key _ _ _ T) as IN.
  destruct (entry_ok_coef ex_C D 1 R _ (A _ IN)) as (ts1 & n & T1 & En & Ln & Wn & V1).
  destruct (entry_ok_coef ex_C' D' 1 R _ (A' _ IN)) as (ts2 & n2 & T2 & En2 & _ & _ & V2).
  rewrite En in En2. injection En2 as <-.
  pose proof chk_dphi_ok as CH. unfold chk_dphi in CH. rewrite NB, En in CH. apply negb_true_iff in CH. apply kdec_false in CH.
  exists [0;0]%nat. assert (I0 : In [0;0]%nat (indices_of "dphi")) by (left; reflexivity). split; [exact I0|].
  rewrite (V2 _ I0). intros EQ. apply CH. rewrite EQ. unfold rot. apply ksum_ext. intros J HJ. f_equal. apply V1.
  now rewrite (indices_of_idxs _ _ T).
Qed.
(* non-vacuity of C29: a rotation with a nontrivial phase and a point that really changes *)
Example ex29 : (forall f, unitary3 (ex_U qim f)) /\ smeft_point ex_C /\ smeft_point ex_C' /\ rotated_point (ex_U qim) ex_C ex_C' /\
  coef ex_C "Gu" [0;0]%nat <> coef ex_C' "Gu" [0;0]%nat.
Proof.
  split; [exact ex_unitary|]. split; [apply ex_smeft_point|]. split; [apply ex_smeft_point|]. split; [exact ex_rotated|].
  apply kdec_false. vm_compute. reflexivity.
Qed.

(* ---------- C30 ---------- *)
(* At fixed SM parameters the beta functions of the Wilson coefficients are linear in the
   Wilson coefficients (real-linear: beta.py also contains their complex conjugates), and
   those of the SM parameters are affine. *)
Theorem C30_linear : forall (K : StarField) (E : eft) (C1 C2 C : dict string (cval K)) (H a b : K),
  smeft_point C1 -> smeft_point C2 -> smeft_point C -> H <> 0 -> kreal a -> kreal b ->
  (forall k I, In k (dkeys sm_fields) -> In I (indices_of k) -> coef C1 k I = coef C k I /\ coef C2 k I = coef C k I) ->
  (forall k I, In k (dkeys wc_fields) -> In I (indices_of k) -> coef C k I = a * coef C1 k I + b * coef C2 k I) ->
  exists D1 D2 D, beta_of E beta_prog C1 H true = Ok D1 /\ beta_of E beta_prog C2 H true = Ok D2 /\ beta_of E beta_prog C H true = Ok D /\
    (forall k I, In k (dkeys wc_fields) -> In I (indices_of k) -> coef D k I = a * coef D1 k I + b * coef D2 k I) /\
    (a + b = 1 -> forall k I, In k (dkeys sm_fields) -> In I (indices_of k) -> coef D k I = a * coef D1 k I + b * coef D2 k I).
Proof.
  intros K E C1 C2 C H a b P1 P2 P N RA RB SM WC.
  destruct (beta_entries E C1 H P1 N) as (R & D1 & NB & ED1 & A1 & _).
  destruct (beta_entries E C2 H P2 N) as (R' & D2 & NB2 & ED2 & A2 & _). rewrite NB in NB2. injection NB2 as <-.
  destruct (beta_entries E C H P N) as (R' & D & NB2 & ED & A & _). rewrite NB in NB2. injection NB2 as <-.
  exists D1, D2, D. split; [exact ED1|]. split; [exact ED2|]. split; [exact ED|].
  assert (CB : combination a b C1 C2 C).
  { split; [|exact WC]. intros k Hk. split; intros I HI; symmetry; now apply SM. }
  assert (G : forall k I, In k (dkeys op_fields) -> In I (indices_of k) -> (dmem wc_fields k = true \/ a + b = 1) ->
     coef D k I = a * coef D1 k I + b * coef D2 k I).
  { intros k I Hk HI AB. destruct (entry_ok_coef C D H R k (A k Hk)) as (ts & n & T & En & Ln & Wn & V).
    destruct (entry_ok_coef C1 D1 H R k (A1 k Hk)) as (ts1 & n1 & T1 & En1 & _ & _ & V1).
    destruct (entry_ok_coef C2 D2 H R k (A2 k Hk)) as (ts2 & n2 & T2 & En2 & _ & _ & V2).
    rewrite En in En1, En2. injection En1 as <-. injection En2 as <-. rewrite (V I HI), (V1 I HI), (V2 I HI).
    apply (nval_comb a b C1 C2 C H k n I CB RA RB); [|exact (all_entries_at _ R _ k n beta_deg NB En)| |exact AB].
    - exact (all_entries_at _ R _ k n beta_arity NB En).
    - rewrite (indices_of_idxs k ts T) in HI. apply in_idxs in HI. apply HI. }
  split.
  - intros k I Hk HI. apply G; [|exact HI|left; unfold dmem; now apply kmem_In]. unfold op_fields, dkeys. rewrite map_app, in_app_iff. now right.
  - intros AB k I Hk HI. apply G; [|exact HI|now right]. unfold op_fields, dkeys. rewrite map_app, in_app_iff. now left.
Qed.
(* New physics is not generated by running. *)
Theorem C30_no_new_physics : forall (K : StarField) (E : eft) (C : dict string (cval K)) (H : K),
  smeft_point C -> H <> 0 ->
  (forall k I, In k (dkeys wc_fields) -> In I (indices_of k) -> coef C k I = 0) ->
  exists D, beta_of E beta_prog C H true = Ok D /\
    forall k I, In k (dkeys wc_fields) -> In I (indices_of k) -> coef D k I = 0.
Proof.
  intros K E C H P N Z. assert (R0 : kreal (0 : K)) by apply kconj_0.
  destruct (C30_linear K E C C C H 0 0 P P P N R0 R0) as (D1 & D2 & D & E1 & E2 & E3 & L & _).
  - auto.
  - intros k I Hk HI. now rewrite lin00, Z.
  - exists D. split; [exact E3|]. intros k I Hk HI. rewrite (L k I Hk HI). apply lin00.
Qed.

(* With new physics switched off, beta functions are returned for all parameters; those of
   the Wilson coefficients vanish, and those of the SM parameters are the ones that are
   computed with new physics switched on at the same point. *)
Theorem C30_newphys_off : forall (K : StarField) (E : eft) (C : dict string (cval K)) (H : K),
  smeft_layout E -> smeft_point C -> H <> 0 ->
  exists D D0, beta_of E beta_prog C H true = Ok D /\ beta_of E beta_prog C H false = Ok D0 /\
    (forall k, In k (dkeys op_fields) <-> dget D0 k <> None) /\
    (forall k I, In k (dkeys sm_fields) -> In I (indices_of k) -> coef D0 k I = coef D k I) /\
    (forall k I, In k (dkeys wc_fields) -> In I (indices_of k) -> coef D0 k I = 0).
Proof. intros. now apply beta_off. Qed.
(* ... so they are those at zero Wilson coefficients only if the point has none: the terms
   proportional to m2/HIGHSCALE^2 are kept. *)
Definition ex_m2 : dict string (cval QI) :=
  map (fun p => (fst p, ex_val (snd p) (if String.eqb (fst p) "m2" then qone else if String.eqb (fst p) "phi" then qone else 0))) op_fields.
Definition ex_m2_sm : dict string (cval QI) :=
  map (fun p => (fst p, ex_val (snd p) (if String.eqb (fst p) "m2" then qone else 0))) op_fields.
Lemma ex_dict_point (h : string -> QI) : smeft_point (map (fun p => (fst p, ex_val (snd p) (h (fst p)))) op_fields).
Proof.
  intros k ts T.
  assert (G : forall l : dict string (list slot), dget l k = Some ts ->
     dget (map (fun p => (fst p, ex_val (snd p) (h (fst p)))) l) k = Some (ex_val ts (h k))).
  { induction l as [|[j x] l IH]; cbn [dget map fst snd]; [discriminate|].
    destruct (keqb_spec k j) as [<-|]; [intros [= ->]; reflexivity|exact IH]. }
  eexists. split; [exact (G _ T)|]. destruct ts; cbn [ex_val vshape]; (split; [reflexivity|]); [eauto|discriminate].
Qed.
Definition chk_m2 (o : option (dict string nform)) : bool :=
  match o with
  | Some R => match dget R "Lambda" with
     | Some n => negb (kdec (nval (venv ex_m2 1) n []) (nval (venv ex_m2_sm 1) n []))
     | None => false end
  | None => false end.
Lemma chk_m2_ok : chk_m2 (beta_nf true) = true. Proof. vm_compute. reflexivity. Qed.
Theorem C30_newphys_off_refuted : forall E : eft, smeft_layout E -> exists C C0 : dict string (cval QI), exists D D0,
  smeft_point C /\ smeft_point C0 /\ (forall k, In k (dkeys sm_fields) -> same k C C0) /\
  (forall k I, In k (dkeys wc_fields) -> In I (indices_of k) -> coef C0 k I = 0) /\
  beta_of E beta_prog C 1 false = Ok D /\ beta_of E beta_prog C0 1 false = Ok D0 /\
  coef D "Lambda" [] <> coef D0 "Lambda" [].
Proof.
  intros E LY. assert (N : (1 : QI) <> 0) by (apply kdec_false; vm_compute; reflexivity).
  pose proof (ex_dict_point (fun k => if String.eqb k "m2" then qone else if String.eqb k "phi" then qone else 0)) as P.
  pose proof (ex_dict_point (fun k => if String.eqb k "m2" then qone else 0)) as P0.
  change (smeft_point ex_m2) in P. change (smeft_point ex_m2_sm) in P0.
  destruct (beta_off E ex_m2 1 LY P N) as (Dt & D & Et & ED & _ & S1 & _).
  destruct (beta_off E ex_m2_sm 1 LY P0 N) as (D0t & D0 & E0t & ED0 & _ & S0 & _).
  exists ex_m2, ex_m2_sm, D, D0. split; [exact P|]. split; [exact P0|].
  assert (CK : forallb (fun k => forallb (fun I => kdec (coef ex_m2 k I) (coef ex_m2_sm k I)) (indices_of k)) (dkeys sm_fields) = true) by (vm_compute; reflexivity).
  assert (CZ : forallb (fun k => forallb (fun I => kdec (coef ex_m2_sm k I) 0) (indices_of k)) (dkeys wc_fields) = true) by (vm_compute; reflexivity).
  rewrite forallb_forall in CK, CZ.
  split; [intros k Hk I HI; specialize (CK k Hk); rewrite forallb_forall in CK; specialize (CK I HI); now apply kdec_true|].
  split; [intros k I Hk HI; specialize (CZ k Hk); rewrite forallb_forall in CZ; specialize (CZ I HI); now apply kdec_true|].
  split; [exact ED|]. split; [exact ED0|].
  assert (HL : In "Lambda" (dkeys sm_fields)) by (do 3 right; now left). assert (HO : In "Lambda" (dkeys op_fields)) by (apply dkeys_split; now left).
  assert (HI : In ([] : idx) (indices_of "Lambda")) by (now left). rewrite (S1 _ _ HL HI), (S0 _ _ HL HI).
  destruct (beta_entries E ex_m2 1 P N) as (R & D' & NB & ED' & A & _). rewrite Et in ED'. injection ED' as <-.
  destruct (beta_entries E ex_m2_sm 1 P0 N) as (R' & D' & NB' & ED' & A0 & _). rewrite E0t in ED'. injection ED' as <-.
  rewrite NB in NB'. injection NB' as <-.
  destruct (entry_ok_coef ex_m2 Dt 1 R _ (A _ HO)) as (ts1 & n & T1 & En & _ & _ & V1).
  destruct (entry_ok_coef ex_m2_sm D0t 1 R _ (A0 _ HO)) as (ts2 & n2 & T2 & En2 & _ & _ & V2).
  rewrite En in En2. injection En2 as <-. rewrite (V1 _ HI), (V2 _ HI).
  pose proof chk_m2_ok as CH. unfold chk_m2 in CH. rewrite NB, En in CH. apply negb_true_iff in CH. now apply kdec_false in CH.
Qed.
(* non-vacuity of C30 *)
Definition ex_layout : eft := mkEft [] [] [] [] [] (map (fun p => (fst p, layout_of (snd p))) op_fields) false.
Example ex30 : smeft_layout ex_layout /\ smeft_point ex_m2 /\ smeft_point ex_m2_sm.
Proof.
  split; [|split; [exact (ex_dict_point (fun k => if String.eqb k "m2" then qone else if String.eqb k "phi" then qone else 0))|
    exact (ex_dict_point (fun k => if String.eqb k "m2" then qone else 0))]]. unfold smeft_layout, ex_layout. cbn [e_shape].
  assert (DK : dkeys (map (fun p : string * list slot => (fst p, layout_of (snd p))) op_fields) = dkeys op_fields).
  { unfold dkeys. rewrite map_map. reflexivity. }
  split; [unfold wfdict; rewrite DK; exact op_fields_wf|]. split; [intros k; now rewrite DK|].
  intros k ts T. revert T. generalize op_fields. induction d as [|[j x] d IH]; cbn [dget map fst snd]; [discriminate|].
  destruct (keqb k j); [intros [= ->]; reflexivity|exact IH].
Qed.

(* ---------- C31 ---------- *)
(* The beta function of a Wilson coefficient depends, besides the SM parameters, only on
   the Wilson coefficients whose operators have the same baryon and lepton number; those
   of the SM parameters only on the coefficients of operators that conserve both. *)
Theorem C31_blocks : forall (K : StarField) (E : eft) (C C' : dict string (cval K)) (H : K) (k : string) (ts : list slot),
  smeft_point C -> smeft_point C' -> H <> 0 -> dget op_fields k = Some ts ->
  (forall j, In j (dkeys sm_fields) -> same j C C') ->
  (forall j us, dget wc_fields j = Some us -> charges us = charges ts -> same j C C') ->
  exists D D', beta_of E beta_prog C H true = Ok D /\ beta_of E beta_prog C' H true = Ok D' /\ same k D D'.
Proof.
  intros K E C C' H k ts P P' N T S W.
  destruct (beta_entries E C H P N) as (R & D & NB & ED & A & _).
  destruct (beta_entries E C' H P' N) as (R' & D' & NB' & ED' & A' & _). rewrite NB in NB'. injection NB' as <-.
  exists D, D'. split; [exact ED|]. split; [exact ED'|]. intros I HI. pose proof (dget_Some_key _ _ _ T) as IN.
  destruct (entry_ok_coef C D H R k (A k IN)) as (ts1 & n & T1 & En & Ln & Wn & V1).
  destruct (entry_ok_coef C' D' H R k (A' k IN)) as (ts2 & n2 & T2 & En2 & _ & _ & V2).
  rewrite En in En2. injection En2 as <-. rewrite (V1 I HI), (V2 I HI).
  apply (nval_charge C C' H k n I); [exact (all_entries_at _ R _ k n beta_arity NB En)|exact (all_entries_at _ R _ k n beta_charge NB En)| |exact S|].
  - rewrite (indices_of_idxs k ts T) in HI. apply in_idxs in HI. apply HI.
  - intros j Hj CE. destruct (dget wc_fields j) as [us|] eqn:U; [|apply dget_None in U; contradiction].
    apply (W j us U). unfold charge_of in CE. rewrite T in CE. destruct (dget op_fields j) as [us'|] eqn:U'; [|apply dget_None in U'; elim U'; apply dkeys_split; now right].
    assert (us' = us); [|congruence]. apply dget_In in U. apply dget_In in U'.
    assert (IU : In (j, us) op_fields) by (unfold op_fields; apply in_app_iff; now right).
    pose proof (In_dget _ _ _ op_fields_wf IU). pose proof (In_dget _ _ _ op_fields_wf U'). congruence.
Qed.
(* The operators that violate baryon number, and those that violate lepton number only. *)
Theorem C31_which_blocks : forall k ts, dget op_fields k = Some ts ->
  (charges ts = (3, 1)%Z <-> In k ["duql"; "qque"; "qqql"; "duue"]) /\
  (charges ts = (0, 2)%Z <-> k = "llphiphi") /\
  (charges ts = (3, 1)%Z \/ charges ts = (0, 2)%Z \/ charges ts = (0, 0)%Z).
Proof.
  assert (CK : forallb (fun p => Bool.eqb (keqb (charges (snd p)) (3, 1)%Z) (kmem (fst p) ["duql"; "qque"; "qqql"; "duue"]) &&
     Bool.eqb (keqb (charges (snd p)) (0, 2)%Z) (keqb (fst p) "llphiphi") &&
     (keqb (charges (snd p)) (3, 1)%Z || (keqb (charges (snd p)) (0, 2)%Z || keqb (charges (snd p)) (0, 0)%Z))) op_fields = true) by (vm_compute; reflexivity).
  intros k ts T. rewrite forallb_forall in CK. specialize (CK _ (dget_In _ _ _ T)). cbn [fst snd] in CK.
  apply andb_true_iff in CK as [CK C3]. apply andb_true_iff in CK as [C1 C2]. apply eqb_prop in C1, C2.
  split; [|split].
  - rewrite <- (kmem_In k). destruct (keqb_spec (charges ts) (3, 1)%Z); rewrite <- C1; split; intros; congruence.
  - destruct (keqb_spec (charges ts) (0, 2)%Z); destruct (keqb_spec k "llphiphi"); split; intros; congruence.
  - apply orb_true_iff in C3 as [C3|C3]; [left; now apply keqb_true|]. apply orb_true_iff in C3 as [C3|C3]; right; [left|right]; now apply keqb_true.
Qed.
(* In particular: no baryon number violation is generated, and baryon number violating
   coefficients do not feed into anything else. *)
Theorem C31_no_bnv_generated : forall (K : StarField) (E : eft) (C : dict string (cval K)) (H : K) (q : Z * Z),
  smeft_point C -> H <> 0 -> 
  (forall j us I, dget wc_fields j = Some us -> charges us = q -> In I (indices_of j) -> coef C j I = 0) ->
  exists D, beta_of E beta_prog C H true = Ok D /\
    forall k ts I, dget wc_fields k = Some ts -> charges ts = q -> In I (indices_of k) -> coef D k I = 0.
Proof.
  intros K E C H q P N Z.
  (* compare with the point without any Wilson coefficient *)
  set (C0 := map (fun p => (fst p, match dget C (fst p) with
     | Some v => if dmem wc_fields (fst p) then (match v with CNum _ => CNum 0 | CArr s _ => CArr s (fun _ => 0) end) else v
     | None => CNum 0 end)) op_fields : dict string (cval K)).
  assert (G : forall k ts, dget op_fields k = Some ts -> dget C0 k = Some (match dget C k with
     | Some v => if dmem wc_fields k then (match v with CNum _ => CNum 0 | CArr s _ => CArr s (fun _ => 0) end) else v
     | None => CNum 0 end)).
  { unfold C0. generalize op_fields. induction d as [|[j x] d IH]; intros k ts; cbn [dget map fst snd]; [discriminate|].
    destruct (keqb_spec k j) as [<-|]; [intros [= ->]; reflexivity|apply IH]. }
  assert (P0 : smeft_point C0).
  { intros k ts T. destruct (P k ts T) as (v & V & SH & SC). rewrite (G k ts T), V. eexists. split; [reflexivity|].
    destruct (dmem wc_fields k); [|split; assumption]. destruct v as [z|s a]; cbn [vshape] in *; (split; [exact SH|]); [eauto|].
    intros X. destruct (SC X); discriminate. }
  assert (W0 : forall k I, In k (dkeys wc_fields) -> In I (indices_of k) -> coef C0 k I = 0).
  { intros k I Hk HI. unfold coef. assert (IO : In k (dkeys op_fields)) by (apply dkeys_split; now right).
    destruct (dget op_fields k) as [ts|] eqn:T; [|apply dget_None in T; contradiction]. rewrite (G k ts T).
    destruct (P k ts T) as (v & -> & _). assert (M : dmem wc_fields k = true) by (unfold dmem; now apply kmem_In). rewrite M.
    destruct v; reflexivity. }
  assert (S0 : forall j, In j (dkeys sm_fields) -> same j C C0).
  { intros j Hj I HI. unfold coef. assert (IO : In j (dkeys op_fields)) by (apply dkeys_split; now left).
    destruct (dget op_fields j) as [ts|] eqn:T; [|apply dget_None in T; contradiction]. rewrite (G j ts T).
    destruct (P j ts T) as (v & -> & _). assert (M : dmem wc_fields j = false) by (unfold dmem; apply kmem_nIn; intros X; now apply (sm_wc_disjoint j)).
    rewrite M. reflexivity. }
  destruct (C30_no_new_physics K E C0 H P0 N W0) as (D0 & E0 & Z0).
  destruct (beta_entries E C H P N) as (_ & D & _ & ED & _). exists D. split; [exact ED|].
  intros k ts I Tk CQ HI. pose proof (dget_Some_key _ _ _ Tk) as KW. assert (KO : In k (dkeys op_fields)) by (apply dkeys_split; now right).
  assert (TO : dget op_fields k = Some ts).
  { apply In_dget; [exact op_fields_wf|]. unfold op_fields. apply in_app_iff. right. now apply dget_In. }
  destruct (C31_blocks K E C C0 H k ts P P0 N TO S0) as (D' & D0' & E1 & E2 & SM).
  - intros j us U CU J HJ. rewrite (Z j us J U); [|congruence|exact HJ]. symmetry. apply W0; [now apply dget_Some_key in U|exact HJ].
  - rewrite ED in E1. injection E1 as <-. rewrite E0 in E2. injection E2 as <-. rewrite (SM I HI). now apply Z0.
Qed.
(* non-vacuity of C31: two points that differ in a baryon number violating coefficient only *)
Definition ex_bnv (z : QI) : dict string (cval QI) :=
  map (fun p => (fst p, ex_val (snd p) (if String.eqb (fst p) "duue" then z else qone))) op_fields.
Example ex31 : smeft_point (ex_bnv 0) /\ smeft_point (ex_bnv qone) /\ ~ same "duue" (ex_bnv 0) (ex_bnv qone) /\
  (forall j, In j (dkeys sm_fields) -> same j (ex_bnv 0) (ex_bnv qone)) /\
  (forall j us, dget wc_fields j = Some us -> charges us = (0, 0)%Z -> same j (ex_bnv 0) (ex_bnv qone)).
Proof.
  split; [exact (ex_dict_point (fun k => if String.eqb k "duue" then 0 else qone))|].
  split; [exact (ex_dict_point (fun k => if String.eqb k "duue" then qone else qone))|].
  assert (CK : forallb (fun k => (String.eqb k "duue" || forallb (fun I => kdec (coef (ex_bnv 0) k I) (coef (ex_bnv qone) k I)) (indices_of k))%bool) (dkeys op_fields) = true)
    by (vm_compute; reflexivity).
  assert (G : forall j, In j (dkeys op_fields) -> j <> "duue" -> same j (ex_bnv 0) (ex_bnv qone)).
  { intros j Hj NJ I HI. rewrite forallb_forall in CK. specialize (CK j Hj). apply orb_true_iff in CK as [CK|CK].
    - apply String.eqb_eq in CK. contradiction.
    - rewrite forallb_forall in CK. specialize (CK I HI). now apply kdec_true. }
  split; [intros S; specialize (S [0;0;0;0]%nat (or_introl eq_refl)); revert S; apply kdec_false; vm_compute; reflexivity|]. split.
  - intros j Hj. apply G; [apply dkeys_split; now left|]. intros ->. apply (sm_wc_disjoint "duue" Hj). apply kmem_In. vm_compute. reflexivity.
  - intros j us U CU. apply G; [apply dkeys_split; right; now apply dget_Some_key in U|]. intros ->. vm_compute in U. injection U as <-. discriminate.
Qed.

Print Assumptions C29_total.
Print Assumptions C29_covariance_partial.
Print Assumptions C29_dphi_rest.
Print Assumptions C29_dphi_refuted.
Print Assumptions C30_linear.
Print Assumptions C30_no_new_physics.
Print Assumptions C30_newphys_off.
Print Assumptions C30_newphys_off_refuted.
Print Assumptions C31_blocks.
Print Assumptions C31_which_blocks.
Print Assumptions C31_no_bnv_generated.
