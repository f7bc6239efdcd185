(* C24: the translations between the Warsaw and the Warsaw up basis are inverse to each other. *)
From Coq Require Import List Bool ZArith QArith Qcanon Arith Lia String Ascii.
From Verif Require Import PyBase Num SymModel SymClass SymSpec EftModel EftSpec EftProofs EftRound EftRound2 EftInit BasisProps
  NpModel NpProofs BetaSpec BetaProofs RotModel RotProofs RotProps UpProofs.
Import ListNotations.
Local Open Scope string_scope.
Local Open Scope list_scope.

(* the coefficients that are read and printed: real parts of the coefficients declared
   real in the basis file, and coefficients that are zero are left out *)
Definition clean {K : StarField} (real : string -> bool) (d : dict string K) (k : string) : option K :=
  match dget d k with
  | None => None
  | Some z => let z' := if real k then kre z else z in if kdec z' 0%K then None else Some z'
  end.
(* smeftutil for a basis file that lists the coefficients of the Warsaw basis *)
Record smeft_util (all : list string) (real : string -> bool) (E : eft) : Prop := {
  su_basis : describes warsaw_ops all real;
  su_init : exists d4 d4s, dim4_ok warsaw_ops d4 d4s /\ eft_init all real d4 d4s = Ok E }.

Section Facts.
Context {K : StarField}.
Local Open Scope K_scope.
Add Field KFupp : (k_field K).
Lemma util_ok all real E : smeft_util all real E -> eft_ok E warsaw_ops /\ e_all E = all /\ bosonic_keys (e_keys0 E).
Proof.
  intros [D (d4 & d4s & D4 & EI)].
  assert (A : exists n c s, In (n, (c, s)) warsaw_ops /\ c <> Cl0) by (exists "ee", Cl6, [3; 3; 3; 3]%nat; split; [vm_compute; tauto|discriminate]).
  destruct (eft_init_ok warsaw_ops all real d4 d4s D D4 A) as (E' & EI' & OK & EA & _). assert (E' = E) by congruence. subst E'.
  split; [exact OK|]. split; [exact EA|]. intros k. rewrite (eft_init_keys0 _ _ _ _ _ EI), (keys_0f_in warsaw_ops all real D). apply warsaw_bosonic.
Qed.
Lemma only_q_mat3 (M : cval K) : mat3 M -> forall f, mat3 (only_q M f).
Proof. intros H f. destruct f; try exact eye_mat3. exact H. Qed.
Lemma eye_entry i j : (i < 3)%nat -> (j < 3)%nat -> entry (@np_eye K 3) [i; j] = delta i j.
Proof. intros A B. destruct (rep_eye (K := K)) as (_ & _ & RE). rewrite RE by (apply idxs_2_in; lia). reflexivity. Qed.
Lemma eye_inverse i j : (i < 3)%nat -> (j < 3)%nat -> ksum (map (fun m => entry (@np_eye K 3) [i; m] * entry (@np_eye K 3) [m; j]) (seq 0 3)) = delta i j.
Proof.
  intros A B. transitivity (ksum (map (fun m => delta m i * entry (@np_eye K 3) [m; j]) (seq 0 3))).
  - apply ksum_ext. intros m Hm. apply in_seq in Hm. rewrite eye_entry by lia. unfold delta. now rewrite Nat.eqb_sym.
  - rewrite ksum_delta by exact A. now apply eye_entry.
Qed.
Lemma only_q_inverse (A B : cval K) : (forall i j, (i < 3)%nat -> (j < 3)%nat -> ksum (map (fun m => entry A [i; m] * entry B [m; j]) (seq 0 3)) = delta i j) ->
  inverse3 (only_q A) (only_q B).
Proof. intros H f i j Hi Hj. destruct f; cbn [only_q]; [now apply H|..]; now apply eye_inverse. Qed.
End Facts.
Lemma unitary_dag {K : StarField} (V : cval K) : mat3 V -> unitary3 (fun i j => entry V [i; j]) ->
  inverse3 (only_q V) (only_q (np_T (np_conj V))) /\ inverse3 (only_q (np_T (np_conj V))) (only_q V).
Proof.
  intros M H. split; apply only_q_inverse; intros i j Hi Hj; destruct (H i j Hi Hj) as [H1 H2].
  - rewrite <- H2. apply ksum_ext. intros m _. now rewrite dag_entry.
  - rewrite <- H1. apply ksum_ext. intros m _. now rewrite dag_entry.
Qed.
Lemma printed {K : StarField} all real E (d : dict string K) C d' : smeft_util all real E -> wfdict d -> (forall k, In k (dkeys d) -> In k all) ->
  wcxf2arrays_symmetrized E d = Ok C -> arrays2wcxf_nonred E C = Ok d' -> forall k, dget d' k = clean real d k.
Proof.
  intros [D (d4 & d4s & D4 & EI)] WF HD F1 F2 k.
  assert (A : exists n c s, In (n, (c, s)) warsaw_ops /\ c <> Cl0) by (exists "ee", Cl6, [3; 3; 3; 3]%nat; split; [vm_compute; tauto|discriminate]).
  destruct (C16_coefficients_roundtrip K warsaw_ops all real d4 d4s E d D D4 A EI WF HD) as (C' & d'' & G1 & G2 & V).
  assert (C' = C) by congruence. subst C'. assert (d'' = d') by congruence. subst d''. exact (V k).
Qed.

(* Warsaw -> Warsaw up -> Warsaw *)
Theorem C24_warsaw_roundtrip : forall (K : StarField) all real E (V : cval K) (d : dict string K),
  smeft_util all real E -> mat3 V -> unitary3 (fun i j => entry V [i; j]) ->
  wfdict d -> (forall k, In k (dkeys d) -> In k all) ->
  exists d1 d2, warsaw_to_warsaw_up E V d = Ok d1 /\ warsaw_up_to_warsaw E V d1 = Ok d2 /\
    (forall k, In k (dkeys d1) -> In k all) /\ forall k, dget d2 k = clean real d k.
Proof.
  intros K all real E V d SU MV UV WF HD. destruct (util_ok all real E SU) as (OK & EA & KZ). destruct (unitary_dag V MV UV) as [_ INV].
  destruct (there_and_back E OK KZ (only_q (np_T (np_conj V))) (only_q V) d (only_q_mat3 _ (dag_mat3 _ MV)) (only_q_mat3 _ MV) INV WF)
    as (C & D & d1 & d2 & F1 & F2 & F3 & W1 & A1 & _ & F4 & d' & F5 & EQ); [now rewrite EA|].
  exists d1, d2. split; [unfold warsaw_to_warsaw_up; rewrite F1; cbn [bind]; rewrite F2; exact F3|]. split; [exact F4|]. split; [now rewrite <- EA|].
  intros k. rewrite EQ. exact (printed all real E d C d' SU WF HD F1 F5 k).
Qed.
Print Assumptions C24_warsaw_roundtrip.
(* Warsaw up -> Warsaw -> Warsaw up *)
Theorem C24_warsaw_up_roundtrip : forall (K : StarField) all real E (V : cval K) (d : dict string K),
  smeft_util all real E -> mat3 V -> unitary3 (fun i j => entry V [i; j]) ->
  wfdict d -> (forall k, In k (dkeys d) -> In k all) ->
  exists d1 d2, warsaw_up_to_warsaw E V d = Ok d1 /\ warsaw_to_warsaw_up E V d1 = Ok d2 /\
    (forall k, In k (dkeys d1) -> In k all) /\ forall k, dget d2 k = clean real d k.
Proof.
  intros K all real E V d SU MV UV WF HD. destruct (util_ok all real E SU) as (OK & EA & KZ). destruct (unitary_dag V MV UV) as [INV _].
  destruct (there_and_back E OK KZ (only_q V) (only_q (np_T (np_conj V))) d (only_q_mat3 _ MV) (only_q_mat3 _ (dag_mat3 _ MV)) INV WF)
    as (C & D & d1 & d2 & F1 & F2 & F3 & W1 & A1 & _ & F4 & d' & F5 & EQ); [now rewrite EA|].
  exists d1, d2. split; [unfold warsaw_up_to_warsaw; rewrite F1; cbn [bind]; rewrite F2; exact F3|]. split; [exact F4|]. split; [now rewrite <- EA|].
  intros k. rewrite EQ. exact (printed all real E d C d' SU WF HD F1 F5 k).
Qed.
Print Assumptions C24_warsaw_up_roundtrip.
(* what the first translation does: in terms of the symmetric coefficient tensors, every
   index of a quark doublet is rotated by V^dagger (conjugated for conjugated fields) *)
Theorem C24_rotation : forall (K : StarField) all real E (V : cval K) (d : dict string K),
  smeft_util all real E -> mat3 V -> unitary3 (fun i j => entry V [i; j]) ->
  wfdict d -> (forall k, In k (dkeys d) -> In k all) ->
  exists d1 C C1, warsaw_to_warsaw_up E V d = Ok d1 /\ wcxf2arrays_symmetrized E d = Ok C /\ wcxf2arrays_symmetrized E d1 = Ok C1 /\
    forall k ts, dget wc_fields k = Some ts -> forall I, In I (indices_of k) ->
      coef C1 k I = rot (fun f i j => match f with Fq => kconj (entry V [j; i]) | _ => delta i j end) ts (coef C k) I.
Proof.
  intros K all real E V d SU MV UV WF HD. destruct (util_ok all real E SU) as (OK & EA & KZ). destruct (unitary_dag V MV UV) as [_ INV].
  destruct (there_and_back E OK KZ (only_q (np_T (np_conj V))) (only_q V) d (only_q_mat3 _ (dag_mat3 _ MV)) (only_q_mat3 _ MV) INV WF)
    as (C & D & d1 & d2 & F1 & F2 & F3 & W1 & A1 & (C1 & F4 & SD) & _); [now rewrite EA|].
  exists d1, C, C1. split; [unfold warsaw_to_warsaw_up; rewrite F1; cbn [bind]; rewrite F2; exact F3|]. split; [exact F1|]. split; [exact F4|].
  intros k ts F I HI.
  assert (HD' : forall k0, In k0 (dkeys d) -> In k0 (e_all E)) by (rewrite EA; exact HD).
  destruct (load E OK d WF HD') as (C' & F1' & FC). assert (C' = C) by congruence. subst C'.
  destruct (C23_rotation K _ (e_keys0 E) C KZ (only_q_mat3 _ (dag_mat3 _ MV)) (full_coefficients C FC)) as (D' & F2' & CD & N & A).
  assert (D' = D) by congruence. subst D'.
  transitivity (coef D k I).
  - unfold coef. specialize (SD k). destruct (dget D k) as [v|] eqn:E1, (dget C1 k) as [w|]; try contradiction; [|reflexivity].
    destruct (CD k v E1) as (ts' & F' & V'). assert (ts' = ts) by congruence. subst ts'. rewrite (indices_of_idxs k ts (wc_op k ts F)) in HI.
    destruct ts as [|t ts].
    + destruct V' as (z & ->). destruct w as [y|]; [|contradiction]. cbn [cv_eq] in SD. now subst.
    + destruct V' as (a & ->). destruct w as [y|s b]; [contradiction|]. destruct SD as [<- SD]. symmetry. apply SD. apply in_all_indices. now rewrite map_repeat3.
  - rewrite (A k ts F I HI). apply rot_extU.
    + intros f j i Hj Hi. destruct f; cbn [only_q]; [now apply dag_entry|..]; now apply eye_entry.
    + rewrite (indices_of_idxs k ts (wc_op k ts F)) in HI. apply in_idxs in HI as [_ HI]. exact HI.
Qed.
Print Assumptions C24_rotation.

(* smeftutil and a unitary matrix that meet the hypotheses *)
Example C24_case : exists E, smeft_util (all_of warsaw_ops) (real_of warsaw_ops) E /\ mat3 (ex_U Fq) /\ unitary3 (fun i j => entry (ex_U Fq) [i; j]) /\
  exists d : dict string QI, wfdict d /\ (forall k, In k (dkeys d) -> In k (all_of warsaw_ops)) /\ dget d "qqql_2311" = Some (qi 0 1) /\
    exists d1 d2, warsaw_to_warsaw_up E (ex_U Fq) d = Ok d1 /\ warsaw_up_to_warsaw E (ex_U Fq) d1 = Ok d2 /\ dget d2 "qqql_2311" = Some (qi 0 1).
Proof.
  destruct ex16_smeft as (D & D4 & A & I1 & _).
  destruct (C15_basis_detected warsaw_ops _ _ _ _ D D4 A) as (E & EI & _).
  assert (SU : smeft_util (all_of warsaw_ops) (real_of warsaw_ops) E) by (split; eauto).
  assert (MV : mat3 (ex_U Fq)) by (exists ex_u; reflexivity).
  exists E. split; [exact SU|]. split; [exact MV|]. split; [exact (C23_unitary Fq)|].
  exists [("qqql_2311", qi 0 1)].
  assert (WF : wfdict [("qqql_2311", qi 0 1)]) by (constructor; [intros []|constructor]).
  assert (HD : forall k, In k (dkeys [("qqql_2311", qi 0 1)]) -> In k (all_of warsaw_ops)) by (intros k [<-|[]]; exact I1).
  split; [exact WF|]. split; [exact HD|]. split; [reflexivity|].
  destruct (C24_warsaw_roundtrip QI _ _ E (ex_U Fq) _ SU MV (C23_unitary Fq) WF HD) as (d1 & d2 & F1 & F2 & _ & V).
  exists d1, d2. split; [exact F1|]. split; [exact F2|]. rewrite V. unfold clean. cbn [dget]. rewrite keqb_refl.
  replace (real_of warsaw_ops "qqql_2311") with false by (vm_compute; reflexivity). cbv zeta.
  assert (X : kdec (qi 0 1) 0%K = false) by (vm_compute; reflexivity). now rewrite X.
Qed.
