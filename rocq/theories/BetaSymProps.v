(* C32: the beta functions and the symmetries of the operators.  beta_of E beta_prog C H np
   is  beta(C, HIGHSCALE=H, newphys=np); symmetries, obeys, qqql_symmetric and
   symmetric_point (BetaSpec.v) spell out the symmetries. *)
From Coq Require Import List Bool ZArith QArith Arith Lia String Ascii.
From Verif Require Import PyBase Num SymModel EftModel EftSpec EftProofs EftProps NpModel NpProofs BetaModel BetaProg BetaNorm BetaSpec BetaSound BetaCov BetaFacts BetaProofs BetaDeg BetaDefect BetaSM BetaProps BetaSym.
Import ListNotations.
Local Open Scope string_scope.
Local Open Scope list_scope.
Local Open Scope K_scope.

(* At a symmetric point the beta functions obey every symmetry of the operators, with two
   exceptions, for which C32_ee_exchange_refuted and C32_qqql_refuted show that the full
   statement (D is a symmetric_point) fails: the exchange of two identical fields in ee
   and the relation of qqql. *)
Theorem C32_symmetry_partial : forall (K : StarField) (E : eft) (C : dict string (cval K)) (H : K),
  symmetric_point C -> kreal H -> H <> 0 ->
  exists D, beta_of E beta_prog C H true = Ok D /\ smeft_point D /\
    forall k gs g, dget symmetries k = Some gs -> In g gs -> (k, g) <> ("ee", ([0; 3; 2; 1]%nat, false)) -> obeys k g D.
Proof.
  intros K E C H SP HR N. pose proof SP as (P & _).
  destruct (beta_entries E C H P N) as (R & D & NB & ED & A & _).
  exists D. split; [exact ED|]. split; [now apply (entries_point C D H R)|]. intros k gs g GS G NE.
  assert (KO : forallb (fun p => kmem (fst p) (dkeys op_fields)) symmetries = true) by (vm_compute; reflexivity).
  rewrite forallb_forall in KO. specialize (KO _ (dget_In _ _ _ GS)). apply kmem_In in KO. cbn [fst] in KO.
  destruct (entry_ok_coef C D H R k (A k KO)) as (ts & n & T & En & Ln & Wn & VL).
  apply (obeys_sound C D H k gs g ts n); try assumption.
  - exact (all_entries_at _ R _ k n beta_sym NB En).
  - exact (all_entries_at _ R _ k n beta_sym_arity NB En).
Qed.

(* In particular: the beta functions of the couplings, of the Higgs potential and of the
   bosonic coefficients are real and those of the fermionic currents are hermitian. *)
Theorem C32_hermiticity : forall (K : StarField) (E : eft) (C : dict string (cval K)) (H : K),
  symmetric_point C -> kreal H -> H <> 0 ->
  exists D, beta_of E beta_prog C H true = Ok D /\
    (forall k, In k (["g"; "gp"; "gs"; "Lambda"; "m2"] ++ bosonic) -> kreal (coef D k [])) /\
    (forall k p r, In k ["phil1"; "phil3"; "phie"; "phiq1"; "phiq3"; "phiu"; "phid"] -> (p < 3)%nat -> (r < 3)%nat ->
       coef D k [r; p] = (coef D k [p; r])^* ) /\
    (forall k p r s t, In k ["ll"; "qq1"; "qq3"; "uu"; "dd"; "ee"; "lq1"; "lq3"; "eu"; "ed"; "ud1"; "ud8"; "le"; "lu"; "ld"; "qe"; "qu1"; "qu8"; "qd1"; "qd8"] ->
       (p < 3)%nat -> (r < 3)%nat -> (s < 3)%nat -> (t < 3)%nat -> coef D k [r; p; t; s] = (coef D k [p; r; s; t])^* ).
Proof.
  intros K E C H SP HR N. destruct (C32_symmetry_partial K E C H SP HR N) as (D & ED & PD & S). exists D. split; [exact ED|].
  assert (ID : forall k ts I, dget op_fields k = Some ts -> List.length I = List.length ts -> (forall x, In x I -> (x < 3)%nat) -> In I (indices_of k)).
  { intros k ts I T L B. rewrite (indices_of_idxs k ts T). apply in_idxs. auto. }
  assert (K0 : forallb (fun k => match dget symmetries k with Some gs => kmem ([], true) gs | None => false end && keqb (dget op_fields k) (Some [])) (["g"; "gp"; "gs"; "Lambda"; "m2"] ++ bosonic) = true) by (vm_compute; reflexivity).
  assert (K2 : forallb (fun k => match dget symmetries k with Some gs => kmem ([1; 0]%nat, true) gs | None => false end && match dget op_fields k with Some ts => Nat.eqb (List.length ts) 2 | None => false end)
     ["phil1"; "phil3"; "phie"; "phiq1"; "phiq3"; "phiu"; "phid"] = true) by (vm_compute; reflexivity).
  assert (K4 : forallb (fun k => match dget symmetries k with Some gs => kmem ([1; 0; 3; 2]%nat, true) gs | None => false end && match dget op_fields k with Some ts => Nat.eqb (List.length ts) 4 | None => false end)
     ["ll"; "qq1"; "qq3"; "uu"; "dd"; "ee"; "lq1"; "lq3"; "eu"; "ed"; "ud1"; "ud8"; "le"; "lu"; "ld"; "qe"; "qu1"; "qu8"; "qd1"; "qd8"] = true) by (vm_compute; reflexivity).
  rewrite forallb_forall in K0, K2, K4. split; [|split].
  - intros k Hk. specialize (K0 k Hk). apply andb_true_iff in K0 as [G T]. apply keqb_true in T.
    destruct (dget symmetries k) as [gs|] eqn:GS; [|discriminate]. apply kmem_In in G.
    assert (NE : (k, ([] : list nat, true)) <> ("ee", ([0; 3; 2; 1]%nat, false))) by (intros [=]).
    pose proof (S k gs ([], true) GS G NE [] (ID k [] [] T eq_refl (fun x (F : In x []) => match F with end))) as O.
    unfold kreal. symmetry. exact O.
  - intros k p r Hk Hp Hr. specialize (K2 k Hk). apply andb_true_iff in K2 as [G T].
    destruct (dget op_fields k) as [ts|] eqn:TS; [|discriminate]. apply Nat.eqb_eq in T.
    destruct (dget symmetries k) as [gs|] eqn:GS; [|discriminate]. apply kmem_In in G.
    assert (NE : (k, ([1; 0]%nat, true)) <> ("ee", ([0; 3; 2; 1]%nat, false))) by (intros [=]).
    refine (S k gs _ GS G NE [r; p] (ID k ts [r; p] TS _ _)); [rewrite T; reflexivity|intros x [<-|[<-|[]]]; assumption].
  - intros k p r s t Hk Hp Hr Hs Ht. specialize (K4 k Hk). apply andb_true_iff in K4 as [G T].
    destruct (dget op_fields k) as [ts|] eqn:TS; [|discriminate]. apply Nat.eqb_eq in T.
    destruct (dget symmetries k) as [gs|] eqn:GS; [|discriminate]. apply kmem_In in G.
    assert (NE : (k, ([1; 0; 3; 2]%nat, true)) <> ("ee", ([0; 3; 2; 1]%nat, false))) by (intros [=]).
    refine (S k gs _ GS G NE [r; p; t; s] (ID k ts [r; p; t; s] TS _ _)); [rewrite T; reflexivity|intros x [<-|[<-|[<-|[<-|[]]]]]; assumption].
Qed.

(* The relation of qqql is preserved among points without duql and qque. *)
Theorem C32_qqql_partial : forall (K : StarField) (E : eft) (C : dict string (cval K)) (H : K),
  symmetric_point C -> kreal H -> H <> 0 ->
  (forall k J, In k ["duql"; "qque"] -> In J (indices_of k) -> coef C k J = 0) ->
  exists D, beta_of E beta_prog C H true = Ok D /\ qqql_symmetric D.
Proof.
  intros K E C H SP HR N Z. pose proof SP as (P & _).
  destruct (beta_entries E C H P N) as (R & D & NB & ED & A & _). exists D. split; [exact ED|].
  assert (T : dget op_fields "qqql" = Some [pln Fq; pln Fq; pln Fq; pln Fl]) by reflexivity. pose proof (dget_Some_key _ _ _ T) as IN.
  destruct (entry_ok_coef C D H R _ (A _ IN)) as (ts & n & T' & En & Ln & Wn & VL). rewrite T in T'. injection T' as <-.
  apply (qqql_sound C D H n); try assumption.
  - exact (all_entries_at _ R _ _ n beta_arity NB En).
  - exact (all_entries_at _ R _ _ n beta_qqql NB En).
Qed.

(* --- concrete points --- *)
Definition chk_symmetric (C : dict string (cval QI)) : bool :=
  forallb (fun p => forallb (fun g => forallb (fun I => kdec (coef C (fst p) I) (cj (snd g) (coef C (fst p) (permute (fst g) I)))) (indices_of (fst p))) (snd p)) symmetries &&
  forallb (fun I => match I with
    | [p; r; s; t] => kdec (coef C "qqql" [p; r; s; t] + coef C "qqql" [r; p; s; t]) (coef C "qqql" [s; p; r; t] + coef C "qqql" [s; r; p; t])
    | _ => true end) (indices_of "qqql").
Lemma chk_symmetric_ok C : smeft_point C -> chk_symmetric C = true -> symmetric_point C.
Proof.
  intros P E. apply andb_true_iff in E as [E1 E2]. rewrite forallb_forall in E1, E2. split; [exact P|]. split.
  - intros k gs g GS G I HI. specialize (E1 _ (dget_In _ _ _ GS)). rewrite forallb_forall in E1. specialize (E1 g G). rewrite forallb_forall in E1.
    specialize (E1 I HI). now apply kdec_true.
  - intros p r s t HI. specialize (E2 _ HI). now apply kdec_true.
Qed.
(* zero except for gp and phie[0,0] *)
Definition h_ee (k : string) : QI := if kmem k ["gp"; "phie"] then qone else 0.
Definition ex_ee : dict string (cval QI) := map (fun p => (fst p, ex_val (snd p) (h_ee (fst p)))) op_fields.
(* zero except for Gu[0,0], Gd[0,0] and duql[0,0,1,0] *)
Definition ex_duql : dict string (cval QI) :=
  map (fun p => (fst p, if String.eqb (fst p) "duql" then CArr [3; 3; 3; 3]%nat (fun I => if keqb I [0; 0; 1; 0]%nat then qone else 0)
                        else ex_val (snd p) (if kmem (fst p) ["Gu"; "Gd"] then qone else 0))) op_fields.
Lemma ex_ee_sym : symmetric_point ex_ee.
Proof. apply chk_symmetric_ok; [exact (ex_dict_point h_ee)|vm_compute; reflexivity]. Qed.
Lemma ex_duql_sym : symmetric_point ex_duql.
Proof.
  apply chk_symmetric_ok; [|vm_compute; reflexivity]. intros k ts T. unfold ex_duql.
  set (h := fun p : string * list slot => if String.eqb (fst p) "duql" then CArr [3; 3; 3; 3]%nat (fun I => if keqb I [0; 0; 1; 0]%nat then qone else 0)
                        else ex_val (snd p) (if kmem (fst p) ["Gu"; "Gd"] then qone else 0)).
  assert (G : forall l : dict string (list slot), dget l k = Some ts -> dget (map (fun p => (fst p, h p)) l) k = Some (h (k, ts))).
  { induction l as [|[j x] l IH]; cbn [dget map fst snd]; [discriminate|].
    destruct (keqb_spec k j) as [<-|]; [intros [= ->]; reflexivity|exact IH]. }
  eexists. split; [exact (G _ T)|]. unfold h. cbn [fst snd]. destruct (String.eqb_spec k "duql") as [->|].
  - assert (T' : dget op_fields "duql" = Some [pln Fd; pln Fu; pln Fq; pln Fl]) by reflexivity. rewrite T in T'. injection T' as ->. split; [reflexivity|discriminate].
  - destruct ts; cbn [ex_val vshape]; (split; [reflexivity|]); [eauto|discriminate].
Qed.
Definition chk_ee (o : option (dict string nform)) : bool :=
  match o with
  | Some R => match dget R "ee" with
     | Some n => negb (kdec (nval (venv ex_ee 1) n [1; 1; 0; 0]%nat) (nval (venv ex_ee 1) n [1; 0; 0; 1]%nat))
     | None => false end
  | None => false end.
Lemma chk_ee_ok : chk_ee (beta_nf true) = true. Proof. vm_compute. reflexivity. Qed.
Definition chk_qqql (o : option (dict string nform)) : bool :=
  match o with
  | Some R => match dget R "qqql" with
     | Some n => negb (kdec (nval (venv ex_duql 1) n [0; 0; 1; 0]%nat + nval (venv ex_duql 1) n [0; 0; 1; 0]%nat)
                            (nval (venv ex_duql 1) n [1; 0; 0; 0]%nat + nval (venv ex_duql 1) n [1; 0; 0; 0]%nat))
     | None => false end
  | None => false end.
Lemma chk_qqql_ok : chk_qqql (beta_nf true) = true. Proof. vm_compute. reflexivity. Qed.

(* The beta function of ee is not symmetric under the exchange of the two identical
   fields: with phie alone it has a [1,1,0,0] but no [1,0,0,1] component. *)
Theorem C32_ee_exchange_refuted : forall E : eft, exists (C : dict string (cval QI)) D,
  symmetric_point C /\ beta_of E beta_prog C 1 true = Ok D /\ ~ obeys "ee" ([0; 3; 2; 1]%nat, false) D.
Proof.
  intros E. assert (N : (1 : QI) <> 0) by (apply kdec_false; vm_compute; reflexivity). pose proof ex_ee_sym as SP. pose proof SP as (P & _).
  destruct (beta_entries E ex_ee 1 P N) as (R & D & NB & ED & A & _). exists ex_ee, D. split; [exact SP|]. split; [exact ED|]. intros O.
  assert (T : dget op_fields "ee" = Some [bar Fe; pln Fe; bar Fe; pln Fe]) by reflexivity. pose proof (dget_Some_key _ _ _ T) as IN.
  destruct (entry_ok_coef ex_ee D 1 R _ (A _ IN)) as (ts & n & T' & En & _ & _ & VL).
  assert (I1 : In [1; 1; 0; 0]%nat (indices_of "ee")) by (rewrite (indices_of_idxs _ _ T); apply in_idxs; split; [reflexivity|intros x [<-|[<-|[<-|[<-|[]]]]]; lia]).
  assert (I2 : In [1; 0; 0; 1]%nat (indices_of "ee")) by (rewrite (indices_of_idxs _ _ T); apply in_idxs; split; [reflexivity|intros x [<-|[<-|[<-|[<-|[]]]]]; lia]).
  specialize (O _ I1). cbn [permute fst snd map nth cj] in O. rewrite (VL _ I1), (VL _ I2) in O.
  pose proof chk_ee_ok as CH. unfold chk_ee in CH. rewrite NB, En in CH. apply negb_true_iff in CH. apply kdec_false in CH. exact (CH O).
Qed.
(* The beta function of qqql leaves the relation of qqql as soon as there is a duql. *)
Theorem C32_qqql_refuted : forall E : eft, exists (C : dict string (cval QI)) D,
  symmetric_point C /\ beta_of E beta_prog C 1 true = Ok D /\ ~ qqql_symmetric D.
Proof.
  intros E. assert (N : (1 : QI) <> 0) by (apply kdec_false; vm_compute; reflexivity). pose proof ex_duql_sym as SP. pose proof SP as (P & _).
  destruct (beta_entries E ex_duql 1 P N) as (R & D & NB & ED & A & _). exists ex_duql, D. split; [exact SP|]. split; [exact ED|]. intros O.
  assert (T : dget op_fields "qqql" = Some [pln Fq; pln Fq; pln Fq; pln Fl]) by reflexivity. pose proof (dget_Some_key _ _ _ T) as IN.
  destruct (entry_ok_coef ex_duql D 1 R _ (A _ IN)) as (ts & n & T' & En & _ & _ & VL).
  assert (I1 : In [0; 0; 1; 0]%nat (indices_of "qqql")) by (rewrite (indices_of_idxs _ _ T); apply in_idxs; split; [reflexivity|intros x [<-|[<-|[<-|[<-|[]]]]]; lia]).
  assert (I2 : In [1; 0; 0; 0]%nat (indices_of "qqql")) by (rewrite (indices_of_idxs _ _ T); apply in_idxs; split; [reflexivity|intros x [<-|[<-|[<-|[<-|[]]]]]; lia]).
  specialize (O _ _ _ _ I1). rewrite (VL _ I1), (VL _ I2) in O.
  pose proof chk_qqql_ok as CH. unfold chk_qqql in CH. rewrite NB, En in CH. apply negb_true_iff in CH. apply kdec_false in CH. exact (CH O).
Qed.

(* non-vacuity: symmetric points with non-zero coefficients *)
Example ex32 : symmetric_point ex_ee /\ coef ex_ee "phie" [0; 0]%nat = 1 /\ kreal (1 : QI) /\ (1 : QI) <> 0 /\
  (forall k J, In k ["duql"; "qque"] -> In J (indices_of k) -> coef ex_ee k J = 0).
Proof.
  split; [exact ex_ee_sym|]. split; [apply kdec_true; vm_compute; reflexivity|]. split; [apply kdec_true; vm_compute; reflexivity|].
  split; [apply kdec_false; vm_compute; reflexivity|].
  assert (CK : forallb (fun k => forallb (fun J => kdec (coef ex_ee k J) 0) (indices_of k)) ["duql"; "qque"] = true) by (vm_compute; reflexivity).
  rewrite forallb_forall in CK. intros k J Hk HJ. specialize (CK k Hk). rewrite forallb_forall in CK. specialize (CK J HJ). now apply kdec_true.
Qed.
Print Assumptions C32_symmetry_partial.
Print Assumptions C32_hermiticity.
Print Assumptions C32_qqql_partial.
Print Assumptions C32_ee_exchange_refuted.
Print Assumptions C32_qqql_refuted.
