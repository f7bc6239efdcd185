(* Phases of the fermion fields in the tree-level matching: a type system for the formulas and the
   proof that it accepts all of them. *)
From Coq Require Import List Bool ZArith Arith Lia String Ascii Field Permutation.
From Verif Require Import PyBase Num SymModel EftModel EftProofs NpModel NpProofs BetaSpec BetaModel TreeProg TreeModel TreeElem TreeSpec TreeProofs LoopSpec.
Import ListNotations.
Local Open Scope string_scope.
Local Open Scope list_scope.

Definition field_beq (a b : field) : bool := match a, b with Fq, Fq | Fu, Fu | Fd, Fd | Fl, Fl | Fe, Fe => true | _, _ => false end.
Lemma field_beq_eq a b : field_beq a b = true -> a = b. Proof. now destruct a, b. Qed.
Definition slot_eqb (s t : slot) : bool := field_beq (fst s) (fst t) && Bool.eqb (snd s) (snd t).
Lemma slot_eqb_eq s t : slot_eqb s t = true -> s = t.
Proof. destruct s as [f a], t as [g b]. unfold slot_eqb. cbn [fst snd]. intros H. apply andb_true_iff in H as [A B]. apply field_beq_eq in A as ->. now apply Bool.eqb_prop in B as ->. Qed.
Fixpoint slots_eqb (l m : list slot) : bool := match l, m with [], [] => true | s :: l', t :: m' => slot_eqb s t && slots_eqb l' m' | _, _ => false end.
Lemma slots_eqb_eq l : forall m, slots_eqb l m = true -> l = m.
Proof. induction l as [|s l IH]; intros [|t m] H; try discriminate H; [reflexivity|]. cbn in H. apply andb_true_iff in H as [A B]. f_equal; [now apply slot_eqb_eq|now apply IH]. Qed.
Definition pair_ok (s t : slot) : bool := field_beq (fst s) (fst t) && xorb (snd s) (snd t).
(* the types of the coefficients and of the variables *)
Definition ctype (k : string) : list slot := if String.eqb k "phiudDag" then [(Fd, true); (Fu, false)] else match dget wc_fields k with Some ts => ts | None => [] end.
Definition vtype (x : string) (ts : list slot) : bool :=
  if String.eqb x "kd" then match ts with [s; t] => pair_ok s t | _ => false end
  else if String.eqb x "kdkd" then match ts with [s; t; u; v] => pair_ok s t && pair_ok u v | _ => false end
  else if String.eqb x "zeros" then true
  else match ts with [] => true | _ => false end.
Definition pick_types (out ls : list ascii) (ts : list slot) : list slot := map (fun c => nth (pos_of c out) ts (Fq, true)) ls.
Definition ein_types (n : nat) (ins : list (list ascii)) (out : list ascii) : bool :=
  let l := List.concat ins in knodup l && knodup out && forallb (fun c => kmem c l) out && Nat.eqb (List.length l) (List.length out) && Nat.eqb (List.length out) n.
Fixpoint typed (e : ex) (ts : list slot) : bool :=
  match e with
  | ENum _ => match ts with [] => true | _ => false end
  | EC k => slots_eqb (ctype k) ts && match ck k with Some n => Nat.eqb n (List.length ts) | None => false end
  | EV x => vtype x ts && match lk x with Some n => Nat.eqb n (List.length ts) | None => false end
  | EAdd a b | ESub a b => typed a ts && typed b ts
  | ENeg a => typed a ts
  | EMul a b => match rank_ex ck lk nzv a, rank_ex ck lk nzv b with
      | Some O, Some O => typed a [] && typed b [] && match ts with [] => true | _ => false end
      | Some O, Some _ => typed a [] && typed b ts | Some _, Some O => typed a ts && typed b [] | _, _ => false end
  | EDiv a b => typed a ts && typed b []
  | EPow a _ => match ts with [] => typed a [] | _ => false end
  | EEin1 s a => let (ins, out) := parse_spec s in match ins with [i] => ein_types (List.length ts) ins out && typed a (pick_types out i ts) | _ => false end
  | EEin2 s a b => let (ins, out) := parse_spec s in match ins with [i; j] => ein_types (List.length ts) ins out && typed a (pick_types out i ts) && typed b (pick_types out j ts) | _ => false end
  | _ => false
  end.
Definition mslots (ts : list jslot) : list slot := map (fun t => (multiplet (fst t), snd t)) ts.
Definition ke_typed (kt : string * list jslot) : bool := match dget tree_prog (fst kt) with Some e => typed e (mslots (snd kt)) | None => false end.
Lemma tree_typed : forallb ke_typed jms_fields = true.
Proof. vm_cast_no_check (eq_refl true). Qed.

Section Gen.
Context {K : StarField}.
Local Open Scope K_scope.
Add Field KFtph : (k_field K) (morphism (kZ_morph (K := K)), constants [kz_const]).
Variables (P : field -> nat -> K).
Hypothesis UP : forall f, unit_phases (P f).
Variables sqrt2 mW mZ vT g1 : K.
Hypotheses (NS : sqrt2 <> 0) (NZ : mZ <> 0) (NV : vT <> 0).
Variables c c' : string -> idx -> K.
Hypothesis HC : forall k ts, dget wc_fields k = Some ts -> forall I, In I (idxs (List.length ts)) -> c' k I = phase P ts I * c k I.
Notation el := (elem ck lk (cfun c) (lfun sqrt2 mW mZ vT g1) nzv).
Notation el' := (elem ck lk (cfun c') (lfun sqrt2 mW mZ vT g1) nzv).
Lemma pair_phase s t i : pair_ok s t = true -> cj (snd s) (P (fst s) i) * cj (snd t) (P (fst t) i) = 1.
Proof.
  destruct s as [f a], t as [g b]. unfold pair_ok. cbn [fst snd]. intros H. apply andb_true_iff in H as [A B]. apply field_beq_eq in A as ->.
  destruct a, b; try discriminate B; cbn [cj]; rewrite <- (UP g i); ring.
Qed.
Lemma delta_phase s t i j : pair_ok s t = true -> delta i j = cj (snd s) (P (fst s) i) * cj (snd t) (P (fst t) j) * delta i j.
Proof.
  intros H. unfold delta. destruct (Nat.eqb_spec i j) as [->|_]; [|ring]. rewrite (pair_phase s t j H). ring.
Qed.
Lemma phase_prod ts : forall I, List.length I = List.length ts -> phase P ts I = kprod (map (fun ti => cj (snd (fst ti)) (P (fst (fst ti)) (snd ti))) (combine ts I)).
Proof.
  induction ts as [|t ts IH]; intros [|i I] L; try discriminate L; [reflexivity|]. cbn [phase combine map fst snd]. rewrite kprod_cons, IH by (injection L; auto). reflexivity.
Qed.
Definition wt (out : list ascii) (ts : list slot) (I : idx) (x : ascii) : K :=
  let t := nth (pos_of x out) ts (Fq, true) in cj (snd t) (P (fst t) (nth (pos_of x out) I 0%nat)).
Lemma phase_pick out ts I ls : phase P (pick_types out ls ts) (pick out ls I) = kprod (map (wt out ts I) ls).
Proof. induction ls as [|x ls IH]; [reflexivity|]. cbn [pick_types pick map phase]. rewrite kprod_cons. unfold pick_types, pick in IH. now rewrite IH. Qed.
Lemma nth_pos {A} (d : A) out l : NoDup out -> List.length l = List.length out -> map (fun x => nth (pos_of x out) l d) out = l.
Proof.
  revert l. induction out as [|a out IH]; intros [|x l] ND L; try discriminate L; [reflexivity|]. inversion_clear ND as [|? ? N ND']. injection L as L.
  assert (PA : pos_of a (a :: out) = 0%nat) by (cbn; destruct (Ascii.eqb_spec a a); congruence). cbn [map]. rewrite PA. cbn [nth]. f_equal.
  transitivity (map (fun x => nth (pos_of x out) l d) out); [|exact (IH l ND' L)]. apply map_ext_in. intros y Y. assert (E : pos_of y (a :: out) = Datatypes.S (pos_of y out)).
  { cbn. destruct (Ascii.eqb_spec y a) as [->|]; [contradiction|]. reflexivity. }
  now rewrite E.
Qed.
Lemma phase_out out ts I : NoDup out -> List.length ts = List.length out -> List.length I = List.length out -> phase P ts I = kprod (map (wt out ts I) out).
Proof.
  intros ND L1 L2. rewrite <- (phase_pick out ts I out). unfold pick_types, pick. now rewrite !nth_pos.
Qed.
Lemma ein_perm n ins out : ein_types n ins out = true -> Permutation out (List.concat ins) /\ NoDup out /\ List.length out = n.
Proof.
  unfold ein_types. rewrite !andb_true_iff. intros [[[[A B] D] L] N]. apply knodup_NoDup in A, B. apply Nat.eqb_eq in L, N. split; [|auto].
  apply NoDup_Permutation_bis; [exact B|lia|]. intros x X. rewrite forallb_forall in D. apply kmem_In. now apply D.
Qed.
Lemma pick_in out ls I n : In I (idxs n) -> In (pick out ls I) (idxs (List.length ls)).
Proof.
  intros HI. apply in_idxs in HI as [_ B]. apply in_idxs. split; [apply map_length|]. intros x X. apply in_map_iff in X as (y & <- & _). now apply nth_lt3.
Qed.
Lemma elem_phase e : forall ts I, rank_ex ck lk nzv e <> None -> typed e ts = true -> In I (idxs (List.length ts)) -> el' e I = phase P ts I * el e I.
Proof.
  induction e; intros ts I RK T HI; cbn [typed rank_ex elem] in *; try discriminate T; try congruence.
  - destruct ts; [|discriminate T]. destruct HI as [<-|[]]. cbn [phase]. ring.
  - apply andb_true_iff in T as [T R]. apply slots_eqb_eq in T. subst ts. unfold ctype, cfun, ck in *. destruct (String.eqb k "phiudDag").
    + destruct (in_idxs_2 I HI) as (i & j & -> & Hi & Hj). cbn [nth]. rewrite (HC "phiud" [(Fu, true); (Fd, false)] eq_refl [j; i]) by (apply idxs_2_in; assumption).
      cbn [phase fst snd cj]. rewrite !kconj_mul, kconj_1, kconj_conj. ring.
    + destruct (dget wc_fields k) as [ts|] eqn:D; [|discriminate R]. exact (HC k ts D I HI).
  - apply andb_true_iff in T as [T R]. unfold vtype, lfun, lk in *. destruct (String.eqb x "kd").
    + destruct ts as [|s [|t [|]]]; try discriminate T. apply in_idxs in HI as [L _]. destruct I as [|i [|j [|]]]; try discriminate L. cbn [nth phase].
      rewrite (delta_phase s t i j T) at 1. ring.
    + destruct (String.eqb x "kdkd").
      * destruct ts as [|s [|t [|u [|v [|]]]]]; try discriminate T. apply andb_true_iff in T as [T1 T2]. apply in_idxs in HI as [L _].
        destruct I as [|i [|j [|k [|l [|]]]]]; try discriminate L. cbn [nth phase]. rewrite (delta_phase s t i j T1) at 1. rewrite (delta_phase u v k l T2) at 1. ring.
      * destruct (String.eqb_spec x "zeros") as [->|_]; [cbn [String.eqb]; cbv [String.eqb Ascii.eqb Bool.eqb]; ring|]. destruct ts; [|discriminate T]. cbn [phase]. ring.
  - apply andb_true_iff in T as [T1 T2]. destruct (rank_ex ck lk nzv e1), (rank_ex ck lk nzv e2); try congruence. rewrite (IHe1 ts I), (IHe2 ts I) by (auto; discriminate). ring.
  - apply andb_true_iff in T as [T1 T2]. destruct (rank_ex ck lk nzv e1), (rank_ex ck lk nzv e2); try congruence. rewrite (IHe1 ts I), (IHe2 ts I) by (auto; discriminate). ring.
  - rewrite (IHe ts I) by auto. ring.
  - assert (N : In [] (idxs (List.length (@nil slot)))) by now left. destruct (rank_ex ck lk nzv e1) as [[|x]|], (rank_ex ck lk nzv e2) as [[|y]|]; try congruence; try discriminate T.
    + rewrite !andb_true_iff in T. destruct T as [[T1 T2] T3]. destruct ts; [|discriminate T3]. rewrite (IHe1 [] [] ltac:(discriminate) T1 N), (IHe2 [] [] ltac:(discriminate) T2 N). cbn [phase]. ring.
    + apply andb_true_iff in T as [T1 T2]. rewrite (IHe1 [] [] ltac:(discriminate) T1 N), (IHe2 ts I ltac:(discriminate) T2 HI). cbn [phase]. ring.
    + apply andb_true_iff in T as [T1 T2]. rewrite (IHe1 ts I ltac:(discriminate) T1 HI), (IHe2 [] [] ltac:(discriminate) T2 N). cbn [phase]. ring.
  - assert (N : In [] (idxs (List.length (@nil slot)))) by now left. apply andb_true_iff in T as [T1 T2].
    destruct (rank_ex ck lk nzv e1) as [x|] eqn:R1; [|congruence]. destruct (rank_ex ck lk nzv e2) as [[|y]|] eqn:R2; try congruence. destruct (nzx nzv e2) eqn:NX; [|congruence].
    pose proof (nzx_ok ck lk (cfun c) (lfun sqrt2 mW mZ vT g1) nzv (nzv_ok sqrt2 mW mZ vT g1 NS NZ NV) e2 NX R2) as NE.
    rewrite (IHe1 ts I ltac:(discriminate) T1 HI), (IHe2 [] [] ltac:(discriminate) T2 N). cbn [phase]. replace (1 * el e2 []) with (el e2 []) by ring. field. exact NE.
  - destruct ts; [|discriminate T]. destruct (rank_ex ck lk nzv e) as [[|]|]; try congruence. rewrite (IHe [] [] ltac:(discriminate) T ltac:(now left)). cbn [phase].
    replace (1 * el e []) with (el e []) by ring. ring.
  - destruct (parse_spec s) as [ins out]. destruct ins as [|i [|]]; try discriminate T. apply andb_true_iff in T as [T1 T2]. destruct (ein_perm _ _ _ T1) as (PM & ND & L).
    cbn [nth]. destruct (rank_ex ck lk nzv e) as [x|]; [|congruence]. rewrite (IHe (pick_types out i ts) (pick out i I) ltac:(discriminate) T2)
      by (unfold pick_types; rewrite map_length; exact (pick_in out i I _ HI)). f_equal. rewrite phase_pick. rewrite (phase_out out ts I ND) by (auto; apply in_idxs in HI as [-> _]; auto).
    symmetry. apply kprod_perm. apply Permutation_map. cbn [List.concat] in PM. now rewrite app_nil_r in PM.
  - destruct (parse_spec s) as [ins out]. destruct ins as [|i [|j [|]]]; try discriminate T. rewrite !andb_true_iff in T. destruct T as [[T1 T2] T3]. destruct (ein_perm _ _ _ T1) as (PM & ND & L).
    cbn [nth]. destruct (rank_ex ck lk nzv e1) as [x|]; [|congruence]. destruct (rank_ex ck lk nzv e2) as [y|]; [|congruence].
    rewrite (IHe1 (pick_types out i ts) (pick out i I) ltac:(discriminate) T2) by (unfold pick_types; rewrite map_length; exact (pick_in out i I _ HI)).
    rewrite (IHe2 (pick_types out j ts) (pick out j I) ltac:(discriminate) T3) by (unfold pick_types; rewrite map_length; exact (pick_in out j I _ HI)).
    rewrite !phase_pick. rewrite (phase_out out ts I ND) by (auto; apply in_idxs in HI as [-> _]; auto).
    assert (E : kprod (map (wt out ts I) out) = kprod (map (wt out ts I) i) * kprod (map (wt out ts I) j)).
    { transitivity (kprod (map (wt out ts I) (i ++ j))).
      - apply kprod_perm. apply Permutation_map. cbn [List.concat] in PM. now rewrite app_nil_r in PM.
      - rewrite map_app. apply kprod_app. }
    rewrite E. ring.
Qed.
Lemma tree_phase k ts e I : dget jms_fields k = Some ts -> dget tree_prog k = Some e -> rank_ex ck lk nzv e <> None -> In I (idxs (List.length ts)) ->
  el' e I = jphase P ts I * el e I.
Proof.
  intros F E R HI. pose proof (proj1 (forallb_forall _ _) tree_typed _ (dget_In _ _ _ F)) as T. unfold ke_typed in T. cbn [fst snd] in T. rewrite E in T.
  apply (elem_phase e (mslots ts) I R T). unfold mslots. now rewrite map_length.
Qed.
End Gen.
