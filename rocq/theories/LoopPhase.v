(* Proof of the covariance of the one-loop matching under changes of the phases of the fields. *)
From Coq Require Import List Bool ZArith Arith Lia String Ascii Field.
From Verif Require Import PyBase Num SymModel EftModel EftProofs NpModel NpProofs BetaSpec BetaModel TreeModel TreeSpec TreeProofs LoopSyntax LoopData LoopModel LoopSpec LoopProofs.
Import ListNotations.
Local Open Scope string_scope.
Local Open Scope list_scope.

(* the fields, and the down quarks in the mass basis *)
Inductive lfl := LF (f : field) | LB.
Definition field_eqb (f g : field) : bool :=
  match f, g with Fq, Fq | Fu, Fu | Fd, Fd | Fl, Fl | Fe, Fe => true | _, _ => false end.
Definition lfl_eqb (a b : lfl) : bool := match a, b with LF f, LF g => field_eqb f g | LB, LB => true | _, _ => false end.
Lemma lfl_eqb_eq a b : lfl_eqb a b = true -> a = b.
Proof. destruct a as [[]|], b as [[]|]; (reflexivity || discriminate). Qed.
(* an index: a letter or the third generation *)
Inductive sym := SL (c : ascii) | S2.
Definition sym_eqb (a b : sym) : bool := match a, b with SL c, SL d => Ascii.eqb c d | S2, S2 => true | _, _ => false end.
Lemma sym_eqb_eq a b : sym_eqb a b = true -> a = b.
Proof. destruct a, b; cbn; try discriminate; [|reflexivity]. intros E. apply Ascii.eqb_eq in E. now subst. Qed.
Definition lslot : Type := (lfl * bool)%type.
Definition charge : Type := (lfl * sym * bool)%type.

Definition left_of (f : field) : lfl := match f with Fu => LF Fq | Fd => LB | _ => LF Fl end.
Definition lslots (ts : list slot) : list lslot := map (fun t => (LF (fst t), snd t)) ts.
Definition wslots (k : string) : list lslot := match dget wc_fields k with Some ts => lslots ts | None => [] end.
Definition flip (t : lslot) : lslot := (fst t, negb (snd t)).
Definition cslots (k : string) : list lslot :=
  match dget dagbase k with Some b => match wslots b with [t0; t1] => [flip t1; flip t0] | _ => [] end | None => wslots k end.
Definition zip_charges (ts : list lslot) (ls : list sym) : list charge := map (fun tl => (fst (fst tl), snd tl, snd (fst tl))) (combine ts ls).
Definition at0 (ls : list ascii) : ascii := nth 0 ls "0"%char.
Definition at1 (ls : list ascii) : ascii := nth 1 ls "0"%char.
Definition ocharges (o : opnd) (ls : list ascii) : list charge :=
  match o with
  | OC k => zip_charges (cslots k) (map SL ls)
  | Okd | Okt => []
  | OV => zip_charges [(LF Fq, true); (LB, false)] (map SL ls)
  | OVd => zip_charges [(LB, true); (LF Fq, false)] (map SL ls)
  | OM f => [(left_of f, SL (at0 ls), true); (LF f, SL (at0 ls), false)]
  | OD f => [(left_of f, SL (at0 ls), true); (LF f, SL (at1 ls), false)]
  end.
Definition ocons (o : opnd) (ls : list ascii) : list (sym * sym) :=
  match o with
  | Okd | OD _ => [(SL (at0 ls), SL (at1 ls))]
  | Okt => [(SL (at0 ls), S2); (SL (at1 ls), S2)]
  | _ => []
  end.
Fixpoint zip2 {A} (f : opnd -> list ascii -> list A) (os : list opnd) (ins : list (list ascii)) : list A :=
  match os, ins with o :: os', ls :: ins' => f o ls ++ zip2 f os' ins' | _, _ => [] end.
(* solving the constraints *)
Definition subst : Type := list (ascii * sym).
Definition sapp (s : subst) (x : sym) : sym := match x with SL c => match dget s c with Some y => y | None => SL c end | S2 => S2 end.
Definition srep (a b : sym) (s : subst) : subst := dmap (fun _ x => if sym_eqb x a then b else x) s.
Definition sstep (s : subst) (ab : sym * sym) : subst :=
  let a := sapp s (fst ab) in let b := sapp s (snd ab) in
  match a with SL _ => srep a b s | S2 => match b with SL _ => srep b S2 s | S2 => s end end.
Definition solve (letters : list ascii) (cs : list (sym * sym)) : subst := fold_left sstep cs (map (fun c => (c, SL c)) letters).
(* in the third generation the phases of q and u are equal *)
Definition norm (s : subst) (q : charge) : charge :=
  let '(f, x, b) := q in let y := sapp s x in
  (match f, y with LF Fu, S2 => LF Fq | _, _ => f end, y, b).
Definition opposite (p q : charge) : bool :=
  let '(f, x, b) := p in let '(g, y, c) := q in lfl_eqb f g && sym_eqb x y && Bool.eqb b (negb c).
Fixpoint remove_opp (q : charge) (l : list charge) : option (list charge) :=
  match l with [] => None | p :: r => if opposite p q then Some r else match remove_opp q r with Some r' => Some (p :: r') | None => None end end.
Fixpoint balanced (n : nat) (l : list charge) : bool :=
  match l with
  | [] => true
  | q :: r => match n with O => false | S m => match remove_opp q r with Some r' => balanced m r' | None => false end end
  end.
Definition flipc (q : charge) : charge := let '(f, x, b) := q in (f, x, negb b).
Definition tensor_phase (ts : list lslot) (t : tensor) : bool :=
  let (ins, out) := parse_spec (fst t) in
  let s := solve (uniq_chars (List.concat ins)) (zip2 ocons (snd t) ins) in
  let l := map (norm s) (zip2 ocharges (snd t) ins ++ map flipc (zip_charges ts (map SL out))) in
  Nat.eqb (List.length out) (List.length ts) && balanced (List.length l) l.
(* the fields of the formula for k *)
Definition pslots (k : string) (ts : list jslot) : list lslot :=
  if rotated k then [(LB, true); (LF Fd, false)] else map (fun t => (LF (multiplet (fst t)), snd t)) ts.
Definition group_phase (ts : list lslot) (g : group) : bool :=
  let '(t, w, _) := g in match t with Some t => tensor_phase ts t | None => match ts with [] => true | _ => false end end.
Definition kg_phase (kg : string * list group) : bool :=
  match dget jms_fields (fst kg) with Some ts => forallb (group_phase (pslots (fst kg) ts)) (snd kg) | None => false end.
Lemma prog_phase_true : forallb kg_phase loop_prog = true.
Proof. vm_cast_no_check (eq_refl true). Qed.

Section Gen.
Context {K : StarField}.
Local Open Scope K_scope.
Add Field KFph : (k_field K) (morphism (kZ_morph (K := K)), constants [kz_const]).
Notation cdict := (dict string (cval K)).
Variables (P : field -> nat -> K) (B : nat -> K).
Hypothesis UP : forall f, unit_phases (P f).
Hypothesis UB : unit_phases B.
Hypothesis TOP : P Fq 2%nat = P Fu 2%nat.
Definition LP (f : lfl) : nat -> K := match f with LF f => P f | LB => B end.
Lemma LP_unit f i : (LP f i)^* * LP f i = 1.
Proof. destruct f as [f|]; [apply UP|apply UB]. Qed.

Section Env.
Variable env : ascii -> nat.
Definition sval (x : sym) : nat := match x with SL c => env c | S2 => 2%nat end.
Definition cval1 (q : charge) : K := let '(f, x, b) := q in cj b (LP f (sval x)).
Definition phv (l : list charge) : K := kprod (map cval1 l).
Definition holds (ab : sym * sym) : Prop := sval (fst ab) = sval (snd ab).
Definition sound (s : subst) : Prop := forall c x, dget s c = Some x -> env c = sval x.
Lemma sapp_ok s x : sound s -> sval (sapp s x) = sval x.
Proof. intros H. destruct x as [c|]; [|reflexivity]. cbn [sapp]. destruct (dget s c) as [y|] eqn:G; [|reflexivity]. symmetry. exact (H c y G). Qed.
Lemma srep_ok s a b : sound s -> sval a = sval b -> sound (srep a b s).
Proof.
  intros H E c x. unfold srep. rewrite dget_dmap. destruct (dget s c) as [y|] eqn:G; [|discriminate]. intros X. injection X as <-.
  rewrite (H c y G). destruct (sym_eqb y a) eqn:Y; [|reflexivity]. apply sym_eqb_eq in Y as ->. exact E.
Qed.
Lemma sstep_ok s ab : sound s -> holds ab -> sound (sstep s ab).
Proof.
  intros H E. unfold holds in E. unfold sstep. rewrite <- (sapp_ok s (fst ab) H), <- (sapp_ok s (snd ab) H) in E.
  destruct (sapp s (fst ab)) as [c|]; [now apply srep_ok|]. destruct (sapp s (snd ab)) as [d|] eqn:D; [|exact H]. apply srep_ok; [exact H|]. now symmetry.
Qed.
Lemma solve_ok letters cs : (forall ab, In ab cs -> holds ab) -> sound (solve letters cs).
Proof.
  unfold solve. assert (H0 : sound (map (fun c => (c, SL c)) letters)).
  { intros c x G. apply dget_In in G. apply in_map_iff in G as (d & E & _). injection E as <- <-. reflexivity. }
  revert H0. generalize (map (fun c => (c, SL c)) letters). induction cs as [|ab cs IH]; intros s H0 HC; [exact H0|].
  cbn [fold_left]. apply IH; [|intros; apply HC; now right]. apply sstep_ok; [exact H0|]. apply HC. now left.
Qed.
Lemma norm_ok s q : sound s -> cval1 (norm s q) = cval1 q.
Proof.
  intros H. destruct q as [[f x] b]. cbn [norm]. pose proof (sapp_ok s x H) as E. destruct (sapp s x) as [c|]; cbn [cval1].
  - rewrite <- E. destruct f as [[]|]; reflexivity.
  - rewrite <- E. cbn [sval]. destruct f as [[]|]; try reflexivity. cbn [LP]. now rewrite TOP.
Qed.
Lemma opposite_ok p q : opposite p q = true -> cval1 p * cval1 q = 1.
Proof.
  destruct p as [[f x] b], q as [[g y] c]. cbn [opposite]. rewrite !andb_true_iff. intros [[E F] G].
  apply lfl_eqb_eq in E as ->. apply sym_eqb_eq in F as ->. apply Bool.eqb_prop in G as ->. cbn [cval1].
  pose proof (LP_unit g (sval y)) as U. destruct c; cbn [negb cj]; [now rewrite kmul_comm|exact U].
Qed.
Lemma phv_cons q l : phv (q :: l) = cval1 q * phv l. Proof. reflexivity. Qed.
Lemma phv_app l m : phv (l ++ m) = phv l * phv m.
Proof. unfold phv. now rewrite map_app, kprod_app. Qed.
Lemma remove_ok q l r : remove_opp q l = Some r -> cval1 q * phv l = phv r.
Proof.
  revert r; induction l as [|p l IH]; intros r; cbn [remove_opp]; [discriminate|].
  destruct (opposite p q) eqn:O.
  - intros E. injection E as <-. rewrite phv_cons. apply opposite_ok in O. transitivity ((cval1 p * cval1 q) * phv l); [ring|]. rewrite O. ring.
  - destruct (remove_opp q l) as [r'|]; [|discriminate]. intros E. injection E as <-. rewrite !phv_cons, <- (IH r' eq_refl). ring.
Qed.
Lemma balanced_ok n : forall l, balanced n l = true -> phv l = 1.
Proof.
  induction n as [|n IH]; intros [|q l]; cbn [balanced]; try discriminate; try reflexivity.
  destruct (remove_opp q l) as [r|] eqn:R; [|discriminate]. intros H. rewrite phv_cons, (remove_ok q l r R). now apply IH.
Qed.
Lemma cval1_flip q : cval1 (flipc q) = (cval1 q)^*.
Proof. destruct q as [[f x] b]. cbn [flipc cval1]. destruct b; cbn [negb cj]; [symmetry; apply kconj_conj|reflexivity]. Qed.
Lemma phv_flip l : phv (map flipc l) = (phv l)^*.
Proof.
  unfold phv. rewrite map_map. induction l as [|q l IH]; cbn [map]; [symmetry; apply kconj_1|].
  rewrite !kprod_cons, IH, cval1_flip, kconj_mul. reflexivity.
Qed.
Lemma cval1_unit q : (cval1 q)^* * cval1 q = 1.
Proof.
  destruct q as [[f x] b]. cbn [cval1]. pose proof (LP_unit f (sval x)) as U. destruct b; cbn [cj]; [rewrite kconj_conj, kmul_comm|]; exact U.
Qed.
Lemma phv_unit l : (phv l)^* * phv l = 1.
Proof.
  induction l as [|q l IH]; [unfold phv; cbn; rewrite kconj_1; ring|]. rewrite !phv_cons, kconj_mul.
  transitivity (((cval1 q)^* * cval1 q) * ((phv l)^* * phv l)); [ring|]. rewrite IH, cval1_unit. ring.
Qed.
Lemma phv_norm s l : sound s -> phv (map (norm s) l) = phv l.
Proof. intros H. unfold phv. rewrite map_map. apply kprod_ext. intros q _. now apply norm_ok. Qed.
Lemma phv_zip ts ls : phv (zip_charges (lslots ts) (map SL ls)) = phase P ts (map env ls).
Proof.
  revert ls; induction ts as [|t ts IH]; intros [|c ls]; try reflexivity. cbn [lslots map zip_charges combine phase].
  rewrite phv_cons. f_equal. apply IH.
Qed.

(* ---------- operands ---------- *)
Variables (V V' : nat -> nat -> K) (mass : field -> nat -> K) (c c' : string -> idx -> K).
Hypothesis HV : rephased_ckm P B V V'.
Hypothesis HM : invariant_masses P B mass.
Hypothesis HC : forall k ts, dget wc_fields k = Some ts -> forall I, In I (idxs (List.length ts)) -> c' k I = phase P ts I * c k I.
Hypothesis E3 : forall x, (env x < 3)%nat.
Notation F := (fopnd V mass (lcf c)).
Notation F' := (fopnd V' mass (lcf c')).
Lemma in_env ls : In (map env ls) (idxs (List.length ls)).
Proof. apply in_idxs. split; [apply map_length|]. intros x X. apply in_map_iff in X as (a & <- & _). apply E3. Qed.
Lemma mass_ok f i : (i < 3)%nat -> field_eqb f Fu || field_eqb f Fd || field_eqb f Fe = true -> mass f i = (LP (left_of f) i)^* * P f i * mass f i.
Proof. intros L Q. destruct (HM i L) as (A & B1 & C1). destruct f; try discriminate Q; cbn [left_of LP]; now symmetry. Qed.
Definition opnd_mass (o : opnd) : bool := match o with OM f | OD f => field_eqb f Fu || field_eqb f Fd || field_eqb f Fe | _ => true end.
Lemma opnd_phase o ls : opnd_mass o = true -> opnd_rank o = Some (List.length ls) -> (forall ab, In ab (ocons o ls) -> holds ab) ->
  F' o (map env ls) = phv (ocharges o ls) * F o (map env ls).
Proof.
  intros OMS R H. destruct o as [k| | | | |f|f]; cbn [opnd_rank] in R.
  - cbn [fopnd ocharges]. unfold lck in R. unfold lcf, cslots. destruct (dget dagbase k) as [b|] eqn:GB.
    + injection R as R. destruct ls as [|x [|y [|]]]; try discriminate R. cbn [map nth].
      assert (W : exists t0 t1, dget wc_fields b = Some [t0; t1]).
      { cbn in GB. repeat (match type of GB with context [String.eqb k ?x] => destruct (String.eqb k x); [injection GB as <-; do 2 eexists; reflexivity|] end). discriminate GB. }
      destruct W as (t0 & t1 & W). unfold wslots. rewrite W. cbn [lslots map zip_charges combine flip fst snd].
      rewrite (HC b _ W); [|exact (in_env [y; x])]. cbn [phase]. rewrite !kconj_mul, kconj_1, !phv_cons. unfold phv at 1. cbn [map kprod fold_right cval1 sval LP].
      destruct (snd t0), (snd t1); cbn [cj negb]; rewrite ?kconj_conj; ring.
    + destruct (dget wc_fields k) as [ts|] eqn:G; [|discriminate R]. injection R as R. unfold wslots. rewrite G, phv_zip.
      apply (HC k ts G). rewrite R. apply in_env.
  - cbn [fopnd ocharges]. unfold phv. cbn. ring.
  - cbn [fopnd ocharges]. unfold phv. cbn. ring.
  - injection R as R. destruct ls as [|x [|y [|]]]; try discriminate R. cbn [fopnd ocharges map nth zip_charges combine fst snd].
    rewrite HV by apply E3. rewrite !phv_cons. unfold phv. cbn [map kprod fold_right cval1 sval LP cj]. ring.
  - injection R as R. destruct ls as [|x [|y [|]]]; try discriminate R. cbn [fopnd ocharges map nth zip_charges combine fst snd].
    rewrite HV by apply E3. rewrite !kconj_mul, kconj_conj, !phv_cons. unfold phv. cbn [map kprod fold_right cval1 sval LP cj]. ring.
  - injection R as R. destruct ls as [|x [|]]; try discriminate R. cbn [fopnd ocharges map nth at0].
    rewrite (mass_ok f (env x) (E3 x) OMS) at 1. rewrite !phv_cons. unfold phv. cbn [map kprod fold_right cval1 sval LP cj at0 nth]. ring.
  - injection R as R. destruct ls as [|x [|y [|]]]; try discriminate R. cbn [fopnd ocharges map nth at0 at1].
    specialize (H _ (or_introl eq_refl)). unfold holds in H. cbn [fst snd sval at0 at1 nth] in H. rewrite <- H, Nat.eqb_refl.
    rewrite (mass_ok f (env x) (E3 x) OMS) at 1. rewrite !phv_cons. unfold phv. cbn [map kprod fold_right cval1 sval LP cj at0 at1 nth]. rewrite <- H. ring.
Qed.
Lemma opnd_zero (W : nat -> nat -> K) m cf o ls : opnd_rank o = Some (List.length ls) -> (exists ab, In ab (ocons o ls) /\ ~ holds ab) -> fopnd W m cf o (map env ls) = 0.
Proof.
  intros R (ab & HI & N). unfold holds in N.
  assert (L2 : ocons o ls <> [] -> exists x y, ls = [x; y]).
  { intros _. destruct o; cbn [ocons] in HI; try destruct HI; cbn [opnd_rank] in R; injection R as R; destruct ls as [|x [|y [|]]]; try discriminate R; eauto. }
  destruct L2 as (x & y & ->); [intros E; rewrite E in HI; destruct HI|].
  destruct o; cbn [ocons] in HI; try (destruct HI; fail); cbn [fopnd map nth].
  - destruct HI as [E|[]]; subst ab; cbn [fst snd sval at0 at1 nth] in N. unfold delta. now apply Nat.eqb_neq in N as ->.
  - destruct HI as [E|[E|[]]]; subst ab; cbn [fst snd sval at0 at1 nth] in N; unfold kt; apply Nat.eqb_neq in N as ->; [reflexivity|now rewrite andb_false_r].
  - destruct HI as [E|[]]; subst ab; cbn [fst snd sval at0 at1 nth] in N. now apply Nat.eqb_neq in N as ->.
Qed.
End Env.

Section Points.
Variables (V V' : nat -> nat -> K) (mass : field -> nat -> K) (c c' : string -> idx -> K).
Hypothesis HV : rephased_ckm P B V V'.
Hypothesis HM : invariant_masses P B mass.
Hypothesis HC : forall k ts, dget wc_fields k = Some ts -> forall I, In I (idxs (List.length ts)) -> c' k I = phase P ts I * c k I.
Definition genv (L : list ascii) (vals : idx) (x : ascii) : nat := nth (pos_of x L) vals 0%nat.
Lemma ein_phase L vals ins : forall os, (forall x, In x vals -> (x < 3)%nat) -> opnds_ok ins os = true -> forallb opnd_mass os = true ->
  (forall ab, In ab (zip2 ocons os ins) -> holds (genv L vals) ab) ->
  ein_fun L vals ins (map (fopnd V' mass (lcf c')) os) = phv (genv L vals) (zip2 ocharges os ins) * ein_fun L vals ins (map (fopnd V mass (lcf c)) os).
Proof.
  induction ins as [|ls ins IH]; intros [|o os] L3 OK OM1 H; cbn [opnds_ok] in OK; try discriminate OK.
  - unfold phv. cbn. ring.
  - apply andb_true_iff in OK as [R OK]. cbn [forallb] in OM1. apply andb_true_iff in OM1 as [M1 OM1]. cbn [ein_fun map zip2].
    rewrite (IH os L3 OK OM1) by (intros ab I; apply H; cbn [zip2]; apply in_app_iff; now right).
    rewrite phv_app. destruct (opnd_rank o) as [r|] eqn:RO; [|discriminate R]. apply Nat.eqb_eq in R as ->.
    change (map (fun c0 : ascii => nth (pos_of c0 L) vals 0%nat) ls) with (map (genv L vals) ls).
    rewrite (opnd_phase (genv L vals) V V' mass c c' HV HM HC) with (o := o); [ring| |exact M1|exact RO|].
    + intros x. now apply nth_lt3.
    + intros ab I. apply H. cbn [zip2]. apply in_app_iff. now left.
Qed.
Lemma ein_zero (W : nat -> nat -> K) m cf L vals ins : forall os, opnds_ok ins os = true ->
  (exists ab, In ab (zip2 ocons os ins) /\ ~ holds (genv L vals) ab) -> ein_fun L vals ins (map (fopnd W m cf) os) = 0.
Proof.
  induction ins as [|ls ins IH]; intros [|o os] OK (ab & I & N); cbn [opnds_ok] in OK; try discriminate OK; [destruct I|].
  apply andb_true_iff in OK as [R OK]. cbn [ein_fun map]. cbn [zip2] in I. apply in_app_iff in I as [I|I].
  - destruct (opnd_rank o) as [r|] eqn:RO; [|discriminate R]. apply Nat.eqb_eq in R as ->.
    change (map (fun c0 : ascii => nth (pos_of c0 L) vals 0%nat) ls) with (map (genv L vals) ls).
    rewrite (opnd_zero (genv L vals)); [ring|exact RO|eauto].
  - rewrite IH; [ring|exact OK|eauto].
Qed.
Lemma cons_dec env cs : (forall ab, In ab cs -> holds env ab) \/ (exists ab, In ab cs /\ ~ holds env ab).
Proof.
  induction cs as [|ab cs IH]; [left; intros ? []|]. destruct (Nat.eq_dec (sval env (fst ab)) (sval env (snd ab))) as [E|N].
  - destruct IH as [A|(x & I & N)]; [left; intros x [<-|I]; auto|right; exists x; split; [now right|exact N]].
  - right. exists ab. split; [now left|exact N].
Qed.
(* the phase of a list of slots at given indices *)
Fixpoint lphase (ts : list lslot) (I : idx) : K :=
  match ts, I with t :: ts', i :: I' => cj (snd t) (LP (fst t) i) * lphase ts' I' | _, _ => 1 end.
Lemma phv_lzip env ts ls : phv env (zip_charges ts (map SL ls)) = lphase ts (map env ls).
Proof.
  revert ls; induction ts as [|t ts IH]; intros [|x ls]; try reflexivity. cbn [map zip_charges combine lphase].
  rewrite phv_cons. f_equal. apply IH.
Qed.
Lemma genv_out out summed O s : List.length O = List.length out -> knodup out = true -> map (genv (out ++ summed) (O ++ s)) out = O.
Proof.
  intros L ND. apply knodup_NoDup in ND. apply nth_ext with (d := 0%nat) (d' := 0%nat); [rewrite map_length; lia|].
  rewrite map_length. intros n Hn. assert (X : exists d, In d out) by (destruct out as [|d ?]; [cbn in Hn; lia|exists d; now left]). destruct X as (d & _).
  rewrite (nth_indep _ 0%nat (genv (out ++ summed) (O ++ s) d)) by (now rewrite map_length). rewrite map_nth. unfold genv.
  assert (PO : pos_of (nth n out d) (out ++ summed) = n).
  { clear L. revert n Hn ND. induction out as [|x out IH]; intros n Hn ND; [cbn in Hn; lia|]. inversion_clear ND as [|? ? NI ND']. cbn [app pos_of].
    destruct n as [|n]; cbn [nth].
    - now rewrite Ascii.eqb_refl.
    - cbn [List.length] in Hn. destruct (Ascii.eqb_spec (nth n out d) x) as [E|_].
      + exfalso. apply NI. rewrite <- E. apply nth_In. lia.
      + now rewrite IH by (assumption || lia). }
  rewrite PO. apply app_nth1. lia.
Qed.
Lemma tensor_phase_ok ts n t O : tensor_ok n t = true -> forallb opnd_mass (snd t) = true -> tensor_phase ts t = true -> In O (idxs n) ->
  ftensor V' mass (lcf c') t O = lphase ts O * ftensor V mass (lcf c) t O.
Proof.
  unfold tensor_ok, tensor_phase, ftensor. destruct (parse_spec (fst t)) as [ins out]. rewrite !andb_true_iff.
  intros [[[_ ND] OK] LN] OMS [LT BA] HO. apply Nat.eqb_eq in LN, LT. rewrite <- ksum_scale. apply ksum_ext. intros s Hs.
  set (L := out ++ summed_letters ins out). set (vals := O ++ s).
  assert (L3 : forall x, In x vals -> (x < 3)%nat).
  { intros x X. apply in_app_iff in X as [X|X]; [apply in_idxs in HO; now apply HO|apply in_idxs in Hs; now apply Hs]. }
  destruct (cons_dec (genv L vals) (zip2 ocons (snd t) ins)) as [H|H].
  - rewrite (ein_phase L vals ins _ L3 OK OMS H). f_equal.
    apply (balanced_ok (genv L vals)) in BA.
    rewrite (phv_norm (genv L vals)) in BA by (now apply solve_ok). rewrite phv_app, phv_flip, phv_lzip in BA.
    assert (GO : map (genv L vals) out = O) by (apply genv_out; [apply in_idxs in HO; lia|exact ND]). rewrite GO in BA.
    pose proof (phv_unit (genv L vals) (zip_charges ts (map SL out))) as U. rewrite phv_lzip, GO in U.
    transitivity (phv (genv L vals) (zip2 ocharges (snd t) ins) * ((lphase ts O)^* * lphase ts O)); [rewrite U; ring|].
    transitivity (phv (genv L vals) (zip2 ocharges (snd t) ins) * (lphase ts O)^* * lphase ts O); [ring|]. rewrite BA. ring.
  - rewrite !ein_zero by assumption. ring.
Qed.
Lemma lcf_scalar k : lck k = Some 0%nat -> lcf c' k [] = lcf c k [].
Proof.
  unfold lck, lcf. destruct (dget dagbase k); [discriminate|]. destruct (dget wc_fields k) as [ts|] eqn:G; [|discriminate].
  intros E. destruct ts as [|]; [|discriminate E]. rewrite (HC k [] G) by (now left). cbn [phase]. ring.
Qed.
Definition group_mass (g : group) : bool := let '(t, _, _) := g in match t with Some t => forallb opnd_mass (snd t) | None => true end.
Lemma group_phase_ok val ts n g O : group_ok n g = true -> group_mass g = true -> group_phase ts g = true -> In O (idxs n) ->
  fgroup val V' mass (lcf c') g O = lphase ts O * fgroup val V mass (lcf c) g O.
Proof.
  destruct g as [[t w] p]. cbn [group_ok group_mass group_phase fgroup]. rewrite !andb_true_iff. intros [[_ W] T] M H HO.
  assert (WE : match w with Some k => lcf c' k [] | None => 1 end = match w with Some k => lcf c k [] | None => 1 end).
  { destruct w as [k|]; [|reflexivity]. destruct (lck k) as [r|] eqn:LK; [|discriminate]. apply Nat.eqb_eq in W as ->. now apply lcf_scalar. }
  rewrite WE. destruct t as [t|].
  - rewrite (tensor_phase_ok ts n t O T M H HO). ring.
  - destruct ts as [|]; [|discriminate H]. cbn [lphase]. ring.
Qed.
End Points.
End Gen.
Lemma prog_mass_true : forallb (fun kg => forallb group_mass (snd kg)) loop_prog = true.
Proof. vm_cast_no_check (eq_refl true). Qed.
Section Gen2.
Context {K : StarField}.
Local Open Scope K_scope.
Add Field KFph2 : (k_field K) (morphism (kZ_morph (K := K)), constants [kz_const]).
Lemma phase_lphase (P : field -> nat -> K) (B : nat -> K) ts : forall I,
  lphase P B (map (fun t : jslot => (LF (multiplet (fst t)), snd t)) ts) I = jphase P ts I.
Proof. unfold jphase. induction ts as [|t ts IH]; intros [|i I]; try reflexivity. cbn [map lphase phase fst snd LP]. now rewrite IH. Qed.
Lemma floop_phase val (P : field -> nat -> K) (B : nat -> K) V V' mass c c' k ts I :
  (forall f, unit_phases (P f)) -> unit_phases B -> P Fq 2%nat = P Fu 2%nat -> rephased_ckm P B V V' -> invariant_masses P B mass ->
  (forall k ts, dget wc_fields k = Some ts -> forall I, In I (idxs (List.length ts)) -> c' k I = phase P ts I * c k I) ->
  dget jms_fields k = Some ts -> In I (idxs (List.length ts)) ->
  floop val V' mass c' k I = jphase P ts I * floop val V mass c k I.
Proof.
  intros UP UB TOP HV HM HC G HI.
  assert (F0 : forall J, In J (idxs (List.length ts)) -> floop0 val V' mass c' k J = lphase P B (pslots k ts) J * floop0 val V mass c k J).
  { intros J HJ. unfold floop0. destruct (dget loop_prog k) as [gs|] eqn:GP; [|ring]. apply dget_In in GP.
    pose proof (proj1 (forallb_forall kg_phase loop_prog) prog_phase_true _ GP) as PH.
    pose proof (proj1 (forallb_forall _ loop_prog) prog_mass_true _ GP) as MA. destruct (prog_In k gs GP) as (n & JR & OK).
    unfold kg_phase in PH. unfold jrank in JR. cbn [fst snd] in PH, MA. rewrite G in PH, JR. injection JR as <-.
    assert (OK' : forallb (group_ok (List.length ts)) gs = true) by (destruct gs; [discriminate OK|exact OK]).
    rewrite forallb_forall in PH, MA, OK'. unfold fassign. rewrite <- ksum_scale. apply ksum_ext. intros g Hg.
    apply (group_phase_ok P B UP UB TOP V V' mass c c' HV HM HC val (pslots k ts) (List.length ts)); auto. }
  unfold floop. destruct (rotated k) eqn:R.
  - assert (T2 : ts = [bar_ DL; fld_ DR]).
    { unfold rotated in R. apply orb_true_iff in R as [R|R]; apply String.eqb_eq in R as ->; now injection G. }
    subst ts. apply in_idxs_2 in HI as (i & j & -> & Hi & Hj). cbn [nth]. rewrite <- ksum_scale. apply ksum_ext. intros a Ha.
    apply in_idxs in Ha as [La Ha]. destruct a as [|a [|]]; try discriminate La. assert (A3 : (a < 3)%nat) by (apply Ha; now left). cbn [nth].
    rewrite HV by assumption. rewrite F0 by (now apply idxs_2_in). unfold pslots. rewrite R. cbn [lphase jphase map phase multiplet fst snd bar_ fld_ cj LP].
    unfold jphase. cbn [map phase multiplet fst snd bar_ fld_ cj].
    transitivity (((B a)^* * B a) * ((P Fq i)^* * V i a * P Fd j * floop0 val V mass c k [a; j])); [ring|]. rewrite UB. ring.
  - rewrite (F0 I HI). unfold pslots. rewrite R, phase_lphase. reflexivity.
Qed.
End Gen2.
