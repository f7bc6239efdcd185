(* Proofs about the parameter cards for SMEFTsim *)
From Coq Require Import List Bool ZArith Reals Lia Lra String Field.
From Verif Require Import PyBase Num RealC SymModel SymClass SymSpec SymProofs SymFacts EftModel EftSpec EftProofs EftLabels EftRound EftRound2 EftInit
  BasisProps TrFast WcxfModel DsixSym SimData SimModel SimPolar SimSpec.
Import ListNotations.
Local Open Scope string_scope.
Local Open Scope list_scope.

Definition card_of (ms : string) : list (string * list cardline) := if String.eqb ms "A" then card_A else card_B.
Definition init_of (ms : string) : list string := if String.eqb ms "A" then init_A else init_B.
Definition lines_of (ms : string) : list cardline := flat_map snd (card_of ms).
Definition ekey (e : vexpr) : option string :=
  match e with VAbs k | VAbsOut k | VAng k | VVal k => Some k | VLambda => None end.
Definition is_abs (e : vexpr) : bool := match e with VAbs _ | VAbsOut _ => true | _ => false end.
Definition is_val (e : vexpr) : bool := match e with VVal _ => true | _ => false end.
Definition is_ang (e : vexpr) : bool := match e with VAng _ => true | _ => false end.
Definition expr (l : cardline) : vexpr := snd (fst l).
Definition keys_with (p : vexpr -> bool) (ls : list cardline) : list string :=
  flat_map (fun l => if p (expr l) then match ekey (expr l) with Some k => [k] | None => [] end else []) ls.
Lemma keys_with_In p ls k : In k (keys_with p ls) <-> exists l, In l ls /\ p (expr l) = true /\ ekey (expr l) = Some k.
Proof.
  unfold keys_with. rewrite in_flat_map. split.
  - intros (l & L & H). exists l. destruct (p (expr l)); [|destruct H]. destruct (ekey (expr l)); [|destruct H]. destruct H as [->|[]]. auto.
  - intros (l & L & P & K). exists l. rewrite P, K. split; [exact L|now left].
Qed.

(* ---------- what the tables say ---------- *)
Definition info_tab : dict string (string * cls * idx) :=
  flat_map (fun o => let '(n, (c, s)) := o in
    map (fun I => (op_label n c I, (n, c, I))) (filter (fun I => in_shape s I && nonredundant c I) (indices c))) sim_ops.
Definition comment_ok (n : string) (c : cls) (I : idx) (part com : string) : bool :=
  existsb (fun J => existsb (fun N => existsb (fun sep => String.eqb com (comment N part sep J)) [""; "x"]) (dgetd sim_names n [])) (plain_orbit c I).
Definition line_ok (t : trie (string * cls * idx)) (l : cardline) : bool :=
  let '(ix, e, com) := l in
  match e with
  | VLambda => kmem com ["# LambdaSMEFT"; "# Lambda"]
  | VAbs k | VAbsOut k | VVal k => match sget t k with Some (n, c, i) => comment_ok n c i (abs_part c) com | None => false end
  | VAng k => match sget t k with Some (n, c, i) => negb (real_entry c i) && comment_ok n c i "Ph" com | None => false end
  end.
Definition cover_b (tab : dict string (string * cls * idx)) (ls : list cardline) (lost : list string) : bool :=
  let v := tkeys (keys_with is_val ls) in
  let a := tkeys (keys_with is_abs ls) in
  let g := tkeys (keys_with is_ang ls) in
  forallb (fun kr => let '(k, (n, c, i)) := (kr : string * (string * cls * idx)) in
    if kmem k lost then smem a k && negb (smem v k) && negb (smem g k)
    else if real_entry c i then smem v k else smem a k && smem g k) tab.
Fixpoint zlt (a b : list Z) : bool :=
  match a, b with
  | x :: a', y :: b' => Z.ltb x y || Z.eqb x y && zlt a' b'
  | _, _ => false
  end.
Fixpoint sorted (l : list (list Z)) : bool :=
  match l with x :: ((y :: _) as r) => zlt x y && sorted r | _ => true end.
Definition shape_ok_card (ms : string) : bool :=
  knodup (map fst (card_of ms)) && keqb (map fst (card_of ms)) (init_of ms) &&
  forallb (fun b => sorted (map (fun l => fst (fst l)) (snd b))) (card_of ms) &&
  existsb (fun l => match expr l with VLambda => true | _ => false end) (lines_of ms).
Lemma lines_check : forallb (fun ms => let t := tdict info_tab in forallb (line_ok t) (lines_of ms)) ["A"; "B"] = true.
Proof. vm_cast_no_check (eq_refl true). Qed.
Lemma cover_check : forallb (fun ms => cover_b info_tab (lines_of ms) (sign_lost ms)) ["A"; "B"] = true.
Proof. vm_cast_no_check (eq_refl true). Qed.
Lemma shape_check : forallb shape_ok_card ["A"; "B"] = true.
Proof. vm_cast_no_check (eq_refl true). Qed.
Lemma set_In ms : is_set ms -> In ms ["A"; "B"]. Proof. intros [->| ->]; cbn; auto. Qed.
Lemma info_In k n c J : In (k, (n, c, J)) info_tab <->
  exists s, In (n, (c, s)) sim_ops /\ k = op_label n c J /\ In J (indices c) /\ in_shape s J = true /\ nonredundant c J = true.
Proof.
  unfold info_tab. rewrite in_flat_map. split.
  - intros ([m [c' s]] & H & X). apply in_map_iff in X as (J' & [= <- <- <- <-] & X). apply filter_In in X as [X1 X2]. apply andb_prop in X2 as [X2 X3].
    exists s. auto.
  - intros (s & H & -> & X1 & X2 & X3). exists (n, (c, s)). split; [exact H|]. apply in_map_iff. exists J. split; [reflexivity|]. apply filter_In. rewrite X2, X3. auto.
Qed.
Lemma supported_In k : In k supported <-> exists n c J, In (k, (n, c, J)) info_tab.
Proof.
  unfold supported. rewrite in_flat_map. split.
  - intros ([n [c s]] & H & X). apply in_map_iff in X as ([k' r] & <- & X). apply in_map_iff in X as (J & [= <- <-] & X).
    apply filter_In in X as [X1 X2]. apply andb_prop in X2 as [X2 X3]. exists n, c, J. apply info_In. exists s. auto.
  - intros (n & c & J & H). apply info_In in H as (s & H & -> & X1 & X2 & X3). exists (n, (c, s)). split; [exact H|]. apply in_map_iff.
    exists (op_label n c J, real_entry c J). split; [reflexivity|]. apply in_map_iff. exists J. split; [reflexivity|]. apply filter_In. rewrite X2, X3. auto.
Qed.
Lemma sim_op_warsaw o : In o sim_ops -> In o warsaw_ops. Proof. unfold sim_ops. intros H. apply filter_In in H. exact (proj1 H). Qed.
Lemma comment_ok_spec n c J part com : comment_ok n c J part com = true -> exists J', In J' (plain_orbit c J) /\ names_parameter n part J' com.
Proof.
  intros H. apply existsb_exists in H as (J' & HJ & H). exists J'. split; [exact HJ|]. apply existsb_exists in H as (N & HN & H).
  apply existsb_exists in H as (sep & HS & H). unfold dgetd in HN. destruct (dget sim_names n) as [Ns|] eqn:G; [|destruct HN].
  exists Ns, N, sep. split; [exact G|]. split; [exact HN|]. split; [exact HS|]. now apply String.eqb_eq.
Qed.
(* the meaning of a line *)
Definition line_for (n : string) (c : cls) (J : idx) (e : vexpr) (com : string) : Prop :=
  ekey e = Some (op_label n c J) /\
  exists J', In J' (plain_orbit c J) /\ names_parameter n (if is_ang e then "Ph" else abs_part c) J' com.
Lemma line_meaning ms ix e com : is_set ms -> In (ix, e, com) (lines_of ms) ->
  e = VLambda /\ In com ["# LambdaSMEFT"; "# Lambda"] \/ exists k n c J, In (k, (n, c, J)) info_tab /\ ekey e = Some k /\ line_for n c J e com /\ (is_ang e = true -> real_entry c J = false).
Proof.
  intros S H. pose proof lines_check as T. rewrite forallb_forall in T. specialize (T ms (set_In ms S)). cbv zeta in T. rewrite forallb_forall in T.
  specialize (T _ H). unfold line_ok in T.
  assert (X : forall k (p : string * cls * idx -> bool), match sget (tdict info_tab) k with Some q => p q | None => false end = true ->
    exists n c J, In (k, (n, c, J)) info_tab /\ p (n, c, J) = true).
  { intros k p Q. rewrite sget_dict in Q. destruct (dget info_tab k) as [[[n c] J]|] eqn:G; [|discriminate]. exists n, c, J. split; [now apply dget_In|exact Q]. }
  destruct e as [k|k|k|k|]; [| | | |left; split; [reflexivity|now apply kmem_In]]; right.
  - apply (X k (fun q => let '(n, c, i) := q in comment_ok n c i (abs_part c) com)) in T as (n & c & J & G & T). exists k, n, c, J.
    split; [exact G|]. split; [reflexivity|]. split; [|discriminate]. apply comment_ok_spec in T. split; [|exact T]. apply info_In in G as (s & _ & -> & _). reflexivity.
  - apply (X k (fun q => let '(n, c, i) := q in comment_ok n c i (abs_part c) com)) in T as (n & c & J & G & T). exists k, n, c, J.
    split; [exact G|]. split; [reflexivity|]. split; [|discriminate]. apply comment_ok_spec in T. split; [|exact T]. apply info_In in G as (s & _ & -> & _). reflexivity.
  - apply (X k (fun q => let '(n, c, i) := q in negb (real_entry c i) && comment_ok n c i "Ph" com)) in T as (n & c & J & G & T). exists k, n, c, J.
    apply andb_prop in T as [T1 T]. split; [exact G|]. split; [reflexivity|]. split; [|intros _; now apply negb_true_iff].
    apply comment_ok_spec in T. split; [|exact T]. apply info_In in G as (s & _ & -> & _). reflexivity.
  - apply (X k (fun q => let '(n, c, i) := q in comment_ok n c i (abs_part c) com)) in T as (n & c & J & G & T). exists k, n, c, J.
    split; [exact G|]. split; [reflexivity|]. split; [|discriminate]. apply comment_ok_spec in T. split; [|exact T]. apply info_In in G as (s & _ & -> & _). reflexivity.
Qed.
Lemma cover_gen tab ls lost k n c J : cover_b tab ls lost = true -> In (k, (n, c, J)) tab ->
  let has p := In k (keys_with p ls) in
  (In k lost -> has is_abs /\ ~ has is_val /\ ~ has is_ang) /\
  (~ In k lost -> if real_entry c J then has is_val else has is_abs /\ has is_ang).
Proof.
  intros T H. cbv zeta. unfold cover_b in T. cbv zeta in T.
  rewrite forallb_forall in T. specialize (T _ H). cbn beta iota in T. rewrite !smem_keys in T. destruct (kmem k lost) eqn:L.
  - apply andb_prop in T as [T T3]. apply andb_prop in T as [T1 T2]. apply negb_true_iff in T2, T3. split; [|intros NL; exfalso; apply NL; now apply kmem_In].
    intros _. split; [now apply kmem_In|]. split; now apply kmem_nIn.
  - split; [intros IL; exfalso; apply kmem_nIn in L; contradiction|]. intros _. destruct (real_entry c J); [now apply kmem_In|].
    apply andb_prop in T as [T1 T2]. split; now apply kmem_In.
Qed.
Lemma cover_set ms : is_set ms -> cover_b info_tab (lines_of ms) (sign_lost ms) = true.
Proof. intros S. exact (proj1 (forallb_forall _ _) cover_check ms (set_In ms S)). Qed.
Lemma cover ms k n c J : is_set ms -> In (k, (n, c, J)) info_tab ->
  let has p := In k (keys_with p (lines_of ms)) in
  (In k (sign_lost ms) -> has is_abs /\ ~ has is_val /\ ~ has is_ang) /\
  (~ In k (sign_lost ms) -> if real_entry c J then has is_val else has is_abs /\ has is_ang).
Proof. intros S H. exact (cover_gen _ _ _ k n c J (cover_set ms S) H). Qed.
Lemma card_shape ms : is_set ms -> NoDup (map fst (card_of ms)) /\ map fst (card_of ms) = init_of ms /\
  (forall b ls, In (b, ls) (card_of ms) -> sorted (map (fun l => fst (fst l)) ls) = true) /\ exists ix com, In (ix, VLambda, com) (lines_of ms).
Proof.
  intros S. pose proof shape_check as T. rewrite forallb_forall in T. specialize (T ms (set_In ms S)). unfold shape_ok_card in T.
  apply andb_prop in T as [T T4]. apply andb_prop in T as [T T3]. apply andb_prop in T as [T1 T2].
  split; [now apply knodup_NoDup|]. split; [now apply keqb_true|]. split.
  - intros b ls H. rewrite forallb_forall in T3. exact (T3 _ H).
  - apply existsb_exists in T4 as ([[ix e] com] & L & T4). unfold expr in T4. cbn [fst snd] in T4. destruct e; try discriminate. eauto.
Qed.
Lemma zlt_trans a : forall b c, zlt a b = true -> zlt b c = true -> zlt a c = true.
Proof.
  induction a as [|x a IH]; intros [|y b] [|z c]; try discriminate. cbn. intros H1 H2.
  apply orb_prop in H1. apply orb_prop in H2. apply orb_true_iff.
  assert (A : (x < y)%Z \/ x = y /\ zlt a b = true).
  { destruct H1 as [H|H]; [left; lia|right]. apply andb_prop in H as [H H']. split; [lia|exact H']. }
  assert (B : (y < z)%Z \/ y = z /\ zlt b c = true).
  { destruct H2 as [H|H]; [left; lia|right]. apply andb_prop in H as [H H']. split; [lia|exact H']. }
  destruct A as [A|[A A']], B as [B|[B B']]; [left; lia|left; lia|left; lia|right]. apply andb_true_iff. split; [lia|now apply (IH b)].
Qed.
Lemma zlt_irrefl a : zlt a a = false. Proof. induction a as [|x a IH]; cbn; [reflexivity|]. rewrite Z.ltb_irrefl, Z.eqb_refl. exact IH. Qed.
Lemma sorted_nodup l : sorted l = true -> NoDup l.
Proof.
  assert (X : forall x r, sorted (x :: r) = true -> (forall y, In y r -> zlt x y = true) /\ sorted r = true).
  { intros x r. revert x. induction r as [|y r IH]; intros x H; [split; [intros ? []|reflexivity]|].
    change (zlt x y && sorted (y :: r) = true) in H. apply andb_prop in H as [H1 H2]. destruct (IH y H2) as [A B]. split; [|exact H2].
    intros z [<-|Hz]; [exact H1|]. apply (zlt_trans x y z H1). now apply A. }
  induction l as [|x l IH]; intros H; [constructor|]. apply X in H as [A B]. constructor; [|now apply IH].
  intros N. apply A in N. now rewrite zlt_irrefl in N.
Qed.

(* ---------- filling ---------- *)
Section F.
Context {A B : Type}.
Lemma rmapM_Forall2 (f : A -> res B) l r : rmapM f l = Ok r <-> Forall2 (fun x y => f x = Ok y) l r.
Proof.
  revert r. induction l as [|x l IH]; intros r; cbn [rmapM].
  - split; [intros [= <-]; constructor|intros H; inversion H; reflexivity].
  - split.
    + destruct (f x) as [y|] eqn:F; [|discriminate]. cbn [bind]. destruct (rmapM f l) as [ys|] eqn:G; [|discriminate]. cbn [bind]. intros [= <-].
      constructor; [exact F|now apply IH].
    + intros H. inversion H as [|? y ? ys F G]; subst. rewrite F. cbn [bind]. apply IH in G. rewrite G. reflexivity.
Qed.
Lemma rmapM_total (f : A -> res B) l : (forall x, In x l -> exists y, f x = Ok y) -> exists r, rmapM f l = Ok r.
Proof.
  induction l as [|x l IH]; intros H; [eexists; reflexivity|]. destruct (H x (or_introl eq_refl)) as (y & F).
  destruct IH as (r & G); [intros z Hz; apply H; now right|]. exists (y :: r). cbn [rmapM]. rewrite F. cbn [bind]. rewrite G. reflexivity.
Qed.
Lemma rmapM_ext (f g : A -> res B) l : (forall x, In x l -> f x = g x) -> rmapM f l = rmapM g l.
Proof. induction l as [|x l IH]; intros H; [reflexivity|]. cbn [rmapM]. rewrite (H x (or_introl eq_refl)), IH; [reflexivity|]. intros z Hz. apply H. now right. Qed.
Lemma rmapM_inj (f g : A -> res B) l r : rmapM f l = Ok r -> rmapM g l = Ok r -> forall x, In x l -> f x = g x.
Proof.
  rewrite !rmapM_Forall2. intros H. induction H as [|x y l r F H IH]; intros G z; [intros []|].
  inversion G as [|? ? ? ? G1 G2]; subst. intros [<-|Hz]; [congruence|now apply IH].
Qed.
Lemma rmapM_In (f : A -> res B) l r x : rmapM f l = Ok r -> In x l -> exists y, f x = Ok y /\ In y r.
Proof.
  rewrite rmapM_Forall2. intros H. induction H as [|z y l r F H IH]; [intros []|]. intros [->|Hx]; [exists y; split; [exact F|now left]|].
  destruct (IH Hx) as (w & W1 & W2). exists w. split; [exact W1|now right].
Qed.
Lemma rmapM_back (f : A -> res B) l r y : rmapM f l = Ok r -> In y r -> exists x, In x l /\ f x = Ok y.
Proof.
  rewrite rmapM_Forall2. intros H. induction H as [|z w l r F H IH]; [intros []|]. intros [->|Hx]; [exists z; split; [now left|exact F]|].
  destruct (IH Hx) as (x & X1 & X2). exists x. split; [now right|exact X2].
Qed.
End F.
Lemma app_inj_length {A} (a b c d : list A) : List.length a = List.length c -> a ++ b = c ++ d -> a = c /\ b = d.
Proof.
  revert c. induction a as [|x a IH]; intros [|y c] L H; try discriminate; [auto|]. cbn in H. injection H as -> H. cbn in L. injection L as L.
  destruct (IH c L H) as [-> ->]. auto.
Qed.
Lemma dkeys_dset_In {V} (d : dict string V) k v : In k (dkeys d) -> dkeys (dset d k v) = dkeys d.
Proof. intros H. rewrite dkeys_dset. unfold dmem. apply kmem_In in H. now rewrite H. Qed.
Lemma py_insert_inj {A} n (x : A) l l' : py_insert n x l = py_insert n x l' -> l = l'.
Proof.
  unfold py_insert. intros H. assert (L : List.length l = List.length l').
  { apply (f_equal (@List.length A)) in H. rewrite !app_length in H. cbn [List.length] in H. rewrite !firstn_length, !skipn_length in H. lia. }
  apply app_inj_length in H as [H1 H2]; [|rewrite !firstn_length; lia]. rewrite <- (firstn_skipn n l), <- (firstn_skipn n l'). congruence.
Qed.
Lemma py_insert_In {A} n (x y : A) l : In y (py_insert n x l) <-> y = x \/ In y l.
Proof.
  unfold py_insert. rewrite in_app_iff. cbn [In]. rewrite <- (firstn_skipn n l) at 3. rewrite in_app_iff. intuition congruence.
Qed.
(* ---------- the symmetry factors ---------- *)
Section P.
Add Field KFsim : (k_field CR).
Local Open Scope K_scope.
Variables (all : list string) (real : string -> bool) (E : eft).
Hypothesis SU : smeftutil all real E.
Local Lemma OK : eft_ok E warsaw_ops. Proof. exact (proj1 (util_facts all real E SU)). Qed.

Lemma scale_wf : wfdict (scale_dict E) /\ (forall n v, In (n, v) (scale_dict E) -> no_us n /\ proper_val v = true).
Proof.
  destruct (util_facts all real E SU) as (O & _ & _ & _ & _ & _ & G & W). split.
  - unfold wfdict, scale_dict in *. now rewrite dkeys_dmap.
  - intros n v H. apply (In_dget _ _ _) in H; [|unfold wfdict, scale_dict in *; now rewrite dkeys_dmap].
    unfold scale_dict in H. rewrite dget_dmap in H. destruct (dget (e_shape E) n) as [sh|] eqn:S; [|discriminate]. injection H as <-.
    destruct (kmem n (map fst warsaw_ops)) eqn:M.
    + apply kmem_In in M. apply in_map_iff in M as ([m [c s]] & X & M). cbn [fst] in X. subst m. split; [exact (ok_no_us E warsaw_ops O n c s M)|].
      rewrite (ok_shape E warsaw_ops O n c s M) in S. injection S as <-. destruct (cl0_dec c) as [->|NC]; [reflexivity|].
      pose proof (ok_shapes E warsaw_ops O n c s M) as SO. 
      replace (op_shape c s) with (Some s) by (destruct c; try reflexivity; congruence). unfold proper_val.
      rewrite (gen_ok_small s (shape_ok_gen c s SO)). cbn [andb]. clear - SO NC.
      destruct c; try congruence; destruct s as [|? [|? [|? [|? [|? ?]]]]]; unfold shape_ok in SO; rewrite ?andb_false_r in SO; try discriminate; reflexivity.
    + apply kmem_nIn in M. rewrite G in S by exact M. apply dget_In in S. clear - S. cbn in S.
      repeat (destruct S as [S|S]; [injection S as <- <-; split; [vm_compute; reflexivity|reflexivity]|]). destruct S.
Qed.
Lemma fac_pos c J : exists m, (match c with Cl4 | Cl41 => d_4 J | Cl6 => d_6 J | Cl7 | Cl71 => d_7 J | _ => 1%nat end) = S m.
Proof.
  assert (X : forall x l, exists m, count_distinct (x :: l) = S m).
  { intros x l. unfold count_distinct. cbn [fold_right]. destruct (kmem x _) eqn:M; [|eexists; reflexivity].
    destruct (fold_right _ [] l); [discriminate|eexists; reflexivity]. }
  destruct c; try (exists 0%nat; reflexivity); unfold d_4, d_6, d_7; destruct J as [|? [|? [|? [|? [|? ?]]]]]; try (exists 0%nat; reflexivity); apply X.
Qed.
Lemma kZ_S_neq m : (kZ (Z.of_nat (S m)) : CR) <> 0.
Proof. rewrite Nat2Z.inj_succ, <- Nat2Z.inj_succ. cbn [Z.of_nat]. unfold kZ. apply kpos_neq_0. Qed.
Lemma factor_value n c s J : In (n, (c, s)) warsaw_ops -> in_shape s J = true ->
  dget (arrays2wcxf (scale_dict E)) (op_label n c J) = Some (symm_factor (Some c) J).
Proof.
  intros H HI. destruct scale_wf as [W PV]. destruct (arrays2wcxf_spec _ W PV) as (P1 & P2 & _).
  pose proof (ok_shape E warsaw_ops OK n c s H) as SH. pose proof (ok_class E warsaw_ops OK n c s H) as CL.
  destruct (cl0_dec c) as [->|NC].
  - cbn [op_label]. rewrite (P1 n 1); [reflexivity|]. unfold scale_dict. rewrite dget_dmap, SH. reflexivity.
  - assert (SH' : dget (e_shape E) n = Some (Some s)) by (rewrite SH; destruct c; try reflexivity; congruence).
    replace (op_label n c J) with (label n J) by (destruct c; try reflexivity; congruence).
    rewrite (P2 n s (symm_factor (class_of E n)) J); [now rewrite CL| |exact HI]. unfold scale_dict. rewrite dget_dmap, SH'. reflexivity.
Qed.
Lemma scaled_value wc k n c J : In (k, (n, c, J)) info_tab ->
  scaled_wc E wc k = Ok (wc_getitem wc k / symm_factor (Some c) J) /\ (symm_factor (Some c) J : CR) <> 0.
Proof.
  intros H. apply info_In in H as (s & H & -> & _ & HI & _). apply sim_op_warsaw in H. unfold scaled_wc. rewrite (factor_value n c s J H HI).
  split; [reflexivity|]. unfold symm_factor. destruct (fac_pos c J) as (m & M).
  match goal with |- kZ (Z.of_nat ?x) <> 0 => replace x with (S m) by (rewrite <- M; destruct c; reflexivity) end. apply kZ_S_neq.
Qed.

Lemma line_value_ok wc lam ms ix e com : is_set ms -> In (ix, e, com) (lines_of ms) -> exists v, line_value E wc lam e = Ok v.
Proof.
  intros S H. destruct (line_meaning ms ix e com S H) as [[-> _]|(k & n & c & J & G & EK & _)]; [eexists; reflexivity|].
  destruct (scaled_value wc k n c J G) as [V _]. destruct e; cbn in EK; try discriminate; injection EK as ->; cbn [line_value]; rewrite V; eexists; reflexivity.
Qed.
Lemma fill_blocks_spec wc lam bs : forall c0, NoDup (map fst bs) ->
  (forall b ls l, In (b, ls) bs -> In l ls -> exists y, fill_line E wc lam l = Ok y) ->
  exists c, fill_blocks E wc lam bs c0 = Ok c /\
    (forall b ls, In (b, ls) bs -> exists r, rmapM (fill_line E wc lam) ls = Ok r /\ dget c b = Some r) /\
    (forall b, ~ In b (map fst bs) -> dget c b = dget c0 b) /\
    ((forall b, In b (map fst bs) -> In b (dkeys c0)) -> dkeys c = dkeys c0).
Proof.
  induction bs as [|[b ls] bs IH]; intros c0 ND H.
  - exists c0. split; [reflexivity|]. split; [intros ? ? []|]. auto.
  - inversion ND as [|? ? NI ND']; subst.
    destruct (rmapM_total (fill_line E wc lam) ls) as (r & R); [intros l Hl; apply (H b ls l); [now left|exact Hl]|].
    destruct (IH (dset c0 b r) ND') as (c & C1 & C2 & C3 & C4); [intros b' ls' l Hb; apply (H b' ls' l); now right|].
    exists c. split; [|split; [|split]].
    + unfold fill_blocks. cbn [fold_left fst snd bind]. rewrite R. cbn [rmap]. exact C1.
    + intros b' ls' [[= <- <-]|Hb]; [|now apply C2]. exists r. split; [exact R|]. rewrite C3 by exact NI. apply dget_dset_eq.
    + intros b' Hb. rewrite C3; [|intros X; apply Hb; now right]. apply dget_dset_neq. intros ->. apply Hb. now left.
    + intros Hk. assert (KD : dkeys (dset c0 b r) = dkeys c0) by (apply dkeys_dset_In, Hk; now left). rewrite <- KD. apply C4. intros b' Hb. rewrite KD. apply Hk. now right.
Qed.
Lemma fill_blocks_ext wc lam wc' lam' bs c0 :
  (forall b ls l, In (b, ls) bs -> In l ls -> fill_line E wc lam l = fill_line E wc' lam' l) ->
  fill_blocks E wc lam bs c0 = fill_blocks E wc' lam' bs c0.
Proof.
  unfold fill_blocks. generalize (Ok c0). induction bs as [|[b ls] bs IH]; intros acc H; [reflexivity|]. cbn [fold_left fst snd].
  rewrite (rmapM_ext (fill_line E wc lam) (fill_line E wc' lam') ls); [|intros l Hl; apply (H b ls l); [now left|exact Hl]].
  apply IH. intros b' ls' l Hb. apply (H b' ls' l). now right.
Qed.
Definition mw_line : simline := ([1475]%Z, m_w, "# MW0").
Definition mw_block (ms scheme b : string) : bool := String.eqb ms "A" && String.eqb scheme "mw" && String.eqb b "FRBlock".
Lemma lines_In ms b ls l : In (b, ls) (card_of ms) -> In l ls -> In l (lines_of ms).
Proof. intros H1 H2. unfold lines_of. apply in_flat_map. exists (b, ls). auto. Qed.
Lemma lines_block ms l : In l (lines_of ms) -> exists b ls, In (b, ls) (card_of ms) /\ In l ls.
Proof. unfold lines_of. intros H. apply in_flat_map in H as ([b ls] & H1 & H2). eauto. Qed.
Lemma fr_block : exists ls, In ("FRBlock", ls) card_A.
Proof. exists A_FRBlock. unfold card_A. now left. Qed.
Lemma param_card_spec wc ms lam scheme : is_set ms -> exists c, param_card E wc ms lam scheme = Ok c /\ dkeys c = init_of ms /\
  forall b ls, In (b, ls) (card_of ms) -> exists r, rmapM (fill_line E wc lam) ls = Ok r /\
    dget c b = Some (if mw_block ms scheme b then py_insert 1474 mw_line r else r).
Proof.
  intros S. destruct (card_shape ms S) as (ND & KI & _ & _).
  assert (TOT : forall b ls l, In (b, ls) (card_of ms) -> In l ls -> exists y, fill_line E wc lam l = Ok y).
  { intros b ls [[ix e] com] Hb Hl. pose proof (lines_In ms b ls _ Hb Hl) as HL. destruct (line_value_ok wc lam ms ix e com S HL) as (v & V).
    unfold fill_line. rewrite V. eexists; reflexivity. }
  destruct (fill_blocks_spec wc lam (card_of ms) (map (fun b => (b, [])) (init_of ms)) ND TOT) as (c & C1 & C2 & _ & C4).
  assert (KC : dkeys c = init_of ms).
  { rewrite C4; unfold dkeys; rewrite map_map; [apply map_id|]. intros b Hb. cbn [fst]. rewrite map_id, <- KI. exact Hb. }
  destruct S as [->| ->].
  - unfold param_card, init_card, card_fill. cbn [String.eqb Ascii.eqb Bool.eqb bind]. change (card_of "A") with card_A in *. change (init_of "A") with init_A in *.
    rewrite C1. cbn [bind]. destruct (String.eqb scheme "mw") eqn:SC.
    + destruct fr_block as (fr & HF). destruct (C2 _ _ HF) as (r & R1 & R2). rewrite R2. eexists. split; [reflexivity|]. split.
      * rewrite dkeys_dset_In; [exact KC|]. now apply dget_Some_key in R2.
      * intros b ls Hb. destruct (C2 b ls Hb) as (r' & R1' & R2'). exists r'. split; [exact R1'|]. unfold mw_block. rewrite SC. cbn [String.eqb Ascii.eqb Bool.eqb andb].
        destruct (String.eqb_spec b "FRBlock") as [->|N]; [assert (r' = r) by congruence; subst r'; apply dget_dset_eq|]. now rewrite dget_dset_neq.
    + exists c. split; [reflexivity|]. split; [exact KC|]. intros b ls Hb. destruct (C2 b ls Hb) as (r' & R1' & R2'). exists r'. split; [exact R1'|].
      unfold mw_block. rewrite SC, andb_false_r. exact R2'.
  - unfold param_card, init_card, card_fill. cbn [String.eqb Ascii.eqb Bool.eqb bind]. change (card_of "B") with card_B in *. change (init_of "B") with init_B in *.
    rewrite C1. exists c. split; [reflexivity|]. split; [exact KC|]. intros b ls Hb. destruct (C2 b ls Hb) as (r' & R1' & R2'). exists r'. split; [exact R1'|exact R2'].
Qed.
(* equal cards: equal values in every line *)
Lemma card_eq_lines wc wc' ms lam lam' scheme : is_set ms ->
  param_card E wc ms lam scheme = param_card E wc' ms lam' scheme <->
  (forall ix e com, In (ix, e, com) (lines_of ms) -> line_value E wc lam e = line_value E wc' lam' e).
Proof.
  intros S. split.
  - intros EQ ix e com HL. destruct (param_card_spec wc ms lam scheme S) as (c & C1 & _ & C3). destruct (param_card_spec wc' ms lam' scheme S) as (c' & C1' & _ & C3').
    assert (c' = c) by congruence. subst c'. destruct (lines_block ms _ HL) as (b & ls & Hb & Hl).
    destruct (C3 b ls Hb) as (r & R1 & R2). destruct (C3' b ls Hb) as (r' & R1' & R2').
    assert (r' = r).
    { rewrite R2 in R2'. injection R2' as R. destruct (mw_block ms scheme b); [now apply py_insert_inj in R|congruence]. }
    subst r'. pose proof (rmapM_inj _ _ _ _ R1 R1' _ Hl) as F. unfold fill_line in F.
    destruct (line_value_ok wc lam ms ix e com S HL) as (v & V). destruct (line_value_ok wc' lam' ms ix e com S HL) as (v' & V'). rewrite V, V' in F.
    cbn [rmap] in F. congruence.
  - intros H.
    assert (X : forall c0, fill_blocks E wc lam (card_of ms) c0 = fill_blocks E wc' lam' (card_of ms) c0).
    { intros c0. apply fill_blocks_ext. intros b ls [[ix e] com] Hb Hl. unfold fill_line. f_equal. apply (H ix e com). now apply (lines_In ms b ls). }
    destruct S as [->| ->]; unfold param_card, init_card, card_fill; cbn [String.eqb Ascii.eqb Bool.eqb bind].
    + change (card_of "A") with card_A in X. rewrite X. reflexivity.
    + change (card_of "B") with card_B in X. apply X.
Qed.

(* ---------- values ---------- *)
Lemma lam2 (r : Rdefinitions.R) : kmul (rc r) (rc r) = (rc (r * r) : CR). Proof. symmetry. apply rc_mul. Qed.
Lemma lam2_neq (r : Rdefinitions.R) : r <> 0%R -> (kmul (rc r) (rc r) : CR) <> 0.
Proof. intros H. rewrite lam2. intros X. apply (rc_inj (r * r) 0) in X. nra. Qed.
Lemma kmul_r_inj (a b c : CR) : c <> 0 -> a * c = b * c -> a = b.
Proof. intros H X. replace a with (a * c / c) by (field; exact H). rewrite X. field. exact H. Qed.
Lemma kdiv_inj (a b c : CR) : c <> 0 -> a / c = b / c -> a = b.
Proof. intros H X. replace a with (a / c * c) by (field; exact H). rewrite X. field. exact H. Qed.
Lemma kpos_rc p : (kpos p : CR) = rc (IZR (Zpos p)).
Proof.
  induction p as [|p IH] using Pos.peano_ind; [reflexivity|]. rewrite <- Pos.add_1_r, kpos_add, IH, Pos2Z.inj_add, plus_IZR. symmetry. apply rc_add.
Qed.
Lemma fac_real c J : exists f : Rdefinitions.R, (0 < f)%R /\ (symm_factor (Some c) J : CR) = rc f.
Proof.
  unfold symm_factor. destruct (fac_pos c J) as (m & M).
  match goal with |- context [Z.of_nat ?x] => replace x with (S m) by (rewrite <- M; destruct c; reflexivity) end.
  exists (IZR (Z.of_nat (S m))). split; [apply IZR_lt; lia|]. cbn [Z.of_nat]. apply kpos_rc.
Qed.
Lemma c_abs_div (z : CR) (f : Rdefinitions.R) : (0 < f)%R -> c_abs (z / rc f) = c_abs z / rc f.
Proof.
  intros H. assert (N : (rc f : CR) <> 0) by (intros X; apply (rc_inj f 0) in X; lra).
  assert (I : (rc (/ f) : CR) = 1 / rc f).
  { apply (kmul_r_inj _ _ (rc f) N). rewrite <- rc_mul. replace (/ f * f)%R with 1%R by (field; lra). transitivity (1 : CR); [reflexivity|]. field. exact N. }
  replace (z / rc f) with (z * rc (/ f)) by (rewrite I; field; exact N). rewrite c_abs_scale by (left; now apply Rinv_0_lt_compat). rewrite I. field. exact N.
Qed.
Lemma abs_eq_scaled wc wc' k n c J : In (k, (n, c, J)) info_tab ->
  c_abs (wc_getitem wc k / symm_factor (Some c) J) = c_abs (wc_getitem wc' k / symm_factor (Some c) J) <-> c_abs (wc_getitem wc k) = c_abs (wc_getitem wc' k).
Proof.
  intros H. destruct (fac_real c J) as (f & F & ->). rewrite !c_abs_div by exact F. split; [|now intros ->].
  apply kdiv_inj. intros X. apply (rc_inj f 0) in X. lra.
Qed.
(* the value of a line of a key *)
Definition key_value (e : vexpr) (z : CR) (r : Rdefinitions.R) : CR :=
  if is_ang e then c_angle z else if is_abs e then c_abs z * (rc r * rc r) else z * (rc r * rc r).
Lemma line_value_key wc r e k n c J : ekey e = Some k -> In (k, (n, c, J)) info_tab ->
  line_value E wc (rc r) e = Ok (key_value e (wc_getitem wc k / symm_factor (Some c) J) r).
Proof.
  intros EK G. destruct (scaled_value wc k n c J G) as [V _].
  destruct e; cbn in EK; try discriminate; injection EK as ->; cbn [line_value]; rewrite V; try reflexivity.
  cbn [rmap]. f_equal. unfold key_value. cbn [is_ang is_abs]. rewrite lam2. apply c_abs_scale. nra.
Qed.
Lemma keys_lines p ms k : In k (keys_with p (lines_of ms)) -> exists ix e com, In (ix, e, com) (lines_of ms) /\ p e = true /\ ekey e = Some k.
Proof. intros H. apply keys_with_In in H as ([[ix e] com] & L & P & K). exists ix, e, com. auto. Qed.
Theorem card_iff wc wc' ms r r' scheme : is_set ms -> r <> 0%R ->
  param_card E wc ms (rc r) scheme = param_card E wc' ms (rc r') scheme <->
  r = r' /\ forall k, In k supported ->
    if kmem k (sign_lost ms) then c_abs (wc_getitem wc k) = c_abs (wc_getitem wc' k) else wc_getitem wc k = wc_getitem wc' k.
Proof.
  intros S NZ. rewrite (card_eq_lines wc wc' ms (rc r) (rc r') scheme S). split.
  - intros H. assert (R : r = r').
    { destruct (card_shape ms S) as (_ & _ & _ & ix & com & L). specialize (H _ _ _ L). cbn [line_value] in H. injection H as H. exact H. }
    subst r'. split; [reflexivity|]. intros k Hk. apply supported_In in Hk as (n & c & J & G).
    assert (X : forall p, In k (keys_with p (lines_of ms)) -> exists e, p e = true /\
      key_value e (wc_getitem wc k / symm_factor (Some c) J) r = key_value e (wc_getitem wc' k / symm_factor (Some c) J) r).
    { intros p Hp. apply keys_lines in Hp as (ix & e & com & L & P & EK). exists e. split; [exact P|]. specialize (H _ _ _ L).
      rewrite !(line_value_key _ r e k n c J EK G) in H. now injection H. }
    assert (ABS : In k (keys_with is_abs (lines_of ms)) -> c_abs (wc_getitem wc k / symm_factor (Some c) J) = c_abs (wc_getitem wc' k / symm_factor (Some c) J)).
    { intros Hp. destruct (X _ Hp) as (e & P & V). apply (kmul_r_inj _ _ (rc r * rc r) (lam2_neq r NZ)). destruct e; try discriminate; exact V. }
    destruct (scaled_value wc k n c J G) as [_ FN].
    destruct (cover ms k n c J S G) as [C1 C2]. destruct (kmem k (sign_lost ms)) eqn:LS.
    + apply kmem_In in LS. apply (abs_eq_scaled wc wc' k n c J G), ABS, C1, LS.
    + apply kmem_nIn in LS. specialize (C2 LS). apply (kdiv_inj _ _ _ FN). destruct (real_entry c J).
      * destruct (X _ C2) as (e & P & V). apply (kmul_r_inj _ _ (rc r * rc r) (lam2_neq r NZ)). destruct e; try discriminate; exact V.
      * destruct C2 as [C2 C3]. apply abs_angle_inj; [now apply ABS|]. destruct (X _ C3) as (e & P & V). destruct e; try discriminate; exact V.
  - intros [<- H] ix e com L. destruct (line_meaning ms ix e com S L) as [[-> _]|(k & n & c & J & G & EK & _)]; [reflexivity|].
    rewrite !(line_value_key _ r e k n c J EK G). f_equal. assert (HK : In k supported) by (apply supported_In; eauto). specialize (H k HK).
    destruct (kmem k (sign_lost ms)) eqn:LS; [|now rewrite H]. apply kmem_In in LS. destruct (cover ms k n c J S G) as [C1 _]. destruct (C1 LS) as (_ & N1 & N2).
    assert (AB : is_ang e = false /\ is_abs e = true).
    { assert (Y : forall p, p e = true -> In k (keys_with p (lines_of ms))) by (intros p P; apply keys_with_In; exists (ix, e, com); auto).
      destruct e; [auto|auto|exfalso; apply N2, Y; reflexivity|exfalso; apply N1, Y; reflexivity|discriminate]. }
    destruct AB as [A1 A2]. unfold key_value. rewrite A1, A2. f_equal. now apply (abs_eq_scaled wc wc' k n c J G).
Qed.
End P.
