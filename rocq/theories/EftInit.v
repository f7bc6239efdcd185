(* EFTutil.__init__ recognises the classes and shapes of a basis. *)
From Coq Require Import List Bool ZArith QArith Arith Lia String Ascii.
From Verif Require Import PyBase Num Lin SymModel SymTables SymClass SymSpec SymCheck SymFacts EftModel EftSpec EftProofs EftLabels EftRound.
Import ListNotations.
Local Open Scope string_scope.
Local Open Scope list_scope.

(* ---------- sorted_set is canonical ---------- *)
Lemma nat_ascii_inj x y : nat_of_ascii x = nat_of_ascii y -> x = y.
Proof. intros H. rewrite <- (ascii_nat_embedding x), <- (ascii_nat_embedding y). now rewrite H. Qed.
Lemma str_ltb_irrefl a : str_ltb a a = false.
Proof. induction a as [|x a IH]; simpl; [reflexivity|]. now rewrite Ascii.eqb_refl. Qed.
Lemma str_ltb_trans a : forall b c, str_ltb a b = true -> str_ltb b c = true -> str_ltb a c = true.
Proof.
  induction a as [|x a IH]; intros [|y b] [|z c]; simpl; try discriminate; auto.
  destruct (Ascii.eqb_spec x y) as [->|N1], (Ascii.eqb_spec y z) as [->|N2]; intros A B.
  - eauto.
  - exact B.
  - destruct (Ascii.eqb_spec x z); [contradiction|exact A].
  - apply Nat.ltb_lt in A, B. destruct (Ascii.eqb_spec x z) as [->|]; [lia|]. apply Nat.ltb_lt. lia.
Qed.
Lemma str_ltb_total a : forall b, a <> b -> str_ltb a b = true \/ str_ltb b a = true.
Proof.
  induction a as [|x a IH]; intros [|y b] N; cbn [str_ltb]; [congruence|now left|now right|].
  destruct (Ascii.eqb_spec x y) as [->|NE].
  - rewrite Ascii.eqb_refl. apply IH. congruence.
  - destruct (Ascii.eqb_spec y x) as [->|]; [congruence|].
    destruct (Nat.lt_trichotomy (nat_of_ascii x) (nat_of_ascii y)) as [L|[E|L]].
    + left. now apply Nat.ltb_lt.
    + apply nat_ascii_inj in E. congruence.
    + right. now apply Nat.ltb_lt.
Qed.
Lemma lab_ltb_irrefl a : lab_ltb a a = false.
Proof. unfold lab_ltb. rewrite String.eqb_refl. destruct (snd a); reflexivity. Qed.
Lemma lab_ltb_trans a b c : lab_ltb a b = true -> lab_ltb b c = true -> lab_ltb a c = true.
Proof.
  destruct a as [a x], b as [b y], c as [c z]. unfold lab_ltb; cbn [fst snd].
  destruct (String.eqb_spec a b) as [->|N1], (String.eqb_spec b c) as [->|N2]; intros A B.
  - destruct x, y, z; auto.
  - exact B.
  - destruct (String.eqb_spec a c); [contradiction|exact A].
  - pose proof (str_ltb_trans a b c A B) as T. destruct (String.eqb_spec a c) as [->|]; [|exact T].
    rewrite str_ltb_irrefl in T. discriminate.
Qed.
Lemma lab_ltb_total a b : a <> b -> lab_ltb a b = true \/ lab_ltb b a = true.
Proof.
  destruct a as [a x], b as [b y]. unfold lab_ltb; cbn [fst snd]. intros N. rewrite (String.eqb_sym b a).
  destruct (String.eqb_spec a b) as [->|NE]; [|now apply str_ltb_total].
  destruct x, y; simpl; auto; congruence.
Qed.
Inductive ssorted : list (string * bool) -> Prop :=
| ss_nil : ssorted []
| ss_cons x l : ssorted l -> (forall y, In y l -> lab_ltb x y = true) -> ssorted (x :: l).
Lemma sinsert_in x l y : In y (sinsert x l) <-> y = x \/ In y l.
Proof.
  induction l as [|z l IH]; cbn [sinsert In]; [intuition|].
  destruct (keqb_spec x z) as [EQ|N].
  { subst z. cbn [In]. intuition. }
  destruct (lab_ltb x z); cbn [In]; [intuition|]. rewrite IH. intuition.
Qed.
Lemma sinsert_sorted x l : ssorted l -> ssorted (sinsert x l).
Proof.
  induction 1 as [|z l S IH H]; [constructor; [constructor|intros y []]|]. cbn [sinsert].
  destruct (keqb_spec x z) as [EQ|N]; [now constructor|].
  destruct (lab_ltb x z) eqn:L.
  - constructor; [now constructor|]. intros y [<-|HY]; [exact L|]. apply (lab_ltb_trans x z y L). now apply H.
  - constructor; [exact IH|]. intros y HY. apply sinsert_in in HY as [->|HY]; [|now apply H].
    destruct (lab_ltb_total x z N); congruence.
Qed.
Lemma sorted_set_in l y : In y (sorted_set l) <-> In y l.
Proof. induction l as [|x l IH]; simpl; [reflexivity|]. rewrite sinsert_in, IH. intuition. Qed.
Lemma sorted_set_sorted l : ssorted (sorted_set l).
Proof. induction l as [|x l IH]; simpl; [constructor|now apply sinsert_sorted]. Qed.
Lemma ssorted_ext l : ssorted l -> forall m, ssorted m -> (forall y, In y l <-> In y m) -> l = m.
Proof.
  induction 1 as [|x l S IH H]; intros m M E.
  - destruct m as [|y m]; [reflexivity|]. exfalso. apply (E y). now left.
  - destruct M as [|y m M H2]; [exfalso; apply (E x); now left|].
    assert (EQ : x = y).
    { destruct (proj1 (E x) (or_introl eq_refl)) as [<-|I1]; [reflexivity|].
      destruct (proj2 (E y) (or_introl eq_refl)) as [->|I2]; [reflexivity|].
      pose proof (lab_ltb_trans x y x (H y I2) (H2 x I1)) as X. rewrite lab_ltb_irrefl in X. discriminate. }
    subst y. f_equal. apply IH; [exact M|]. intros z. split; intros I.
    + destruct (proj1 (E z) (or_intror I)) as [<-|]; [|assumption]. specialize (H x I). rewrite lab_ltb_irrefl in H. discriminate.
    + destruct (proj2 (E z) (or_intror I)) as [<-|]; [|assumption]. specialize (H2 x I). rewrite lab_ltb_irrefl in H2. discriminate.
Qed.
Lemma sorted_set_ext l m : (forall y, In y l <-> In y m) -> sorted_set l = sorted_set m.
Proof. intros E. apply ssorted_ext; try apply sorted_set_sorted. intros y. now rewrite !sorted_set_in. Qed.

(* ---------- uniq ---------- *)
Lemma uniq_gen (l : list string) : forall acc : list string, NoDup acc ->
  NoDup (fold_left (fun acc x => if kmem x acc then acc else acc ++ [x]) l acc) /\
  forall x, In x (fold_left (fun acc x => if kmem x acc then acc else acc ++ [x]) l acc) <-> In x acc \/ In x l.
Proof.
  induction l as [|y l IH]; intros acc ND; simpl; [intuition|].
  destruct (kmem y acc) eqn:M.
  - destruct (IH acc ND) as [A B]. split; [exact A|]. intros x. rewrite B. apply kmem_In in M. intuition (subst; auto).
  - assert (ND' : NoDup (acc ++ [y])).
    { apply kmem_nIn in M. clear -ND M. induction acc as [|z acc IH]; simpl; [repeat constructor; intros []|].
      inversion ND; subst. constructor; [|apply IH; auto; intros X; apply M; now right].
      intros X. apply in_app_or in X as [X|[<-|[]]]; [contradiction|]. apply M. now left. }
    destruct (IH _ ND') as [A B]. split; [exact A|]. intros x. rewrite B, in_app_iff. simpl. intuition (subst; auto).
Qed.
Lemma uniq_in l x : In x (uniq l) <-> In x l.
Proof. unfold uniq. destruct (uniq_gen l [] (NoDup_nil _)) as [_ B]. rewrite B. simpl. intuition. Qed.
Lemma uniq_nodup l : NoDup (uniq l).
Proof. unfold uniq. destruct (uniq_gen l [] (NoDup_nil _)) as [A _]. exact A. Qed.

(* ---------- maxima of rows ---------- *)
Fixpoint list_le (a b : list nat) : Prop :=
  match a, b with [], [] => True | x :: a', y :: b' => (x <= y)%nat /\ list_le a' b' | _, _ => False end.
Lemma list_le_refl a : list_le a a.
Proof. induction a; simpl; auto. Qed.
Lemma list_le_antisym a : forall b, list_le a b -> list_le b a -> a = b.
Proof. induction a as [|x a IH]; intros [|y b]; simpl; try tauto; auto. intros [A B] [C D]. f_equal; [lia|auto]. Qed.
Definition zmax (r m : list nat) : list nat := map (fun p => Nat.max (fst p) (snd p)) (combine r m).
Lemma zmax_le r m u : List.length r = List.length m -> (list_le (zmax r m) u <-> list_le r u /\ list_le m u).
Proof.
  revert m u. induction r as [|x r IH]; intros [|y m] u L; try discriminate L.
  - simpl. tauto.
  - destruct u as [|z u]; [simpl; tauto|]. change (zmax (x :: r) (y :: m)) with (Nat.max x y :: zmax r m).
    injection L as L. cbn [list_le]. rewrite (IH m u L). intuition lia.
Qed.
Lemma zmax_length r m : List.length r = List.length m -> List.length (zmax r m) = List.length r.
Proof. intros L. unfold zmax. rewrite map_length, combine_length. lia. Qed.
Lemma max_rows_spec n rows : rows <> [] -> (forall r, In r rows -> List.length r = n) ->
  exists m, max_rows rows = Ok m /\ List.length m = n /\ forall u, list_le m u <-> (forall r, In r rows -> list_le r u).
Proof.
  induction rows as [|r rows IH]; intros NE L; [congruence|]. destruct rows as [|r2 rows].
  - exists r. split; [reflexivity|]. split; [apply L; now left|]. intros u. split.
    + intros H r' [<-|[]]. exact H.
    + intros H. apply H. now left.
  - destruct IH as (m & E & LM & H); [discriminate|intros; apply L; now right|].
    assert (LR : List.length r = n) by (apply L; now left).
    exists (zmax r m). split.
    + change (max_rows (r :: r2 :: rows)) with (bind (max_rows (r2 :: rows)) (fun m =>
         if Nat.eqb (List.length r) (List.length m) then Ok (zmax r m) else Err ValueError)).
      rewrite E. cbn [bind]. rewrite LR, LM, Nat.eqb_refl. reflexivity.
    + split; [rewrite zmax_length; lia|]. intros u. rewrite zmax_le by lia. rewrite H. split.
      * intros [A B] r' [<-|I]; auto.
      * intros A. split; [apply A; now left|intros r' I; apply A; now right].
Qed.
Lemma max_rows_ext n l m : l <> [] -> (forall r, In r l -> List.length r = n) -> (forall r, In r l <-> In r m) -> max_rows l = max_rows m.
Proof.
  intros NE L E.
  assert (NE' : m <> []).
  { intros ->. destruct l as [|r l]; [congruence|]. apply (E r). now left. }
  destruct (max_rows_spec n l NE L) as (a & A1 & A2 & A3).
  destruct (max_rows_spec n m NE') as (b & B1 & B2 & B3); [intros r H; apply L, E, H|].
  rewrite A1, B1. f_equal. apply list_le_antisym.
  - apply A3. intros r H. apply (proj1 (B3 b) (list_le_refl b)). now apply E.
  - apply B3. intros r H. apply (proj1 (A3 a) (list_le_refl a)). now apply E.
Qed.
Lemma rmapl_in {A B} (f : A -> res B) (g : A -> B) l : (forall x, In x l -> f x = Ok (g x)) -> rmapl f l = Ok (map g l).
Proof.
  induction l as [|x l IH]; intros H; [reflexivity|]. simpl. rewrite H by (now left). simpl. rewrite IH by (intros; apply H; now right). reflexivity.
Qed.

(* ---------- the tables ---------- *)
Definition nonred_in (c : cls) (s : list nat) : list idx :=
  filter (fun I => in_shape s I && nonredundant c I) (indices c).
Definition no3 (I : idx) : bool := forallb (fun i => negb (Nat.eqb i 2)) I.
Definition canon_labels (c : cls) (s : list nat) : list (string * bool) :=
  match c with Cl0 => [] | _ => map (fun I => (digits I, real_entry c I)) (filter no3 (nonred_in c s)) end.
Definition canon_rows (c : cls) (s : list nat) : list (list nat) := map (map Datatypes.S) (nonred_in c s).
Definition class_found (c : cls) (s : list nat) : bool :=
  match lookup_class (sorted_set (canon_labels c s)) class_definitions with Ok c' => cls_eqb c c' | _ => false end.
Definition shape_found (c : cls) (s : list nat) : bool :=
  match c with
  | Cl0 => true
  | _ => match max_rows (canon_rows c s) with
         | Ok m => keqb (match c with Cl71 => nth 1 m 0%nat :: tl m | _ => m end) s
         | _ => false end
  end.
Definition has_coeff (c : cls) (s : list nat) : bool := match nonred_in c s with [] => false | _ => true end.
Lemma tables_ok : forallb (fun c => forallb (fun s => if class_found c s then if shape_found c s then has_coeff c s else false else false)
   (class_shapes c)) all_classes = true.
Proof. vm_compute. reflexivity. Qed.
Lemma tables c s : shape_ok c s = true -> class_found c s = true /\ shape_found c s = true /\ has_coeff c s = true.
Proof.
  intros H. pose proof (all_classes_forall _ tables_ok c) as C. cbv beta in C. rewrite forallb_forall in C.
  specialize (C s (class_shapes_in c s H)). cbv beta in C.
  destruct (class_found c s); [|discriminate]. destruct (shape_found c s); [|discriminate]. auto.
Qed.

(* SM parameters added to the dictionaries *)
Record dim4_ok (sp : list opspec) (d4 : shapes) (d4s : dict cls (list string)) : Prop := {
  d4_new : forall k, In k (dkeys d4) -> ~ In k (map fst sp);
  d4_wf : wfdict d4;
  d4_class : forall c l, In (c, l) d4s -> c <> Cl8 /\ exists n s, In (n, (c, s)) sp;
  d4_names : forall c l k, In (c, l) d4s -> In k l -> ~ In k (map fst sp) }.

Lemma has_3_digits I : small I = true -> has_3 (digits I) = negb (no3 I).
Proof.
  unfold small, no3. induction I as [|j I IH]; intros H; [reflexivity|]. cbn [forallb] in H. apply andb_prop in H as [A B].
  apply Nat.ltb_lt in A. cbn [digits has_3 forallb]. rewrite IH by exact B. rewrite negb_andb, negb_involutive. f_equal.
  apply lt9 in A. simpl in A. repeat (destruct A as [<-|A]; [reflexivity|]). destruct A.
Qed.
Lemma length_digits I : String.length (digits I) = List.length I.
Proof. induction I as [|j I IH]; [reflexivity|]. cbn [digits String.length List.length]. now rewrite IH. Qed.
Lemma nonred_in_spec c s I : In I (nonred_in c s) <-> In I (indices c) /\ in_shape s I = true /\ nonredundant c I = true.
Proof. unfold nonred_in. rewrite filter_In, andb_true_iff. reflexivity. Qed.
Lemma cl0_dec c : c = Cl0 \/ c <> Cl0.
Proof. destruct c; ((now left)||(right; discriminate)). Qed.

Section Init.
Variable sp : list opspec.
Variable all : list string.
Variable real : string -> bool.
Variable d4 : shapes.
Variable d4s : dict cls (list string).
Hypothesis D : describes sp all real.
Hypothesis D4 : dim4_ok sp d4 d4s.
Hypothesis ARR : exists n c s, In (n, (c, s)) sp /\ c <> Cl0.

Lemma op_uniq n c s c' s' : In (n, (c, s)) sp -> In (n, (c', s')) sp -> c = c' /\ s = s'.
Proof.
  intros A B. pose proof (d_names _ _ _ D) as ND.
  enough (EQ : (c, s) = (c', s')) by (injection EQ; auto).
  assert (WF : @wfdict string (cls * list nat) sp) by exact ND.
  apply (In_dget sp) in A; [|exact WF]. apply (In_dget sp) in B; [|exact WF]. congruence.
Qed.
Lemma op_sm n c s I : In (n, (c, s)) sp -> in_shape s I = true -> small I = true.
Proof.
  intros H HI. apply (in_shape_small s); [|exact HI]. pose proof (shape_ok_gen c s (d_shapes _ _ _ D n c s H)) as G.
  unfold small_shape. rewrite forallb_forall in *. intros x Hx. specialize (G x Hx). unfold gen_ok in G.
  apply orb_prop in G as [G|G]; apply Nat.eqb_eq in G as ->; reflexivity.
Qed.
Lemma all_cases v : In v all -> exists n c s I, In (n, (c, s)) sp /\ In I (nonred_in c s) /\ v = op_label n c I /\
  real v = real_entry c I /\ ((c = Cl0 /\ v = n /\ split_us v = [n]) \/ (c <> Cl0 /\ split_us v = [n; digits I])).
Proof.
  intros H. apply (d_all _ _ _ D) in H as ([n [c s]] & Ho & Hv). pose proof (d_no_us _ _ _ D n c s Ho) as N.
  apply in_map_iff in Hv as ([v' r] & X & Hv). simpl in X. subst v'.
  pose proof (d_real _ _ _ D (n, (c, s)) v r Ho Hv) as R.
  unfold op_coeffs in Hv. apply in_map_iff in Hv as (I & EQ & HI). injection EQ as E1 E2.
  exists n, c, s, I. split; [exact Ho|]. split; [exact HI|]. split; [congruence|]. split; [congruence|].
  apply nonred_in_spec in HI as (HI1 & HI2 & HI3). destruct (cl0_dec c) as [->|NC].
  - left. simpl in E1. subst v. auto.
  - right. split; [exact NC|]. replace (op_label n c I) with (label n I) in E1 by (destruct c; try reflexivity; congruence).
    rewrite <- E1. apply label_split; [exact N|]. now apply (op_sm n c s).
Qed.
Lemma all_label n c s I : In (n, (c, s)) sp -> In I (nonred_in c s) -> In (op_label n c I) all /\ real (op_label n c I) = real_entry c I.
Proof.
  intros H HI. assert (X : In (op_label n c I, real_entry c I) (op_coeffs (n, (c, s)))).
  { unfold op_coeffs. apply in_map_iff. exists I. split; [reflexivity|exact HI]. }
  split.
  - apply (d_all _ _ _ D). exists (n, (c, s)). split; [exact H|]. apply in_map_iff. exists (op_label n c I, real_entry c I). auto.
  - exact (d_real _ _ _ D (n, (c, s)) _ _ H X).
Qed.
Lemma label_split' n c s I : In (n, (c, s)) sp -> c <> Cl0 -> In I (nonred_in c s) -> split_us (op_label n c I) = [n; digits I].
Proof.
  intros H NC HI. apply nonred_in_spec in HI as (_ & HI & _).
  replace (op_label n c I) with (label n I) by (destruct c; try reflexivity; congruence).
  apply label_split; [exact (d_no_us _ _ _ D n c s H)|now apply (op_sm n c s)].
Qed.
Lemma index_labels_in n c s i : In (n, (c, s)) sp -> c <> Cl0 ->
  (In i (index_labels all n) <-> exists I, In I (nonred_in c s) /\ i = digits I).
Proof.
  intros H NC. unfold index_labels. rewrite in_flat_map. split.
  - intros (v & Hv & Hi). destruct (all_cases v Hv) as (m & c' & s' & I & Hm & HI & EQ & R & [(-> & -> & SPL)|(NC' & SPL)]); rewrite SPL in Hi.
    + destruct Hi.
    + destruct (keqb_spec m n) as [->|]; [|destruct Hi]. destruct Hi as [<-|[]].
      destruct (op_uniq n c s c' s' H Hm) as [<- <-]. exists I. auto.
  - intros (I & HI & ->). exists (op_label n c I). split; [now apply (all_label n c s)|].
    rewrite (label_split' n c s I H NC HI), keqb_refl. now left.
Qed.
Lemma two_flavour_in n c s x : In (n, (c, s)) sp ->
  (In x (two_flavour_labels all real n) <-> In x (canon_labels c s)).
Proof.
  intros H. unfold two_flavour_labels. rewrite in_flat_map. split.
  - intros (v & Hv & Hx). destruct (all_cases v Hv) as (m & c' & s' & I & Hm & HI & EQ & R & [(-> & -> & SPL)|(NC' & SPL)]); rewrite SPL in Hx.
    + destruct Hx.
    + destruct (keqb_spec m n) as [->|]; [|destruct Hx]. destruct (op_uniq n c s c' s' H Hm) as [<- <-].
      pose proof HI as HI'. apply nonred_in_spec in HI' as (_ & HS & _). pose proof (op_sm n c s I H HS) as SM.
      rewrite has_3_digits in Hx by exact SM. destruct (no3 I) eqn:N3; [|destruct Hx]. cbn [negb] in Hx. destruct Hx as [<-|[]].
      rewrite R. unfold canon_labels.
      assert (X : In (digits I, real_entry c I) (map (fun I => (digits I, real_entry c I)) (filter no3 (nonred_in c s)))).
      { apply in_map_iff. exists I. split; [reflexivity|]. apply filter_In. auto. }
      destruct c; try exact X. congruence.
  - intros Hx. destruct (cl0_dec c) as [->|NC]; [destruct Hx|].
    assert (X : In x (map (fun I => (digits I, real_entry c I)) (filter no3 (nonred_in c s)))) by (destruct c; try exact Hx; congruence).
    apply in_map_iff in X as (I & <- & X). apply filter_In in X as [HI N3].
    destruct (all_label n c s I H HI) as [IA R]. exists (op_label n c I). split; [exact IA|].
    rewrite (label_split' n c s I H NC HI), keqb_refl.
    pose proof HI as HI'. apply nonred_in_spec in HI' as (_ & HS & _).
    rewrite (has_3_digits I (op_sm n c s I H HS)), N3. cbn [negb]. rewrite R. now left.
Qed.
Lemma lookup_op n c s : In (n, (c, s)) sp ->
  lookup_class (sorted_set (two_flavour_labels all real n)) class_definitions = Ok c.
Proof.
  intros H. rewrite (sorted_set_ext _ (canon_labels c s)) by (intros x; now apply two_flavour_in).
  destruct (tables c s (d_shapes _ _ _ D n c s H)) as (T & _). unfold class_found in T.
  destruct (lookup_class (sorted_set (canon_labels c s)) class_definitions) as [c'|]; [|discriminate].
  destruct (cls_eqb_spec c c'); [congruence|discriminate].
Qed.
Lemma name_split v : name_of v = nth 0 (split_us v) "".
Proof. reflexivity. Qed.
Lemma names_in n : In n (uniq (map name_of all)) <-> In n (map fst sp).
Proof.
  rewrite uniq_in, !in_map_iff. split.
  - intros (v & E & Hv). destruct (all_cases v Hv) as (m & c & s & I & Hm & HI & EQ & R & [(-> & -> & SPL)|(NC' & SPL)]);
    unfold name_of in E; rewrite SPL in E; simpl in E; subst m; eexists; (split; [|exact Hm]); reflexivity.
  - intros ([m [c s]] & <- & H). destruct (tables c s (d_shapes _ _ _ D m c s H)) as (_ & _ & T).
    unfold has_coeff in T. destruct (nonred_in c s) as [|I r] eqn:EI; [discriminate|].
    assert (HI : In I (nonred_in c s)) by (rewrite EI; now left). exists (op_label m c I). split; [|now apply (all_label m c s)].
    simpl. destruct (cl0_dec c) as [->|NC].
    + simpl. apply plain_name. exact (d_no_us _ _ _ D m Cl0 s H).
    + unfold name_of. now rewrite (label_split' m c s I H NC HI).
Qed.

(* class dictionary *)
Definition cl (n : string) : cls := match dget sp n with Some (c, _) => c | None => Cl0 end.
Lemma cl_op n c s : In (n, (c, s)) sp -> cl n = c.
Proof. intros H. unfold cl. now rewrite (In_dget sp n (c, s) (d_names _ _ _ D) H). Qed.
Lemma op_cl n : In n (map fst sp) -> exists s, In (n, (cl n, s)) sp.
Proof. intros H. apply in_map_iff in H as ([m [c s]] & <- & H). simpl. exists s. now rewrite (cl_op m c s H). Qed.
Lemma symm_fold (ks : list string) : forall d : dict cls (list string), (forall k, In k ks -> In k (map fst sp)) ->
  exists d', fold_left (fun acc k => bind acc (fun d =>
          bind (lookup_class (sorted_set (two_flavour_labels all real k)) class_definitions) (fun c =>
          Ok (dset d c (dgetd d c [] ++ [k]))))) ks (Ok d) = Ok d' /\
    (forall c x, In x (dgetd d' c []) <-> In x (dgetd d c []) \/ (In x ks /\ cl x = c)) /\
    (forall k, In k ks -> dget d' (cl k) <> None) /\ (forall c, dget d c <> None -> dget d' c <> None).
Proof.
  induction ks as [|k ks IH]; intros d H.
  - exists d. split; [reflexivity|]. simpl. split; [intuition|]. split; [intros k []|auto].
  - cbn [fold_left bind]. destruct (op_cl k) as (s & Hs); [apply H; now left|]. rewrite (lookup_op k (cl k) s Hs). cbn [bind].
    destruct (IH (dset d (cl k) (dgetd d (cl k) [] ++ [k]))) as (d' & E & A & B & C); [intros; apply H; now right|].
    exists d'. split; [exact E|].
    assert (DS : forall c, dgetd (dset d (cl k) (dgetd d (cl k) [] ++ [k])) c [] =
               if cls_eqb c (cl k) then dgetd d (cl k) [] ++ [k] else dgetd d c []).
    { intros c. unfold dgetd. rewrite dget_dset. simpl. destruct (cls_eqb c (cl k)); reflexivity. }
    split; [|split].
    + intros c x. rewrite A, DS. destruct (cls_eqb_spec c (cl k)) as [->|N].
      * rewrite in_app_iff. simpl. intuition (subst; auto).
      * simpl. intuition (subst; auto); congruence.
    + intros k' [<-|Hk]; [|now apply B]. apply C. rewrite dget_dset_eq. discriminate.
    + intros c Hc. apply C. rewrite dget_dset. destruct (keqb c (cl k)); [discriminate|exact Hc].
Qed.
Lemma dim4_fold (es : dict cls (list string)) : forall d : dict cls (list string), (forall c l, In (c, l) es -> dget d c <> None) ->
  exists d', fold_left (fun acc kv => bind acc (fun d =>
     match dget d (fst kv) with
     | None => Err KeyError
     | Some l => Ok (dset d (fst kv) (l ++ snd kv))
     end)) es (Ok d) = Ok d' /\
    (forall c x, In x (dgetd d' c []) <-> In x (dgetd d c []) \/ exists l, In (c, l) es /\ In x l).
Proof.
  induction es as [|[c l] es IH]; intros d H.
  - exists d. split; [reflexivity|]. intros c x. split; [now left|]. intros [?|(l & [] & _)]; assumption.
  - cbn [fold_left bind fst snd]. pose proof (H c l (or_introl eq_refl)) as Hc. destruct (dget d c) as [l0|] eqn:E0; [|congruence].
    destruct (IH (dset d c (l0 ++ l))) as (d' & E & A).
    { intros c' l' H'. rewrite dget_dset. destruct (keqb c' c); [discriminate|]. apply (H c' l'). now right. }
    exists d'. split; [exact E|]. intros c' x. rewrite A. unfold dgetd. rewrite dget_dset. simpl.
    destruct (cls_eqb_spec c' c) as [->|N].
    + rewrite E0, in_app_iff. split.
      * intros [[X|X]|(l' & X & Y)]; [now left|right; exists l; auto|right; exists l'; auto].
      * intros [X|(l' & [X|X] & Y)]; [auto|injection X as ->; auto|right; eauto].
    + split.
      * intros [X|(l' & X & Y)]; [now left|right; exists l'; auto].
      * intros [X|(l' & [X|X] & Y)]; [auto|congruence|right; eauto].
Qed.
Lemma get_symm_spec : exists d, get_symm_keys all real d4s = Ok d /\
  (forall c x, In x (map fst sp) -> (In x (dgetd d c []) <-> cl x = c)) /\
  (forall x, In x (dgetd d Cl8 []) -> In x (map fst sp)).
Proof.
  unfold get_symm_keys. cbv zeta. destruct (symm_fold (uniq (map name_of all)) []) as (d1 & E1 & A1 & B1 & _); [intros k; apply names_in|].
  match goal with |- exists d, bind ?X _ = _ /\ _ => replace X with (Ok d1) by (symmetry; exact E1) end. cbn [bind].
  destruct (dim4_fold d4s d1) as (d2 & E2 & A2).
  { intros c l H. destruct (d4_class _ _ _ D4 c l H) as (_ & n & s & Hn). rewrite <- (cl_op n c s Hn). apply B1, names_in.
    apply in_map_iff. exists (n, (c, s)). auto. }
  exists d2. split; [exact E2|]. split.
  - intros c x Hx. rewrite A2, A1. simpl. split.
    + intros [[[]|[_ X]]|(l & X & Y)]; [exact X|]. exfalso. exact (d4_names _ _ _ D4 c l x X Y Hx).
    + intros X. left. right. split; [now apply names_in|exact X].
  - intros x Hx. apply A2 in Hx as [Hx|(l & X & Y)].
    + apply A1 in Hx as [[]|[Hx _]]. now apply names_in.
    + destruct (d4_class _ _ _ D4 Cl8 l X) as [N _]. congruence.
Qed.
Lemma find_class (p : cls -> bool) c : (forall c', p c' = cls_eqb c' c) -> find p dispatch_order = Some c.
Proof. intros H. unfold dispatch_order. cbn [find]. rewrite !H. destruct c; reflexivity. Qed.

(* keys and shapes *)
Lemma keys_0f_in n : In n (keys_0f all) <-> exists s, In (n, (Cl0, s)) sp.
Proof.
  unfold keys_0f. rewrite uniq_in, filter_In. split.
  - intros [Hv HU]. destruct (all_cases n Hv) as (m & c & s & I & Hm & HI & EQ & R & [(-> & -> & SPL)|(NC' & SPL)]);
    unfold has_us in HU; rewrite SPL in HU; [eauto|discriminate].
  - intros (s & H). pose proof (d_shapes _ _ _ D n Cl0 s H) as SO. apply shape_ok_rank in SO as L. destruct s; [|discriminate].
    split.
    + change n with (op_label n Cl0 []). apply (all_label n Cl0 [] [] H). now left.
    + unfold has_us. rewrite (d_no_us _ _ _ D n Cl0 [] H). reflexivity.
Qed.
Lemma indices_length c I : In I (indices c) -> List.length I = rank c.
Proof. intros H. apply indices_full in H. apply in_shape_length in H. rewrite H. unfold full_shape. apply repeat_length. Qed.
Lemma keys_nf_in r n : (0 < r)%nat -> (In n (keys_nf r all) <-> exists c s, In (n, (c, s)) sp /\ rank c = r).
Proof.
  intros R0. unfold keys_nf. rewrite uniq_in, in_map_iff. split.
  - intros (v & E & Hv). apply filter_In in Hv as [Hv P]. apply andb_prop in P as [P1 P2]. apply Nat.eqb_eq in P2.
    destruct (all_cases v Hv) as (m & c & s & I & Hm & HI & EQ & R & [(-> & -> & SPL)|(NC' & SPL)]);
    unfold has_us in P1; rewrite SPL in P1; [discriminate|].
    unfold name_of in E. rewrite SPL in E, P2. simpl in E, P2. subst m. exists c, s. split; [exact Hm|].
    rewrite length_digits in P2. apply nonred_in_spec in HI as (HI & _). rewrite <- (indices_length c I HI). exact P2.
  - intros (c & s & H & RK). assert (NC : c <> Cl0) by (intros ->; simpl in RK; lia).
    destruct (tables c s (d_shapes _ _ _ D n c s H)) as (_ & _ & T).
    unfold has_coeff in T. destruct (nonred_in c s) as [|I r0] eqn:EI; [discriminate|].
    assert (HI : In I (nonred_in c s)) by (rewrite EI; now left). exists (op_label n c I).
    pose proof (label_split' n c s I H NC HI) as SPL.
    split; [unfold name_of; now rewrite SPL|]. apply filter_In. split; [now apply (all_label n c s)|].
    unfold has_us. rewrite SPL. cbn [List.length nth]. rewrite length_digits. apply nonred_in_spec in HI as (HI & _).
    rewrite (indices_length c I HI), RK, Nat.eqb_refl. reflexivity.
Qed.
Definition wkeys := keys_0f all ++ keys_nf 2 all ++ keys_nf 4 all.
Lemma wkeys_in n : In n wkeys <-> In n (map fst sp).
Proof.
  unfold wkeys. rewrite !in_app_iff, keys_0f_in, !keys_nf_in by lia. split.
  - intros [(s & H)|[(c & s & H & _)|(c & s & H & _)]]; apply in_map_iff; eexists; (split; [|exact H]); reflexivity.
  - intros H. apply in_map_iff in H as ([m [c s]] & <- & H). simpl.
    assert (R : rank c = 0%nat /\ c = Cl0 \/ rank c = 2%nat \/ rank c = 4%nat) by (destruct c; simpl; auto).
    destruct R as [[_ ->]|[R|R]]; eauto 8.
Qed.
Lemma known_ok : all_labels_known all wkeys = true.
Proof.
  unfold all_labels_known. apply forallb_forall. intros v Hv.
  destruct (all_cases v Hv) as (m & c & s & I & Hm & HI & EQ & R & [(-> & -> & SPL)|(NC' & SPL)]); rewrite SPL; [reflexivity|].
  apply kmem_In, wkeys_in, in_map_iff. exists (m, (c, s)). auto.
Qed.
Lemma row_digits I : small I = true -> rmap (map Z.to_nat) (int_chars (digits I)) = Ok (map Datatypes.S I).
Proof.
  intros H. rewrite int_chars_digits by exact H. simpl. f_equal. rewrite map_map. apply map_ext. intros j. lia.
Qed.
Definition row_of (i : string) : list nat := match rmap (map Z.to_nat) (int_chars i) with Ok r => r | Err _ => [] end.
Lemma shape_of_op symm n c s : In (n, (c, s)) sp -> (forall c', In n (dgetd symm c' []) <-> c = c') ->
  shape_of symm all n = Ok (op_shape c s).
Proof.
  intros H HC. unfold shape_of. destruct (cl0_dec c) as [->|NC].
  - assert (EM : index_labels all n = []).
    { destruct (index_labels all n) as [|i r] eqn:EI; [reflexivity|]. exfalso.
      assert (Hi : In i (index_labels all n)) by (rewrite EI; now left). unfold index_labels in Hi. apply in_flat_map in Hi as (v & Hv & Hi).
      destruct (all_cases v Hv) as (m & c & s' & I & Hm & HI & EQ & R & [(-> & -> & SPL)|(NC' & SPL)]); rewrite SPL in Hi; [destruct Hi|].
      destruct (keqb_spec m n) as [->|]; [|destruct Hi]. destruct (op_uniq n Cl0 s c s' H Hm) as [<- _]. congruence. }
    rewrite EM. reflexivity.
  - pose proof (fun i => index_labels_in n c s i H NC) as IL.
    assert (SM : forall I, In I (nonred_in c s) -> small I = true).
    { intros I HI. apply nonred_in_spec in HI as (_ & HI & _). now apply (op_sm n c s). }
    assert (RM : rmapl (fun s => rmap (map Z.to_nat) (int_chars s)) (index_labels all n) = Ok (map row_of (index_labels all n))).
    { apply rmapl_in. intros i Hi. apply IL in Hi as (I & HI & ->). unfold row_of. now rewrite (row_digits I (SM I HI)). }
    assert (RW : forall r, In r (map row_of (index_labels all n)) <-> In r (canon_rows c s)).
    { intros r. unfold canon_rows. rewrite !in_map_iff. split.
      - intros (i & <- & Hi). apply IL in Hi as (I & HI & ->). exists I. split; [|exact HI]. unfold row_of. now rewrite (row_digits I (SM I HI)).
      - intros (I & <- & HI). exists (digits I). split; [unfold row_of; now rewrite (row_digits I (SM I HI))|]. apply IL. eauto. }
    destruct (tables c s (d_shapes _ _ _ D n c s H)) as (_ & T & HCF).
    assert (NE : map row_of (index_labels all n) <> []).
    { unfold has_coeff in HCF. destruct (nonred_in c s) as [|I r] eqn:EI; [discriminate|].
      assert (X : In (map Datatypes.S I) (map row_of (index_labels all n))).
      { apply RW. unfold canon_rows. rewrite EI. now left. }
      intros Y. rewrite Y in X. destruct X. }
    assert (LN : forall r, In r (map row_of (index_labels all n)) -> List.length r = rank c).
    { intros r Hr. apply RW in Hr. unfold canon_rows in Hr. apply in_map_iff in Hr as (I & <- & HI). rewrite map_length.
      apply nonred_in_spec in HI as (HI & _). now apply indices_length. }
    pose proof (max_rows_ext (rank c) _ (canon_rows c s) NE LN RW) as MX.
    assert (T' : match max_rows (canon_rows c s) with
         | Ok m => keqb (match c with Cl71 => nth 1 m 0%nat :: tl m | _ => m end) s
         | _ => false end = true) by (unfold shape_found in T; destruct c; try exact T; congruence).
    destruct (index_labels all n) as [|i0 l0] eqn:EI; [exfalso; apply NE; reflexivity|].
    rewrite RM. cbn [bind]. rewrite MX. destruct (max_rows (canon_rows c s)) as [m|]; [|discriminate]. cbn [bind].
    apply keqb_true in T'.
    destruct (kmem n (dgetd symm Cl71 [])) eqn:M71.
    + apply kmem_In, HC in M71. subst c. simpl. now rewrite T'.
    + apply kmem_nIn in M71. assert (N71 : c <> Cl71) by (intros X; apply M71, HC, X).
      destruct c; try congruence; simpl; now rewrite T'.
Qed.
Definition shp (n : string) : option (list nat) := match dget sp n with Some (c, s) => op_shape c s | None => None end.
Lemma fold_min_le l : forall x, (fold_left Nat.min l x <= x)%nat /\ forall y, In y l -> (fold_left Nat.min l x <= y)%nat.
Proof.
  induction l as [|y l IH]; intros x; simpl; [split; [lia|intros y []]|].
  destruct (IH (Nat.min x y)) as [A B]. split; [lia|]. intros z [<-|Hz]; [lia|now apply B].
Qed.
Lemma eft_init_ok : exists E, eft_init all real d4 d4s = Ok E /\ eft_ok E sp /\ e_all E = all /\
  (forall k, ~ In k (map fst sp) -> dget (e_shape E) k = dget d4 k) /\ wfdict (e_shape E) /\
  (e_pad E = false -> forall k s x, dget (e_shape E) k = Some (Some s) -> In x s -> (3 <= x)%nat).
Proof.
  destruct get_symm_spec as (symm & E1 & A1 & B1). unfold eft_init. rewrite E1. cbn [bind]. fold wkeys. rewrite known_ok. cbn [negb].
  assert (CLS : forall n c s, In (n, (c, s)) sp -> forall c', In n (dgetd symm c' []) <-> c = c').
  { intros n c s H c'. rewrite A1 by (apply in_map_iff; exists (n, (c, s)); auto). now rewrite (cl_op n c s H). }
  assert (RM : rmapl (fun k => rmap (pair k) (shape_of symm all k)) (uniq wkeys) = Ok (map (fun k => (k, shp k)) (uniq wkeys))).
  { apply rmapl_in. intros k Hk. apply uniq_in, wkeys_in, in_map_iff in Hk as ([n [c s]] & <- & H). simpl.
    rewrite (shape_of_op symm n c s H (CLS n c s H)). unfold shp. now rewrite (In_dget sp n (c, s) (d_names _ _ _ D) H). }
  rewrite RM. cbn [bind]. set (sh := map (fun k => (k, shp k)) (uniq wkeys)).
  assert (KSH : dkeys sh = uniq wkeys) by (unfold dkeys, sh; rewrite map_map; simpl; apply map_id).
  assert (WSH : wfdict sh) by (unfold wfdict; rewrite KSH; apply uniq_nodup).
  assert (GSH : forall n c s, In (n, (c, s)) sp -> dget (dupdate d4 sh) n = Some (op_shape c s)).
  { intros n c s H. rewrite dget_dupdate by exact WSH.
    assert (X : In (n, shp n) sh).
    { unfold sh. apply in_map_iff. exists n. split; [reflexivity|]. apply uniq_in, wkeys_in, in_map_iff. exists (n, (c, s)). auto. }
    rewrite (In_dget sh n (shp n) WSH X). unfold shp. now rewrite (In_dget sp n (c, s) (d_names _ _ _ D) H). }
  assert (GD4 : forall k, ~ In k (map fst sp) -> dget (dupdate d4 sh) k = dget d4 k).
  { intros k Hk. rewrite dget_dupdate by exact WSH. assert (X : dget sh k = None).
    { apply dget_None. rewrite KSH. intros X. apply Hk, wkeys_in, uniq_in, X. }
    now rewrite X. }
  assert (DIM : forall n c s x, In (n, (c, s)) sp -> In x s -> In x (min_dims (dupdate d4 sh))).
  { intros n c s x H Hx. unfold min_dims. apply in_flat_map. exists (n, op_shape c s). split; [now apply dget_In, GSH|].
    simpl. destruct (cl0_dec c) as [->|NC].
    - pose proof (shape_ok_rank _ _ (d_shapes _ _ _ D n Cl0 s H)) as L. destruct s; [destruct Hx|discriminate].
    - destruct c; try exact Hx; congruence. }
  destruct (min_dims (dupdate d4 sh)) as [|x0 r0] eqn:MD.
  { exfalso. destruct ARR as (n & c & s & H & NC). pose proof (shape_ok_rank _ _ (d_shapes _ _ _ D n c s H)) as L.
    destruct s as [|x s]; [destruct c; simpl in L; try discriminate; congruence|]. apply (DIM n c (x :: s) x H). now left. }
  eexists. split; [reflexivity|]. split; [|split; [reflexivity|split; [exact GD4|split; [now apply wf_dupdate, (d4_wf _ _ _ D4)|]]]].
  2:{ cbn [e_pad e_shape]. intros P k s x Hs Hx. apply negb_false_iff in P. apply Nat.eqb_eq in P.
      destruct (fold_min_le r0 x0) as [M1 M2].
      assert (XD : In x (x0 :: r0)).
      { rewrite <- MD. unfold min_dims. apply in_flat_map. exists (k, Some s). split; [now apply dget_In|exact Hx]. }
      destruct XD as [<-|XD]; [lia|specialize (M2 x XD); lia]. }
  constructor; cbn [e_all e_symm e_keys0 e_keys2 e_keys4 e_shape e_pad].
  - exact (d_names _ _ _ D).
  - exact (d_no_us _ _ _ D).
  - exact (d_shapes _ _ _ D).
  - exact (d_all _ _ _ D).
  - intros n c s H. unfold class_of. cbn [e_symm]. apply find_class. intros c'.
    destruct (cls_eqb_spec c' c) as [->|N].
    + apply kmem_In. now apply (CLS n c s H).
    + apply kmem_nIn. intros X. apply (CLS n c s H) in X. congruence.
  - exact GSH.
  - intros n. unfold e_wc_keys. cbn [e_keys0 e_keys2 e_keys4]. apply wkeys_in.
  - intros n Hn. pose proof (B1 n Hn) as X. destruct (op_cl n X) as (s & Hs). exists s.
    apply A1 in Hn; [|exact X]. now rewrite Hn in Hs.
  - intros P n c s H. apply negb_false_iff in P. apply Nat.eqb_eq in P.
    pose proof (shape_ok_gen c s (d_shapes _ _ _ D n c s H)) as G. unfold full.
    destruct (fold_min_le r0 x0) as [M1 M2].
    assert (ALL3 : forall x, In x s -> x = 3%nat).
    { intros x Hx. rewrite forallb_forall in G. specialize (G x Hx). unfold gen_ok in G.
      pose proof (DIM n c s x H Hx) as XD. rewrite <- P in *.
      assert (GE : (3 <= x)%nat) by (destruct XD as [<-|XD]; [lia|specialize (M2 x XD); lia]).
      apply orb_prop in G as [G|G]; apply Nat.eqb_eq in G; lia. }
    clear -ALL3. induction s as [|x s IH]; simpl; [reflexivity|]. f_equal; [apply ALL3; now left|]. apply IH. intros; apply ALL3; now right.
Qed.
End Init.
