(* Foundations: keys with decidable equality, Python exceptions as values, and
   insertion-ordered Python dictionaries.

   Simplification: a Python dict is modelled as an association list in
   insertion order; `d[k] = v` overwrites in place when the key exists and
   appends otherwise, which is the documented behaviour of CPython >= 3.7. *)
From Coq Require Import List Bool String Ascii ZArith Lia.
Import ListNotations.

(* ---------- decidable keys ---------- *)
Class EqKey (A : Type) := {
  keqb : A -> A -> bool;
  keqb_spec : forall x y, reflect (x = y) (keqb x y)
}.

#[global] Instance EqKey_string : EqKey string := {| keqb := String.eqb; keqb_spec := String.eqb_spec |}.
#[global] Instance EqKey_nat : EqKey nat := {| keqb := Nat.eqb; keqb_spec := PeanoNat.Nat.eqb_spec |}.
#[global] Instance EqKey_Z : EqKey Z := {| keqb := Z.eqb; keqb_spec := Z.eqb_spec |}.
Lemma bool_eqb_spec x y : reflect (x = y) (Bool.eqb x y).
Proof. destruct x, y; constructor; congruence. Qed.
#[global] Instance EqKey_bool : EqKey bool := {| keqb := Bool.eqb; keqb_spec := bool_eqb_spec |}.

Definition pair_eqb {A B} `{EqKey A} `{EqKey B} (p q : A * B) : bool :=
  keqb (fst p) (fst q) && keqb (snd p) (snd q).
Lemma pair_eqb_spec {A B} `{EqKey A} `{EqKey B} (p q : A * B) : reflect (p = q) (pair_eqb p q).
Proof.
  unfold pair_eqb; destruct p as [a b], q as [c d]; simpl.
  destruct (keqb_spec a c), (keqb_spec b d); simpl; constructor; congruence.
Qed.
#[global] Instance EqKey_pair {A B} `{EqKey A} `{EqKey B} : EqKey (A * B) :=
  {| keqb := pair_eqb; keqb_spec := pair_eqb_spec |}.

Fixpoint list_eqb {A} `{EqKey A} (l m : list A) : bool :=
  match l, m with
  | [], [] => true
  | x :: l', y :: m' => keqb x y && list_eqb l' m'
  | _, _ => false
  end.
Lemma list_eqb_spec {A} `{EqKey A} (l m : list A) : reflect (l = m) (list_eqb l m).
Proof.
  revert m; induction l as [|x l IH]; intros [|y m]; simpl; try (constructor; congruence).
  destruct (keqb_spec x y); simpl; [|constructor; congruence].
  destruct (IH m); constructor; congruence.
Qed.
#[global] Instance EqKey_list {A} `{EqKey A} : EqKey (list A) :=
  {| keqb := list_eqb; keqb_spec := list_eqb_spec |}.

Definition option_eqb {A} `{EqKey A} (l m : option A) : bool :=
  match l, m with
  | None, None => true
  | Some x, Some y => keqb x y
  | _, _ => false
  end.
Lemma option_eqb_spec {A} `{EqKey A} (l m : option A) : reflect (l = m) (option_eqb l m).
Proof.
  destruct l as [x|], m as [y|]; simpl; try (constructor; congruence).
  destruct (keqb_spec x y); constructor; congruence.
Qed.
#[global] Instance EqKey_option {A} `{EqKey A} : EqKey (option A) :=
  {| keqb := option_eqb; keqb_spec := option_eqb_spec |}.

Lemma keqb_refl {A} `{EqKey A} (x : A) : keqb x x = true.
Proof. destruct (keqb_spec x x); congruence. Qed.
Lemma keqb_eq {A} `{EqKey A} (x y : A) : keqb x y = true <-> x = y.
Proof. destruct (keqb_spec x y); split; congruence. Qed.
Lemma keqb_neq {A} `{EqKey A} (x y : A) : keqb x y = false <-> x <> y.
Proof. destruct (keqb_spec x y); split; congruence. Qed.
Lemma keqb_true {A} `{EqKey A} (x y : A) : keqb x y = true -> x = y.
Proof. destruct (keqb_spec x y); congruence. Qed.
Lemma keqb_false {A} `{EqKey A} (x y : A) : keqb x y = false -> x <> y.
Proof. destruct (keqb_spec x y); congruence. Qed.
Lemma key_dec {A} `{EqKey A} (x y : A) : {x = y} + {x <> y}.
Proof. destruct (keqb x y) eqn:E; [left; now apply keqb_eq | right; now apply keqb_neq]. Qed.

(* membership test: Python `x in l` *)
Fixpoint kmem {A} `{EqKey A} (x : A) (l : list A) : bool :=
  match l with [] => false | y :: l' => keqb x y || kmem x l' end.
Lemma kmem_In {A} `{EqKey A} (x : A) l : kmem x l = true <-> In x l.
Proof.
  induction l as [|y l IH]; simpl; [split; [discriminate|tauto]|].
  rewrite orb_true_iff, IH, keqb_eq. split; intros [?|?]; auto.
Qed.
Lemma kmem_nIn {A} `{EqKey A} (x : A) l : kmem x l = false <-> ~ In x l.
Proof. rewrite <- kmem_In. destruct (kmem x l); split; congruence. Qed.

Fixpoint knodup {A} `{EqKey A} (l : list A) : bool :=
  match l with [] => true | y :: l' => negb (kmem y l') && knodup l' end.
Lemma knodup_NoDup {A} `{EqKey A} (l : list A) : knodup l = true <-> NoDup l.
Proof.
  induction l as [|y l IH]; simpl; [split; auto using NoDup_nil|].
  rewrite andb_true_iff, IH, negb_true_iff, kmem_nIn. split.
  - intros [? ?]; constructor; auto.
  - inversion 1; auto.
Qed.

(* ---------- Python exceptions ---------- *)
Inductive exn := ValueError | KeyError | AssertionError | TypeError | AttributeError
               | Invalid        (* voluptuous.Invalid *)
               | UnboundLocalError | IndexError | ZeroDivisionError.
Inductive res (A : Type) := Ok (a : A) | Err (e : exn).
Arguments Ok {A} a.
Arguments Err {A} e.
Definition bind {A B} (r : res A) (f : A -> res B) : res B :=
  match r with Ok a => f a | Err e => Err e end.
Definition rmap {A B} (f : A -> B) (r : res A) : res B :=
  match r with Ok a => Ok (f a) | Err e => Err e end.

(* ---------- dictionaries ---------- *)
Section Dict.
Context {A V : Type} `{EqKey A}.
Definition dict := list (A * V).

Fixpoint dget (d : dict) (k : A) : option V :=
  match d with
  | [] => None
  | (k', v) :: d' => if keqb k k' then Some v else dget d' k
  end.
Fixpoint dset (d : dict) (k : A) (v : V) : dict :=
  match d with
  | [] => [(k, v)]
  | (k', v') :: d' => if keqb k k' then (k', v) :: d' else (k', v') :: dset d' k v
  end.
Fixpoint ddel (d : dict) (k : A) : dict :=
  match d with
  | [] => []
  | (k', v') :: d' => if keqb k k' then d' else (k', v') :: ddel d' k
  end.
Definition dkeys (d : dict) : list A := map fst d.
Definition dmem (d : dict) (k : A) : bool := kmem k (dkeys d).
(* d.update(e) *)
Definition dupdate (d e : dict) : dict := fold_left (fun d kv => dset d (fst kv) (snd kv)) e d.
(* a dict has unique keys *)
Definition wfdict (d : dict) : Prop := NoDup (dkeys d).
(* {k: v for k, v in d.items() if p(k, v)} *)
Definition dfilter (p : A -> V -> bool) (d : dict) : dict := filter (fun kv => p (fst kv) (snd kv)) d.
(* d.get(k, default) *)
Definition dgetd (d : dict) (k : A) (v : V) : V := match dget d k with Some x => x | None => v end.

Lemma dget_dset_eq d k v : dget (dset d k v) k = Some v.
Proof.
  induction d as [|[k' v'] d IH]; simpl; [now rewrite keqb_refl|].
  destruct (keqb_spec k k') as [->|n]; simpl; [now rewrite keqb_refl|].
  destruct (keqb_spec k k'); [congruence|exact IH].
Qed.
Lemma dget_dset_neq d k k' v : k' <> k -> dget (dset d k v) k' = dget d k'.
Proof.
  intros N; induction d as [|[j w] d IH]; simpl.
  - destruct (keqb_spec k' k); [congruence|reflexivity].
  - destruct (keqb_spec k j) as [->|n]; simpl.
    + destruct (keqb_spec k' j); [congruence|reflexivity].
    + destruct (keqb_spec k' j); [reflexivity|exact IH].
Qed.
Lemma dget_dset d k k' v : dget (dset d k v) k' = if keqb k' k then Some v else dget d k'.
Proof.
  destruct (keqb_spec k' k) as [->|n]; [apply dget_dset_eq|now apply dget_dset_neq].
Qed.
Lemma dget_In d k v : dget d k = Some v -> In (k, v) d.
Proof.
  induction d as [|[j w] d IH]; simpl; [discriminate|].
  destruct (keqb_spec k j) as [->|n]; intros E; [left; congruence|right; auto].
Qed.
Lemma dget_None d k : dget d k = None <-> ~ In k (dkeys d).
Proof.
  induction d as [|[j w] d IH]; simpl; [tauto|].
  destruct (keqb_spec k j) as [->|n]; split; intros E; try discriminate.
  - exfalso; apply E; now left.
  - intros [F|F]; [congruence|]. now apply IH in E.
  - apply IH; tauto.
Qed.
Lemma dget_Some_key d k v : dget d k = Some v -> In k (dkeys d).
Proof. intros E. apply dget_In in E. change k with (fst (k, v)). now apply in_map. Qed.
Lemma In_dget d k v : wfdict d -> In (k, v) d -> dget d k = Some v.
Proof.
  induction d as [|[j w] d IH]; simpl; [tauto|].
  intros W; inversion W as [|? ? N W' E1]; subst. intros [E|I].
  - inversion E; subst; now rewrite keqb_refl.
  - destruct (keqb_spec k j) as [->|n]; [|now apply IH].
    exfalso; apply N. change j with (fst (j, v)). now apply in_map.
Qed.
Lemma dkeys_dset d k v : dkeys (dset d k v) = if dmem d k then dkeys d else dkeys d ++ [k].
Proof.
  unfold dmem, dkeys; induction d as [|[j w] d IH]; simpl; [reflexivity|].
  destruct (keqb_spec k j) as [->|n]; simpl; [reflexivity|].
  rewrite IH. destruct (kmem k (map fst d)); reflexivity.
Qed.
Lemma In_dkeys_dset d k v j : In j (dkeys (dset d k v)) <-> j = k \/ In j (dkeys d).
Proof.
  rewrite dkeys_dset. destruct (dmem d k) eqn:E.
  - unfold dmem in E; apply kmem_In in E. split; [tauto|intros [->|?]; auto].
  - rewrite in_app_iff; simpl; intuition congruence.
Qed.
Lemma wf_dset d k v : wfdict d -> wfdict (dset d k v).
Proof.
  unfold wfdict; rewrite dkeys_dset; intros W. destruct (dmem d k) eqn:E; [exact W|].
  unfold dmem in E; apply kmem_nIn in E.
  apply NoDup_rev in W. rewrite <- (rev_involutive (dkeys d ++ [k])).
  apply NoDup_rev. rewrite rev_app_distr; simpl. constructor; [|exact W].
  now rewrite <- in_rev.
Qed.
Lemma wf_nil : wfdict [].
Proof. constructor. Qed.
Lemma dkeys_ddel_sub d k j : In j (dkeys (ddel d k)) -> In j (dkeys d).
Proof.
  induction d as [|[i w] d IH]; simpl; [tauto|].
  destruct (keqb_spec k i); simpl; [tauto|]. intros [?|?]; auto.
Qed.
Lemma wf_ddel d k : wfdict d -> wfdict (ddel d k).
Proof.
  unfold wfdict; induction d as [|[i w] d IH]; simpl; intros W; [constructor|].
  inversion W as [|? ? N W' E1]; subst.
  destruct (keqb_spec k i); [exact W'|]. simpl; constructor; [|now apply IH].
  intros I; apply N; now apply dkeys_ddel_sub in I.
Qed.
Lemma dget_ddel d k j : wfdict d -> dget (ddel d k) j = if keqb j k then None else dget d j.
Proof.
  intros W; induction d as [|[i w] d IH]; simpl.
  - now destruct (keqb j k).
  - inversion W as [|? ? N W' E1]; subst. specialize (IH W').
    destruct (keqb k i) eqn:Eki.
    + apply keqb_true in Eki; subst k.
      destruct (keqb j i) eqn:Eji; [|reflexivity].
      apply keqb_true in Eji; subst j. now apply dget_None.
    + simpl. rewrite IH. destruct (keqb j i) eqn:Eji; [|reflexivity].
      apply keqb_true in Eji; subst j. apply keqb_false in Eki.
      destruct (keqb i k) eqn:E; [apply keqb_true in E; congruence|reflexivity].
Qed.
Lemma dupdate_cons d kv e : dupdate d (kv :: e) = dupdate (dset d (fst kv) (snd kv)) e.
Proof. reflexivity. Qed.
Lemma dget_dupdate d e k : wfdict e ->
  dget (dupdate d e) k = match dget e k with Some v => Some v | None => dget d k end.
Proof.
  revert d; induction e as [|[j w] e IH]; intros d W; [reflexivity|].
  inversion W as [|? ? N W' E1]; subst. rewrite dupdate_cons, IH by exact W'; simpl.
  destruct (keqb_spec k j) as [->|n].
  - destruct (dget e j) eqn:E; [exfalso; apply N; eapply dget_Some_key; eauto|].
    apply dget_dset_eq.
  - destruct (dget e k); [reflexivity|]. now apply dget_dset_neq.
Qed.
Lemma wf_dupdate d e : wfdict d -> wfdict (dupdate d e).
Proof. revert d; induction e as [|[j w] e IH]; intros d W; [exact W|]. apply IH. now apply wf_dset. Qed.
Lemma wf_dfilter p d : wfdict d -> wfdict (dfilter p d).
Proof.
  unfold wfdict, dkeys, dfilter; induction d as [|[i w] d IH]; simpl; intros W; [constructor|].
  inversion W as [|? ? N W' E1]; subst. destruct (p i w); simpl; auto.
  constructor; auto. intros I. apply N. apply in_map_iff in I as ([a b] & E & I); simpl in *; subst.
  apply filter_In in I as [I _]. change i with (fst (i, b)). now apply in_map.
Qed.
Lemma dget_dfilter p d k : wfdict d ->
  dget (dfilter p d) k = match dget d k with Some v => if p k v then Some v else None | None => None end.
Proof.
  unfold dfilter; induction d as [|[i w] d IH]; simpl; intros W; [reflexivity|].
  inversion W as [|? ? N W' E1]; subst. specialize (IH W').
  destruct (keqb_spec k i) as [->|n].
  - destruct (p i w) eqn:P; simpl; [now rewrite keqb_refl|].
    rewrite IH. destruct (dget d i) eqn:E; [|reflexivity].
    exfalso; apply N; eapply dget_Some_key; eauto.
  - destruct (p i w); simpl; [destruct (keqb_spec k i); [congruence|]|]; exact IH.
Qed.
Lemma dmem_dget d k : dmem d k = match dget d k with Some _ => true | None => false end.
Proof.
  destruct (dget d k) eqn:E.
  - apply kmem_In; eapply dget_Some_key; eauto.
  - apply kmem_nIn. now apply dget_None.
Qed.
End Dict.
Arguments dict A V : clear implicits.

(* {k: f(k, v) for k, v in d.items()} *)
Definition dmap {A V W} (f : A -> V -> W) (d : dict A V) : dict A W :=
  map (fun kv => (fst kv, f (fst kv) (snd kv))) d.
Lemma dkeys_dmap {A V W} (f : A -> V -> W) (d : dict A V) : dkeys (dmap f d) = dkeys d.
Proof. unfold dkeys, dmap. rewrite map_map. now apply map_ext. Qed.
Lemma dget_dmap {A V W} `{EqKey A} (f : A -> V -> W) (d : dict A V) k :
  dget (dmap f d) k = option_map (f k) (dget d k).
Proof.
  induction d as [|[j w] d IH]; simpl; [reflexivity|].
  destruct (keqb_spec k j) as [->|n]; [reflexivity|exact IH].
Qed.
Lemma wf_dmap {A V W} (f : A -> V -> W) (d : dict A V) : wfdict d -> wfdict (dmap f d).
Proof. unfold wfdict. now rewrite dkeys_dmap. Qed.

Section DictExt.
Context {A V : Type} `{EqKey A}.
Implicit Types d e : dict A V.
Lemma dict_ext d e : wfdict d -> dkeys d = dkeys e -> (forall k, dget d k = dget e k) -> d = e.
Proof.
  unfold wfdict; revert e; induction d as [|[k v] d IH]; intros [|[j w] e] W E G; simpl in *; try discriminate; auto.
  injection E as E1 E2; subst j. inversion W as [|? ? N W' E1]; subst.
  pose proof (G k) as Gk. rewrite keqb_refl in Gk. injection Gk as ->. f_equal.
  apply IH; auto. intros i. specialize (G i).
  destruct (keqb i k) eqn:Ei; [|exact G]. apply keqb_true in Ei; subst i.
  assert (A1 : dget d k = None) by (now apply dget_None).
  assert (A2 : dget e k = None) by (apply dget_None; now rewrite <- E2).
  congruence.
Qed.
Lemma dkeys_dupdate d e : wfdict e ->
  dkeys (dupdate d e) = dkeys d ++ filter (fun k => negb (dmem d k)) (dkeys e).
Proof.
  unfold wfdict; revert d; induction e as [|[k v] e IH]; intros d W.
  - simpl. now rewrite app_nil_r.
  - inversion W as [|? ? N W' E1]; subst. rewrite dupdate_cons, IH by exact W'. cbn [fst snd dkeys map filter].
    rewrite dkeys_dset.
    assert (F : filter (fun j => negb (dmem (dset d k v) j)) (dkeys e) =
                filter (fun j => negb (dmem d j)) (dkeys e)).
    { apply filter_ext_in. intros j J. unfold dmem. rewrite dkeys_dset.
      unfold dmem. destruct (kmem k (dkeys d)) eqn:M; [reflexivity|]. f_equal.
      destruct (kmem j (dkeys d)) eqn:Mj.
      - apply kmem_In. apply in_or_app. left. now apply kmem_In.
      - apply kmem_nIn. intros I. apply in_app_or in I as [I|[I|[]]].
        + apply kmem_nIn in Mj; auto.
        + subst j; auto. }
    change (map fst e) with (dkeys e). rewrite F.
    destruct (dmem d k); simpl; [reflexivity|]. now rewrite <- app_assoc.
Qed.
Lemma dupdate_absorb d e : wfdict d -> dupdate d (dupdate d e) = dupdate d e.
Proof.
  intros W. pose proof (wf_dupdate d e W) as W2.
  apply dict_ext.
  - now apply wf_dupdate.
  - rewrite dkeys_dupdate by exact W2.
    assert (G : forall e0 d0, exists l, dkeys (dupdate d0 e0) = dkeys d0 ++ l).
    { clear. induction e0 as [|[k v] e0 IH]; intros d0; [exists []; simpl; now rewrite app_nil_r|].
      rewrite dupdate_cons. destruct (IH (dset d0 k v)) as [l L]. simpl; rewrite L, dkeys_dset.
      destruct (dmem d0 k); [exists l; reflexivity|exists (k :: l); now rewrite <- app_assoc]. }
    destruct (G e d) as [l L]. rewrite L. unfold wfdict in W2. rewrite L in W2.
    f_equal. rewrite filter_app.
    assert (F1 : filter (fun k => negb (dmem d k)) (dkeys d) = []).
    { assert (S : forall m, (forall x, In x m -> In x (dkeys d)) -> filter (fun k => negb (dmem d k)) m = []).
      { induction m as [|x m IHm]; intros HH; [reflexivity|]. simpl.
        assert (X : dmem d x = true) by (apply kmem_In; apply HH; now left).
        rewrite X; simpl. apply IHm. intros y Y; apply HH; now right. }
      apply S; auto. }
    rewrite F1; simpl.
    assert (S : forall m, (forall x, In x m -> ~ In x (dkeys d)) -> filter (fun k => negb (dmem d k)) m = m).
    { induction m as [|x m IHm]; intros HH; [reflexivity|]. simpl.
      assert (X : dmem d x = false) by (apply kmem_nIn; apply HH; now left).
      rewrite X; simpl. f_equal. apply IHm. intros y Y; apply HH; now right. }
    apply S. intros x X1 X2. clear - W2 X1 X2. revert W2 X2. generalize (dkeys d) as m.
    induction m as [|y m IHm]; simpl; [tauto|]. intros W [E|I].
    + inversion W; subst. apply H1. apply in_or_app; auto.
    + inversion W; subst. auto.
  - intros k. rewrite dget_dupdate by exact W2.
    destruct (dget (dupdate d e) k) eqn:E; [reflexivity|].
    destruct (dget d k) eqn:E2; [|reflexivity].
    exfalso. apply dget_None in E. apply E.
    assert (G : forall e0 d0, In k (dkeys d0) -> In k (dkeys (dupdate d0 e0))).
    { clear. induction e0 as [|[j v] e0 IH]; intros d0 I; [exact I|]. apply IH. rewrite In_dkeys_dset; auto. }
    apply G. eapply dget_Some_key; eauto.
Qed.
End DictExt.
