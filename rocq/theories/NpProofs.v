(* Sums over index lists, and what the numpy operations compute. *)
From Coq Require Import List Bool ZArith QArith Arith Lia String Ascii Permutation.
From Verif Require Import PyBase Num SymModel EftModel EftProofs NpModel.
Import ListNotations.
Local Open Scope list_scope.

Lemma in_split_nat (l : list nat) : List.length l = 2%nat -> exists a b, l = [a; b].
Proof. destruct l as [|a [|b [|]]]; try discriminate. eauto. Qed.

Section Sums.
Context {K : StarField}.
Local Open Scope K_scope.
Add Field KFnp : (k_field K).

Lemma ksum_app (l m : list K) : ksum (l ++ m) = ksum l + ksum m.
Proof. induction l as [|x l IH]; simpl; [ring|]. unfold ksum in *; simpl; rewrite IH; ring. Qed.
Lemma ksum_cons (x : K) l : ksum (x :: l) = x + ksum l. Proof. reflexivity. Qed.
Lemma kprod_app (l m : list K) : kprod (l ++ m) = kprod l * kprod m.
Proof. induction l as [|x l IH]; simpl; [ring|]. unfold kprod in *; simpl; rewrite IH; ring. Qed.
Lemma kprod_cons (x : K) l : kprod (x :: l) = x * kprod l. Proof. reflexivity. Qed.
Lemma ksum_add {A} (f g : A -> K) l : ksum (map (fun x => f x + g x) l) = ksum (map f l) + ksum (map g l).
Proof. induction l as [|x l IH]; cbn [map]; [unfold ksum; simpl; ring|]. rewrite !ksum_cons, IH. ring. Qed.
Lemma ksum_scale {A} (c : K) (f : A -> K) l : ksum (map (fun x => c * f x) l) = c * ksum (map f l).
Proof. induction l as [|x l IH]; cbn [map]; [unfold ksum; simpl; ring|]. rewrite !ksum_cons, IH. ring. Qed.
Lemma ksum_scale_r {A} (c : K) (f : A -> K) l : ksum (map (fun x => f x * c) l) = ksum (map f l) * c.
Proof. induction l as [|x l IH]; cbn [map]; [unfold ksum; simpl; ring|]. rewrite !ksum_cons, IH. ring. Qed.
Lemma ksum_opp {A} (f : A -> K) l : ksum (map (fun x => - f x) l) = - ksum (map f l).
Proof. induction l as [|x l IH]; cbn [map]; [unfold ksum; simpl; ring|]. rewrite !ksum_cons, IH. ring. Qed.
Lemma ksum_zero {A} (f : A -> K) l : (forall x, In x l -> f x = 0) -> ksum (map f l) = 0.
Proof.
  induction l as [|x l IH]; intros Z; cbn [map]; [reflexivity|]. rewrite ksum_cons, IH, Z; [ring|now left|].
  intros y I; apply Z; now right.
Qed.
Lemma ksum_ext {A} (f g : A -> K) l : (forall x, In x l -> f x = g x) -> ksum (map f l) = ksum (map g l).
Proof. intros E. f_equal. apply map_ext_in, E. Qed.
Lemma ksum_swap {A B} (f : A -> B -> K) l m :
  ksum (map (fun x => ksum (map (fun y => f x y) m)) l) = ksum (map (fun y => ksum (map (fun x => f x y) l)) m).
Proof.
  induction l as [|x l IH]; cbn [map].
  - symmetry. apply ksum_zero. reflexivity.
  - rewrite ksum_cons, IH, <- ksum_add. apply ksum_ext. intros y _. now rewrite ksum_cons.
Qed.
Lemma ksum_flat_map {A B} (f : B -> K) (g : A -> list B) l :
  ksum (map f (flat_map g l)) = ksum (map (fun x => ksum (map f (g x))) l).
Proof. induction l as [|x l IH]; cbn [map flat_map]; [reflexivity|]. rewrite map_app, ksum_app, ksum_cons, IH. reflexivity. Qed.
Lemma ksum_conj {A} (f : A -> K) l : (ksum (map f l))^* = ksum (map (fun x => (f x)^*) l).
Proof.
  induction l as [|x l IH]; cbn [map]; [apply kconj_0|]. now rewrite !ksum_cons, kconj_add, IH.
Qed.
Lemma kprod_conj {A} (f : A -> K) l : (kprod (map f l))^* = kprod (map (fun x => (f x)^*) l).
Proof.
  induction l as [|x l IH]; cbn [map]; [apply kconj_1|]. now rewrite !kprod_cons, kconj_mul, IH.
Qed.
Lemma kprod_mul {A} (f g : A -> K) l : kprod (map (fun x => f x * g x) l) = kprod (map f l) * kprod (map g l).
Proof. induction l as [|x l IH]; cbn [map]; [unfold kprod; simpl; ring|]. rewrite !kprod_cons, IH. ring. Qed.
Lemma kprod_ext {A} (f g : A -> K) l : (forall x, In x l -> f x = g x) -> kprod (map f l) = kprod (map g l).
Proof. intros E. f_equal. apply map_ext_in, E. Qed.
Lemma ksum_perm (l m : list K) : Permutation l m -> ksum l = ksum m.
Proof. induction 1; rewrite ?ksum_cons in *; try congruence; ring. Qed.
Lemma kprod_perm (l m : list K) : Permutation l m -> kprod l = kprod m.
Proof. induction 1; rewrite ?kprod_cons in *; try congruence; ring. Qed.
Lemma ksum_mul_ksum {A B} (f : A -> K) (g : B -> K) l m :
  ksum (map f l) * ksum (map g m) = ksum (map (fun x => ksum (map (fun y => f x * g y) m)) l).
Proof.
  rewrite <- ksum_scale_r. apply ksum_ext. intros x _. now rewrite ksum_scale.
Qed.

(* ---------- all the index lists of an r-dimensional 3x...x3 array ---------- *)
Definition idxs (r : nat) : list idx := all_indices (repeat 3%nat r).
Lemma idxs_S r : idxs (Datatypes.S r) = flat_map (fun i => map (cons i) (idxs r)) [0;1;2]%nat.
Proof. reflexivity. Qed.
Lemma in_idxs r I : In I (idxs r) <-> List.length I = r /\ (forall x, In x I -> (x < 3)%nat).
Proof.
  unfold idxs. rewrite in_all_indices. revert I; induction r as [|r IH]; intros [|x I]; cbn [repeat in_shape List.length].
  - split; [intros _; split; [reflexivity|intros ? []]|reflexivity].
  - split; [discriminate|intros [? _]; discriminate].
  - split; [discriminate|intros [? _]; discriminate].
  - rewrite andb_true_iff, IH, Nat.ltb_lt. split.
    + intros [X [L A]]. split; [lia|]. intros y [<-|Y]; auto.
    + intros [L A]. split; [apply A; now left|]. split; [lia|]. intros y Y. apply A. now right.
Qed.
Lemma idxs_length r I : In I (idxs r) -> List.length I = r.
Proof. intros X. now apply in_idxs in X. Qed.
Lemma NoDup_idxs r : NoDup (idxs r).
Proof. apply NoDup_all_indices. Qed.
Lemma all_indices_app s t :
  all_indices (s ++ t) = flat_map (fun x => map (fun y => x ++ y) (all_indices t)) (all_indices s).
Proof.
  induction s as [|n s IH]; cbn [app all_indices flat_map].
  - rewrite app_nil_r. symmetry. apply map_id.
  - rewrite IH. induction (seq 0 n) as [|i q IQ]; [reflexivity|]. cbn [flat_map].
    rewrite IQ, flat_map_app. f_equal. clear.
    induction (all_indices s) as [|y l IL]; [reflexivity|]. cbn [flat_map map].
    rewrite map_app, IL, map_map. reflexivity.
Qed.
Lemma idxs_app a b : idxs (a + b) = flat_map (fun x => map (fun y => x ++ y) (idxs b)) (idxs a).
Proof. unfold idxs. rewrite repeat_app. apply all_indices_app. Qed.
Lemma in_idxs_app a b I : In I (idxs (a + b)) ->
  exists J M, I = J ++ M /\ In J (idxs a) /\ In M (idxs b).
Proof.
  rewrite idxs_app. intros X. apply in_flat_map in X as (J & HJ & X). apply in_map_iff in X as (M & <- & HM). eauto.
Qed.
Lemma idxs_app_in a b J M : In J (idxs a) -> In M (idxs b) -> In (J ++ M) (idxs (a + b)).
Proof. intros A B. rewrite idxs_app. apply in_flat_map. exists J. split; [exact A|]. now apply in_map. Qed.
Lemma ksum_idxs_app a b (f : idx -> K) :
  ksum (map f (idxs (a + b))) = ksum (map (fun x => ksum (map (fun y => f (x ++ y)) (idxs b))) (idxs a)).
Proof. rewrite idxs_app, ksum_flat_map. apply ksum_ext. intros x _. now rewrite map_map. Qed.
Lemma idxs_0 : idxs 0 = [[]]. Proof. reflexivity. Qed.
Lemma idxs_1 : idxs 1 = [[0];[1];[2]]%nat. Proof. reflexivity. Qed.

(* ---------- values that represent a tensor of rank r ---------- *)
Definition rep (v : cval K) (r : nat) (f : idx -> K) : Prop :=
  vshape v = repeat 3%nat r /\ (r = 0%nat -> exists z, v = CNum z) /\ forall I, In I (idxs r) -> entry v I = f I.

Lemma rep_num z (f : idx -> K) : z = f [] -> rep (CNum z) 0 f.
Proof. intros ->. split; [reflexivity|]. split; [eauto|]. intros I [<-|[]]. reflexivity. Qed.
Lemma rep_arr r a (f : idx -> K) : (forall I, In I (idxs (Datatypes.S r)) -> a I = f I) ->
  rep (CArr (repeat 3%nat (Datatypes.S r)) a) (Datatypes.S r) f.
Proof. intros E. split; [reflexivity|]. split; [discriminate|exact E]. Qed.
Lemma rep_0 v (f : idx -> K) : rep v 0 f -> v = CNum (f []).
Proof.
  intros (_ & Z & E). destruct (Z eq_refl) as [z ->]. f_equal. specialize (E [] (or_introl eq_refl)). exact E.
Qed.
Lemma rep_S v r (f : idx -> K) : rep v (Datatypes.S r) f ->
  exists a, v = CArr (repeat 3%nat (Datatypes.S r)) a /\ forall I, In I (idxs (Datatypes.S r)) -> a I = f I.
Proof. intros (S & _ & E). destruct v as [z|s a]; [discriminate S|]. simpl in S. subst s. exists a. split; [reflexivity|exact E]. Qed.
Lemma rep_ext v r (f g : idx -> K) : rep v r f -> (forall I, In I (idxs r) -> f I = g I) -> rep v r g.
Proof. intros (S & Z & E) H. split; [exact S|]. split; [exact Z|]. intros I HI. rewrite E by exact HI. auto. Qed.
Lemma rep_map2 h v w r (f g : idx -> K) : rep v r f -> rep w r g ->
  exists u, np_map2 h v w = Ok u /\ rep u r (fun I => h (f I) (g I)).
Proof.
  intros A B. destruct r as [|r].
  - apply rep_0 in A as ->. apply rep_0 in B as ->. eexists. split; [reflexivity|]. now apply rep_num.
  - apply rep_S in A as (a & -> & A). apply rep_S in B as (b & -> & B). unfold np_map2. rewrite keqb_refl.
    eexists. split; [reflexivity|]. apply rep_arr. intros I HI. now rewrite A, B.
Qed.
Lemma rep_scale_l h v w r (f g : idx -> K) : rep v 0 f -> rep w r g ->
  exists u, np_map2 h v w = Ok u /\ rep u r (fun I => h (f []) (g I)).
Proof.
  intros A B. apply rep_0 in A as ->. destruct r as [|r].
  - apply rep_0 in B as ->. eexists. split; [reflexivity|]. now apply rep_num.
  - apply rep_S in B as (b & -> & B). eexists. split; [reflexivity|]. apply rep_arr. intros I HI. now rewrite B.
Qed.
Lemma rep_scale_r h v w r (f g : idx -> K) : rep v r f -> rep w 0 g ->
  exists u, np_map2 h v w = Ok u /\ rep u r (fun I => h (f I) (g [])).
Proof.
  intros A B. apply rep_0 in B as ->. destruct r as [|r].
  - apply rep_0 in A as ->. eexists. split; [reflexivity|]. now apply rep_num.
  - apply rep_S in A as (b & -> & A). eexists. split; [reflexivity|]. apply rep_arr. intros I HI. now rewrite A.
Qed.
Lemma rep_conj v r (f : idx -> K) : rep v r f -> rep (np_conj v) r (fun I => (f I)^*).
Proof.
  intros A. destruct r as [|r].
  - apply rep_0 in A as ->. now apply rep_num.
  - apply rep_S in A as (a & -> & A). apply rep_arr. intros I HI. now rewrite A.
Qed.
Lemma rep_neg v r (f : idx -> K) : rep v r f -> rep (np_neg v) r (fun I => - f I).
Proof.
  intros A. destruct r as [|r].
  - apply rep_0 in A as ->. now apply rep_num.
  - apply rep_S in A as (a & -> & A). apply rep_arr. intros I HI. now rewrite A.
Qed.
Lemma in_idxs_2 I : In I (idxs 2) -> exists i j, I = [i; j] /\ (i < 3)%nat /\ (j < 3)%nat.
Proof.
  intros X. apply in_idxs in X as [L A]. destruct I as [|i [|j [|]]]; try discriminate.
  exists i, j. split; [reflexivity|]. split; apply A; simpl; auto.
Qed.
Lemma idxs_2_in i j : (i < 3)%nat -> (j < 3)%nat -> In [i; j] (idxs 2).
Proof. intros A B. apply in_idxs. split; [reflexivity|]. intros x [<-|[<-|[]]]; assumption. Qed.
Lemma rep_T v (f : idx -> K) : rep v 2 f -> rep (np_T v) 2 (fun I => f [nth 1 I 0%nat; nth 0 I 0%nat]).
Proof.
  intros A. apply rep_S in A as (a & -> & A). apply (rep_arr 1). intros I HI.
  apply in_idxs_2 in HI as (i & j & -> & Hi & Hj). cbn [rev app nth]. apply A. now apply idxs_2_in.
Qed.
Lemma rep_trace v (f : idx -> K) : rep v 2 f ->
  exists u, np_trace v = Ok u /\ rep u 0 (fun _ => ksum (map (fun s => f [nth 0 s 0%nat; nth 0 s 0%nat]) (idxs 1))).
Proof.
  intros A. apply rep_S in A as (a & -> & A). eexists. split; [reflexivity|]. apply rep_num.
  rewrite idxs_1. cbn [map seq Nat.min nth]. rewrite !A by (apply idxs_2_in; lia). reflexivity.
Qed.
Lemma rep_matmul v w (f g : idx -> K) : rep v 2 f -> rep w 2 g ->
  exists u, np_matmul v w = Ok u /\
    rep u 2 (fun I => ksum (map (fun s => f [nth 0 I 0%nat; nth 0 s 0%nat] * g [nth 0 s 0%nat; nth 1 I 0%nat]) (idxs 1))).
Proof.
  intros A B. apply rep_S in A as (a & -> & A). apply rep_S in B as (b & -> & B).
  eexists. split; [reflexivity|]. apply (rep_arr 1). intros I HI.
  apply in_idxs_2 in HI as (i & j & -> & Hi & Hj). rewrite idxs_1. cbn [map seq nth].
  rewrite !A, !B by (apply idxs_2_in; lia). reflexivity.
Qed.
Lemma rep_eye : rep (np_eye 3) 2 (fun I => if Nat.eqb (nth 0 I 0%nat) (nth 1 I 0%nat) then 1 else 0).
Proof. apply (rep_arr 1). reflexivity. Qed.

(* ---------- einsum ---------- *)
Fixpoint ein_fun (env : list ascii) (vals : idx) (ins : list (list ascii)) (fs : list (idx -> K)) : K :=
  match ins, fs with
  | ls :: ins', f :: fs' => f (map (fun c => nth (pos_of c env) vals 0%nat) ls) * ein_fun env vals ins' fs'
  | _, _ => 1
  end.
Fixpoint ops_ok (ins : list (list ascii)) (ops : list (cval K)) (fs : list (idx -> K)) : Prop :=
  match ins, ops, fs with
  | [], [], [] => True
  | ls :: ins', v :: ops', f :: fs' => rep v (List.length ls) f /\ ops_ok ins' ops' fs'
  | _, _, _ => False
  end.
Definition all3 (d : dict ascii nat) : Prop := forall c n, dget d c = Some n -> n = 3%nat.
Lemma add_dims_3 ls : forall d, all3 d -> exists d', add_dims ls (repeat 3%nat (List.length ls)) d = Ok d' /\ all3 d' /\
  (forall c, dget d c <> None -> dget d' c <> None) /\ (forall c, In c ls -> dget d' c <> None).
Proof.
  induction ls as [|c ls IH]; intros d A; cbn [List.length repeat add_dims].
  - exists d. repeat split; auto. 
  - destruct (dget d c) as [m|] eqn:G.
    + rewrite (A _ _ G). cbn [Nat.eqb]. destruct (IH d A) as (d' & E & A' & M & N). exists d'. repeat split; auto.
      intros x [<-|X]; auto. apply M. congruence.
    + destruct (IH (dset d c 3%nat)) as (d' & E & A' & M & N).
      { intros x n. rewrite dget_dset. destruct (keqb_spec x c); [congruence|apply A]. }
      exists d'. repeat split; auto.
      * intros x X. apply M. rewrite dget_dset. destruct (keqb x c); [discriminate|exact X].
      * intros x [<-|X]; auto. apply M. now rewrite dget_dset_eq.
Qed.
Lemma all_dims_3 ins : forall ops fs d, ops_ok ins ops fs -> all3 d ->
  exists d', all_dims ins ops d = Ok d' /\ all3 d' /\
    (forall c, dget d c <> None -> dget d' c <> None) /\ (forall c, In c (List.concat ins) -> dget d' c <> None).
Proof.
  induction ins as [|ls ins IH]; intros [|v ops] [|f fs] d O A; try destruct O.
  - exists d. cbn. repeat split; auto.
  - cbn [all_dims]. destruct H as (S & _ & _). rewrite S.
    destruct (add_dims_3 ls d A) as (d1 & -> & A1 & M1 & N1). cbn [bind].
    destruct (IH ops fs d1 H0 A1) as (d2 & -> & A2 & M2 & N2). exists d2. repeat split; auto.
    intros c X. cbn [List.concat] in X. apply in_app_iff in X as [X|X]; auto.
Qed.
Lemma nth_lt3 n vals : (forall x, In x vals -> (x < 3)%nat) -> (nth n vals 0 < 3)%nat.
Proof. intros A. destruct (nth_in_or_default n vals 0%nat) as [I| ->]; [auto|lia]. Qed.
Lemma ein_prod_fun env vals ins : forall ops fs, ops_ok ins ops fs -> (forall x, In x vals -> (x < 3)%nat) ->
  ein_prod env vals ins ops = ein_fun env vals ins fs.
Proof.
  induction ins as [|ls ins IH]; intros [|v ops] [|f fs] O A; try destruct O; [reflexivity|].
  cbn [ein_prod ein_fun]. rewrite (IH ops fs) by assumption. f_equal. apply H. apply in_idxs. split; [apply map_length|].
  intros x X. apply in_map_iff in X as (c & <- & _). now apply nth_lt3.
Qed.
Lemma uniq_chars_in l : forall acc c, In c (fold_left (fun acc x => if kmem x acc then acc else acc ++ [x]) l acc) <-> In c acc \/ In c l.
Proof.
  induction l as [|x l IH]; intros acc c; cbn [fold_left]; [simpl; tauto|]. rewrite IH.
  destruct (kmem x acc) eqn:M.
  - apply kmem_In in M. simpl. split; [tauto|]. intros [?|[<-|?]]; auto.
  - rewrite in_app_iff. simpl. tauto.
Qed.
Lemma map_repeat3 {A} (f : A -> nat) l : (forall x, In x l -> f x = 3%nat) -> map f l = repeat 3%nat (List.length l).
Proof.
  induction l as [|x l IH]; intros A0; [reflexivity|]. cbn [map repeat List.length]. rewrite A0 by (now left).
  f_equal. apply IH. intros y Y. apply A0. now right.
Qed.
Lemma rep_einsum spec ins out ops fs :
  parse_spec spec = (ins, out) -> forallb (fun c => kmem c (List.concat ins)) out && knodup out = true -> ops_ok ins ops fs ->
  exists u, np_einsum spec ops = Ok u /\
    rep u (List.length out)
      (fun O => ksum (map (fun s => ein_fun (out ++ summed_letters ins out) (O ++ s) ins fs)
                          (idxs (List.length (summed_letters ins out))))).
Proof.
  intros PS CK OK. unfold np_einsum. rewrite PS, CK.
  destruct (all_dims_3 ins ops fs [] OK) as (d & -> & A & _ & N); [intros c n; discriminate|]. cbn [bind].
  assert (D3 : forall c, In c (List.concat ins) -> dgetd d c 0%nat = 3%nat).
  { intros c I. unfold dgetd. destruct (dget d c) as [n|] eqn:G; [exact (A _ _ G)|]. elim (N c I G). }
  assert (DS : map (fun c => dgetd d c 0%nat) (summed_letters ins out) = repeat 3%nat (List.length (summed_letters ins out))).
  { apply map_repeat3. intros c I. apply D3. unfold summed_letters in I. apply filter_In in I as [I _].
    unfold uniq_chars in I. apply uniq_chars_in in I as [[]|I]. exact I. }
  assert (DO : map (fun c => dgetd d c 0%nat) out = repeat 3%nat (List.length out)).
  { apply map_repeat3. intros c I. apply D3. apply andb_true_iff in CK as [CK _].
    rewrite forallb_forall in CK. specialize (CK c I). now apply kmem_In in CK. }
  assert (FF : forall O, (forall x, In x O -> (x < 3)%nat) ->
     ksum (map (fun s => ein_prod (out ++ summed_letters ins out) (O ++ s) ins ops)
        (all_indices (map (fun c => dgetd d c 0%nat) (summed_letters ins out)))) =
     ksum (map (fun s => ein_fun (out ++ summed_letters ins out) (O ++ s) ins fs) (idxs (List.length (summed_letters ins out))))).
  { intros O HO. rewrite DS. apply ksum_ext. intros s Hs. apply ein_prod_fun; [exact OK|].
    intros x X. apply in_app_iff in X as [X|X]; [auto|]. apply in_idxs in Hs. now apply Hs. }
  destruct out as [|c out].
  - eexists. split; [reflexivity|]. apply rep_num. apply FF. intros ? [].
  - eexists. split; [reflexivity|]. rewrite DO. apply rep_arr. intros O HO. apply FF. now apply in_idxs in HO.
Qed.
End Sums.
Arguments rep {K} v r f.
